(** Model of src/core/prbs.c: pseudo random bit sequences. *)
From Verif Require Import Base.

(** include/osmocom/core/prbs.h:6-10 struct osmo_prbs (the name is left out) *)
Record prbs := Prbs { p_len : Z; p_coeff : Z }.
(** include/osmocom/core/prbs.h:13-16 struct osmo_prbs_state *)
Record prbs_state := St { s_prbs : prbs; s_state : Z }.

(** src/core/prbs.c:14-19 osmo_prbs7 *)
Definition osmo_prbs7 := Prbs 7 (Z.lor (Z.shiftl 1 6) (Z.shiftl 1 5)).
(** src/core/prbs.c:22-27 osmo_prbs9 *)
Definition osmo_prbs9 := Prbs 9 (Z.lor (Z.shiftl 1 8) (Z.shiftl 1 4)).
(** src/core/prbs.c:30-35 osmo_prbs11 *)
Definition osmo_prbs11 := Prbs 11 (Z.lor (Z.shiftl 1 10) (Z.shiftl 1 8)).
(** src/core/prbs.c:38-43 osmo_prbs15 *)
Definition osmo_prbs15 := Prbs 15 (Z.lor (Z.shiftl 1 14) (Z.shiftl 1 13)).

(** src/core/prbs.c:46-51 osmo_prbs_state_init *)
Definition osmo_prbs_state_init (p : prbs) : prbs_state := St p 1.
(** src/core/prbs.c:53-58 osmo_prbs_process_bit *)
Definition osmo_prbs_process_bit (st : prbs_state) (bit : Z) : prbs_state :=
  let s := u64 (Z.shiftr (s_state st) 1) in
  let s := if negb (bit =? 0) then u64 (Z.lxor s (p_coeff (s_prbs st))) else s in
  St (s_prbs st) s.
(** src/core/prbs.c:61-67 osmo_prbs_get_ubit *)
Definition osmo_prbs_get_ubit (st : prbs_state) : Z * prbs_state :=
  let result := u8 (Z.land (s_state st) 1) in
  (result, osmo_prbs_process_bit st result).
(** src/core/prbs.c:70-78 osmo_prbs_get_ubits; [n]: out_len, [i]: the position *)
Fixpoint ubits_loop (n : nat) (i : Z) (out : list Z) (st : prbs_state) : res (Z * list Z * prbs_state) :=
  match n with
  | O => Ok (i, out, st)
  | S n => let '(b, st) := osmo_prbs_get_ubit st in do out <- wr out i b ;; ubits_loop n (i + 1) out st
  end.
Definition osmo_prbs_get_ubits (out : list Z) (out_len : Z) (st : prbs_state) : res (Z * list Z * prbs_state) :=
  ubits_loop (Z.to_nat out_len) 0 out st.
