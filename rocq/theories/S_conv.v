(* S_conv.v - specification of convolutional codes given by trellis tables *)
From Verif Require Import Base.

Inductive conv_term := FLUSH | TRUNCATION | TAIL_BITING.
(* conv.h:51-66 struct osmo_conv_code: the data a user describes a code with.  next_output / next_state: two entries per state,
   next_term: output and state tables of the termination (None: NULL), puncture: indices followed by a negative number (None: NULL) *)
Record code := Code { cN : Z; cK : Z; clen : Z; cterm : conv_term; next_output : list Z; next_state : list Z;
                      next_term : option (list Z * list Z); puncture : option (list Z) }.

Definition n_states (c : code) : Z := 2 ^ (cK c - 1).
(* the N output bits, most significant first *)
Definition out_bits (c : code) (out : Z) : list Z := map (fun j => out / 2 ^ (cN c - 1 - j) mod 2) (zseq 0 (Z.to_nat (cN c))).
(* walking the trellis *)
Definition nout (c : code) (s b : Z) : Z := at0 (next_output c) (2 * s + b).
Definition nst (c : code) (s b : Z) : Z := at0 (next_state c) (2 * s + b).
Definition tout (c : code) (s : Z) : Z := match next_term c with Some (o, _) => at0 o s | None => nout c s 0 end.
Definition tst (c : code) (s : Z) : Z := match next_term c with Some (_, t) => at0 t s | None => nst c s 0 end.
Fixpoint walk_out (c : code) (s : Z) (bits : list Z) : list Z :=
  match bits with [] => [] | b :: t => out_bits c (nout c s b) ++ walk_out c (nst c s b) t end.
Fixpoint walk_end (c : code) (s : Z) (bits : list Z) : Z := match bits with [] => s | b :: t => walk_end c (nst c s b) t end.
Fixpoint flush_out (c : code) (s : Z) (n : nat) : list Z := match n with O => [] | S m => out_bits c (tout c s) ++ flush_out c (tst c s) m end.
Fixpoint flush_end (c : code) (s : Z) (n : nat) : Z := match n with O => s | S m => flush_end c (tst c s) m end.
(* the bits as a number, first bit most significant: the start state of tail biting is given by the last K-1 bits *)
Definition bits_num (l : list Z) : Z := fold_left (fun a b => 2 * a + b) l 0.
Definition start_state (c : code) (bits : list Z) : Z :=
  match cterm c with TAIL_BITING => bits_num (skipn (Z.to_nat (clen c - cK c + 1)) bits) | _ => 0 end.
Definition codeword (c : code) (bits : list Z) : list Z :=
  let s := start_state c bits in
  walk_out c s bits ++ match cterm c with FLUSH => flush_out c (walk_end c s bits) (Z.to_nat (cK c - 1)) | _ => [] end.

(* puncturing removes the bits at the listed indices *)
Definition punctured (c : code) (i : Z) : bool := match puncture c with Some p => existsb (fun x => x =? i) p | None => false end.
Fixpoint keep (c : code) (i : Z) (l : list Z) : list Z :=
  match l with [] => [] | b :: t => if punctured c i then keep c (i + 1) t else b :: keep c (i + 1) t end.
Definition encoded (c : code) (bits : list Z) : list Z := keep c 0 (codeword c bits).

Definition total (c : code) : Z := cN c * (clen c + match cterm c with FLUSH => cK c - 1 | _ => 0 end).

Fixpoint incr_from (lo : Z) (l : list Z) : Prop := match l with [] => True | x :: t => lo <= x /\ incr_from (x + 1) t end.
(* a usable code: table sizes, states in range, distinct successors, ascending puncturing indices followed by the end mark *)
Definition usable (c : code) : Prop :=
  1 <= cN c <= 8 /\ 1 <= cK c <= 9 /\ 0 <= clen c /\
  zlen (next_output c) = 2 * n_states c /\ zlen (next_state c) = 2 * n_states c /\
  (forall s b, 0 <= s < n_states c -> 0 <= b <= 1 -> 0 <= nst c s b < n_states c) /\
  (forall s, 0 <= s < n_states c -> nst c s 0 <> nst c s 1) /\
  match next_term c with Some (o, t) => zlen o = n_states c /\ zlen t = n_states c | None => True end /\
  (forall s, 0 <= s < n_states c -> 0 <= tst c s < n_states c) /\
  match puncture c with Some p => exists ps e, p = ps ++ [e] /\ e < 0 /\ incr_from 0 ps /\ Forall (fun x => x < total c) ps | None => True end.
(* the termination bits lead from any state to state 0 *)
Definition flushes (c : code) : Prop := forall s, 0 <= s < n_states c -> flush_end c s (Z.to_nat (cK c - 1)) = 0.

(* the distance measure of the decoder: a soft bit of 0 says nothing, +127 is a certain 0, -127 a certain 1 *)
Definition sdist (b x : Z) : Z := if x =? 0 then 0 else (x - (if b =? 1 then -127 else 127)) ^ 2 / 512.
Fixpoint dist (l : list Z) (soft : list Z) : Z := match l, soft with b :: l', x :: s' => sdist b x + dist l' s' | _, _ => 0 end.
(* an error-free reception *)
Definition certain (l : list Z) : list Z := map (fun b => if b =? 1 then -127 else 127) l.
