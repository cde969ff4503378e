(* M_a5.v - model of src/gsm/a5.c (A5/0, A5/1, A5/2) and osmo_a5_fn_count (include/osmocom/gsm/a5.h:33-40).
   Registers are uint32_t values.  want_dl / want_ul: the pointer is not NULL; the result holds the 114 ubits written. *)
From Verif Require Import Base.

(* a5.h:33-40; t1, t2, t3 are int: a shifted t1 outside int is undefined *)
Definition osmo_a5_fn_count (fn : Z) : res Z :=
  let t1 := s32 (fn / (26 * 51)) in let t2 := s32 (fn mod 26) in let t3 := s32 (fn mod 51) in
  if (t1 <? 0) || (2 ^ 31 <=? Z.shiftl t1 11) then UB else
  Ok (u32 (Z.lor (Z.lor (Z.shiftl t1 11) (Z.shiftl t3 5)) t2)).

(* a5.c:101-114 *)
Definition A5_R1_MASK := Z.shiftl 1 19 - 1.
Definition A5_R2_MASK := Z.shiftl 1 22 - 1.
Definition A5_R3_MASK := Z.shiftl 1 23 - 1.
Definition A5_R4_MASK := Z.shiftl 1 17 - 1.
Definition A5_R1_TAPS := 0x072000.
Definition A5_R2_TAPS := 0x300000.
Definition A5_R3_TAPS := 0x700080.
Definition A5_R4_TAPS := 0x010800.

(* a5.c:120-128 *)
Definition a5_12_parity (x : Z) : Z :=
  let x := Z.lxor x (Z.shiftr x 16) in
  let x := Z.lxor x (Z.shiftr x 8) in
  let x := Z.lxor x (Z.shiftr x 4) in
  let x := Z.land x 0xf in
  Z.land (Z.shiftr 0x6996 x) 1.

Definition nz (v : Z) : Z := Z.b2z (negb (v =? 0)).    (* !!v *)
(* a5.c:136-140 *)
Definition a5_12_majority (v1 v2 v3 : Z) : Z := Z.b2z (2 <=? nz v1 + nz v2 + nz v3).
(* a5.c:148-152 *)
Definition a5_12_clock (r mask taps : Z) : Z := Z.lor (Z.land (u32 (Z.shiftl r 1)) mask) (a5_12_parity (Z.land r taps)).

(* ---- A5/1 ---- *)
Definition regs3 : Type := (Z * Z * Z)%type.
(* a5.c:167-186 *)
Definition a5_1_clock (r : regs3) (force : bool) : regs3 :=
  let '(r0, r1, r2) := r in
  let cb0 := nz (Z.land r0 0x000100) in
  let cb1 := nz (Z.land r1 0x000400) in
  let cb2 := nz (Z.land r2 0x000400) in
  let maj := a5_12_majority cb0 cb1 cb2 in
  ((if force || (maj =? cb0) then a5_12_clock r0 A5_R1_MASK A5_R1_TAPS else r0),
   (if force || (maj =? cb1) then a5_12_clock r1 A5_R2_MASK A5_R2_TAPS else r1),
   (if force || (maj =? cb2) then a5_12_clock r2 A5_R3_MASK A5_R3_TAPS else r2)).
(* a5.c:192-198 *)
Definition a5_1_get_output (r : regs3) : Z :=
  let '(r0, r1, r2) := r in u8 (Z.lxor (Z.lxor (Z.shiftr r0 18) (Z.shiftr r1 21)) (Z.shiftr r2 22)).

(* one key or frame bit, a5.c:219-226, :233-240 *)
Definition a5_1_load (b : Z) (r : regs3) : regs3 :=
  let '(r0, r1, r2) := a5_1_clock r true in (Z.lxor r0 b, Z.lxor r1 b, Z.lxor r2 b).
(* a5.c:217-226 for (i=0; i<64; i++) *)
Fixpoint a5_1_key (key : list Z) (is_ : list Z) (r : regs3) : res regs3 :=
  match is_ with
  | [] => Ok r
  | i :: t => do k <- rd key (7 - Z.shiftr i 3) ;; a5_1_key key t (a5_1_load (Z.land (Z.shiftr k (Z.land i 7)) 1) r)
  end.
(* a5.c:231-240 for (i=0; i<22; i++) *)
Definition a5_1_fn (fn_count : Z) (r : regs3) : regs3 :=
  fold_left (fun r i => a5_1_load (Z.land (Z.shiftr fn_count i) 1) r) (zseq 0 22) r.
Fixpoint repeat_ {A} (n : nat) (f : A -> A) (x : A) : A := match n with O => x | S k => repeat_ k f (f x) end.
(* output loops, a5.c:249-259 *)
Fixpoint a5_1_outs (n : nat) (r : regs3) : list Z * regs3 :=
  match n with
  | O => ([], r)
  | S k => let r := a5_1_clock r false in let '(l, r') := a5_1_outs k r in (a5_1_get_output r :: l, r')
  end.
(* a5.c:208-260 *)
Definition a5_1 (key : list Z) (fn : Z) (want_dl want_ul : bool) : res (option (list Z) * option (list Z)) :=
  do r <- a5_1_key key (zseq 0 64) (0, 0, 0) ;;
  do fn_count <- osmo_a5_fn_count fn ;;
  let r := a5_1_fn fn_count r in
  let r := repeat_ 100 (fun r => a5_1_clock r false) r in
  let '(dl, r) := a5_1_outs 114 r in
  let '(ul, _) := a5_1_outs 114 r in
  Ok (if want_dl then Some dl else None, if want_ul then Some ul else None).

(* ---- A5/2 ---- *)
Definition regs4 : Type := (Z * Z * Z * Z)%type.
(* a5.c:279-300 *)
Definition a5_2_clock (r : regs4) (force : bool) : regs4 :=
  let '(r0, r1, r2, r3) := r in
  let cb0 := nz (Z.land r3 0x000400) in
  let cb1 := nz (Z.land r3 0x000008) in
  let cb2 := nz (Z.land r3 0x000080) in
  let maj := Z.b2z (2 <=? cb0 + cb1 + cb2) in
  ((if force || (maj =? cb0) then a5_12_clock r0 A5_R1_MASK A5_R1_TAPS else r0),
   (if force || (maj =? cb1) then a5_12_clock r1 A5_R2_MASK A5_R2_TAPS else r1),
   (if force || (maj =? cb2) then a5_12_clock r2 A5_R3_MASK A5_R3_TAPS else r2),
   a5_12_clock r3 A5_R4_MASK A5_R4_TAPS).
(* a5.c:306-319 *)
Definition a5_2_get_output (r : regs4) : Z :=
  let '(r0, r1, r2, _) := r in
  u8 (Z.lxor (Z.lxor (Z.lxor (Z.lxor (Z.lxor (Z.shiftr r0 18) (Z.shiftr r1 21)) (Z.shiftr r2 22))
     (a5_12_majority (Z.land r0 0x08000) (Z.land (u32 (Z.lnot r0)) 0x04000) (Z.land r0 0x1000)))
     (a5_12_majority (Z.land (u32 (Z.lnot r1)) 0x10000) (Z.land r1 0x02000) (Z.land r1 0x0200)))
     (a5_12_majority (Z.land r2 0x40000) (Z.land r2 0x10000) (Z.land (u32 (Z.lnot r2)) 0x2000))).
(* a5.c:340-349, :355-363 *)
Definition a5_2_load (b : Z) (r : regs4) : regs4 :=
  let '(r0, r1, r2, r3) := a5_2_clock r true in (Z.lxor r0 b, Z.lxor r1 b, Z.lxor r2 b, Z.lxor r3 b).
Fixpoint a5_2_key (key : list Z) (is_ : list Z) (r : regs4) : res regs4 :=
  match is_ with
  | [] => Ok r
  | i :: t => do k <- rd key (7 - Z.shiftr i 3) ;; a5_2_key key t (a5_2_load (Z.land (Z.shiftr k (Z.land i 7)) 1) r)
  end.
Definition a5_2_fn (fn_count : Z) (r : regs4) : regs4 :=
  fold_left (fun r i => a5_2_load (Z.land (Z.shiftr fn_count i) 1) r) (zseq 0 22) r.
Fixpoint a5_2_outs (n : nat) (r : regs4) : list Z * regs4 :=
  match n with
  | O => ([], r)
  | S k => let r := a5_2_clock r false in let '(l, r') := a5_2_outs k r in (a5_2_get_output r :: l, r')
  end.
(* a5.c:329-388 *)
Definition a5_2 (key : list Z) (fn : Z) (want_dl want_ul : bool) : res (option (list Z) * option (list Z)) :=
  do r <- a5_2_key key (zseq 0 64) (0, 0, 0, 0) ;;
  do fn_count <- osmo_a5_fn_count fn ;;
  let '(r0, r1, r2, r3) := a5_2_fn fn_count r in
  let r := (Z.lor r0 (Z.shiftl 1 15), Z.lor r1 (Z.shiftl 1 16), Z.lor r2 (Z.shiftl 1 18), Z.lor r3 (Z.shiftl 1 10)) in
  let r := repeat_ 99 (fun r => a5_2_clock r false) r in
  let '(dl, r) := a5_2_outs 114 r in
  let '(ul, _) := a5_2_outs 114 r in
  Ok (if want_dl then Some dl else None, if want_ul then Some ul else None).
