(* S_a5.v - the GSM stream ciphers A5/1 and A5/2 as published: shift registers of bits.
   A register is a list of bits, index 0 is the bit shifted in last. *)
From Verif Require Import Base.

Definition bitn (r : list bool) (i : nat) : bool := nth i r false.
Definition fb (taps : list nat) (r : list bool) : bool := fold_right xorb false (map (bitn r) taps).
(* one step: shift in the feedback *)
Definition step (taps : list nat) (r : list bool) : list bool := fb taps r :: removelast r.
(* xor into bit 0 *)
Definition inject (b : bool) (r : list bool) : list bool := match r with [] => [] | x :: t => xorb x b :: t end.
Definition maj (a b c : bool) : bool := (a && b) || (a && c) || (b && c).

Definition T1 : list nat := [13; 16; 17; 18]%nat.   (* x^19 + x^18 + x^17 + x^14 + 1 *)
Definition T2 : list nat := [20; 21]%nat.           (* x^22 + x^21 + 1 *)
Definition T3 : list nat := [7; 20; 21; 22]%nat.    (* x^23 + x^22 + x^21 + x^8 + 1 *)
Definition T4 : list nat := [11; 16]%nat.           (* x^17 + x^12 + 1 *)

(* bit i of the key as loaded: the least significant bit of the last octet first *)
Definition key_bit (key : list Z) (i : nat) : bool := Z.testbit (nth (7 - i / 8) key 0) (Z.of_nat (i mod 8)).
(* the 22-bit frame count: T1 (11 bits), T3 (6 bits), T2 (5 bits), low bit first *)
Definition fn_bit (fn : Z) (i : nat) : bool :=
  let i' := Z.of_nat i in
  if i' <? 5 then Z.testbit (fn mod 26) i' else if i' <? 11 then Z.testbit (fn mod 51) (i' - 5) else Z.testbit (fn / 1326) (i' - 11).
Definition load_bits (key : list Z) (fn : Z) : list bool := map (key_bit key) (seq 0 64) ++ map (fn_bit fn) (seq 0 22).

Definition zero (n : nat) : list bool := repeat false n.

(* ---- A5/1 ---- *)
Definition st1 : Type := (list bool * list bool * list bool)%type.
Definition a51_all (s : st1) : st1 := let '(a, b, c) := s in (step T1 a, step T2 b, step T3 c).
Definition a51_clock (s : st1) : st1 :=
  let '(a, b, c) := s in
  let x := bitn a 8 in let y := bitn b 10 in let z := bitn c 10 in let m := maj x y z in
  (if Bool.eqb x m then step T1 a else a, if Bool.eqb y m then step T2 b else b, if Bool.eqb z m then step T3 c else c).
Definition a51_load (s : st1) (k : bool) : st1 := let '(a, b, c) := a51_all s in (inject k a, inject k b, inject k c).
Definition a51_out (s : st1) : bool := let '(a, b, c) := s in xorb (xorb (bitn a 18) (bitn b 21)) (bitn c 22).
Fixpoint iter {A} (n : nat) (f : A -> A) (x : A) : A := match n with O => x | S k => iter k f (f x) end.
Fixpoint stream {A} (clk : A -> A) (out : A -> bool) (n : nat) (s : A) : list bool :=
  match n with O => [] | S k => let s' := clk s in out s' :: stream clk out k s' end.
(* 228 bits: the first 114 for the downlink, the others for the uplink *)
Definition a51_stream (key : list Z) (fn : Z) : list bool :=
  let s := fold_left a51_load (load_bits key fn) (zero 19, zero 22, zero 23) in
  stream a51_clock a51_out 228 (iter 100 a51_clock s).

(* ---- A5/2 ---- *)
Definition st2 : Type := (list bool * list bool * list bool * list bool)%type.
Definition setbit (n : nat) (r : list bool) : list bool := upd r n true.
Definition a52_all (s : st2) : st2 := let '(a, b, c, d) := s in (step T1 a, step T2 b, step T3 c, step T4 d).
Definition a52_clock (s : st2) : st2 :=
  let '(a, b, c, d) := s in
  let x := bitn d 10 in let y := bitn d 3 in let z := bitn d 7 in let m := maj x y z in
  (if Bool.eqb x m then step T1 a else a, if Bool.eqb y m then step T2 b else b, if Bool.eqb z m then step T3 c else c, step T4 d).
Definition a52_load (s : st2) (k : bool) : st2 := let '(a, b, c, d) := a52_all s in (inject k a, inject k b, inject k c, inject k d).
Definition a52_out (s : st2) : bool :=
  let '(a, b, c, _) := s in
  xorb (xorb (xorb (bitn a 18) (bitn b 21)) (bitn c 22))
    (xorb (xorb (maj (bitn a 15) (negb (bitn a 14)) (bitn a 12)) (maj (negb (bitn b 16)) (bitn b 13) (bitn b 9)))
          (maj (bitn c 18) (bitn c 16) (negb (bitn c 13)))).
Definition a52_stream (key : list Z) (fn : Z) : list bool :=
  let '(a, b, c, d) := fold_left a52_load (load_bits key fn) (zero 19, zero 22, zero 23, zero 17) in
  stream a52_clock a52_out 228 (iter 99 a52_clock (setbit 15 a, setbit 16 b, setbit 18 c, setbit 10 d)).

(* ciphering: the sender adds the key stream to the bits *)
Definition cipher (ks text : list Z) : list Z := map (fun p => Z.lxor (fst p) (snd p)) (combine text ks).
