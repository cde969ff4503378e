(* S_crc.v - polynomials over GF(2) as non-negative integers (bit i = coefficient of x^i) *)
From Verif Require Import Base.

Fixpoint gfmul_pos (p : positive) (b : Z) : Z :=
  match p with
  | xH => b
  | xO q => Z.shiftl (gfmul_pos q b) 1
  | xI q => Z.lxor b (Z.shiftl (gfmul_pos q b) 1)
  end.
(* product of two polynomials (a non-negative) *)
Definition gfmul (a b : Z) : Z := match a with Zpos p => gfmul_pos p b | _ => 0 end.

(* [r] is the remainder of [a] modulo the polynomial [g] of degree [d] *)
Definition gfrem (a g d r : Z) : Prop := 0 <= r < 2 ^ d /\ exists q, 0 <= q /\ a = Z.lxor (gfmul q g) r.

(* the polynomial of a bit string, first bit = highest coefficient *)
Definition poly_of (l : list Z) : Z := fold_left (fun a b => 2 * a + b) l 0.

(* bitwise xor of two bit strings *)
Fixpoint xorl (a b : list Z) : list Z :=
  match a, b with x :: s, y :: t => Z.lxor x y :: xorl s t | _, _ => [] end.

(* e is a burst of at most r bits: some zeros, then a non-zero piece of at most r bits, then zeros *)
Definition burst (r : Z) (e : list Z) : Prop :=
  exists a m b, e = repeat 0 a ++ m ++ repeat 0 b /\ bits m /\ In 1 m /\ zlen m <= r.
