(* S_bits.v - specification vocabulary for packed bit strings *)
From Verif Require Import Base.

(* bit number i of a packed byte string: byte i/8; within the byte most significant bit first
   (lsb = false) or least significant bit first (lsb = true) *)
Definition pbit (lsb : bool) (l : list Z) (i : Z) : bool :=
  Z.testbit (at0 l (i / 8)) (if lsb then i mod 8 else 7 - i mod 8).

(* number of bytes holding n bits *)
Definition nbytes (n : Z) : Z := (n + 7) / 8.

(* nibble number i of a byte string, most significant nibble first *)
Definition nib (l : list Z) (i : Z) : Z :=
  if i mod 2 =? 0 then at0 l (i / 2) / 16 else at0 l (i / 2) mod 16.

(* the number whose binary digits, most significant first, are f start, ..., f (start+n-1) *)
Fixpoint msb_num (f : Z -> bool) (start : Z) (n : nat) : Z :=
  match n with O => 0 | S m => 2 * msb_num f start m + b2z (f (start + Z.of_nat m)) end.

(* the bit stored for a bit_value at bit position j: 0, 1, or L/H relative to the 0x2b pattern *)
Definition lbit (j : Z) : bool := Z.testbit 0x2b (7 - j mod 8).
Definition bitval (v j : Z) : bool :=
  if v =? 1 then true else if v =? 2 then lbit j else if v =? 3 then negb (lbit j) else false.
(* how many of f 0, ..., f (n-1) are set *)
Fixpoint count_set (f : Z -> bool) (n : nat) : Z :=
  match n with O => 0 | S m => count_set f m + b2z (f (Z.of_nat m)) end.
