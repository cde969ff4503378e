(* S_num.v - specification vocabulary for C40: Luhn check digits and textual integers. *)
From Verif Require Import Base.

(* Luhn, ISO/IEC 7812-1 Annex B: counted from the right end, every second digit (starting with the one before the check digit)
   is doubled, taking the digit sum; the number is valid if the sum of all is a multiple of 10 *)
Definition luhn_double (d : Z) : Z := if 2 * d <? 10 then 2 * d else 2 * d - 9.
Fixpoint luhn_sum (from_right : list Z) (dbl : bool) : Z :=
  match from_right with
  | [] => 0
  | d :: t => (if dbl then luhn_double d else d) + luhn_sum t (negb dbl)
  end.
Definition luhn_valid (ds : list Z) : Prop := luhn_sum (rev ds) false mod 10 = 0.

Definition is_digit (d : Z) : Prop := 0 <= d <= 9.
(* digits to ASCII *)
Definition ascii (ds : list Z) : list Z := map (fun d => d + 48) ds.

(* textual integers as the C standard defines them for strtoll: white space, sign, prefix, digits *)
Definition is_space (c : Z) : bool := (9 <=? c) && (c <=? 13) || (c =? 32).
Definition digit_val (c : Z) : option Z :=
  if (48 <=? c) && (c <=? 57) then Some (c - 48)
  else if (65 <=? c) && (c <=? 90) then Some (c - 55)
  else if (97 <=? c) && (c <=? 122) then Some (c - 87)
  else None.
(* ds is a non-empty digit string of the base denoting n *)
Inductive digits (base : Z) : list Z -> Z -> Prop :=
| D1 c d : digit_val c = Some d -> d < base -> digits base [c] d
| DS l n c d : digits base l n -> digit_val c = Some d -> d < base -> digits base (l ++ [c]) (n * base + d).
Definition sign_of (sg : list Z) (k : Z) : Prop := sg = [] /\ k = 1 \/ sg = [43] /\ k = 1 \/ sg = [45] /\ k = -1.
(* the unsigned part of a numeral in the requested base *)
Inductive magnitude : Z -> list Z -> Z -> Prop :=
| Mplain base l n : 2 <= base <= 36 -> digits base l n -> magnitude base l n
| Mhex x l n : x = 120 \/ x = 88 -> digits 16 l n -> magnitude 16 (48 :: x :: l) n
| M0hex x l n : x = 120 \/ x = 88 -> digits 16 l n -> magnitude 0 (48 :: x :: l) n
| M0oct l n : digits 8 (48 :: l) n -> magnitude 0 (48 :: l) n
| M0dec c l n : c <> 48 -> digits 10 (c :: l) n -> magnitude 0 (c :: l) n.
Definition numeral (base : Z) (s : list Z) (v : Z) : Prop :=
  exists ws sg m k n, s = ws ++ sg ++ m /\ Forall (fun c => is_space c = true) ws /\ sign_of sg k /\ magnitude base m n /\ v = k * n.
