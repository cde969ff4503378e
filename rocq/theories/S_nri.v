(* S_nri.v - specification vocabulary for C28 *)
From Verif Require Import Base.

(* the set a list of (first, last) pairs stands for *)
Definition has (l : list (Z * Z)) (v : Z) : Prop := exists a b, In (a, b) l /\ a <= v <= b.

(* sorted, non-empty ranges of int16_t values with a gap between neighbours *)
Fixpoint gaps (low : Z) (l : list (Z * Z)) : Prop :=
  match l with
  | [] => True
  | (a, b) :: t => low <= a <= b /\ b <= 32767 /\ gaps (b + 2) t
  end.
Definition normal (l : list (Z * Z)) : Prop := gaps 0 l.

(* the requests of a user: add or delete first..last; one with a negative or reversed pair must be refused *)
Inductive request := Add (a b : Z) | Del (a b : Z).
Definition valid_pair (a b : Z) : Prop := 0 <= a <= b.
Definition wf_request (r : request) : Prop := match r with Add a b | Del a b => -32768 <= a <= 32767 /\ -32768 <= b <= 32767 end.
Fixpoint wanted (rs : list request) (v : Z) : Prop :=   (* most recent request first *)
  match rs with
  | [] => False
  | Add a b :: t => wanted t v \/ (valid_pair a b /\ a <= v <= b)
  | Del a b :: t => wanted t v /\ ~ (valid_pair a b /\ a <= v <= b)
  end.

(* the values of the ranges below 2^bitlen, in list order *)
Definition values (bitlen : Z) (l : list (Z * Z)) : list Z :=
  flat_map (fun r => zseq (fst r) (Z.to_nat (Z.min (2 ^ bitlen - 1) (snd r) - fst r + 1))) l.
Definition valid_ranges (l : list (Z * Z)) : Prop := Forall (fun r => 0 <= fst r <= snd r /\ snd r <= 32767) l.

(* 3GPP TS 23.236: the NRI occupies bitlen bits of the TMSI, the most significant one being bit 23 *)
Definition nri_of (tmsi bitlen : Z) : Z := tmsi / 2 ^ (24 - bitlen) mod 2 ^ bitlen.
Definition in_nri (bitlen i : Z) : Prop := 24 - bitlen <= i <= 23.
