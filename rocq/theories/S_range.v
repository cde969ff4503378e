(** Frequency lists, 3GPP TS 44.018: clause 10.5.2.13 (formats) and Annex J (range encoding). *)
From Coq Require Import ZArith List Lia Bool.
From Verif Require Import Base.
Import ListNotations.
Open Scope Z_scope.

(** Bit [p] of an octet string, most significant bit of octet 0 first. *)
Definition sbit (cd : list Z) (p : Z) : bool := Z.testbit (at0 cd (p / 8)) (7 - p mod 8).

(** The unsigned number in the [n] bits starting at bit [p]. *)
Fixpoint bfield (cd : list Z) (p : Z) (n : nat) : Z :=
  match n with
  | O => 0
  | S m => 2 ^ Z.of_nat m * b2z (sbit cd p) + bfield cd (p + 1) m
  end.

(** W(2^i) to W(2^(i+1)-1) take top - i bits each; they follow each other from bit [base]. *)
Definition wwidth (top k : Z) : Z := top - Z.log2 k.
Fixpoint wsum (top : Z) (n : nat) : Z :=
  match n with O => 0 | S m => wsum top m + wwidth top (Z.of_nat m + 1) end.
Definition wstart (base top k : Z) : Z := base + wsum top (Z.to_nat (k - 1)).

(** W(k) of a list of [len] octets: a field that does not fit is absent, that is 0. *)
Definition W_of (cd : list Z) (len base top : Z) (k : Z) : Z :=
  if wstart base top k + wwidth top k <=? 8 * len
  then bfield cd (wstart base top k) (Z.to_nat (wwidth top k)) else 0.

(** Annex J, the decoding program.  INDEX = J + b, J = 2^l, N the value so far:
      while INDEX > 1
        if 2*INDEX < 3*J then INDEX := INDEX - J/2; N := (N + W(INDEX) + R/J - 1 - 1) mod (2R/J - 1) + 1
        else INDEX := INDEX - J; N := (N + W(INDEX) - 1) mod (2R/J - 1) + 1;
        J := J/2. *)
Fixpoint annexJ_up (R : Z) (W : Z -> Z) (l : nat) (b : Z) (N : Z) : Z :=
  match l with
  | O => N
  | S m =>
    let J := 2 ^ Z.of_nat l in
    if 2 * (J + b) <? 3 * J
    then annexJ_up R W m b ((N + W (J + b - J / 2) + R / J - 2) mod (2 * R / J - 1) + 1)
    else annexJ_up R W m (b - J / 2) ((N + W (J + b - J) - 1) mod (2 * R / J - 1) + 1)
  end.
Definition annexJ (R : Z) (W : Z -> Z) (k : Z) : Z :=
  annexJ_up R W (Z.to_nat (Z.log2 k)) (k - 2 ^ Z.log2 k) (W k).

(** The frequencies a range format lists, [n] the greatest index of a W. *)
Definition range_freqs (R : Z) (W : Z -> Z) (n : nat) : list Z :=
  map (annexJ R W) (filter (fun k => negb (W k =? 0)) (zseq 1 n)).

(** ORIG-ARFCN: the ten bits 7 to 16. *)
Definition orig_arfcn (cd : list Z) : Z := bfield cd 7 10.

Definition freqs_1024 (cd : list Z) (len : Z) : list Z :=
  (if sbit cd 5 then [0] else []) ++ range_freqs 1024 (W_of cd len 6 10) 16.
Definition freqs_orig (R : Z) (top : Z) (n : nat) (cd : list Z) (len : Z) : list Z :=
  orig_arfcn cd :: map (fun F => (orig_arfcn cd + F) mod 1024) (range_freqs R (W_of cd len 17 top) n).
Definition freqs_512 := freqs_orig 512 9 17.
Definition freqs_256 := freqs_orig 256 8 21.
Definition freqs_128 := freqs_orig 128 7 28.
(** Bit map 0: ARFCN 1 is the last bit of the 16 octets, ARFCN 124 bit 4 (the fifth). *)
Definition freqs_bitmap0 (cd : list Z) : list Z :=
  filter (fun a => sbit cd (128 - a)) (zseq 1 124).
(** Variable bit map: RRFCN i is bit 16 + i and stands for (ORIG + i) mod 1024. *)
Definition freqs_varbit (cd : list Z) (len : Z) : list Z :=
  orig_arfcn cd :: map (fun i => (orig_arfcn cd + i) mod 1024)
    (filter (fun i => sbit cd (16 + i)) (zseq 1 (Z.to_nat (8 * len - 17)))).

Definition mem (a : Z) (l : list Z) : bool := existsb (Z.eqb a) l.
(** The caller's table: the bits of [frqt] are set on the members and cleared elsewhere. *)
Definition marked (f : list Z) (frqt : Z) (s : list Z) : list Z :=
  map (fun a => Z.lor (Z.land (at0 f a) (Z.lnot frqt)) (if mem a s then frqt else 0)) (zseq 0 1024).

(** Format identifier (10.5.2.13): bits 8, 7, 4, 3, 2 of the first octet, that is string bits
    0, 1, 4, 5, 6.  Gives the least length and the frequencies listed. *)
Definition fmt_freqs (cd : list Z) (len : Z) : Z * list Z :=
  match sbit cd 0, sbit cd 1, sbit cd 4, sbit cd 5, sbit cd 6 with
  | false, false, _, _, _ => (16, freqs_bitmap0 cd)
  | true, false, false, _, _ => (2, freqs_1024 cd len)
  | true, false, true, false, false => (4, freqs_512 cd len)
  | true, false, true, false, true => (4, freqs_256 cd len)
  | true, false, true, true, false => (3, freqs_128 cd len)
  | true, false, true, true, true => (3, freqs_varbit cd len)
  | _, _, _, _, _ => (0, [])
  end.
