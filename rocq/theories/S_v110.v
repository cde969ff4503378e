(** Specification: the frames of ITU-T V.110 and 3GPP TS 44.021 as the recommendations draw them, and the rate
    adaptation tables 5 and 6 of V.110. *)
From Verif Require Import Base.

(** A cell of a frame: a fixed bit, or the bit D1.., E1.., S1.., X1.. (numbered from 1 as in the recommendations). *)
Inductive cell := Const (v : Z) | D (n : nat) | E (n : nat) | S (n : nat) | X (n : nat).
Definition o := Const 0.
Definition i := Const 1.

(** Table 2/V.110 *)
Definition v110_layout : list cell :=
  [ o; o; o; o; o; o; o; o;
    i; D 1; D 2; D 3; D 4; D 5; D 6; S 1;
    i; D 7; D 8; D 9; D 10; D 11; D 12; X 1;
    i; D 13; D 14; D 15; D 16; D 17; D 18; S 3;
    i; D 19; D 20; D 21; D 22; D 23; D 24; S 4;
    i; E 1; E 2; E 3; E 4; E 5; E 6; E 7;
    i; D 25; D 26; D 27; D 28; D 29; D 30; S 6;
    i; D 31; D 32; D 33; D 34; D 35; D 36; X 2;
    i; D 37; D 38; D 39; D 40; D 41; D 42; S 8;
    i; D 43; D 44; D 45; D 46; D 47; D 48; S 9 ]%nat.

(** TS 44.021 8.1.2 and 8.1.3: the frame without synchronisation pattern and E1..E3, 60 bits *)
Definition csd60_layout : list cell :=
  [ D 1; D 2; D 3; D 4; D 5; D 6; S 1;
    D 7; D 8; D 9; D 10; D 11; D 12; X 1;
    D 13; D 14; D 15; D 16; D 17; D 18; S 3;
    D 19; D 20; D 21; D 22; D 23; D 24; S 4;
    E 4; E 5; E 6; E 7; D 25; D 26; D 27;
    D 28; D 29; D 30; S 6; D 31; D 32; D 33;
    D 34; D 35; D 36; X 2; D 37; D 38; D 39;
    D 40; D 41; D 42; S 8; D 43; D 44; D 45;
    D 46; D 47; D 48; S 9 ]%nat.

(** TS 44.021 8.1.4: 36 bits with the data bits D1..D24 *)
Definition csd36_layout : list cell :=
  [ D 1; D 2; D 3; S 1; D 4; D 5; D 6; X 1;
    D 7; D 8; D 9; S 3; D 10; D 11; D 12; S 4;
    E 4; E 5; E 6; E 7; D 13; D 14; D 15; S 6;
    D 16; D 17; D 18; X 2; D 19; D 20; D 21; S 8;
    D 22; D 23; D 24; S 9 ]%nat.

(** In the 36 bit frame, D_n stands for two equal bits of a frame with 48 data bits, D_(2n-1) and D_(2n). *)
Definition first_of_pair (c : cell) : cell := match c with D n => D (2 * n - 1) | c => c end.
Definition second_of_pair (c : cell) : cell := match c with D n => D (2 * n) | c => c end.

(** Table 6/V.110: where the user bits go among D1..D48; [None] is a fill bit F. *)
Definition rep (k n : nat) : list (option nat) := flat_map (fun j => repeat (Some j) k) (seq 1 n).
Definition U (a b : nat) : list (option nat) := map Some (seq a (b - a + 1)).
Definition F2 : list (option nat) := [None; None].
Definition F3 : list (option nat) := [None; None; None].
Definition table6a := rep 8 6.
Definition table6b := rep 4 12.
Definition table6c := rep 2 24.
Definition table6d := (U 1 10 ++ F2 ++ U 11 12 ++ F2 ++ U 13 14 ++ F2 ++ U 15 28 ++ F2 ++ U 29 30 ++ F2 ++ U 31 32 ++ F2 ++ U 33 36)%nat.
Definition table6e := U 1 48.
Definition table6f := (U 1 10 ++ F2 ++ U 11 12 ++ F2 ++ U 13 14 ++ F2 ++ U 15 15 ++ F3 ++
                       U 16 25 ++ F2 ++ U 26 27 ++ F2 ++ U 28 29 ++ F2 ++ U 30 30 ++ F3)%nat.

(** A user rate of Table 1/V.110: its value in the enum, bit/s, intermediate rate, bits per frame, E1 E2 E3 (table 5),
    data bit positions (table 6). *)
Record rate := Rate { rt : Z; bps : Z; ir : Z; chunk : Z; e123 : list Z; table6 : list (option nat) }.
Definition rates : list rate :=
  [ Rate 0 600 8000 6 [1; 0; 0] table6a; Rate 1 1200 8000 12 [0; 1; 0] table6b; Rate 2 2400 8000 24 [1; 1; 0] table6c;
    Rate 3 4800 8000 48 [0; 1; 1] table6e; Rate 4 7200 16000 36 [1; 0; 1] table6d; Rate 5 9600 16000 48 [0; 1; 1] table6e;
    Rate 6 12000 32000 30 [0; 0; 1] table6f; Rate 7 14400 32000 36 [1; 0; 1] table6d; Rate 8 19200 32000 48 [0; 1; 1] table6e;
    Rate 9 24000 64000 30 [0; 0; 1] table6f; Rate 10 28800 64000 36 [1; 0; 1] table6d; Rate 11 38400 64000 48 [0; 1; 1] table6e ].

(** The value of the k-th bit (from 1) of a list of bits *)
Definition nthbit (l : list Z) (k : nat) : Z := nth (k - 1) l 0.
(** What RA1 puts into D1..D48 for the user bits [u]; fill bits are 1. *)
Definition fill (t : list (option nat)) (u : list Z) : list Z :=
  map (fun c => match c with Some k => nthbit u k | None => 1 end) t.

(** What RA1 reads back: the first of the D bits that carry user bit [k]. *)
Fixpoint first_at (t : list (option nat)) (k : nat) : nat :=
  match t with
  | [] => 0
  | Some j :: t' => if Nat.eqb j k then 0 else Datatypes.S (first_at t' k)
  | None :: t' => Datatypes.S (first_at t' k)
  end.
Definition unfill (t : list (option nat)) (n : nat) (d : list Z) : list Z :=
  map (fun k => nth (first_at t k) d 0) (seq 1 n).

(** The value of a cell, for the arrays of D, E, S and X bits *)
Definition cell_val (d e s x : list Z) (c : cell) : Z :=
  match c with Const v => v | D n => nthbit d n | E n => nthbit e n | S n => nthbit s n | X n => nthbit x n end.
Definition is_const (c : cell) : Prop := match c with Const _ => True | _ => False end.
