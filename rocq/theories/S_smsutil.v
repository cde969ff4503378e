(** TS 23.040 and TS 23.038: semi-octets, time stamps, validity periods, alphabets. *)
From Coq Require Import ZArith List.
Import ListNotations.
Open Scope Z_scope.

(** Two decimal digits, the tens in the lower half of the octet *)
Definition semi (n : Z) : Z := 16 * (n mod 10) + n / 10.
(** Both halves of an octet are decimal digits *)
Definition decimal (b : Z) : Prop := 0 <= b mod 16 <= 9 /\ 0 <= b / 16 <= 9.
(** The number an octet of two digits stands for *)
Definition number (b : Z) : Z := 10 * (b mod 16) + b / 16.

(** TS 23.040 9.2.3.12.1: relative validity in minutes *)
Inductive relative : Z -> Z -> Prop :=
  | rel_5min v : 0 <= v <= 143 -> relative v ((v + 1) * 5)
  | rel_30min v : 144 <= v <= 167 -> relative v (12 * 60 + (v - 143) * 30)
  | rel_days v : 168 <= v <= 196 -> relative v ((v - 166) * (24 * 60))
  | rel_weeks v : 197 <= v <= 255 -> relative v ((v - 192) * (7 * 24 * 60)).

(** TS 23.038 4: the alphabet of a data coding scheme; general coding, uncompressed, and the groups above; bits as numbers.
    Groups 0100..0111 (marked for automatic deletion) are coded as 0000..0011. *)
Inductive alphabet := GSM7 | Octets | Ucs2 | Reserved | Compressed.
Definition by_bits (x : Z) : alphabet := match x with 0 => GSM7 | 1 => Octets | 2 => Ucs2 | _ => Reserved end.
Definition ts23038 (dcs : Z) : alphabet :=
  match dcs / 64 with
  | 0 | 1 => if Z.odd (dcs / 32) then Compressed else by_bits (dcs / 4 mod 4)
  | 2 => Reserved
  | _ => match dcs / 16 with
         | 12 | 13 => GSM7
         | 14 => Ucs2
         | _ => if Z.odd (dcs / 4) then Octets else GSM7
         end
  end.
