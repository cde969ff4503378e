(** 3GPP TS 23.032: the numbers for latitude, longitude and uncertainty, and the lengths of the shapes. *)
From Coq Require Import ZArith List Lia.
Import ListNotations.
Open Scope Z_scope.

(** 6.1: N <= 2^23/90 X < N+1 with X the latitude in degrees, here d micro degrees *)
Definition lat_number (d n : Z) : Prop := n * 90000000 <= 2 ^ 23 * d < (n + 1) * 90000000.
(** N <= 2^24/360 X < N+1 *)
Definition lon_number (d n : Z) : Prop := n * 360000000 <= 2 ^ 24 * d < (n + 1) * 360000000.
(** 6.2: r = 10 ((1 + 0.1)^k - 1) metres, here in whole millimetres *)
Definition radius (k r : Z) : Prop := r * 10 ^ k <= 10000 * (11 ^ k - 10 ^ k) < (r + 1) * 10 ^ k.
(** 24 bits, sign and magnitude; 24 bits, two's complement *)
Definition magnitude (n : Z) : Z := if n <? 2 ^ 23 then n else n - 2 ^ 23.
Definition signed (n : Z) : Z := if n <? 2 ^ 23 then n else n - 2 ^ 24.

(** The length of a shape in octets, from its first octet: type of shape and number of points *)
Definition shape_len (o : Z) : option Z :=
  match o / 16 with
  | 0 => Some 7 | 1 => Some 8 | 3 => Some 11
  | 5 => if o mod 16 <? 3 then None else Some (1 + 6 * (o mod 16))
  | 8 => Some 9 | 9 => Some 14 | 10 => Some 13 | 11 => Some 16 | 12 => Some 18
  | _ => None
  end.
