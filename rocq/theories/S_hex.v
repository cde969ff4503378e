(* S_hex.v - specification vocabulary for C35: hexadecimal text and swapped-nibble BCD *)
From Verif Require Import Base.

(* value of a hexadecimal digit character, either case *)
Definition hexval (c : Z) : option Z :=
  if (48 <=? c) && (c <=? 57) then Some (c - 48)
  else if (97 <=? c) && (c <=? 102) then Some (c - 87)
  else if (65 <=? c) && (c <=? 70) then Some (c - 55)
  else None.
Definition is_ws (c : Z) : Prop := c = 32 \/ c = 9 \/ c = 10 \/ c = 13.
(* text s denotes the byte string l: two digits per byte, white space anywhere *)
Inductive hextext : list Z -> list Z -> Prop :=
| Hnil : hextext [] []
| Hws c s l : is_ws c -> hextext s l -> hextext (c :: s) l
| Hhi c h s l : hexval c = Some h -> hexlow h s l -> hextext (c :: s) l
with hexlow : Z -> list Z -> list Z -> Prop :=
| Lws h c s l : is_ws c -> hexlow h s l -> hexlow h (c :: s) l
| Llo h c v s l : hexval c = Some v -> hextext s l -> hexlow h (c :: s) (h * 16 + v :: l).

(* lower-case dump with a separator after each byte but the last / after each byte *)
Definition lowhex (n : Z) : Z := if n <? 10 then n + 48 else n + 87.
Definition dump1 (b : Z) : list Z := [lowhex (b / 16); lowhex (b mod 16)].
Fixpoint dump_all (delim : list Z) (l : list Z) : list Z := match l with [] => [] | b :: t => dump1 b ++ delim ++ dump_all delim t end.
Fixpoint dump_sep (delim : list Z) (l : list Z) : list Z := match l with [] => [] | [b] => dump1 b | b :: t => dump1 b ++ delim ++ dump_sep delim t end.

(* nibble i of a BCD buffer: the low nibble of an octet comes first *)
Definition nibble (bcd : list Z) (i : Z) : Z := if i mod 2 =? 0 then at0 bcd (i / 2) mod 16 else at0 bcd (i / 2) / 16.
(* printable form of a nibble *)
Definition bcd_char (n : Z) : Z := if n <? 10 then n + 48 else n + 55.
