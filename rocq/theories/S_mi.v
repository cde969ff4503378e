(* S_mi.v - Mobile Identity coding, 3GPP TS 24.008 10.5.1.4, and where a Complete Layer 3 message carries one *)
From Verif Require Import Base S_hex.

(* two nibbles per octet, low nibble first *)
Fixpoint pack (l : list Z) : list Z := match l with a :: b :: r => a + 16 * b :: pack r | _ => [] end.
(* type of identity and odd/even indication, the digits, a filler to complete the last octet *)
Definition mi_octets (type : Z) (digits : list Z) : list Z :=
  pack ((type + 8 * (zlen digits mod 2)) :: digits ++ (if zlen digits mod 2 =? 0 then [15] else [])).
Definition tmsi_octets (t : Z) : list Z := [244; t / 16777216; t / 65536 mod 256; t / 256 mod 256; t mod 256].
(* IMSI: 6 to 15 digits; IMEI: 14 or 15; IMEISV: 16 *)
Definition len_ok (type n : Z) : Prop := type = 1 /\ 6 <= n <= 15 \/ type = 2 /\ (n = 14 \/ n = 15) \/ type = 3 /\ n = 16.
Definition digit_ok (allow_hex : bool) (d : Z) : Prop := 0 <= d <= (if allow_hex then 15 else 9).

(* Complete Layer 3 messages with their Mobile Identity (the octets mi, after the length octet) *)
Inductive carries : list Z -> list Z -> Prop :=
| LocUpd h h2 d mi rest : h mod 16 = 5 -> h2 mod 64 = 8 -> zlen d = 7 -> carries (h :: h2 :: d ++ zlen mi :: mi ++ rest) mi
| CmServ h h2 t cm2 mi rest : h mod 16 = 5 -> h2 mod 64 = 36 \/ h2 mod 64 = 40 -> carries (h :: h2 :: t :: zlen cm2 :: cm2 ++ zlen mi :: mi ++ rest) mi
| Detach h h2 cm1 mi rest : h mod 16 = 5 -> h2 mod 64 = 1 -> carries (h :: h2 :: cm1 :: zlen mi :: mi ++ rest) mi
| IdResp h h2 mi rest : h mod 16 = 5 -> h2 mod 64 = 25 -> carries (h :: h2 :: zlen mi :: mi ++ rest) mi
| PagResp h t cm2 mi rest : h mod 16 = 6 -> 3 <= zlen cm2 + zlen mi + zlen rest -> carries (h :: 39 :: t :: zlen cm2 :: cm2 ++ zlen mi :: mi ++ rest) mi
| Talker h cm2 mi rest : h mod 16 = 6 -> zlen cm2 = 3 -> carries (h :: 17 :: zlen cm2 :: cm2 ++ zlen mi :: mi ++ rest) mi.

(* order of strings *)
Fixpoint lex (a b : list Z) : Z :=
  match a, b with
  | [], [] => 0 | [], _ => -1 | _, [] => 1
  | x :: a, y :: b => if x <? y then -1 else if y <? x then 1 else lex a b
  end.
