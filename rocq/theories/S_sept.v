(* S_sept.v - specification of the GSM 7-bit default alphabet and its packing (3GPP TS 23.038), independent of the
   model.  Characters are Latin-1 codes. *)
From Verif Require Import Base.

(* n septets packed into octets, least significant bit first: the octets read as a little-endian number (base 256)
   are the septets read as a little-endian number (base 128) *)
Fixpoint sept_val (l : list Z) : Z := match l with [] => 0 | x :: r => x mod 128 + 128 * sept_val r end.
(* the k-th septet of an octet string *)
Definition septet (ud : list Z) (k : Z) : Z := le_val ud / 2 ^ (7 * k) mod 128.
(* number of octets for b bits *)
Definition octets_for (b : Z) : Z := (b + 7) / 8.

(* text decoding with escape 0x1b; a trailing escape is decoded like any other septet *)
Fixpoint decode_text (base ext : Z -> Z) (l : list Z) : list Z :=
  match l with
  | [] => []
  | c :: r =>
    if c =? 27 then match r with [] => [base c] | c2 :: r2 => ext c2 :: decode_text base ext r2 end
    else base c :: decode_text base ext r
  end.

(* the default alphabet (TS 23.038 section 6.2.1) and extension table (6.2.1.1), restricted to Latin-1 characters *)
Definition gsm0338 (ch : Z) : option (list Z) :=
  if (ch =? 10) || (ch =? 13) || ((32 <=? ch) && (ch <=? 35)) || ((37 <=? ch) && (ch <=? 63))
     || ((65 <=? ch) && (ch <=? 90)) || ((97 <=? ch) && (ch <=? 122)) then Some [ch]
  else match ch with
  | 64 => Some [0] (* @ *) | 36 => Some [2] (* $ *) | 95 => Some [17] (* _ *)
  | 163 => Some [1] | 165 => Some [3] | 232 => Some [4] | 233 => Some [5] | 249 => Some [6] | 236 => Some [7]
  | 242 => Some [8] | 199 => Some [9] | 216 => Some [11] | 248 => Some [12] | 197 => Some [14] | 229 => Some [15]
  | 198 => Some [28] | 230 => Some [29] | 223 => Some [30] | 201 => Some [31] | 164 => Some [36] | 161 => Some [64]
  | 196 => Some [91] | 214 => Some [92] | 209 => Some [93] | 220 => Some [94] | 167 => Some [95] | 191 => Some [96]
  | 228 => Some [123] | 246 => Some [124] | 241 => Some [125] | 252 => Some [126] | 224 => Some [127]
  | 12 => Some [27; 10] | 94 => Some [27; 20] | 123 => Some [27; 40] | 125 => Some [27; 41] | 92 => Some [27; 47]
  | 91 => Some [27; 60] | 126 => Some [27; 61] | 93 => Some [27; 62] | 124 => Some [27; 64]
  | _ => None
  end.

(* characters of the alphabet for which the library's conversions do not follow the standard *)
Definition misencoded : list Z := [12; 164; 167; 191].   (* form feed, currency sign, section sign, inverted ? *)
Definition misdecoded : list Z := [161; 196; 209; 214; 220; 228; 241; 246; 248; 252]. (* inverted !, A O U umlauts, n tilde, o slash *)

(* the septets of a text *)
Definition gsm_codes (text : list Z) : list Z := flat_map (fun ch => match gsm0338 ch with Some l => l | None => [] end) text.
Definition encodable (ch : Z) : Prop := gsm0338 ch <> None /\ ~ In ch misencoded.
Definition convertible (ch : Z) : Prop := encodable ch /\ ~ In ch misdecoded.

(* USSD strings (23.038 section 6.1.2.3.1): seven spare bits are filled with a carriage return, and a text that ends with
   a carriage return on an octet boundary gets another one (the library adds it only if two octets of room are left) *)
Definition ussd_sent (n : Z) (text : list Z) : list Z :=
  let y := zlen (gsm_codes text) in
  if y mod 8 =? 7 then text ++ [13]
  else if negb (y =? 0) && (y mod 8 =? 0) && (last text 0 =? 13) && (octets_for (7 * y) <? n - 1) then text ++ [13]
  else text.
(* what the library removes when decoding: the last character whenever the last octet, shifted right by one, is 13,
   whatever the alignment of the septets *)
Definition ussd_drops_last (text : list Z) : bool :=
  let codes := gsm_codes text in
  negb (zlen codes =? 0) && (last codes 0 / 2 ^ (zlen codes mod 8) =? 13).
