(* S_base64.v - RFC 4648 base64, independent of the code *)
From Verif Require Import Base.

(* the character of a 6 bit value *)
Definition c64 (d : Z) : Z :=
  if d <? 26 then 65 + d else if d <? 52 then 97 + (d - 26) else if d <? 62 then 48 + (d - 52) else if d =? 62 then 43 else 47.
Definition PAD : Z := 61.

Fixpoint b64 (l : list Z) : list Z :=
  match l with
  | a :: b :: c :: t =>
      let v := a * 65536 + b * 256 + c in
      c64 (v / 262144) :: c64 (v / 4096 mod 64) :: c64 (v / 64 mod 64) :: c64 (v mod 64) :: b64 t
  | [a; b] => let v := a * 65536 + b * 256 in [c64 (v / 262144); c64 (v / 4096 mod 64); c64 (v / 64 mod 64); PAD]
  | [a] => let v := a * 65536 in [c64 (v / 262144); c64 (v / 4096 mod 64); PAD; PAD]
  | [] => []
  end.

Definition CR := 13. Definition LF := 10. Definition SP := 32.

(* neither CR, LF nor space *)
Definition significant (c : Z) : bool := negb ((c =? 13) || (c =? 10) || (c =? 32)).

(* [broken c t]: t is c with line ends (LF or CRLF, possibly after spaces) inserted anywhere, and
   possibly spaces at the very end *)
Inductive broken : list Z -> list Z -> Prop :=
| br_end k : broken [] (repeat SP k)
| br_char x c t : broken c t -> broken (x :: c) (x :: t)
| br_lf k c t : broken c t -> broken c (repeat SP k ++ LF :: t)
| br_crlf k c t : broken c t -> broken c (repeat SP k ++ CR :: LF :: t).
