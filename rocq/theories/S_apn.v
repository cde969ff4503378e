(* S_apn.v - specification vocabulary for C31 *)
From Verif Require Import Base.

(* the text of an encoded APN (TS 23.003 section 9.1: each label preceded by its length); decoding stops at a zero length *)
Inductive apn_text : list Z -> list Z -> Prop :=
| text_end : apn_text [] []
| text_zero : forall r, apn_text (0 :: r) []
| text_last : forall n l, 0 < n -> zlen l = n -> apn_text (n :: l) l
| text_more : forall n l r t, 0 < n -> zlen l = n -> r <> [] -> apn_text r t -> apn_text (n :: l ++ r) (l ++ [46] ++ t).

(* labels joined by dots, and the octets they are encoded as *)
Fixpoint dotted (ls : list (list Z)) : list Z :=
  match ls with [] => [] | l :: t => match t with [] => l | _ => l ++ [46] ++ dotted t end end.
Definition encoded (ls : list (list Z)) : list Z := flat_map (fun l => zlen l :: l) ls.
(* characters of a C string other than '.' *)
Definition label_char (c : Z) : Prop := 0 < c < 256 /\ c <> 46.
(* all labels but the last are non-empty *)
Fixpoint proper (ls : list (list Z)) : Prop :=
  match ls with [] => True | l :: t => match t with [] => True | _ => l <> [] /\ proper t end end.
