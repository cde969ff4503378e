(** Lines of the form mcc:mnc:option:text. *)
From Verif Require Import Base M_msgfile.

Definition no (c : Z) (l : list Z) : Prop := ~ In c l.
(** A field ends at the first line feed or carriage return in it *)
Fixpoint until_eol (l : list Z) : list Z := match l with [] => [] | c :: l => if (c =? 10) || (c =? 13) then [] else c :: until_eol l end.
(** Four fields; only the last may have colons *)
Definition four (l a b c d : list Z) : Prop := l = a ++ 58 :: b ++ 58 :: c ++ 58 :: d /\ no 58 a /\ no 58 b /\ no 58 c.
Definition comment (l : list Z) : Prop := exists r, l = 35 :: r.
(** The entries a line gives *)
Definition line_gives (l : list Z) (es : list entry) : Prop :=
  (exists a b c d, ~ comment l /\ four l a b c d /\ es = [Entry (until_eol a) (until_eol b) (until_eol c) (until_eol d)]) \/
  ((comment l \/ forall a b c d, ~ four l a b c d) /\ es = []).
(** A file without NUL *)
Definition text_file (file : list (list Z)) : Prop := Forall (no 0) file.
