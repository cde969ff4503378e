(** C75: message files. *)
From Verif Require Import Base M_msgfile S_msgfile P_msgfile.

(** The entries are those of the lines, in the order of the lines. A line gives an entry exactly if it has at least three colons and is not a
    comment; the first three colons separate the fields, further ones belong to the text; line ends are not part of a field. *)
Theorem C75_file : forall file, text_file file -> exists parts, osmo_config_list_parse file = Ok (concat parts) /\ Forall2 line_gives file parts.
Proof.
  assert (G : forall file es, text_file file -> exists parts, parse_loop es file = Ok (es ++ concat parts) /\ Forall2 line_gives file parts).
  { induction file as [|l file IH]; intros es F; cbn [parse_loop]; [exists []; cbn; rewrite app_nil_r; split; [reflexivity|constructor]|].
    inversion F; subst. destruct (line_ok es l) as (new & E & L); [assumption|]. rewrite E. cbn [bind]. destruct (IH (es ++ new)) as (parts & E' & F'); [assumption|]. rewrite E'.
    exists (new :: parts). split; [cbn [concat]; rewrite app_assoc; reflexivity|constructor; assumption]. }
  intros file F. exact (G file [] F).
Qed.
Print Assumptions C75_file.
(** "#a:b:c:d", "1:2:o:x:y" with line feed, "1:2:o", "::" "a" with CR LF *)
Example C75_file_nonvacuous : let f := [[35; 97; 58; 98; 58; 99; 58; 100]; [49; 58; 50; 58; 111; 58; 120; 58; 121; 10]; [49; 58; 50; 58; 111; 10]; [58; 58; 58; 97; 13; 10]; []] in text_file f /\
  osmo_config_list_parse f = Ok [Entry [49] [50] [111] [120; 58; 121]; Entry [] [] [] [97]].
Proof. split; [|vm_compute; reflexivity]. repeat constructor; unfold no; cbn; lia. Qed.

(** A line does not give two different things. *)
Theorem C75_unambiguous : forall l x y, line_gives l x -> line_gives l y -> x = y.
Proof.
  intros l x y [(a & b & c & d & N & (E & Na & Nb & Nc) & ->)|(O & ->)] [(a' & b' & c' & d' & N' & (E' & Na' & Nb' & Nc') & ->)|(O' & ->)].
  - destruct (count58 l a _ a' _ Na Na' E E') as (-> & X). destruct (count58 _ b _ b' _ Nb Nb' eq_refl X) as (-> & Y). destruct (count58 _ c _ c' _ Nc Nc' eq_refl Y) as (-> & ->). reflexivity.
  - exfalso. destruct O' as [O'|O']; [contradiction|apply (O' a b c d); repeat split; assumption].
  - exfalso. destruct O as [O|O]; [contradiction|apply (O a' b' c' d'); repeat split; assumption].
  - reflexivity.
Qed.
Print Assumptions C75_unambiguous.
Example C75_unambiguous_nonvacuous : line_gives [49; 58; 50; 58; 111; 58; 120; 58; 121; 10] [Entry [49] [50] [111] [120; 58; 121]].
Proof. left. exists [49], [50], [111], [120; 58; 121; 10]. split; [intros (r & X); discriminate|]. split; [|reflexivity]. split; [reflexivity|]. unfold no. cbn. lia. Qed.
