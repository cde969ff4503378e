(* C16: red-black tree *)
From Verif Require Import Base M_rbtree S_rbtree P_rbtree P_rbtree2.

(* any client program of insertions, deletions and replacements: no NULL dereference and no endless loop, the heap holds
   a tree obeying the red-black rules, its in-order sequence is the one the operations describe, height logarithmic *)
Theorem C16_history : forall os h fuel, legal [] os -> (length os + 2 <= fuel)%nat ->
  exists h' t, rb_run fuel (empty_root h) os = Ok h' /\ holds h' t /\ rb_tree t /\ seq_run [] os (inorder t) /\
    height t <= 2 * Z.log2 (zlen (inorder t) + 1).
Proof. exact history_thm. Qed.
Print Assumptions C16_history.

(* insertion adds exactly the node, the others keep their order *)
Theorem C16_insert : forall h t go n fuel,
  holds h t -> rb_tree t -> n <> 0 -> ~ In n (inorder t) -> (length (inorder t) + 1 < fuel)%nat ->
  exists h' t' a b, insert_by fuel h go n = Ok h' /\ holds h' t' /\ rb_tree t' /\ inorder t = a ++ b /\ inorder t' = a ++ n :: b.
Proof. exact insert_thm. Qed.
Print Assumptions C16_insert.

(* descending by a key (equal keys to the right) keeps the sequence sorted and puts the node after the equal ones *)
Theorem C16_insert_sorted : forall h t key n fuel,
  holds h t -> rb_tree t -> n <> 0 -> ~ In n (inorder t) -> (length (inorder t) + 1 < fuel)%nat -> sorted_by key (inorder t) ->
  exists h' t', insert_by fuel h (fun z => key n <? key z) n = Ok h' /\ holds h' t' /\ rb_tree t' /\ sorted_by key (inorder t') /\
    inorder t' = filter (fun z => key z <=? key n) (inorder t) ++ n :: filter (fun z => key n <? key z) (inorder t).
Proof. exact insert_sorted_thm. Qed.
Print Assumptions C16_insert_sorted.

Theorem C16_erase : forall h t x a b fuel,
  holds h t -> rb_tree t -> inorder t = a ++ x :: b -> (length (inorder t) + 2 <= fuel)%nat ->
  exists h' t', rb_erase fuel h x = Ok h' /\ holds h' t' /\ rb_tree t' /\ inorder t' = a ++ b.
Proof. exact erase_thm. Qed.
Print Assumptions C16_erase.

Theorem C16_replace : forall h t x n a b,
  holds h t -> rb_tree t -> inorder t = a ++ x :: b -> n <> 0 -> ~ In n (inorder t) ->
  exists h' t', rb_replace_node h x n = Ok h' /\ holds h' t' /\ rb_tree t' /\ inorder t' = a ++ n :: b.
Proof. exact replace_thm. Qed.
Print Assumptions C16_replace.

(* first/next and last/prev enumerate the in-order sequence forwards and backwards, NULL at the ends *)
Theorem C16_walk : forall h t fuel, holds h t -> (length (inorder t) < fuel)%nat ->
  rb_first fuel h = Ok (hd 0 (inorder t)) /\ rb_last fuel h = Ok (last (inorder t) 0) /\
  forall a x b, inorder t = a ++ x :: b -> rb_next fuel h x = Ok (hd 0 b) /\ rb_prev fuel h x = Ok (last a 0).
Proof. exact walk_thm. Qed.
Print Assumptions C16_walk.

(* the rules bound the height *)
Theorem C16_height : forall t, rb_tree t -> height t <= 2 * Z.log2 (zlen (inorder t) + 1).
Proof. exact rb_log. Qed.
Print Assumptions C16_height.

Example C16_nonvacuous :
  let ins n := RIns (fun z => n <? z) n in
  let os := [ins 5; ins 3; ins 8; ins 1; ins 4; ins 7; ins 9; ins 2; ins 6; RDel 5; RDel 1; RRepl 7 70; RDel 9; RDel 8] in
  legal [] os /\
  match rb_run 20 (empty_root (Hp (fun _ => Nd 0 R 0 0) 0)) os with
  | Ok h => root h = 6 /\ rb_first 20 h = Ok 2 /\ rb_next 20 h 2 = Ok 3 /\ rb_next 20 h 4 = Ok 6 /\ rb_next 20 h 6 = Ok 70 /\ rb_next 20 h 70 = Ok 0
  | _ => False end.
Proof.
  split.
  - cbn. repeat match goal with |- _ /\ _ => split end; auto; try discriminate; try tauto; intros H; repeat destruct H as [H|H]; try discriminate; contradiction.
  - vm_compute. repeat split.
Qed.
