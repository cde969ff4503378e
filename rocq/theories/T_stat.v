(* C37: statistics items *)
From Verif Require Import Base M_stat S_stat P_stat.

(* after any sequence of set / inc / dec / flush / reset (values that fit an int, fewer than 2^32 per period):
   the running period is described by exactly the values recorded since the last flush or reset, and the reported
   one by those recorded in the period that the last flush ended *)
Theorem C37_history : forall d os, is_s32 d -> fits d (View d [] None) os ->
  exists it, srun (item_alloc d) os = Ok it /\
    let w := vrun d os in
    describes (value it) (vlast w) (vals w) /\
    match vrep w with Some (l, vs) => describes (reported it) l vs | None => pn (reported it) = 0 end.
Proof.
  intros d os Hd F. destruct (run_ok d os Hd _ _ (rel0 d Hd) F) as (it & E & R). exists it. split; auto. unfold vrun. cbn zeta.
  destruct R as (D & _ & _ & _ & _ & R). split; auto. destruct (vrep _) as [[l vs]|]; auto. now rewrite R.
Qed.
Print Assumptions C37_history.

(* 2^32 values in one period make the counter wrap: the next value starts the statistics over although no flush
   happened (here the maximum 5 is forgotten) *)
Theorem C37_wrap_refuted : forall k, Z.of_nat k = 2 ^ 32 - 1 -> let os := repeat (SSet 5) k ++ [SSet 5; SSet 1] in
  exists it, srun (item_alloc 0) os = Ok it /\ vrep (vrun 0 os) = None /\ In (SSet 5) os /\ ~ In SFlush os /\ ~ In SReset os /\
  pmax (value it) = 1 /\ pn (value it) = 1.
Proof.
  intros k K os. unfold os.
  assert (A : forall a b it, srun it (a ++ b) = do it' <- srun it a ;; srun it' b).
  { induction a; intros; cbn [app srun bind]; auto. destruct (sstep it a); cbn [bind]; auto. }
  rewrite A, sets_same; [|red; lia|lia|lia]. rewrite K. cbn [bind]. eexists. split; [vm_compute; reflexivity|]. split.
  { unfold vrun. rewrite fold_left_app. assert (X : forall w, vrep (fold_left (vstep 0) (repeat (SSet 5) k) w) = vrep w).
    { clear. induction k; intros; cbn [repeat fold_left]; auto. rewrite IHk. reflexivity. }
    cbn [fold_left vstep vrep]. now rewrite X. }
  split; [apply in_or_app; right; left; auto|].
  split; [|split; [|vm_compute; auto]]; intros X; apply in_app_or in X as [X|X];
    try (apply repeat_spec in X; discriminate); repeat (destruct X as [X|X]; [discriminate|]); contradiction.
Qed.
Print Assumptions C37_wrap_refuted.

Example C37_nonvacuous : exists it, srun (item_alloc 7) [SSet 3; SInc 10; SDec 1; SFlush; SFlush; SSet (-4); SInc 2] = Ok it
  /\ fits 7 (View 7 [] None) [SSet 3; SInc 10; SDec 1; SFlush; SFlush; SSet (-4); SInc 2]
  /\ value it = Per 2 (-4) (-2) (-2) (-6) /\ reported it = Per 0 12 12 12 0.
Proof. eexists. split; [vm_compute; reflexivity|]. split; [|auto]. cbn. unfold is_s32. repeat split; try lia; vm_compute; auto. Qed.
