From Verif Require Import Base S_llist S_msgq M_llist P_llist M_msgq.

Lemma deq_ok h q l : ring h q l -> NoDup (q :: l) -> ~ In 0 l ->
  let '(h', m) := msgb_dequeue h q in ring h' q (tl l) /\ m = hd 0 l.
Proof.
  intros R ND NZ. unfold msgb_dequeue. rewrite (empty_iff _ _ _ R ND).
  destruct l as [|x l]; [simpl; auto|].
  rewrite (path_first _ _ _ _ R). simpl List.hd.
  destruct (Z.eqb_spec x 0) as [E|E]; [exfalso; apply NZ; left; auto|].
  split; [|reflexivity]. simpl tl.
  pose proof (del_ring h (llist_del h x) q [] x l R ND) as G. apply G.
  intros y Hy. unfold llist_del. split.
  - cbn [nxt set_prv set_nxt]. destruct (Z.eqb_spec y x); [congruence|]. reflexivity.
  - cbn [prv set_prv]. destruct (Z.eqb_spec y x); [congruence|]. reflexivity.
Qed.

Lemma q_run_ok q ops : forall s l,
  ring (mq_heap s) q l -> NoDup (q :: l) -> ~ In 0 l -> mq_count s = u32 (zlen l) -> q_ok q l ops ->
  let '(s', outs) := q_run q s ops in
  let '(l', outs') := q_spec l ops in
  outs = outs' /\ ring (mq_heap s') q l' /\ NoDup (q :: l') /\ mq_count s' = u32 (zlen l').
Proof.
  induction ops as [|o ops IH]; intros s l R ND NZ C Ok; cbn [q_run q_spec q_ok] in *.
  - auto.
  - destruct o as [m|].
    + destruct Ok as (M0 & Mq & Mi & Ok).
      apply IH; auto.
      * unfold msgb_enqueue_count, msgb_enqueue. cbn [mq_heap]. apply add_tail; auto.
        intros [E|E]; auto.
      * change (q :: l ++ [m]) with ((q :: l) ++ [m]). apply NoDup_app_intro; auto.
        -- constructor; [intros []|constructor].
        -- intros x Hx [<-|[]]. destruct Hx; auto.
      * intros Hi. apply in_app_or in Hi. destruct Hi as [Hi|[Hi|[]]]; auto.
      * unfold msgb_enqueue_count. cbn [mq_count]. rewrite C, zlen_app. unfold u32.
        change (zlen [m]) with 1. rewrite Zplus_mod_idemp_l. reflexivity.
    + unfold msgb_dequeue_count.
      pose proof (deq_ok (mq_heap s) q l R ND NZ) as G.
      destruct (msgb_dequeue (mq_heap s) q) as [h1 m]. destruct G as [R1 E].
      specialize (IH (Mq h1 (if m =? 0 then mq_count s else u32 (mq_count s - 1))) (tl l) R1).
      destruct (q_run q _ ops) as [s' outs]. destruct (q_spec (tl l) ops) as [l' outs'].
      destruct IH as (I1 & I2 & I3 & I4); auto.
      * destruct l; auto. simpl. inversion ND as [|? ? N1 N2]; inversion N2; subst. constructor; auto.
        intros Hi; apply N1; right; auto.
      * destruct l; auto. simpl. intros Hi; apply NZ; right; auto.
      * cbn [mq_count]. subst m. destruct l as [|x l]; simpl.
        -- rewrite C. reflexivity.
        -- destruct (Z.eqb_spec x 0) as [E|E]; [exfalso; apply NZ; left; auto|].
           rewrite C, zlen_cons. unfold u32. rewrite Zminus_mod_idemp_l. f_equal; lia.
      * subst. auto.
Qed.

Lemma queue_free_ok l : forall h q, ring h q l -> NoDup (q :: l) -> ~ In 0 l ->
  exists h', msgb_queue_free (length l) h q = Some (h', l) /\ ring h' q [].
Proof.
  induction l as [|x l IH]; intros h q R ND NZ.
  - pose proof (deq_ok h q [] R ND NZ) as G. simpl length. unfold msgb_queue_free.
    destruct (msgb_dequeue h q) as [h1 m]. destruct G as [R1 E]. simpl in E. subst m. simpl. eauto.
  - pose proof (deq_ok h q (x :: l) R ND NZ) as G. simpl length. cbn [msgb_queue_free].
    destruct (msgb_dequeue h q) as [h1 m]. destruct G as [R1 E]. simpl in E, R1. subst m.
    destruct (Z.eqb_spec x 0) as [E|E]; [exfalso; apply NZ; left; auto|].
    inversion ND as [|? ? N1 N2]; inversion N2; subst.
    destruct (IH h1 q R1) as (h2 & E2 & R2).
    + constructor; auto. intros Hi; apply N1; right; auto.
    + intros Hi; apply NZ; right; auto.
    + rewrite E2. eauto.
Qed.

Lemma q_fifo h q ops : q_ok q [] ops ->
  let '(s', outs) := q_run q (Mq (INIT_LLIST_HEAD h q) 0) ops in
  let '(l', outs') := q_spec [] ops in
  outs = outs' /\ mq_count s' = u32 (zlen l') /\
  llist_walk (length l') (mq_heap s') (nxt (mq_heap s') q) q = Some l'.
Proof.
  intros Ok. pose proof (q_run_ok q ops (Mq (INIT_LLIST_HEAD h q) 0) []) as G.
  destruct (q_run _ _ _) as [s' outs]. destruct (q_spec [] ops) as [l' outs'].
  destruct G as (G1 & G2 & G3 & G4); auto.
  - unfold ring; cbn. rewrite Z.eqb_refl. auto.
  - constructor; [intros []|constructor].
  - split; auto. split; auto.
    pose proof (walk_ok (mq_heap s') [(q, l')] (q, l')) as W. cbn [fst snd] in W. apply W.
    + unfold world_ok; cbn. rewrite app_nil_r. auto.
    + constructor; auto.
    + left; auto.
Qed.
