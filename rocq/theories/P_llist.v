From Verif Require Import Base S_llist M_llist.

Lemma path_app h a l1 x l2 b :
  path h a (l1 ++ x :: l2) b <-> path h a l1 x /\ path h x l2 b.
Proof.
  revert a; induction l1; intros a0; cbn [app path].
  - intuition.
  - rewrite IHl1. intuition.
Qed.

Lemma path_frame h h' a l b :
  (forall x, In x (a :: l) -> nxt h' x = nxt h x) ->
  (forall x, In x (l ++ [b]) -> prv h' x = prv h x) ->
  path h a l b -> path h' a l b.
Proof.
  revert a; induction l; intros a0 Hn Hp; cbn [path].
  - intros [H1 H2]. rewrite Hn by (left; auto). rewrite Hp by (left; auto). auto.
  - intros (H1 & H2 & H3). rewrite Hn by (left; auto). rewrite Hp by (left; auto).
    split; auto. split; auto. apply IHl; auto.
    + intros; apply Hn; right; auto.
    + intros; apply Hp; right; auto.
Qed.

Lemma ring_frame h h' hd l :
  (forall x, In x (hd :: l) -> nxt h' x = nxt h x /\ prv h' x = prv h x) ->
  ring h hd l -> ring h' hd l.
Proof.
  intros H. apply path_frame; intros; apply H.
  - auto.
  - apply in_app_or in H0. simpl in *. intuition.
Qed.

Ltac heq := cbn [nxt prv set_nxt set_prv __llist_add __llist_del INIT_LLIST_HEAD].
Ltac eqbs :=
  repeat match goal with
  | |- context [?x =? ?y] => destruct (Z.eqb_spec x y); try subst; try congruence
  end.

Lemma NoDup_app_inv {A} (a b : list A) :
  NoDup (a ++ b) -> NoDup a /\ NoDup b /\ (forall x, In x a -> ~ In x b).
Proof.
  induction a; simpl; intros H.
  - repeat split; auto. constructor.
  - inversion H; subst. destruct (IHa H3) as (H4 & H5 & H6).
    repeat split; auto.
    + constructor; auto. intros Hi; apply H2, in_or_app; auto.
    + intros x [->|Hx] Hb; [apply H2, in_or_app; auto|]. eapply H6; eauto.
Qed.

Lemma path_first h a l b : path h a l b -> nxt h a = hd b l.
Proof. destruct l; simpl; intuition. Qed.
Lemma path_last h a l b : path h a l b -> prv h b = last l a.
Proof.
  revert a; induction l; intros a0; cbn [path].
  - simpl; intuition.
  - intros (_ & _ & H). apply IHl in H. rewrite H. destruct l; auto.
    simpl. clear. revert z a. induction l; simpl; auto.
Qed.

(* __llist_add puts n between p and q *)
Lemma add_between h hd l1 l2 n :
  ring h hd (l1 ++ l2) -> NoDup (hd :: l1 ++ l2) -> ~ In n (hd :: l1 ++ l2) ->
  let p := last l1 hd in let q := List.hd hd l2 in
  ring (__llist_add h n p q) hd (l1 ++ n :: l2).
Proof.
  intros R ND NI p q.
  unfold ring in *. apply path_app.
  assert (Hp: p = hd \/ In p l1).
  { unfold p. destruct l1 using rev_ind; auto. rewrite last_last. right; apply in_or_app; right; left; auto. }
  assert (Hq: q = hd \/ In q l2) by (unfold q; destruct l2; simpl; auto).
  assert (Nn: n <> hd /\ ~ In n l1 /\ ~ In n l2).
  { simpl in NI. repeat split; intros ?; apply NI; auto; right; apply in_or_app; auto. }
  destruct Nn as (N1 & N2 & N3).
  inversion ND as [|? ? Hhd NDl]; subst.
  pose proof (NoDup_app_inv _ _ NDl) as (ND1 & ND2 & Dj).
  split.
  - (* hd .. l1 .. n *)
    destruct l1 as [|y l1'] using rev_ind.
    + cbn [path]. unfold p; simpl last. heq. rewrite !Z.eqb_refl.
      split; auto.
    + clear IHl1'. unfold p in *. rewrite last_last in *.
      apply path_app. split.
      * rewrite <- app_assoc in R. simpl in R. apply path_app in R. destruct R as [R1 R2].
        eapply path_frame; [| |exact R1].
        -- intros z Hz. heq.
           assert (z <> y). { intros ->. destruct Hz as [->|Hz]; [apply Hhd; rewrite !in_app_iff; simpl; auto|].
             apply NoDup_app_inv in ND1. destruct ND1 as (_&_&D). eapply D; eauto. simpl; auto. }
           assert (z <> n). { intros ->. destruct Hz; [congruence|]. apply N2, in_or_app; auto. }
           eqbs; auto.
        -- intros z Hz. heq.
           assert (z <> n). { intros ->. apply N2. auto. }
           assert (z <> q). { intros ->. destruct Hq as [->|Hq].
             - apply Hhd. apply in_or_app; auto.
             - eapply Dj; eauto. }
           eqbs; auto.
      * cbn [path]. heq. rewrite !Z.eqb_refl. split; auto.
  - destruct l2 as [|x l2'].
    + cbn [path]. unfold q; simpl List.hd. heq.
      assert (p <> n) by (intros ->; destruct Hp; [congruence|tauto]).
      rewrite !Z.eqb_refl. split; eqbs; auto.
    + unfold q in *. simpl List.hd in *. cbn [path]. 
      assert (p <> n) by (intros ->; destruct Hp; [congruence|tauto]).
      assert (x <> n) by (intros ->; apply N3; left; auto).
      split; [heq; rewrite ?Z.eqb_refl; eqbs; auto|].
      split; [heq; rewrite ?Z.eqb_refl; eqbs; auto|].
      apply path_app in R. destruct R as [R1 R2].
      eapply path_frame; [| |exact R2].
      * intros z Hz. heq.
        assert (z <> n) by (intros ->; tauto).
        assert (z <> p). { intros ->. destruct Hp as [->|Hp].
           - apply Hhd. apply in_or_app; auto.
           - eapply Dj; eauto. }
        eqbs; auto.
      * intros z Hz. heq.
        assert (z <> n). { intros ->. apply in_app_or in Hz. destruct Hz as [Hz|[->|[]]]; [|congruence]. apply N3; right; auto. }
        assert (z <> x). { intros ->. apply in_app_or in Hz. inversion ND2; subst.
          destruct Hz as [Hz|[->|[]]]; [tauto|]. apply Hhd, in_or_app; right; left; auto. }
        eqbs; auto.
Qed.

Lemma add_head h hd l n : ring h hd l -> NoDup (hd :: l) -> ~ In n (hd :: l) ->
  ring (llist_add h n hd) hd (n :: l).
Proof.
  intros R ND NI. pose proof (add_between h hd [] l n R ND NI) as G. cbv zeta in G. simpl last in G.
  unfold llist_add. rewrite (path_first _ _ _ _ R). exact G.
Qed.

Lemma add_tail h hd l n : ring h hd l -> NoDup (hd :: l) -> ~ In n (hd :: l) ->
  ring (llist_add_tail h n hd) hd (l ++ [n]).
Proof.
  intros R ND NI. pose proof (add_between h hd l [] n) as G. rewrite app_nil_r in G.
  specialize (G R ND NI). cbv zeta in G. simpl List.hd in G.
  unfold llist_add_tail. rewrite (path_last _ _ _ _ R). exact G.
Qed.

(* removal of n, whatever is afterwards written to n's own pointers *)
Lemma del_ring h h' hd l1 n l2 :
  ring h hd (l1 ++ n :: l2) -> NoDup (hd :: l1 ++ n :: l2) ->
  (forall x, x <> n -> nxt h' x = nxt (__llist_del h (prv h n) (nxt h n)) x /\
                       prv h' x = prv (__llist_del h (prv h n) (nxt h n)) x) ->
  ring h' hd (l1 ++ l2).
Proof.
  intros R ND Hh.
  inversion ND as [|? ? Hhd NDl]; subst.
  pose proof (NoDup_app_inv _ _ NDl) as (ND1 & ND2 & Dj).
  inversion ND2 as [|? ? Hn ND3]; subst.
  assert (Hnhd : n <> hd) by (intros ->; apply Hhd, in_or_app; right; left; auto).
  pose proof R as R0. unfold ring in R0. apply path_app in R0. destruct R0 as [R1 R2].
  pose proof (path_last _ _ _ _ R1) as Ep. pose proof (path_first _ _ _ _ R2) as Eq.
  remember (last l1 hd) as p eqn:Dp. remember (List.hd hd l2) as q eqn:Dq.
  rewrite Ep, Eq in Hh.
  assert (Hp: p = hd \/ In p l1).
  { subst p. clear. destruct l1 using rev_ind; auto. rewrite last_last. right; apply in_or_app; right; left; auto. }
  assert (Hq: q = hd \/ In q l2) by (subst q; destruct l2; simpl; auto).
  assert (Hpn : p <> n). { intros E. rewrite E in Hp. destruct Hp; [congruence|]. eapply Dj; eauto. left; auto. }
  assert (Hqn : q <> n). { intros E. rewrite E in Hq. destruct Hq; [congruence|]. auto. }
  assert (Npq : nxt h' p = q). { destruct (Hh p Hpn) as [E _]. rewrite E. heq. rewrite Z.eqb_refl. auto. }
  assert (Pqp : prv h' q = p). { destruct (Hh q Hqn) as [_ E]. rewrite E. heq. rewrite Z.eqb_refl. auto. }
  assert (FrN : forall x, x <> n -> x <> p -> nxt h' x = nxt h x).
  { intros x X1 X2. destruct (Hh x X1) as [E _]. rewrite E. heq. eqbs; auto. }
  assert (FrP : forall x, x <> n -> x <> q -> prv h' x = prv h x).
  { intros x X1 X2. destruct (Hh x X1) as [_ E]. rewrite E. heq. eqbs; auto. }
  clear Hh.
  (* first part up to p *)
  assert (A1 : forall l1' , l1 = l1' ++ [p] -> path h' hd l1' p).
  { intros l1' E. rewrite E in R1. apply path_app in R1. destruct R1 as [R1 _].
    eapply path_frame; [| |exact R1].
    - intros z Hz. apply FrN.
      + intros ->. destruct Hz as [Hz|Hz]; [congruence|]. apply (Dj n); [rewrite E; apply in_or_app; auto|left; auto].
      + intros ->. destruct Hz as [Hz|Hz].
        * apply Hhd. rewrite Hz. apply in_or_app; left. rewrite E. apply in_or_app; right; left; auto.
        * rewrite E in ND1. apply NoDup_app_inv in ND1. destruct ND1 as (_&_&D). eapply D; eauto. left; auto.
    - intros z Hz. rewrite <- E in Hz. apply FrP.
      + intros ->. eapply Dj; eauto. left; auto.
      + intros ->. destruct Hq as [Hq|Hq].
        * apply Hhd. rewrite <- Hq. apply in_or_app; auto.
        * eapply Dj; eauto. right; auto. }
  assert (A2 : forall l2', l2 = q :: l2' -> path h' q l2' hd).
  { intros l2' E. rewrite E in R2. cbn [path] in R2. destruct R2 as (_ & _ & R2).
    assert (Hqi : In q l2) by (rewrite E; left; auto).
    eapply path_frame; [| |exact R2].
    - intros z Hz. change (In z (q :: l2')) in Hz. rewrite <- E in Hz. apply FrN.
      + intros ->. auto.
      + intros ->. destruct Hp as [Hp|Hp].
        * apply Hhd. rewrite <- Hp. apply in_or_app; right; right; auto.
        * eapply Dj; eauto. right; auto.
    - intros z Hz. apply FrP.
      + intros ->. apply in_app_or in Hz. destruct Hz as [Hz|[Hz|[]]]; [|congruence].
        apply Hn. rewrite E. right; auto.
      + intros ->. apply in_app_or in Hz. rewrite E in ND3. inversion ND3; subst.
        destruct Hz as [Hz|[Hz|[]]]; [auto|]. apply Hhd. rewrite Hz. apply in_or_app; right; right; auto. }
  destruct l1 as [|y l1'] using rev_ind.
  - simpl app. destruct l2 as [|x l2'].
    + unfold ring; cbn [path]. simpl in Dp, Dq. subst p q. split; auto.
    + unfold ring; cbn [path]. simpl in Dp, Dq. subst p q. split; auto.
  - clear IHl1'. rewrite last_last in Dp. subst p.
    rewrite <- app_assoc. simpl app. unfold ring. apply path_app. split; [apply A1; auto|].
    destruct l2 as [|x l2'].
    + cbn [path]. simpl in Dq. subst q. auto.
    + cbn [path]. simpl in Dq. subst q. split; auto.
Qed.

(* heap entries outside of {n, p, q} are unchanged *)
Lemma add_other h n p q x : x <> n -> x <> p -> x <> q ->
  nxt (__llist_add h n p q) x = nxt h x /\ prv (__llist_add h n p q) x = prv h x.
Proof. intros. heq. split; eqbs; auto. Qed.

Lemma in_nodes w p x : In p w -> In x (fst p :: snd p) -> In x (nodes w).
Proof. intros H1 H2. apply in_flat_map. exists p; auto. Qed.

Lemma world_disjoint w p1 p2 x :
  world_ok w -> In p1 w -> In p2 w -> In x (fst p1 :: snd p1) -> In x (fst p2 :: snd p2) -> p1 = p2.
Proof.
  unfold world_ok, nodes. induction w; intros ND H1 H2 X1 X2; [destruct H1|].
  simpl in ND. change (fst a :: snd a ++ flat_map (fun p => fst p :: snd p) w) with ((fst a :: snd a) ++ flat_map (fun p => fst p :: snd p) w) in ND.
  apply NoDup_app_inv in ND. destruct ND as (_ & ND & D).
  destruct H1 as [->|H1], H2 as [->|H2]; auto.
  - exfalso. apply (D x X1). apply in_flat_map; eauto.
  - exfalso. apply (D x X2). apply in_flat_map; eauto.
Qed.

Lemma world_nodup w p : world_ok w -> In p w -> NoDup (fst p :: snd p).
Proof.
  unfold world_ok, nodes. induction w; intros ND H; [destruct H|].
  simpl in ND. change (fst a :: snd a ++ flat_map (fun p => fst p :: snd p) w) with ((fst a :: snd a) ++ flat_map (fun p => fst p :: snd p) w) in ND.
  apply NoDup_app_inv in ND. destruct ND as (ND1 & ND & D).
  destruct H as [->|H]; auto.
Qed.

Lemma last_in hd (l : list Z) : In (last l hd) (hd :: l).
Proof. destruct l using rev_ind; [left; auto|]. rewrite last_last. right; apply in_or_app; right; left; auto. Qed.
Lemma hd_in hd (l : list Z) : In (List.hd hd l) (hd :: l).
Proof. destruct l; simpl; auto. Qed.

Lemma rep_add h w n hd : world_ok w -> represents h w -> ~ In n (nodes w) -> In hd (heads w) ->
  represents (llist_add h n hd) (on_list hd (fun l => n :: l) w).
Proof.
  intros OK R NI HH. unfold represents, on_list in *. rewrite Forall_forall in *.
  intros p' Hp'. apply in_map_iff in Hp'. destruct Hp' as (p & <- & Hp).
  assert (Nn: ~ In n (fst p :: snd p)) by (intros Hx; apply NI; eapply in_nodes; eauto).
  destruct (Z.eqb_spec (fst p) hd) as [E|E].
  - cbn [fst snd]. rewrite <- E. apply add_head; auto. apply world_nodup with w; auto.
  - apply in_map_iff in HH. destruct HH as (p0 & E0 & Hp0).
    eapply ring_frame; [|apply R; auto].
    intros x Hx. unfold llist_add. apply add_other.
    + intros ->; auto.
    + intros ->. assert (p = p0). { eapply world_disjoint; eauto. subst hd; left; auto. } congruence.
    + intros ->. assert (p = p0). { eapply world_disjoint; eauto.
        rewrite <- E0. rewrite (path_first _ _ _ _ (R p0 Hp0)). apply hd_in. } congruence.
Qed.

Lemma rep_add_tail h w n hd : world_ok w -> represents h w -> ~ In n (nodes w) -> In hd (heads w) ->
  represents (llist_add_tail h n hd) (on_list hd (fun l => l ++ [n]) w).
Proof.
  intros OK R NI HH. unfold represents, on_list in *. rewrite Forall_forall in *.
  intros p' Hp'. apply in_map_iff in Hp'. destruct Hp' as (p & <- & Hp).
  assert (Nn: ~ In n (fst p :: snd p)) by (intros Hx; apply NI; eapply in_nodes; eauto).
  destruct (Z.eqb_spec (fst p) hd) as [E|E].
  - cbn [fst snd]. rewrite <- E. apply add_tail; auto. apply world_nodup with w; auto.
  - apply in_map_iff in HH. destruct HH as (p0 & E0 & Hp0).
    eapply ring_frame; [|apply R; auto].
    intros x Hx. unfold llist_add_tail. apply add_other.
    + intros ->; auto.
    + intros ->. assert (p = p0). { eapply world_disjoint; eauto.
        rewrite <- E0. rewrite (path_last _ _ _ _ (R p0 Hp0)). apply last_in. } congruence.
    + intros ->. assert (p = p0). { eapply world_disjoint; eauto. subst hd; left; auto. } congruence.
Qed.

Lemma filter_notin n (l : list Z) : ~ In n l -> filter (fun x => negb (x =? n)) l = l.
Proof.
  induction l; simpl; auto. intros H. destruct (Z.eqb_spec a n); simpl.
  - exfalso; auto.
  - f_equal; auto.
Qed.

Lemma filter_split n (l1 l2 : list Z) : NoDup (l1 ++ n :: l2) ->
  filter (fun x => negb (x =? n)) (l1 ++ n :: l2) = l1 ++ l2.
Proof.
  intros H. apply NoDup_app_inv in H. destruct H as (_ & H & D). inversion H; subst.
  rewrite filter_app. simpl. rewrite Z.eqb_refl. simpl. rewrite !filter_notin; auto.
  intros Hi. eapply D; eauto. left; auto.
Qed.

Lemma rep_del h h' w n : world_ok w -> represents h w -> queued w n ->
  (forall x, x <> n -> nxt h' x = nxt (__llist_del h (prv h n) (nxt h n)) x /\
                       prv h' x = prv (__llist_del h (prv h n) (nxt h n)) x) ->
  represents h' (without n w).
Proof.
  intros OK R (p0 & Hp0 & Hn) Hh. unfold represents, without in *. rewrite Forall_forall in *.
  intros p' Hp'. apply in_map_iff in Hp'. destruct Hp' as (p & <- & Hp). cbn [fst snd].
  pose proof (world_nodup _ _ OK Hp) as ND. pose proof (world_nodup _ _ OK Hp0) as ND0.
  destruct (in_dec Z.eq_dec n (snd p)) as [Hi|Hi].
  - apply in_split in Hi. destruct Hi as (l1 & l2 & E). specialize (R p Hp). rewrite E in *.
    rewrite filter_split by (inversion ND; auto).
    eapply del_ring; eauto.
  - rewrite filter_notin by auto.
    eapply ring_frame; [|apply R; auto]. intros x Hx.
    assert (p <> p0) by (intros ->; auto).
    assert (Hxn : x <> n).
    { intros ->. apply H. eapply world_disjoint; eauto. right; auto. }
    destruct (Hh x Hxn) as [-> ->].
    specialize (R p0 Hp0). apply in_split in Hn. destruct Hn as (l1 & l2 & E). rewrite E in R.
    apply path_app in R. destruct R as [R1 R2].
    rewrite (path_last _ _ _ _ R1), (path_first _ _ _ _ R2).
    assert (Hno : forall z, In z (fst p0 :: snd p0) -> x <> z).
    { intros z Hz ->. apply H. eapply world_disjoint; eauto. }
    assert (x <> last l1 (fst p0)).
    { apply Hno. pose proof (last_in (fst p0) l1) as G. destruct G as [G|G]; [left; auto|].
      right. rewrite E. apply in_or_app; auto. }
    assert (x <> List.hd (fst p0) l2).
    { apply Hno. pose proof (hd_in (fst p0) l2) as G. destruct G as [G|G]; [left; auto|].
      right. rewrite E. apply in_or_app; right; right; auto. }
    heq. split; eqbs; auto.
Qed.

Lemma rep_llist_del h w n : world_ok w -> represents h w -> queued w n ->
  represents (llist_del h n) (without n w).
Proof.
  intros OK R Q. eapply rep_del; eauto. intros x Hx. unfold llist_del. split.
  - cbn [nxt set_prv]. cbn [nxt set_nxt]. destruct (Z.eqb_spec x n); [congruence|]. reflexivity.
  - cbn [prv set_prv]. destruct (Z.eqb_spec x n); [congruence|]. reflexivity.
Qed.

(* world_ok is preserved *)
Lemma in_nodes_iff w x : In x (nodes w) <-> exists p, In p w /\ In x (fst p :: snd p).
Proof. apply in_flat_map. Qed.

Lemma NoDup_app_intro {A} (a b : list A) :
  NoDup a -> NoDup b -> (forall x, In x a -> ~ In x b) -> NoDup (a ++ b).
Proof.
  induction a; simpl; auto. intros H1 H2 H3. inversion H1; subst. constructor.
  - intros Hi. apply in_app_or in Hi. destruct Hi; auto. eapply H3; eauto.
  - apply IHa; auto.
Qed.

Lemma nodes_cons p w : nodes (p :: w) = (fst p :: snd p) ++ nodes w.
Proof. reflexivity. Qed.

Lemma heads_in_nodes w x : In x (heads w) -> In x (nodes w).
Proof.
  intros H. apply in_map_iff in H. destruct H as (p & <- & Hp). eapply in_nodes; eauto. left; auto.
Qed.

Lemma on_list_ok w hd f :
  world_ok w ->
  (forall l, NoDup (hd :: l) -> In (hd, l) w -> NoDup (hd :: f l) /\
     forall x, In x (f l) -> In x (hd :: l) \/ ~ In x (nodes w)) ->
  world_ok (on_list hd f w).
Proof.
  unfold world_ok. induction w as [|p w IH]; intros ND Hf; [constructor|].
  rewrite nodes_cons in ND. apply NoDup_app_inv in ND. destruct ND as (ND1 & ND2 & D).
  change (on_list hd f (p :: w)) with ((if fst p =? hd then (fst p, f (snd p)) else p) :: on_list hd f w).
  assert (Htail: forall x, In x (nodes (on_list hd f w)) -> ~ In hd (heads w) -> In x (nodes w)).
  { intros x Hx Hh. apply in_nodes_iff in Hx. destruct Hx as (p' & Hp' & Hx).
    apply in_map_iff in Hp'. destruct Hp' as (p0 & E & Hp0).
    destruct (Z.eqb_spec (fst p0) hd).
    - exfalso. apply Hh. apply in_map_iff. exists p0; auto.
    - subst p'. eapply in_nodes; eauto. }
  destruct (Z.eqb_spec (fst p) hd) as [E|E].
  - (* this is the list; hd does not occur in the rest *)
    assert (Hh: ~ In hd (heads w)).
    { intros Hh. apply heads_in_nodes in Hh. apply (D hd); auto. left; auto. }
    assert (Eid : on_list hd f w = w).
    { clear - Hh. unfold on_list. induction w; simpl; auto. simpl in Hh.
      destruct (Z.eqb_spec (fst a) hd); [exfalso; auto|]. f_equal; auto. }
    rewrite Eid. rewrite nodes_cons. cbn [fst snd].
    destruct p as [a l]. cbn [fst snd] in *. subst a.
    destruct (Hf l ND1 (or_introl eq_refl)) as [N1 N2].
    apply NoDup_app_intro; auto.
    intros x [<-|Hx]; [apply D; left; auto|].
    destruct (N2 x Hx) as [Hy|Hy]; [apply D; auto|].
    intros Hz. apply Hy. rewrite nodes_cons. apply in_or_app; auto.
  - rewrite nodes_cons. apply NoDup_app_intro; auto.
    + apply IH; auto. intros l Hl Hin. destruct (Hf l Hl (or_intror Hin)) as [N1 N2]. split; auto.
      intros x Hx. destruct (N2 x Hx); auto. right. intros Hy. apply H. rewrite nodes_cons. apply in_or_app; auto.
    + intros x Hx Hy. apply in_nodes_iff in Hy. destruct Hy as (p' & Hp' & Hy).
      apply in_map_iff in Hp'. destruct Hp' as (p0 & Ep & Hp0).
      destruct (Z.eqb_spec (fst p0) hd) as [E0|E0].
      * subst p'. cbn [fst snd] in Hy. destruct Hy as [Hy|Hy].
        { apply (D x); auto. eapply in_nodes; eauto. left; auto. }
        destruct p0 as [a l]. cbn [fst snd] in *. subst a.
        assert (NDp: NoDup (hd :: l)) by (apply (world_nodup w (hd, l)); auto).
        destruct (Hf l NDp (or_intror Hp0)) as [N1 N2].
        destruct (N2 x Hy) as [Hz|Hz].
        -- apply (D x); auto. eapply in_nodes; eauto.
        -- apply Hz. rewrite nodes_cons. apply in_or_app; auto.
      * subst p'. apply (D x); auto. eapply in_nodes; eauto.
Qed.

Lemma without_nodes w n x : In x (nodes (without n w)) -> In x (nodes w).
Proof.
  intros H. apply in_nodes_iff in H. destruct H as (p' & Hp' & Hx).
  apply in_map_iff in Hp'. destruct Hp' as (p & <- & Hp). cbn [fst snd] in Hx.
  eapply in_nodes; eauto. destruct Hx as [->|Hx]; [left; auto|]. apply filter_In in Hx. right; tauto.
Qed.

Lemma without_ok w n : world_ok w -> world_ok (without n w).
Proof.
  unfold world_ok. induction w as [|p w IH]; intros ND; [constructor|].
  rewrite nodes_cons in ND. apply NoDup_app_inv in ND. destruct ND as (ND1 & ND2 & D).
  change (without n (p :: w)) with ((fst p, filter (fun x => negb (x =? n)) (snd p)) :: without n w).
  rewrite nodes_cons. cbn [fst snd]. inversion ND1; subst.
  apply NoDup_app_intro; auto.
  - constructor; [|apply NoDup_filter; auto]. intros Hi. apply filter_In in Hi. tauto.
  - intros x Hx Hy. apply without_nodes in Hy. apply (D x); auto.
    destruct Hx as [->|Hx]; [left; auto|]. apply filter_In in Hx. right; tauto.
Qed.

Lemma heads_on_list hd f w : heads (on_list hd f w) = heads w.
Proof. unfold heads, on_list. rewrite map_map. apply map_ext. intros p. destruct (_ =? _); auto. Qed.
Lemma heads_without n w : heads (without n w) = heads w.
Proof. unfold heads, without. rewrite map_map. apply map_ext. auto. Qed.

Lemma queued_not_head w n : world_ok w -> queued w n -> ~ In n (heads w).
Proof.
  intros OK (p & Hp & Hn) Hh. apply in_map_iff in Hh. destruct Hh as (p0 & E & Hp0).
  assert (p0 = p). { apply (world_disjoint w p0 p n); auto; [left; auto|right; auto]. }
  subst p0. pose proof (world_nodup _ _ OK Hp) as ND. inversion ND; subst. congruence.
Qed.

Lemma without_not_in w n : world_ok w -> queued w n -> ~ In n (nodes (without n w)).
Proof.
  intros OK Q Hi. apply in_nodes_iff in Hi. destruct Hi as (p' & Hp' & Hx).
  apply in_map_iff in Hp'. destruct Hp' as (p & <- & Hp). cbn [fst snd] in Hx.
  destruct Hx as [Hx|Hx].
  - apply (queued_not_head w n OK Q). apply in_map_iff. exists p; auto.
  - apply filter_In in Hx. destruct Hx as [_ Hx]. rewrite Z.eqb_refl in Hx. discriminate.
Qed.

Lemma add_world_ok w n hd : world_ok w -> ~ In n (nodes w) -> world_ok (on_list hd (fun l => n :: l) w).
Proof.
  intros OK NI. apply on_list_ok; auto. intros l ND Hin.
  assert (~ In n (hd :: l)) by (intros Hx; apply NI; eapply in_nodes; eauto).
  split.
  - inversion ND; subst. constructor; [intros [->|Hx]; [apply H; left; auto|auto]|].
    constructor; auto. intros Hx; apply H; right; auto.
  - intros x [<-|Hx]; [right; auto|left; right; auto].
Qed.

Lemma add_tail_world_ok w n hd : world_ok w -> ~ In n (nodes w) -> world_ok (on_list hd (fun l => l ++ [n]) w).
Proof.
  intros OK NI. apply on_list_ok; auto. intros l ND Hin.
  assert (~ In n (hd :: l)) by (intros Hx; apply NI; eapply in_nodes; eauto).
  split.
  - change (hd :: l ++ [n]) with ((hd :: l) ++ [n]). apply NoDup_app_intro; auto.
    + constructor; auto. constructor.
    + intros x Hx [<-|[]]. auto.
  - intros x Hx. apply in_app_or in Hx. destruct Hx as [Hx|[<-|[]]]; [left; right; auto|right; auto].
Qed.

(* --- splice --- *)
Lemma find_head w a : In a (heads w) -> world_ok w -> exists l, In (a, l) w /\ contents a w = l /\
   (forall l', In (a, l') w -> l' = l).
Proof.
  intros H OK. unfold contents.
  destruct (find (fun p => fst p =? a) w) as [p|] eqn:F.
  - apply find_some in F. destruct F as [F1 F2]. apply Z.eqb_eq in F2.
    exists (snd p). destruct p as [a' l]; cbn [fst snd] in *. subst a'. split; auto. split; auto.
    intros l' Hl'. assert ((a, l') = (a, l)). { eapply world_disjoint; eauto; left; auto. } congruence.
  - apply in_map_iff in H. destruct H as (p & E & Hp). pose proof (find_none _ _ F _ Hp). simpl in H.
    rewrite E, Z.eqb_refl in H. discriminate.
Qed.

Lemma splice_rings h la lb a b :
  ring h a la -> ring h b lb -> NoDup ((a :: la) ++ (b :: lb)) -> la <> [] ->
  ring (__llist_splice h a b) b (la ++ lb).
Proof.
  intros Ra Rb ND Hne.
  pose proof (NoDup_app_inv _ _ ND) as (NDa & NDb & D).
  unfold ring in *. unfold __llist_splice.
  rewrite (path_first _ _ _ _ Ra), (path_last _ _ _ _ Ra), (path_first _ _ _ _ Rb).
  destruct la as [|x la']; [congruence|]. clear Hne. simpl List.hd.
  inversion NDa as [|? ? Ha NDa']; subst. inversion NDb as [|? ? Hb NDb']; subst.
  destruct la' as [|y la'] using rev_ind.
  - (* single element *)
    simpl app. simpl last in *. set (h' := set_prv _ _ _). cbn [path].
    assert (x <> b) by (intros ->; apply (D b); [right; left; auto|left; auto]).
    destruct lb as [|z lb'].
    + simpl List.hd in *. cbn [path]. subst h'. heq. 
      rewrite !Z.eqb_refl. repeat split; eqbs; auto.
    + simpl List.hd in *. cbn [path].
      assert (x <> z) by (intros ->; apply (D z); [right; left; auto|right; left; auto]).
      assert (z <> b) by (intros ->; apply Hb; left; auto).
      cbn [path] in Rb. destruct Rb as (B1 & B2 & B3).
      split; [subst h'; heq; rewrite ?Z.eqb_refl; eqbs; auto|].
      split; [subst h'; heq; rewrite ?Z.eqb_refl; eqbs; auto|].
      split; [subst h'; heq; rewrite ?Z.eqb_refl; eqbs; auto|].
      split; [subst h'; heq; rewrite ?Z.eqb_refl; eqbs; auto|].
      eapply path_frame; [| |exact B3].
      * intros w Hw. subst h'. heq.
        assert (w <> b) by (intros ->; apply Hb; auto).
        assert (w <> x) by (intros ->; apply (D x); [right; left; auto|right; auto]).
        eqbs; auto.
      * intros w Hw. subst h'. heq.
        assert (w <> z). { intros ->. apply in_app_or in Hw. inversion NDb'; subst. destruct Hw as [Hw|[Hw|[]]]; auto. }
        assert (w <> x). { intros ->. apply in_app_or in Hw. destruct Hw as [Hw|[Hw|[]]].
           - apply (D x); [right; left; auto|right; right; auto]. - congruence. }
        eqbs; auto.
  - clear IHla'.
    replace (last (x :: la' ++ [y]) a) with y in * by (rewrite app_comm_cons, last_last; auto).
    set (h' := set_prv _ _ _).
    simpl app. rewrite <- app_assoc. simpl app. cbn [path].
    assert (x <> b) by (intros ->; apply (D b); [right; left; auto|left; auto]).
    assert (Hyin: In y (a :: x :: la' ++ [y])) by (right; right; apply in_or_app; right; left; auto).
    assert (y <> b) by (intros ->; apply (D b); [auto|left; auto]).
    assert (x <> y). { intros ->. inversion NDa'; subst. apply H3. apply in_or_app; right; left; auto. }
    cbn [path] in Ra. destruct Ra as (A1 & A2 & A3). apply path_app in A3. destruct A3 as [A3 A4].
    assert (Hz : let z := List.hd b lb in z <> x /\ z <> y).
    { cbv zeta. pose proof (hd_in b lb) as G. split; intros E; rewrite E in G.
      - apply (D x); [right; left; auto|auto]. - apply (D y); auto. }
    cbv zeta in Hz. set (z := List.hd b lb) in *. destruct Hz as [Hz1 Hz2].
    split; [subst h'; heq; rewrite ?Z.eqb_refl; eqbs; auto|].
    split; [subst h'; heq; rewrite ?Z.eqb_refl; eqbs; auto|].
    apply path_app. split.
    + eapply path_frame; [| |exact A3].
      * intros w Hw. subst h'. heq.
        assert (w <> y). { intros ->. destruct Hw as [Hw|Hw]; [congruence|].
          inversion NDa'; subst. apply NoDup_app_inv in H5. destruct H5 as (_&_&DD). apply (DD y); auto. left; auto. }
        assert (w <> b). { intros ->. apply (D b); [|left; auto]. right. destruct Hw as [Hw|Hw]; [left; auto|right; apply in_or_app; auto]. }
        eqbs; auto.
      * intros w Hw. subst h'. heq.
        assert (w <> x). { intros ->. inversion NDa'; subst. auto. }
        assert (w <> z). { intros ->. apply (D z); [right; right; auto|]. apply hd_in. }
        eqbs; auto.
    + destruct lb as [|z' lb'].
      * subst z. simpl List.hd in *. cbn [path]. subst h'. heq. rewrite ?Z.eqb_refl. split; eqbs; auto.
      * subst z. simpl List.hd in *. cbn [path]. cbn [path] in Rb. destruct Rb as (B1 & B2 & B3).
        assert (z' <> b) by (intros ->; apply Hb; left; auto).
        split; [subst h'; heq; rewrite ?Z.eqb_refl; eqbs; auto|].
        split; [subst h'; heq; rewrite ?Z.eqb_refl; eqbs; auto|].
        eapply path_frame; [| |exact B3].
        -- intros w Hw. subst h'. heq.
           assert (w <> b) by (intros ->; apply Hb; auto).
           assert (w <> y) by (intros ->; apply (D y); [auto|right; auto]).
           eqbs; auto.
        -- intros w Hw. subst h'. heq.
           assert (w <> z'). { intros ->. apply in_app_or in Hw. inversion NDb'; subst. destruct Hw as [Hw|[Hw|[]]]; auto. }
           assert (w <> x). { intros ->. apply in_app_or in Hw. destruct Hw as [Hw|[Hw|[]]].
             - apply (D x); [right; left; auto|right; right; auto]. - congruence. }
           eqbs; auto.
Qed.

Lemma splice_other h a b la lb x :
  ring h a la -> ring h b lb -> ~ In x (a :: la) -> ~ In x (b :: lb) ->
  nxt (__llist_splice h a b) x = nxt h x /\ prv (__llist_splice h a b) x = prv h x.
Proof.
  intros Ra Rb Xa Xb. unfold ring in *. unfold __llist_splice.
  rewrite (path_first _ _ _ _ Ra), (path_last _ _ _ _ Ra), (path_first _ _ _ _ Rb).
  pose proof (hd_in a la). pose proof (last_in a la). pose proof (hd_in b lb).
  assert (x <> List.hd a la) by (intros ->; auto).
  assert (x <> last la a) by (intros ->; auto).
  assert (x <> List.hd b lb) by (intros ->; auto).
  assert (x <> b) by (intros ->; apply Xb; left; auto).
  heq. split; eqbs; auto.
Qed.

Lemma empty_iff h hd l : ring h hd l -> NoDup (hd :: l) -> llist_empty h hd = match l with [] => true | _ => false end.
Proof.
  intros R ND. unfold llist_empty. rewrite (path_first _ _ _ _ R).
  destruct l; simpl; [apply Z.eqb_refl|]. inversion ND; subst.
  destruct (Z.eqb_spec z hd); auto. subst. exfalso; apply H1; left; auto.
Qed.

Lemma rep_splice h w a b : world_ok w -> represents h w -> In a (heads w) -> In b (heads w) -> a <> b ->
  represents (llist_splice_init h a b) (l_step w (LSpliceInit a b)).
Proof.
  intros OK R Ha Hb Hab. cbn [l_step].
  destruct (find_head w a Ha OK) as (la & Ia & Ca & Ua). destruct (find_head w b Hb OK) as (lb & Ib & Cb & Ub).
  rewrite Ca. unfold represents in *. rewrite Forall_forall in *.
  pose proof (R _ Ia) as Ra. pose proof (R _ Ib) as Rb. cbn [fst snd] in Ra, Rb.
  pose proof (world_nodup _ _ OK Ia) as NDa. pose proof (world_nodup _ _ OK Ib) as NDb. cbn [fst snd] in NDa, NDb.
  assert (Dj: forall x, In x (a :: la) -> ~ In x (b :: lb)).
  { intros x X1 X2. assert ((a, la) = (b, lb)) by (eapply world_disjoint; eauto). congruence. }
  intros p' Hp'. unfold on_list in Hp'. rewrite map_map in Hp'. apply in_map_iff in Hp'.
  destruct Hp' as (p & Ep & Hp). destruct p as [c lc]. cbn [fst snd] in Ep.
  unfold llist_splice_init. rewrite (empty_iff _ _ _ Ra NDa).
  destruct la as [|x0 la'].
  - cbn [negb]. 
    destruct (Z.eqb_spec c a) as [E|E]; cbn [fst snd] in Ep.
    + destruct (Z.eqb_spec c b); [congruence|]. subst p'. cbn [fst snd]. subst c.
      assert (lc = []) by (apply Ua; auto). subst. exact Ra.
    + destruct (Z.eqb_spec c b); subst p'; cbn [fst snd].
      * subst c. assert (lc = lb) by (apply Ub; auto). subst. exact Rb.
      * apply (R _ Hp).
  - cbn [negb].
    destruct (Z.eqb_spec c a) as [E|E]; cbn [fst snd] in Ep.
    + destruct (Z.eqb_spec c b); [congruence|]. subst p'. cbn [fst snd]. subst c.
      unfold ring; cbn [path]. heq. rewrite Z.eqb_refl. auto.
    + destruct (Z.eqb_spec c b) as [E2|E2]; subst p'; cbn [fst snd].
      * subst c. assert (lc = lb) by (apply Ub; auto). subst lc.
        eapply ring_frame; [|apply splice_rings; [exact Ra|exact Rb| |discriminate]].
        -- intros z Hz. heq. 
           assert (z <> a). { intros ->. destruct Hz as [Hz|Hz]; [congruence|]. apply in_app_or in Hz.
             destruct Hz as [Hz|Hz]; [inversion NDa; subst; auto|]. apply (Dj a); [left; auto|right; auto]. }
           eqbs; auto.
        -- apply NoDup_app_intro; auto.
      * eapply ring_frame; [|apply (R _ Hp)]. cbn [fst snd]. intros z Hz.
        assert (Nz1: ~ In z (a :: x0 :: la')).
        { intros X. assert ((a, x0 :: la') = (c, lc)) by (eapply world_disjoint; eauto). congruence. }
        assert (Nz2: ~ In z (b :: lb)).
        { intros X. assert ((b, lb) = (c, lc)) by (eapply world_disjoint; eauto). congruence. }
        destruct (splice_other h a b (x0 :: la') lb z Ra Rb Nz1 Nz2) as [S1 S2].
        assert (z <> a) by (intros ->; apply Nz1; left; auto).
        unfold INIT_LLIST_HEAD. cbn [nxt prv set_prv set_nxt].
        destruct (Z.eqb_spec z a); [congruence|]. auto.
Qed.

Lemma NoDup_perm_app_swap : forall (x y z : list Z), NoDup (x ++ y ++ z) -> NoDup (y ++ x ++ z).
Proof.
  intros x y z H. apply NoDup_app_inv in H. destruct H as (H1 & H2 & H3).
  apply NoDup_app_inv in H2. destruct H2 as (H4 & H5 & H6).
  apply NoDup_app_intro; auto.
  - apply NoDup_app_intro; auto. intros k K1 K2. apply (H3 k); auto. apply in_or_app; auto.
  - intros k K1 K2. apply in_app_or in K2. destruct K2 as [K2|K2].
    + apply (H3 k); auto. apply in_or_app; auto.
    + apply (H6 k); auto.
Qed.

Lemma splice_world_ok w a b : world_ok w -> In a (heads w) -> In b (heads w) -> a <> b ->
  world_ok (l_step w (LSpliceInit a b)).
Proof.
  intros OK Ha Hb Hab. cbn [l_step].
  destruct (find_head w a Ha OK) as (la & Ia & Ca & Ua). rewrite Ca.
  assert (OK1 : world_ok (on_list a (fun _ => []) w)).
  { apply on_list_ok; auto. intros l ND _. split; [constructor; auto; constructor|intros x []]. }
  apply on_list_ok; auto.
  intros l ND Hin.
  unfold on_list in Hin. apply in_map_iff in Hin. destruct Hin as (p & Ep & Hp).
  destruct (Z.eqb_spec (fst p) a).
  { inversion Ep. congruence. }
  subst p.
  assert (Dj: forall x, In x (a :: la) -> ~ In x (b :: l)).
  { intros x X1 X2. assert ((a, la) = (b, l)) by exact (world_disjoint w (a, la) (b, l) x OK Ia Hp X1 X2). congruence. }
  pose proof (world_nodup _ _ OK Ia) as NDa. cbn [fst snd] in NDa. inversion NDa; subst.
  split.
  - change (b :: contents a w ++ l) with ([b] ++ contents a w ++ l).
    apply NoDup_perm_app_swap. simpl. apply NoDup_app_intro; auto.
    intros x X. apply Dj. right; auto.
  - intros x Hx. apply in_app_or in Hx. destruct Hx as [Hx|Hx]; [|left; right; auto].
    right. intros Hy. apply in_nodes_iff in Hy. destruct Hy as (p' & Hp' & Hy).
    unfold on_list in Hp'. apply in_map_iff in Hp'. destruct Hp' as (p & Ep & Hp').
    destruct (Z.eqb_spec (fst p) a) as [E|E].
    + subst p'. cbn [fst snd] in Hy. destruct Hy as [Hy|[]]. congruence.
    + subst p'. assert ((a, contents a w) = p). { apply (world_disjoint w _ _ x); auto. right; auto. } subst p. simpl in E. congruence.
Qed.

Lemma rep_move_gen h w n hd :
  world_ok w -> represents h w -> queued w n -> In hd (heads w) ->
  represents (__llist_del h (prv h n) (nxt h n)) (without n w).
Proof. intros. eapply rep_del; eauto. Qed.

Lemma l_step_ok h w o : world_ok w -> represents h w -> lop_ok w o ->
  world_ok (l_step w o) /\ represents (m_lop h o) (l_step w o).
Proof.
  intros OK R Ho. destruct o; cbn [lop_ok l_step m_lop] in *.
  - destruct Ho. split; [apply add_world_ok; auto|apply rep_add; auto].
  - destruct Ho. split; [apply add_tail_world_ok; auto|apply rep_add_tail; auto].
  - split; [apply without_ok; auto|apply rep_llist_del; auto].
  - destruct Ho as [Q H]. pose proof (without_not_in _ _ OK Q). pose proof (without_ok w n OK).
    split; [apply add_world_ok; auto|].
    unfold llist_move. apply rep_add; auto.
    + eapply rep_move_gen; eauto.
    + rewrite heads_without; auto.
  - destruct Ho as [Q H]. pose proof (without_not_in _ _ OK Q). pose proof (without_ok w n OK).
    split; [apply add_tail_world_ok; auto|].
    unfold llist_move_tail. apply rep_add_tail; auto.
    + eapply rep_move_gen; eauto.
    + rewrite heads_without; auto.
  - destruct Ho as (H1 & H2 & H3). split; [apply splice_world_ok; auto|apply rep_splice; auto].
Qed.

Lemma l_run_ok ops : forall h w, world_ok w -> represents h w -> lops_ok w ops ->
  world_ok (run l_step w ops) /\ represents (run m_lop h ops) (run l_step w ops).
Proof.
  induction ops; intros h w OK R Ho; cbn [run fold_left]; auto.
  destruct Ho as [Ho1 Ho2]. destruct (l_step_ok h w a OK R Ho1). apply IHops; auto.
Qed.

(* traversal yields exactly the contents *)
Lemma walk_path h hd l : forall a fuel, path h a l hd -> ~ In hd l -> (length l <= fuel)%nat ->
  llist_walk fuel h (nxt h a) hd = Some l.
Proof.
  induction l; intros a0 fuel P NI Hf; cbn [path] in P.
  - destruct P as [-> _]. destruct fuel; simpl; rewrite Z.eqb_refl; auto.
  - destruct P as (-> & _ & P). destruct fuel; [simpl in Hf; lia|]. simpl.
    destruct (Z.eqb_spec a hd); [exfalso; apply NI; left; auto|].
    rewrite IHl; auto; [intros X; apply NI; right; auto|simpl in Hf; lia].
Qed.

Lemma walk_ok h w p : world_ok w -> represents h w -> In p w ->
  llist_walk (length (snd p)) h (nxt h (fst p)) (fst p) = Some (snd p) /\
  (llist_empty h (fst p) = true <-> snd p = []).
Proof.
  intros OK R Hp. unfold represents in R. rewrite Forall_forall in R. specialize (R p Hp).
  pose proof (world_nodup _ _ OK Hp) as ND. split.
  - apply walk_path; auto. inversion ND; auto.
  - rewrite (empty_iff _ _ _ R ND). destruct (snd p); intuition congruence.
Qed.

Lemma init_rep hds : forall h a, ring h a [] -> ring (run INIT_LLIST_HEAD h hds) a [].
Proof.
  induction hds as [|x t IH]; intros h a R; cbn; auto.
  apply IH. unfold ring, path in *. cbn. destruct (Z.eqb_spec a x); subst; auto.
Qed.
Lemma init_all hds : forall h a, In a hds -> ring (run INIT_LLIST_HEAD h hds) a [].
Proof.
  induction hds as [|x t IH]; intros h a Ha; [destruct Ha|].
  destruct Ha as [->|Ha].
  - cbn. apply init_rep. unfold ring, path. cbn. rewrite Z.eqb_refl. auto.
  - cbn. apply IH; auto.
Qed.

Lemma llist_fresh h hds ops : NoDup hds ->
  let w0 := map (fun a => (a, [])) hds in
  let h' := run m_lop (run INIT_LLIST_HEAD h hds) ops in
  lops_ok w0 ops ->
  Forall (fun p => llist_walk (length (snd p)) h' (nxt h' (fst p)) (fst p) = Some (snd p) /\
                   (llist_empty h' (fst p) = true <-> snd p = [])) (run l_step w0 ops).
Proof.
  intros ND w0 h' Ok.
  assert (W0 : world_ok w0).
  { unfold world_ok, w0, nodes. clear -ND. induction hds; cbn; auto. inversion ND; subst.
    constructor; auto. rewrite flat_map_concat_map, map_map. cbn.
    intros Hi. apply H1. clear -Hi. induction hds; cbn in *; auto. destruct Hi; auto. }
  assert (R0 : represents (run INIT_LLIST_HEAD h hds) w0).
  { unfold represents, w0. apply Forall_forall. intros p Hp. apply in_map_iff in Hp.
    destruct Hp as (a & <- & Ha). cbn. apply init_all; auto. }
  destruct (l_run_ok ops _ _ W0 R0 Ok) as [W1 R1].
  apply Forall_forall. intros p Hp. apply walk_ok with (w := run l_step w0 ops); auto.
Qed.

Lemma rep_llist_del_init h w n : world_ok w -> represents h w -> queued w n ->
  represents (llist_del_init h n) (without n w) /\ ring (llist_del_init h n) n [].
Proof.
  intros OK R Q. split.
  - eapply rep_del; eauto. intros x Hx. unfold llist_del_init, INIT_LLIST_HEAD. split.
    + cbn [nxt set_prv]. cbn [nxt set_nxt]. destruct (Z.eqb_spec x n); [congruence|]. reflexivity.
    + cbn [prv set_prv]. destruct (Z.eqb_spec x n); [congruence|]. reflexivity.
  - unfold ring, path, llist_del_init, INIT_LLIST_HEAD. cbn [nxt prv set_prv set_nxt]. rewrite Z.eqb_refl. auto.
Qed.
