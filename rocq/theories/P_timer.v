From Verif Require Import Base M_rbtree S_rbtree P_rbtree P_rbtree2 M_timer S_timer.
Local Ltac sp := repeat match goal with |- _ /\ _ => split end.

Lemma filter_length_le {A} (f : A -> bool) l : (length (filter f l) <= length l)%nat.
Proof. induction l as [|x l IH]; cbn [filter length]; [lia|]. destruct (f x); cbn [length]; lia. Qed.
Lemma tvle_trans a b c : tvle a b = true -> tvle b c = true -> tvle a c = true.
Proof. unfold tvle, tvlt. intros. destruct (tsec b =? tsec a) eqn:?, (tsec c =? tsec b) eqn:?, (tsec c =? tsec a) eqn:?; lia. Qed.
Lemma tvle_lt a b : tvle a b = negb (tvlt b a). Proof. reflexivity. Qed.
Lemma tvlt_le a b : tvlt a b = true -> tvle a b = true.
Proof. unfold tvle, tvlt. intros. destruct (tsec a =? tsec b) eqn:?, (tsec b =? tsec a) eqn:?; lia. Qed.
Lemma tvle_refl a : tvle a a = true. Proof. unfold tvle, tvlt. rewrite Z.eqb_refl, Z.ltb_irrefl. reflexivity. Qed.

Lemma q_del_in e t q : In e (q_del t q) <-> In e q /\ fst e <> t.
Proof. unfold q_del. rewrite filter_In. split; intros [? ?]; split; auto; lia. Qed.
Lemma q_del_notin t q : ~ In t (map fst q) -> q_del t q = q.
Proof.
  induction q as [|e q IH]; intros H; auto. cbn [q_del filter]. cbn [map In] in H.
  replace (fst e =? t) with false by lia. cbn [negb]. f_equal. apply IH. tauto.
Qed.
Lemma sorted_filter f q : q_sorted q -> q_sorted (filter f q).
Proof.
  induction q as [|e q IH]; cbn [filter q_sorted]; auto. intros [H1 H2]. destruct (f e); cbn [q_sorted]; auto. split; auto.
  intros e' H. apply filter_In in H. apply H1. tauto.
Qed.
Lemma sorted_app a b : q_sorted a -> q_sorted b -> (forall x y, In x a -> In y b -> tvle (snd x) (snd y) = true) -> q_sorted (a ++ b).
Proof.
  induction a as [|e a IH]; cbn [app q_sorted]; auto. intros [H1 H2] Hb H. split.
  - intros e' Hi. apply in_app_or in Hi. destruct Hi as [Hi|Hi]; auto. apply H; cbn; auto.
  - apply IH; auto. intros. apply H; cbn; auto.
Qed.
Lemma sorted_parts x q : q_sorted q -> q = filter (fun e => tvle (snd e) x) q ++ filter (fun e => tvlt x (snd e)) q.
Proof.
  induction q as [|e q IH]; auto. intros [H1 H2]. cbn [filter]. rewrite tvle_lt. destruct (tvlt x (snd e)) eqn:E; cbn [negb].
  - replace (filter (fun e0 => tvle (snd e0) x) q) with (@nil (Z * tv)).
    + cbn [app]. f_equal. clear IH H2. induction q as [|y q IH]; auto. cbn [filter].
      assert (Q : tvlt x (snd y) = true). { specialize (H1 y (or_introl eq_refl)). destruct (tvlt x (snd y)) eqn:F; auto.
        assert (tvle (snd y) x = true) by (rewrite tvle_lt, F; auto). pose proof (tvle_trans _ _ _ H1 H). rewrite tvle_lt, E in H0. discriminate. }
      rewrite Q. f_equal. apply IH. intros e' He. apply H1. right; auto.
    + symmetry. clear IH H2. induction q as [|y q IH]; auto. cbn [filter].
      assert (Q : tvle (snd y) x = false). { specialize (H1 y (or_introl eq_refl)). destruct (tvle (snd y) x) eqn:F; auto.
        pose proof (tvle_trans _ _ _ H1 F). rewrite tvle_lt, E in H. discriminate. }
      rewrite Q. apply IH. intros e' He. apply H1. right; auto.
  - cbn [app]. f_equal. apply IH; auto.
Qed.
Lemma q_del_sorted t q : q_sorted q -> q_sorted (q_del t q).
Proof. apply sorted_filter. Qed.
Lemma q_add_sorted t x q : q_sorted q -> q_sorted (q_add t x q).
Proof.
  intros H. unfold q_add. apply sorted_app.
  - apply sorted_filter, q_del_sorted; auto.
  - split; [|apply sorted_filter, q_del_sorted; auto]. intros e' He. apply filter_In in He. apply tvlt_le. tauto.
  - intros a b Ha [<-|Hb]; apply filter_In in Ha; [tauto|]. apply filter_In in Hb. eapply tvle_trans; [apply Ha|]. apply tvlt_le. tauto.
Qed.

Lemma map_fst_del t : forall a x b, NoDup (map fst (a ++ (t, x) :: b)) -> q_del t (a ++ (t, x) :: b) = a ++ b.
Proof.
  intros a x b ND. rewrite map_app in ND. cbn [map fst] in ND. apply NoDup_remove in ND. destruct ND as [_ Hn].
  unfold q_del. rewrite filter_app. cbn [filter fst]. rewrite Z.eqb_refl. cbn [negb].
  rewrite in_app_iff in Hn. fold (q_del t a) (q_del t b). rewrite !q_del_notin by tauto. reflexivity.
Qed.

Lemma implements_nodup s q : implements s q -> NoDup (map fst q) /\ ~ In 0 (map fst q).
Proof. intros (t & (H1 & H2 & H3 & H4) & _ & <- & _). auto. Qed.

Lemma del_ok fuel s q t : implements s q -> t <> 0 -> (length q + 2 <= fuel)%nat ->
  exists s', timer_del fuel s t = Ok s' /\ implements s' (q_del t q) /\ evict s' = (if act s t then remove Z.eq_dec t (evict s) else evict s) /\ tmo s' = tmo s.
Proof.
  intros H Ht Hf. pose proof (implements_nodup _ _ H) as [ND N0]. destruct H as (tr & Hh & Hr & Hi & Hm & Ha & Hs). unfold timer_del. destruct (act s t) eqn:Ea.
  - pose proof (proj1 (Ha t) Ea) as Hin. apply in_map_iff in Hin. destruct Hin as ((t' & x) & Et & Hin). cbn [fst] in Et. subst t'.
    destruct (in_split _ _ Hin) as (a & b & ->). rewrite (map_fst_del t a x b ND). rewrite map_app in Hi, ND. cbn [map fst] in Hi, ND.
    destruct (erase_thm _ _ t (map fst a) (map fst b) fuel Hh Hr Hi) as (h' & t' & -> & Hh' & Hr' & Hi').
    { rewrite Hi, app_length. cbn [length]. rewrite !map_length. rewrite app_length in Hf. cbn [length] in Hf. lia. }
    cbn [bind]. eexists. split; [reflexivity|]. split; [|split; reflexivity]. exists t'. cbn [theap tmo act]. sp; auto.
    + rewrite map_app. auto.
    + intros e He. apply Hm. apply in_app_iff in He. apply in_or_app. cbn [In]. tauto.
    + intros z. unfold setf. apply NoDup_remove in ND. rewrite map_app. destruct (z =? t) eqn:Ez.
      * assert (z = t) by lia. subst z. split; [discriminate|]. tauto.
      * rewrite Ha, map_app. cbn [map fst]. rewrite !in_app_iff. cbn [In]. split; intros; try tauto. destruct H as [?|[?|?]]; auto. lia.
    + rewrite <- (map_fst_del t a x b) by (rewrite map_app; exact ND). apply q_del_sorted; auto.
  - exists s. split; auto. split; [|split; auto]. assert (Hn : ~ In t (map fst q)) by (rewrite <- Ha, Ea; discriminate).
    rewrite q_del_notin by auto. exists tr. sp; auto.
Qed.

Lemma map_fst_filter_in f (q : queue) z : In z (map fst (filter f q)) -> In z (map fst q).
Proof. rewrite !in_map_iff. intros (e & ? & H). apply filter_In in H. exists e. tauto. Qed.
Lemma length_q_del t q : (length (q_del t q) <= length q)%nat.
Proof. unfold q_del. apply filter_length_le. Qed.
Lemma length_q_add t x q : q_sorted q -> (length (q_add t x q) <= length q + 1)%nat.
Proof.
  intros H. unfold q_add. rewrite app_length. cbn [length]. pose proof (sorted_parts x _ (q_del_sorted t _ H)) as Q. apply (f_equal (@length _)) in Q. rewrite app_length in Q.
  pose proof (length_q_del t q). lia.
Qed.

Lemma add_ok fuel s q t : implements s q -> t <> 0 -> (length q + 2 <= fuel)%nat -> forall x,
  exists s', timer_add fuel (Ts (theap s) (setf (tmo s) t x) (act s) (evict s)) t = Ok s' /\ implements s' (q_add t x q) /\
    evict s' = (if act s t then remove Z.eq_dec t (evict s) else evict s).
Proof.
  intros H Ht Hf x. unfold timer_add.
  (* deletion does not look at the timeouts *)
  assert (D : exists s1, timer_del fuel (Ts (theap s) (setf (tmo s) t x) (act s) (evict s)) t = Ok (Ts (theap s1) (setf (tmo s) t x) (act s1) (evict s1)) /\
                timer_del fuel s t = Ok s1).
  { destruct (del_ok fuel s q t H Ht Hf) as (s1 & E1 & _). exists s1. split; auto. revert E1. unfold timer_del. cbn [act theap tmo evict]. destruct (act s t).
    - destruct (rb_erase fuel (theap s) t); cbn [bind]; intros [= <-]; reflexivity.
    - intros [= <-]. reflexivity. }
  destruct D as (s1 & -> & E1). cbn [bind theap tmo act evict].
  destruct (del_ok fuel s q t H Ht Hf) as (s1' & E1' & Hi1 & Hev & Htm). rewrite E1 in E1'. injection E1' as <-.
  pose proof (implements_nodup _ _ Hi1) as [ND N0]. destruct Hi1 as (tr & Hh & Hr & Hin & Hm & Ha & Hs).
  assert (Hnt : ~ In t (map fst (q_del t q))). { rewrite in_map_iff. intros (e & Ee & He). apply q_del_in in He. tauto. }
  pose proof (length_q_del t q) as HL.
  destruct (insert_ok (theap s1) tr (fun z => tvlt (setf (tmo s) t x t) (setf (tmo s) t x z)) t fuel (proj1 (holds_Zp _ _) Hh) Hr Ht) as (h' & t' & a & b & -> & Q2 & Q3 & Q4 & Q5 & Q6).
  { rewrite Hin. auto. } { rewrite Hin, map_length. lia. }
  cbn [bind]. eexists. split; [reflexivity|]. split; [|exact Hev].
  set (A := filter (fun e => tvle (snd e) x) (q_del t q)) in *. set (C := filter (fun e => tvlt x (snd e)) (q_del t q)) in *.
  pose proof (sorted_parts x _ Hs) as HP. fold A C in HP.
  assert (Hsub : forall e, In e (q_del t q) -> setf (tmo s) t x (fst e) = snd e).
  { intros e He. unfold setf. pose proof (proj1 (q_del_in _ _ _) He) as [_ ?]. replace (fst e =? t) with false by lia. rewrite <- Htm. apply Hm; auto. }
  assert (Hst : setf (tmo s) t x t = x) by (unfold setf; rewrite Z.eqb_refl; auto).
  destruct (Q6 (map fst A) (map fst C)) as [-> ->].
  { rewrite Hin, HP, map_app. reflexivity. }
  { intros z Hz. rewrite in_map_iff in Hz. destruct Hz as (e & <- & He). unfold A in He. apply filter_In in He. rewrite Hst, Hsub by tauto. destruct He as [_ He]. rewrite tvle_lt in He. destruct (tvlt x (snd e)); auto; discriminate. }
  { intros z Hz. rewrite in_map_iff in Hz. destruct Hz as (e & <- & He). unfold C in He. apply filter_In in He. rewrite Hst, Hsub by tauto. tauto. }
  exists t'. cbn [theap tmo act]. sp; auto.
  - apply holds_Zp; auto.
  - rewrite Q5. unfold q_add. fold A C. rewrite map_app. reflexivity.
  - intros e He. unfold q_add in He. fold A C in He. apply in_app_iff in He. cbn [In] in He. destruct He as [He|[<-|He]]; [|exact Hst|]; apply Hsub; [unfold A in He|unfold C in He]; apply filter_In in He; tauto.
  - intros z. unfold q_add. fold A C. rewrite map_app. cbn [map fst]. rewrite in_app_iff. cbn [In]. unfold setf. destruct (z =? t) eqn:Ez.
    + split; auto. intros _. right; left; lia.
    + rewrite Ha. rewrite HP at 1. rewrite map_app, in_app_iff. split; [tauto|]. intros [?|[?|?]]; auto. lia.
  - apply q_add_sorted. destruct H as (? & _ & _ & _ & _ & _ & ?). auto.
Qed.

Lemma chk_in z : - 2 ^ 63 <= z < 2 ^ 63 -> chk64 z = Ok z.
Proof. intros H. unfold chk64. change (2 ^ 63) with 9223372036854775808 in H. replace (_ && _) with true by lia. reflexivity. Qed.
Lemma tvadd_ok now s us : clock_ok now -> is_s32 s -> is_s32 us -> tvadd (Tv s us) now = Ok (later now s us).
Proof.
  intros [H1 H2] Hs Hu. unfold is_s32 in *. unfold tvadd, later. cbn [tsec tusec]. change (2 ^ 62) with 4611686018427387904 in H1.
  rewrite !chk_in by (change (2 ^ 63) with 9223372036854775808; lia). cbn [bind]. rewrite (Z.add_comm us).
  destruct (1000000 <=? tusec now + us).
  - rewrite chk_in by (change (2 ^ 63) with 9223372036854775808; lia). cbn [bind]. f_equal. f_equal; lia.
  - f_equal. f_equal; lia.
Qed.

Lemma op_run fuel s q o : implements s q -> op_ok o -> (length q + 2 <= fuel)%nat ->
  exists s', timer_op fuel s o = Ok s' /\ implements s' (q_op q o) /\
    evict s' = (if act s (target o) then remove Z.eq_dec (target o) (evict s) else evict s).
Proof.
  intros H [Ht Ho] Hf. destruct o as [t x|now t a b|t]; cbn [target timer_op q_op] in *.
  - apply add_ok; auto.
  - unfold timer_schedule. rewrite tvadd_ok by tauto. cbn [bind]. apply add_ok; auto.
  - destruct (del_ok fuel s q t H Ht Hf) as (s' & ? & ? & ? & ?). exists s'. auto.
Qed.
Lemma q_op_len q o : q_sorted q -> (length (q_op q o) <= length q + 1)%nat.
Proof. intros H. destruct o; cbn [q_op]; try apply length_q_add; auto. pose proof (length_q_del t q). lia. Qed.
Lemma q_op_sorted q o : q_sorted q -> q_sorted (q_op q o).
Proof. intros. destruct o; cbn [q_op]; auto using q_add_sorted, q_del_sorted. Qed.

Definition untouched (l : list Z) (z : Z) : bool := negb (existsb (Z.eqb z) l).
Lemma remove_filter t l : remove Z.eq_dec t l = filter (untouched [t]) l.
Proof. induction l as [|z l IH]; auto. cbn [remove filter]. unfold untouched at 1. cbn [existsb]. destruct (Z.eq_dec t z); [subst; rewrite Z.eqb_refl; auto|]. replace (z =? t) with false by lia. cbn. f_equal. auto. Qed.
Lemma filter_filter {A} (f g : A -> bool) l : filter f (filter g l) = filter (fun z => g z && f z) l.
Proof. induction l as [|z l IH]; auto. cbn [filter]. destruct (g z); cbn [filter andb]; [|auto]. destruct (f z); [f_equal; auto|auto]. Qed.

(* timers on the eviction list are pending *)
Definition ev_ok_st (s : tst) : Prop := forall z, In z (evict s) -> act s z = true.
Lemma imp_act s q z : implements s q -> act s z = true <-> In z (map fst q).
Proof. intros (? & _ & _ & _ & _ & H & _). apply H. Qed.
Lemma q_del_keep t q z : z <> t -> In z (map fst q) -> In z (map fst (q_del t q)).
Proof. intros Hz H. apply in_map_iff in H. destruct H as (e & <- & He). apply in_map. apply q_del_in. auto. Qed.
Lemma q_add_keep t x q z : q_sorted q -> z <> t -> In z (map fst q) -> In z (map fst (q_add t x q)).
Proof.
  intros Hs Hz H. apply (q_del_keep t) in H; auto. rewrite (sorted_parts x _ (q_del_sorted t _ Hs)) in H. unfold q_add. rewrite map_app, in_app_iff in *. cbn [map In]. tauto.
Qed.
Lemma q_op_keep q o z : q_sorted q -> z <> target o -> In z (map fst q) -> In z (map fst (q_op q o)).
Proof. destruct o; cbn [target q_op]; intros; auto using q_add_keep, q_del_keep. Qed.

Lemma imp_sorted s q : implements s q -> q_sorted q.
Proof. intros (? & _ & _ & _ & _ & _ & H). apply H. Qed.

Lemma ev_filter s (b : bool) t : ev_ok_st s -> b = act s t -> (if b then remove Z.eq_dec t (evict s) else evict s) = filter (untouched [t]) (evict s).
Proof.
  intros He ->. rewrite <- remove_filter. destruct (act s t) eqn:E; auto. rewrite notin_remove; auto. intros Hi. rewrite (He t Hi) in E. discriminate.
Qed.

Lemma ops_run fuel : forall os s q, implements s q -> Forall op_ok os -> ev_ok_st s -> (length q + length os + 2 <= fuel)%nat ->
  exists s', timer_ops fuel s os = Ok s' /\ implements s' (q_ops q os) /\ ev_ok_st s' /\ evict s' = filter (untouched (map target os)) (evict s) /\ (length (q_ops q os) <= length q + length os)%nat.
Proof.
  induction os as [|o os IH]; intros s q H Hl He Hf; cbn [timer_ops q_ops fold_left].
  - exists s. sp; auto; [|cbn [length]; lia]. cbn [map]. symmetry. clear. induction (evict s) as [|z l IH]; auto. cbn [filter]. cbn. f_equal. auto.
  - apply Forall_cons_iff in Hl. destruct Hl as [Ho Hl]. cbn [length] in Hf. destruct (op_run fuel s q o H Ho) as (s1 & -> & H1 & E1); [lia|]. cbn [bind].
    rewrite (ev_filter s _ _ He eq_refl) in E1.
    pose proof (q_op_len q o (imp_sorted _ _ H)) as HL.
    destruct (IH s1 (q_op q o) H1 Hl) as (s2 & -> & H2 & He2 & E2 & L2).
    { intros z Hz. rewrite E1 in Hz. apply filter_In in Hz. destruct Hz as [Hz Hu]. unfold untouched in Hu. cbn [existsb] in Hu. apply (imp_act _ _ _ H1). apply q_op_keep; [apply imp_sorted with s; auto|lia|]. apply (imp_act _ _ _ H). apply He; auto. }
    { lia. }
    exists s2. sp; auto; [|cbn [length]; fold (q_ops (q_op q o) os); lia]. rewrite E2, E1, filter_filter. apply filter_ext. intros z. unfold untouched. cbn [map existsb]. rewrite orb_false_r, negb_orb. reflexivity.
Qed.

Lemma untouched_app a b z : untouched (a ++ b) z = untouched a z && untouched b z.
Proof. unfold untouched. rewrite existsb_app, negb_orb. reflexivity. Qed.

Definition cbsize (cbs : list (list top)) : nat := length (concat cbs).
Lemma cbsize_cons cbs : cbsize cbs = (length (hd [] cbs) + cbsize (tl cbs))%nat.
Proof. destruct cbs; cbn [hd tl]; unfold cbsize; cbn [concat]; [reflexivity|rewrite app_length; auto]. Qed.
Lemma fire_ok fuel : forall n cand touched s q cbs, implements s q -> ev_ok_st s -> evict s = filter (untouched touched) cand -> NoDup cand ->
  Forall (Forall op_ok) cbs -> (length cand < n)%nat -> (length q + cbsize cbs + 2 <= fuel)%nat -> (forall z, In z cand -> z <> 0) ->
  exists s', fire n fuel s cbs = Ok (s', snd (q_fire cand touched q cbs)) /\ implements s' (fst (q_fire cand touched q cbs)) /\ evict s' = [] /\
    (length (fst (q_fire cand touched q cbs)) <= length q + cbsize cbs)%nat.
Proof.
  intros n cand. revert n. induction cand as [|t cand IH]; intros n touched s q cbs H He Ev ND Hc Hn Hf H0.
  - destruct n; [cbn in Hn; lia|]. cbn [fire q_fire fst snd]. cbn [filter] in Ev. rewrite Ev. exists s. sp; auto. lia.
  - inversion ND as [|? ? Hnt ND']; subst. cbn [q_fire]. cbn [filter] in Ev. unfold untouched at 1 in Ev. destruct (existsb (Z.eqb t) touched) eqn:Et; cbn [negb] in Ev.
    + cbn [length] in Hn. apply IH; auto; [lia|intros; apply H0; right; auto].
    + destruct n as [|n]; [cbn in Hn; lia|]. cbn [fire]. rewrite Ev. cbn [length] in Hn. rewrite cbsize_cons in Hf.
      assert (Ht0 : t <> 0) by (apply H0; left; auto).
      destruct (del_ok fuel s q t H Ht0) as (s1 & -> & H1 & E1 & _); [lia|]. cbn [bind]. rewrite (ev_filter s _ _ He eq_refl) in E1. rewrite Ev in E1.
      assert (E1' : evict s1 = filter (untouched touched) cand).
      { rewrite E1. cbn [filter]. unfold untouched at 1. cbn [existsb]. rewrite Z.eqb_refl. cbn [orb negb]. rewrite filter_filter. apply filter_ext_in. intros z Hz. unfold untouched at 2. cbn [existsb]. replace (z =? t) with false by (symmetry; apply Z.eqb_neq; congruence). cbn. apply andb_true_r. }
      pose proof (length_q_del t q) as HL.
      assert (Hc' : Forall op_ok (hd [] cbs)) by (destruct cbs; cbn [hd]; auto; inversion Hc; auto).
      destruct (ops_run fuel (hd [] cbs) s1 (q_del t q) H1 Hc') as (s2 & -> & H2 & He2 & E2 & L2).
      { intros z Hz. apply (imp_act _ _ _ H1). assert (In z cand) by (rewrite E1' in Hz; apply filter_In in Hz; tauto). apply q_del_keep; [congruence|]. apply (imp_act _ _ _ H). apply He. rewrite Ev. right. rewrite E1' in Hz. auto. }
      { lia. }
      cbn [bind]. set (touched' := touched ++ map target (hd [] cbs)).
      destruct (IH n touched' s2 (q_ops (q_del t q) (hd [] cbs)) (tl cbs) H2 He2) as (s3 & E3 & H3 & Ev3 & L3); auto.
      { rewrite E2, E1', filter_filter. apply filter_ext. intros z. unfold touched'. rewrite untouched_app. reflexivity. }
      { destruct cbs; cbn [tl]; auto. inversion Hc; auto. } { lia. } { lia. } { intros; apply H0; right; auto. }
      rewrite E3. cbn [bind]. destruct (q_fire cand touched' (q_ops (q_del t q) (hd [] cbs)) (tl cbs)) as [qf lf]. cbn [fst snd] in *.
      exists s3. sp; auto. rewrite (cbsize_cons cbs). lia.
Qed.

Lemma collect_ok fuel s now tr : forall q2 n q1 acc, holds (theap s) tr -> inorder tr = map fst (q1 ++ q2) -> (forall e, In e (q1 ++ q2) -> tmo s (fst e) = snd e) -> q_sorted q2 ->
  (length q2 < n)%nat -> (length (inorder tr) < fuel)%nat ->
  collect n fuel s now (hd 0 (map fst q2)) acc = Ok (rev (due now q2) ++ acc).
Proof.
  induction q2 as [|e q2 IH]; intros n q1 acc Hh Hi Hm Hs Hn Hf.
  - destruct n; [cbn in Hn; lia|]. reflexivity.
  - destruct n; [cbn in Hn; lia|]. cbn [map hd collect].
    assert (He : In e (q1 ++ e :: q2)) by (apply in_or_app; right; left; auto).
    assert (H0 : fst e =? 0 = false). { destruct Hh as (_ & _ & _ & H4). rewrite Hi in H4. apply Z.eqb_neq. intros E. apply H4. rewrite <- E. apply in_map; auto. }
    rewrite H0. rewrite (Hm e He). destruct Hs as [Hs1 Hs2]. unfold due. cbn [filter]. rewrite tvle_lt. destruct (tvlt now (snd e)) eqn:El; cbn [negb].
    + (* everything behind is later still *)
      replace (filter (fun e0 => tvle (snd e0) now) q2) with (@nil (Z * tv)); [reflexivity|]. symmetry. clear IH Hs2 Hi Hm He Hn. induction q2 as [|y q2 IH]; auto. cbn [filter].
      replace (tvle (snd y) now) with false. { apply IH. intros; apply Hs1; right; auto. }
      specialize (Hs1 y (or_introl eq_refl)). destruct (tvle (snd y) now) eqn:F; auto. pose proof (tvle_trans _ _ _ Hs1 F) as Q. rewrite tvle_lt, El in Q. discriminate.
    + destruct (walk_thm (theap s) tr fuel Hh Hf) as (_ & _ & Hw). rewrite map_app in Hi. cbn [map] in Hi. destruct (Hw _ _ _ Hi) as [-> _]. cbn [bind].
      rewrite (IH n (q1 ++ [e])); auto.
      * cbn [map rev]. rewrite <- app_assoc. cbn [app]. reflexivity.
      * rewrite <- app_assoc. cbn [app]. rewrite map_app. auto.
      * rewrite <- app_assoc. auto.
      * cbn in Hn. lia.
Qed.

Lemma update_ok fuel s q now cbs : implements s q -> Forall (Forall op_ok) cbs -> (length q + length (concat cbs) + 2 <= fuel)%nat ->
  exists s', timers_update fuel s now cbs = Ok (s', snd (q_pass now q cbs), match snd (q_pass now q cbs) with [] => 0 | _ => 1 end) /\
    implements s' (fst (q_pass now q cbs)) /\ evict s' = [] /\ (length (fst (q_pass now q cbs)) <= length q + cbsize cbs)%nat.
Proof.
  intros H Hc Hf. pose proof H as (tr & Hh & Hr & Hi & Hm & Ha & Hs). pose proof (implements_nodup _ _ H) as [ND N0]. unfold timers_update, q_pass.
  assert (HL : (length (inorder tr) < fuel)%nat) by (rewrite Hi, map_length; lia).
  destruct (walk_thm (theap s) tr fuel Hh HL) as (-> & _ & _). cbn [bind]. rewrite Hi.
  rewrite (collect_ok fuel s now tr q fuel [] []); auto; [|lia]. cbn [bind]. rewrite app_nil_r.
  assert (Sub : forall z, In z (rev (due now q)) -> In z (map fst q)). { intros z Hz. apply in_rev in Hz. unfold due in Hz. eapply map_fst_filter_in; eauto. }
  destruct (fire_ok fuel fuel (rev (due now q)) [] (Ts (theap s) (tmo s) (act s) (rev (due now q))) q cbs) as (s' & -> & H' & Ev & L'); auto.
  - intros z Hz. cbn [evict act] in *. apply Ha. auto.
  - cbn [evict]. symmetry. clear. induction (rev (due now q)) as [|z l IH]; auto. cbn [filter]. cbn. f_equal; auto.
  - apply NoDup_rev. unfold due. clear - ND. induction q as [|e q IH]; cbn [filter map]; [constructor|]. cbn [map] in ND. inversion ND; subst. destruct (tvle (snd e) now); cbn [map]; auto. constructor; auto. intros Q. apply map_fst_filter_in in Q. tauto.
  - rewrite rev_length. unfold due. rewrite map_length. pose proof (filter_length_le (fun e => tvle (snd e) now) q). lia.
  - intros z Hz E. subst z. apply N0. auto.
  - cbn [bind]. exists s'. auto.
Qed.

Lemma run_ok fuel : forall es s q, implements s q -> evict s = [] -> Forall ev_ok es -> (length q + prog_size es + 2 <= fuel)%nat ->
  exists s', timer_run fuel s es = Ok (s', snd (q_run q es)) /\ implements s' (fst (q_run q es)) /\ evict s' = [].
Proof.
  induction es as [|[o|now cbs] es IH]; intros s q H He Hl Hf; cbn [timer_run q_run].
  - exists s. auto.
  - apply Forall_cons_iff in Hl. destruct Hl as [Ho Hl]. cbn [prog_size ev_size] in Hf. destruct (op_run fuel s q o H Ho) as (s1 & -> & H1 & E1); [lia|]. cbn [bind].
    apply IH; auto.
    + rewrite E1, He. destruct (act s (target o)); reflexivity.
    + pose proof (q_op_len q o (imp_sorted _ _ H)). lia.
  - apply Forall_cons_iff in Hl. destruct Hl as [Ho Hl]. cbn [prog_size ev_size ev_ok] in Hf, Ho. destruct (update_ok fuel s q now cbs H Ho) as (s1 & -> & H1 & E1 & L1); [lia|]. cbn [bind].
    destruct (q_pass now q cbs) as [q1 l1]. cbn [fst snd] in *. destruct (IH s1 q1 H1 E1 Hl) as (s2 & -> & H2 & E2). { unfold cbsize in L1. lia. }
    cbn [bind]. destruct (q_run q1 es) as [q2 ls]. cbn [fst snd] in *. exists s2. auto.
Qed.

Lemma init_ok h f : implements (timer_init h f) [].
Proof.
  exists E. cbn [theap timer_init]. sp; try (intros ? []); cbn; auto.
  - split; [reflexivity|]. split; [exact I|]. split; [constructor|intros []].
  - split; [exact I|]. exists O. reflexivity.
  - split; [discriminate|intros []].
Qed.

(* ---- facts about the specification, in plain terms ---- *)
Lemma subseq_in {A} (a b : list A) x : subseq a b -> In x a -> In x b.
Proof. induction 1; cbn; intros; tauto. Qed.
Lemma subseq_nodup {A} (a b : list A) : subseq a b -> NoDup b -> NoDup a.
Proof. induction 1; intros N; auto; inversion N; subst; auto. constructor; auto. intros Q. apply (subseq_in _ _ _ H) in Q. tauto. Qed.

Lemma q_fire_sub : forall cand touched q cbs, subseq (snd (q_fire cand touched q cbs)) cand.
Proof.
  induction cand as [|t cand IH]; intros; cbn [q_fire]. { constructor. }
  destruct (existsb (Z.eqb t) touched). { constructor. apply IH. }
  specialize (IH (touched ++ map target (hd [] cbs)) (q_ops (q_del t q) (hd [] cbs)) (tl cbs)). destruct (q_fire cand _ _ _) as [q' l]. cbn [snd] in *. apply sub_take; auto.
Qed.
(* a candidate is passed over only because it was touched before its turn *)
Lemma q_fire_all : forall cand touched q cbs t, In t cand -> ~ In t (snd (q_fire cand touched q cbs)) ->
  In t touched \/ exists i, (i < length (snd (q_fire cand touched q cbs)))%nat /\ In t (map target (nth i cbs [])).
Proof.
  induction cand as [|c cand IH]; intros touched q cbs t Hin Hn. { destruct Hin. } cbn [q_fire] in *.
  destruct (existsb (Z.eqb c) touched) eqn:E.
  - destruct Hin as [<-|Hin]; [|apply IH; auto]. left. apply existsb_exists in E. destruct E as (y & Hy & Ey). apply Z.eqb_eq in Ey. subst. auto.
  - specialize (IH (touched ++ map target (hd [] cbs)) (q_ops (q_del c q) (hd [] cbs)) (tl cbs) t). destruct (q_fire cand _ _ _) as [q' l]. cbn [snd length] in *.
    destruct Hin as [->|Hin]; [exfalso; apply Hn; left; auto|]. destruct IH as [Ht|(i & Hi & Ht)]; auto. { intros Q. apply Hn. right; auto. }
    + apply in_app_or in Ht. destruct Ht as [Ht|Ht]; auto. right. exists O. split; [lia|]. destruct cbs; auto.
    + right. exists (S i). split; [lia|]. destruct cbs; cbn [nth tl] in *; auto; destruct i; auto.
Qed.
(* a fired timer was not touched by the callbacks before it *)
Lemma q_fire_untouched : forall cand touched q cbs i t, nth_error (snd (q_fire cand touched q cbs)) i = Some t ->
  ~ In t touched /\ forall j, (j < i)%nat -> ~ In t (map target (nth j cbs [])).
Proof.
  induction cand as [|c cand IH]; intros touched q cbs i t H; cbn [q_fire] in *. { destruct i; discriminate. }
  destruct (existsb (Z.eqb c) touched) eqn:E; [eapply IH; eauto|].
  specialize (IH (touched ++ map target (hd [] cbs)) (q_ops (q_del c q) (hd [] cbs)) (tl cbs)). destruct (q_fire cand _ _ _) as [q' l]. cbn [snd] in *.
  destruct i as [|i]; cbn [nth_error] in H.
  - injection H as ->. split; [|intros; lia]. intros Q. assert (existsb (Z.eqb t) touched = true) by (apply existsb_exists; exists t; split; auto; apply Z.eqb_refl). congruence.
  - specialize (IH i t H). destruct IH as [H1 H2]. rewrite in_app_iff in H1. split; [tauto|]. intros [|j] Hj.
    + destruct cbs; cbn [nth hd] in *; tauto.
    + specialize (H2 j ltac:(lia)). destruct cbs; cbn [nth tl] in *; auto; destruct j; auto.
Qed.
Lemma q_fire_queue : forall cand touched q cbs, fst (q_fire cand touched q cbs) = q_ops q (pass_ops (snd (q_fire cand touched q cbs)) cbs).
Proof.
  induction cand as [|c cand IH]; intros touched q cbs; cbn [q_fire]; auto.
  destruct (existsb (Z.eqb c) touched) eqn:E; auto.
  specialize (IH (touched ++ map target (hd [] cbs)) (q_ops (q_del c q) (hd [] cbs)) (tl cbs)). destruct (q_fire cand _ _ _) as [q' l]. cbn [fst snd pass_ops] in *.
  rewrite IH. unfold q_ops. cbn [fold_left q_op]. rewrite fold_left_app. reflexivity.
Qed.

Lemma due_in q now t : In t (due now q) <-> exists x, In (t, x) q /\ tvlt now x = false.
Proof.
  unfold due. rewrite in_map_iff. split.
  - intros ((t' & x) & <- & H). apply filter_In in H. cbn [fst snd] in *. exists x. rewrite tvle_lt in H. destruct H as [? H]. split; auto. destruct (tvlt now x); auto.
  - intros (x & H & E). exists (t, x). split; auto. apply filter_In. cbn [snd]. rewrite tvle_lt, E. auto.
Qed.

(* ---- prepare, check, remaining ---- *)
Lemma prepare_ok fuel s q now : implements s q -> (length q < fuel)%nat ->
  timers_prepare fuel s now = match q with [] => Ok None | (_, x) :: _ => update_nearest x now end.
Proof.
  intros H Hf. pose proof H as (tr & Hh & Hr & Hi & Hm & Ha & Hs). pose proof (implements_nodup _ _ H) as [ND N0]. unfold timers_prepare.
  destruct (walk_thm (theap s) tr fuel Hh) as (-> & _ & _); [rewrite Hi, map_length; lia|]. cbn [bind]. rewrite Hi. destruct q as [|[t x] q]; auto. cbn [map hd fst].
  replace (t =? 0) with false. { f_equal. apply (Hm (t, x)). left; auto. } symmetry. apply Z.eqb_neq. intros ->. apply N0. left; auto.
Qed.
Lemma check_ok fuel s tr : forall (q2 : queue) n (q1 : queue) i, holds (theap s) tr -> inorder tr = map fst (q1 ++ q2) -> (length q2 < n)%nat -> (length (inorder tr) < fuel)%nat ->
  check_loop n fuel s (hd 0 (map fst q2)) i = Ok (i + zlen q2).
Proof.
  induction q2 as [|e q2 IH]; intros n q1 i Hh Hi Hn Hf; (destruct n; [cbn in Hn; lia|]); cbn [map hd check_loop].
  - rewrite Z.eqb_refl. f_equal. unfold zlen. cbn [length]. lia.
  - assert (H0 : fst e =? 0 = false). { destruct Hh as (_ & _ & _ & H4). rewrite Hi in H4. apply Z.eqb_neq. intros E. apply H4. rewrite <- E. apply in_map. apply in_or_app. right; left; auto. }
    rewrite H0. destruct (walk_thm (theap s) tr fuel Hh Hf) as (_ & _ & Hw). rewrite map_app in Hi. cbn [map] in Hi. destruct (Hw _ _ _ Hi) as [-> _]. cbn [bind].
    rewrite (IH n (q1 ++ [e])); auto. { f_equal. unfold zlen. cbn [length]. lia. } { rewrite <- app_assoc. cbn [app]. rewrite map_app. auto. } { cbn in Hn. lia. }
Qed.
Lemma timers_check_ok fuel s q : implements s q -> (length q < fuel)%nat -> timers_check fuel s = Ok (zlen q).
Proof.
  intros H Hf. destruct H as (tr & Hh & Hr & Hi & Hm & Ha & Hs). unfold timers_check.
  assert (HL : (length (inorder tr) < fuel)%nat) by (rewrite Hi, map_length; lia).
  destruct (walk_thm (theap s) tr fuel Hh HL) as (-> & _ & _). cbn [bind]. rewrite Hi. rewrite (check_ok fuel s tr q fuel [] 0); auto.
Qed.

(* microseconds *)
Lemma tvlt_us a b : clock_ok a -> clock_ok b -> tvlt a b = (usecs a <? usecs b).
Proof. unfold clock_ok, usecs, tvlt. intros [? ?] [? ?]. destruct (tsec a =? tsec b) eqn:?; lia. Qed.
Lemma later_us now s us : clock_ok now -> 0 <= us < 1000000 -> usecs (later now s us) = usecs now + s * 1000000 + us /\ 0 <= tusec (later now s us) < 1000000.
Proof. unfold clock_ok, usecs, later. intros [? ?] ?. destruct (1000000 <=? tusec now + us) eqn:?; cbn [tsec tusec]; lia. Qed.
Lemma tvsub_ok a b : clock_ok a -> clock_ok b -> exists r, tvsub a b = Ok r /\ usecs r = usecs a - usecs b /\ 0 <= tusec r < 1000000.
Proof.
  unfold clock_ok. intros [H1 H2] [H3 H4]. unfold tvsub. change (2 ^ 62) with 4611686018427387904 in *. 
  rewrite chk_in by (change (2 ^ 63) with 9223372036854775808; lia). cbn [bind]. rewrite chk_in by (change (2 ^ 63) with 9223372036854775808; lia). cbn [bind].
  destruct (tusec a - tusec b <? 0) eqn:E.
  - rewrite chk_in by (change (2 ^ 63) with 9223372036854775808; lia). cbn [bind]. eexists. split; [reflexivity|]. unfold usecs. cbn [tsec tusec]. lia.
  - eexists. split; [reflexivity|]. unfold usecs. cbn [tsec tusec]. lia.
Qed.

Lemma nearest_ok x now : clock_ok x -> clock_ok now ->
  exists r, update_nearest x now = Ok (Some r) /\ usecs r = Z.max 0 (usecs x - usecs now) /\ 0 <= tusec r < 1000000.
Proof.
  intros Hx Hn. unfold update_nearest. pose proof Hx as [H1 _]. change (2 ^ 62) with 4611686018427387904 in H1. replace (tsec x =? 9223372036854775807) with false by lia.
  rewrite tvlt_us by auto. destruct (usecs now <? usecs x) eqn:E.
  - destruct (tvsub_ok x now Hx Hn) as (r & -> & Q1 & Q2). cbn [bind]. exists r. split; auto. split; auto. lia.
  - exists (Tv 0 0). split; auto. unfold usecs at 1. cbn [tsec tusec]. lia.
Qed.
Lemma s32_id x : - 2 ^ 31 <= x < 2 ^ 31 -> s32 x = x.
Proof. unfold s32, u32. change (2 ^ 31) with 2147483648. intros. destruct (x mod 4294967296 <? 2147483648) eqn:?; lia. Qed.
Lemma nearest_ms_ok r : 0 <= usecs r < 2147483647 * 1000 -> 0 <= tusec r < 1000000 ->
  exists ms, nearest_ms (Some r) = Ok ms /\ usecs r <= ms * 1000 < usecs r + 1000.
Proof.
  unfold usecs. intros H1 H2. unfold nearest_ms. rewrite !chk_in by (change (2 ^ 63) with 9223372036854775808; lia). cbn [bind].
  rewrite (s32_id (tsec r * 1000)) by (change (2 ^ 31) with 2147483648; lia). rewrite Z.quot_div_nonneg by lia.
  eexists. split; [reflexivity|]. rewrite s32_id by (change (2 ^ 31) with 2147483648; lia). lia.
Qed.

Lemma sorted_head t x q e : q_sorted ((t, x) :: q) -> In e ((t, x) :: q) -> tvlt (snd e) x = false.
Proof. intros [H _] [<-|Hi]. { cbn [snd]. pose proof (tvle_refl x) as Q. rewrite tvle_lt in Q. destruct (tvlt x x); auto. } specialize (H e Hi). cbn [snd] in H. rewrite tvle_lt in H. destruct (tvlt (snd e) x); auto. Qed.
