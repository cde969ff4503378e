From Verif Require Import Base M_itq S_itq.

(* how many wake-ups the thread still stands for *)
Definition credit (p : pc) : Z :=
  match p with
  | EqInc _ | EqUnl _ | EqEv _ => 1
  | DqWant k | DqIn k => k
  | DqDec k m | DqUnl k m | DqRet k m => if (m =? 0) || (k =? 0) then 0 else k - 1
  | _ => 0
  end.
Fixpoint sum (l : list pc) : Z := match l with [] => 0 | p :: t => credit p + sum t end.

(* difference between queue length and counter while t is in its critical section *)
Definition skew (p : pc) : Z := match p with EqInc _ => -1 | DqDec _ m => if m =? 0 then 0 else 1 | _ => 0 end.
Definition pc_ok (p : pc) : Prop :=
  match p with
  | EqWant m | EqIn m | EqAdd m | EqInc m | EqUnl m | EqFull m | EqEv m => m <> 0
  | DqWant k | DqIn k => 0 <= k
  | DqDec k m | DqUnl k m | DqRet k m => 0 <= k
  | _ => True
  end.

Record inv (s : st) : Prop := Inv {
  i_cs : forall t p, nth_error (pcs s) t = Some p -> (in_cs p = true <-> owner s = Some t);
  i_own : forall t, owner s = Some t -> exists p, nth_error (pcs s) t = Some p;
  i_max : 0 <= maxl s < 4294967295;
  i_len : zlen (q s) <= maxl s;
  i_free : owner s = None -> cur s = zlen (q s);
  i_cur : forall t p, nth_error (pcs s) t = Some p -> owner s = Some t ->
    match p with
    | FlIn => zlen (q s) <= cur s <= maxl s
    | FlZero => q s = [] /\ 0 <= cur s <= maxl s
    | EqFull _ => zlen (q s) = cur s /\ cur s = maxl s
    | EqAdd _ => zlen (q s) = cur s /\ cur s < maxl s
    | p => cur s = zlen (q s) + skew p
    end;
  i_efd : 0 <= efd s < 18446744073709551616;
  i_credit : zlen (q s) <= efd s + sum (pcs s);
  i_pcs : Forall pc_ok (pcs s);
  i_q : ~ In 0 (q s);
  i_log : accepted (log s) = removed (log s) ++ q s;
  i_give : forall t p, nth_error (pcs s) t = Some p -> taken t (log s) = given t (log s) ++ holding p
}.

Lemma sum_upd l : forall t p p', nth_error l t = Some p -> sum (upd l t p') = sum l - credit p + credit p'.
Proof.
  induction l as [|x l IH]; intros [|t] p p' H; cbn in *; try discriminate.
  - injection H as ->. lia.
  - rewrite (IH t p p' H). lia.
Qed.
Lemma sum_nonneg l : Forall pc_ok l -> 0 <= sum l.
Proof.
  induction 1 as [|p l Hp _ IH]; cbn [sum]; [lia|]. assert (0 <= credit p); [|lia].
  destruct p; cbn [credit pc_ok] in *; try lia; destruct (Z.eqb_spec m 0), (Z.eqb_spec k 0); cbn [orb]; lia.
Qed.

Lemma nth_upd (l : list pc) t p u : nth_error (upd l t p) u = if Nat.eqb t u then (if Nat.ltb t (length l) then Some p else None) else nth_error l u.
Proof.
  rewrite upd_nth_error. destruct (Nat.eqb_spec t u); cbn [andb]; auto. subst.
  destruct (Nat.ltb_spec u (length l)); auto. apply nth_error_None. lia.
Qed.

Lemma acc_app a b : accepted (a ++ b) = accepted a ++ accepted b. Proof. apply flat_map_app. Qed.
Lemma rem_app a b : removed (a ++ b) = removed a ++ removed b. Proof. apply flat_map_app. Qed.
Lemma tak_app t a b : taken t (a ++ b) = taken t a ++ taken t b. Proof. apply flat_map_app. Qed.
Lemma giv_app t a b : given t (a ++ b) = given t a ++ given t b. Proof. apply flat_map_app. Qed.

Section STEP.
Variables (s : st) (t : nat) (p : pc).
Hypothesis I : inv s.
Hypothesis Hp : nth_error (pcs s) t = Some p.

Lemma t_lt : (t < length (pcs s))%nat.
Proof. apply nth_error_Some. congruence. Qed.

Lemma nth_upd_t p' u pu : nth_error (upd (pcs s) t p') u = Some pu -> (u = t /\ pu = p') \/ (u <> t /\ nth_error (pcs s) u = Some pu).
Proof.
  rewrite nth_upd. pose proof t_lt. destruct (Nat.eqb_spec t u); [|auto]. subst.
  destruct (Nat.ltb_spec u (length (pcs s))); [|lia]. intros [= <-]. auto.
Qed.

(* a step that keeps the critical-section status of t and the owner *)
Lemma inv_step (s' : st) p' :
  pcs s' = upd (pcs s) t p' -> maxl s' = maxl s ->
  (in_cs p' = true <-> owner s' = Some t) ->
  (forall u, u <> t -> (owner s' = Some u <-> owner s = Some u)) ->
  zlen (q s') <= maxl s ->
  (owner s' = None -> cur s' = zlen (q s')) ->
  (owner s' = Some t -> match p' with
    | FlIn => zlen (q s') <= cur s' <= maxl s
    | FlZero => q s' = [] /\ 0 <= cur s' <= maxl s
    | EqFull _ => zlen (q s') = cur s' /\ cur s' = maxl s
    | EqAdd _ => zlen (q s') = cur s' /\ cur s' < maxl s
    | p => cur s' = zlen (q s') + skew p end) ->
  (owner s <> Some t -> owner s' <> Some t -> q s' = q s /\ cur s' = cur s) ->
  0 <= efd s' < 18446744073709551616 ->
  zlen (q s') <= efd s' + (sum (pcs s) - credit p + credit p') ->
  pc_ok p' -> ~ In 0 (q s') ->
  accepted (log s') = removed (log s') ++ q s' ->
  (forall u, u <> t -> taken u (log s') = taken u (log s) /\ given u (log s') = given u (log s)) ->
  taken t (log s') = given t (log s') ++ holding p' ->
  inv s'.
Proof.
  intros Ep Em Hcs Hoth Hlen Hc0 Hc Hsame Hefd Hcred Hpc Hq Hlog Hl2 Hgive. destruct I. constructor.
  - rewrite Ep. intros u pu Hu. apply nth_upd_t in Hu. destruct Hu as [[-> ->]|[Hne Hu]]; auto. rewrite (i_cs0 u pu Hu). symmetry. apply Hoth; auto.
  - intros u Hu. rewrite Ep. destruct (Nat.eq_dec u t) as [->|Hne].
    + exists p'. rewrite nth_upd, Nat.eqb_refl. replace (Nat.ltb t (length (pcs s))) with true; auto. symmetry. apply Nat.ltb_lt. apply t_lt.
    + rewrite nth_upd. destruct (Nat.eqb_spec t u); [congruence|]. apply i_own0. apply Hoth; auto.
  - rewrite Em; auto.
  - rewrite Em; auto.
  - auto.
  - rewrite Ep, Em. intros u pu Hu Ho. apply nth_upd_t in Hu. destruct Hu as [[-> ->]|[Hne Hu]]; [apply Hc; auto|].
    pose proof (proj1 (Hoth u Hne) Ho) as Ho'. destruct Hsame as [-> ->]; [congruence|congruence|]. apply (i_cur0 u pu); auto. 
  - auto.
  - rewrite Ep, (sum_upd _ _ _ _ Hp). auto.
  - rewrite Ep. apply Forall_upd; auto.
  - auto.
  - auto.
  - rewrite Ep. intros u pu Hu. apply nth_upd_t in Hu. destruct Hu as [[-> ->]|[Hne Hu]]; auto.
    destruct (Hl2 u Hne) as [-> ->]. apply i_give0; auto.
Qed.
End STEP.

Ltac logs := cbn [log setpc setq setcur setefd setown emit]; rewrite ?acc_app, ?rem_app, ?tak_app, ?giv_app;
  cbn [accepted removed taken given flat_map]; rewrite ?app_nil_r.

Ltac fin := auto; try tauto; try lia; try congruence; try (split; congruence); try (intros Ho'; exfalso; congruence);
  try (intros Ho'; exfalso; match goal with H : _ <-> owner _ = _ |- _ => apply H in Ho' end; discriminate).

Lemma step_inv s t c s' : inv s -> sched_ok (t, c) -> step s t c = Some s' -> inv s'.
Proof.
  intros I Hc E. unfold step in E. destruct (nth_error (pcs s) t) as [p|] eqn:Hp; [|discriminate].
  pose proof (i_cs _ I t p Hp) as Hcs. pose proof (i_cur _ I t p Hp) as Hcur. pose proof (i_give _ I t p Hp) as Hg.
  pose proof (i_max _ I) as Hmax. pose proof (i_len _ I) as Hlen. pose proof (i_free _ I) as Hc0. pose proof (i_efd _ I) as Hefd.
  pose proof (i_credit _ I) as Hcr. pose proof (i_q _ I) as Hq. pose proof (i_log _ I) as Hlog.
  assert (Hpc : pc_ok p). { pose proof (i_pcs _ I) as F. rewrite Forall_forall in F. apply F. eapply nth_error_In; eauto. }
  pose proof (zlen_nonneg (q s)) as Hz.
  assert (Hsum : credit p <= sum (pcs s)).
  { pose proof (sum_upd (pcs s) t p Idle Hp) as Su. pose proof (sum_nonneg (upd (pcs s) t Idle)) as Sn. cbn [credit] in Su.
    assert (0 <= sum (upd (pcs s) t Idle)); [|lia]. apply Sn. apply Forall_upd; [apply (i_pcs _ I)|exact Logic.I]. }
  assert (NN : owner s = Some t -> forall u, u <> t -> ((None : option nat) = Some u <-> owner s = Some u)).
  { intros Ho u Hu. rewrite Ho. split; intros; congruence. }
  assert (NS : owner s = None -> forall u, u <> t -> (Some t = Some u <-> owner s = Some u)).
  { intros Ho u Hu. rewrite Ho. split; intros; congruence. }
  destruct p; cbn [in_cs] in Hcs; cbn [pc_ok] in Hpc; cbn [credit] in Hsum; cbn [holding] in Hg.
  - (* Idle *) injection E as <-. destruct c; eapply (inv_step s t _ I Hp); try reflexivity; cbn [setpc pcs maxl owner q cur efd log pc_ok credit holding in_cs]; fin.
  - (* EqWant *) unfold lock in E. destruct (owner s) eqn:Ho; [discriminate|]. injection E as <-. rewrite Hc0 in * by auto.
    eapply (inv_step s t _ I Hp); try reflexivity; cbn [setpc setown pcs maxl owner q cur efd log pc_ok credit holding in_cs skew]; fin.
  - (* EqIn *) injection E as <-. assert (Ho : owner s = Some t) by tauto. specialize (Hcur Ho). cbn [skew] in Hcur.
    rewrite u32_small by (unfold is_u32; lia). destruct (Z.ltb_spec (maxl s) (cur s + 1));
    eapply (inv_step s t _ I Hp); try reflexivity; cbn [setpc pcs maxl owner q cur efd log pc_ok credit holding in_cs skew]; fin.
  - (* EqAdd *) injection E as <-. assert (Ho : owner s = Some t) by tauto. specialize (Hcur Ho).
    eapply (inv_step s t _ I Hp); try reflexivity; cbn [emit setpc setq pcs maxl owner q cur efd pc_ok credit holding in_cs skew];
      rewrite ?zlen_app; change (zlen [m]) with 1; fin.
    + intros Hi. apply in_app_or in Hi. destruct Hi as [Hi|[Hi|[]]]; auto.
    + logs. rewrite Hlog, app_assoc. reflexivity.
    + intros u Hu. logs. auto.
    + logs. rewrite Hg, app_nil_r. reflexivity.
  - (* EqInc *) injection E as <-. assert (Ho : owner s = Some t) by tauto. specialize (Hcur Ho). cbn [skew] in Hcur.
    rewrite u32_small by (unfold is_u32; lia).
    eapply (inv_step s t _ I Hp); try reflexivity; cbn [setpc setcur pcs maxl owner q cur efd log pc_ok credit holding in_cs skew]; fin.
  - (* EqUnl *) unfold unlock in E. injection E as <-. assert (Ho : owner s = Some t) by tauto. specialize (Hcur Ho). cbn [skew] in Hcur.
    eapply (inv_step s t _ I Hp); try reflexivity; cbn [setpc setown pcs maxl owner q cur efd log pc_ok credit holding in_cs skew]; fin.
  - (* EqFull *) unfold unlock in E. injection E as <-. assert (Ho : owner s = Some t) by tauto. specialize (Hcur Ho).
    eapply (inv_step s t _ I Hp); try reflexivity; cbn [emit setpc setown pcs maxl owner q cur efd pc_ok credit holding in_cs skew]; fin.
    + logs. auto.
    + intros u Hu. logs. auto.
    + logs. rewrite Hg, app_nil_r. reflexivity.
  - (* EqEv *) destruct (Z.ltb_spec (efd s) 18446744073709551614); [|discriminate]. injection E as <-.
    eapply (inv_step s t _ I Hp); try reflexivity; cbn [setpc setefd pcs maxl owner q cur efd log pc_ok credit holding in_cs skew]; fin.
  - (* DqWant *) unfold lock in E. destruct (owner s) eqn:Ho; [discriminate|]. injection E as <-. rewrite Hc0 in * by auto.
    eapply (inv_step s t _ I Hp); try reflexivity; cbn [setpc setown pcs maxl owner q cur efd log pc_ok credit holding in_cs skew]; fin.
  - (* DqIn *) assert (Ho : owner s = Some t) by tauto. specialize (Hcur Ho). cbn [skew] in Hcur.
    destruct (q s) as [|m r] eqn:Eq; injection E as <-.
    + change (zlen (@nil Z)) with 0 in *.
      eapply (inv_step s t _ I Hp); try reflexivity; cbn [setpc pcs maxl owner q cur efd log pc_ok credit holding in_cs skew];
      rewrite ?Eq; change (zlen (@nil Z)) with 0; change (0 =? 0) with true; cbn [orb]; fin.
    + rewrite zlen_cons in *. assert (m <> 0) by (intros ->; apply Hq; left; auto). pose proof (zlen_nonneg r).
      eapply (inv_step s t _ I Hp); try reflexivity; cbn [emit setpc setq pcs maxl owner q cur efd pc_ok credit holding in_cs skew];
        replace (m =? 0) with false by lia; cbn [orb]; fin.
      * cbn [credit]. destruct (Z.eqb_spec k 0); lia.
      * intros Hi; apply Hq; right; auto.
      * logs. rewrite Hlog. rewrite <- app_assoc. reflexivity.
      * intros u Hu. logs. destruct (Nat.eqb_spec t u); [congruence|]. rewrite app_nil_r. auto.
      * logs. rewrite Nat.eqb_refl, Hg. rewrite !app_nil_r. reflexivity.
  - (* DqDec *) injection E as <-. assert (Ho : owner s = Some t) by tauto. specialize (Hcur Ho). cbn [skew] in Hcur.
    destruct (Z.eqb_spec m 0); cbn [negb]; rewrite ?u32_small by (unfold is_u32; lia);
    eapply (inv_step s t _ I Hp); try reflexivity; cbn [setpc setcur pcs maxl owner q cur efd log pc_ok credit holding in_cs skew]; fin.
    + rewrite Hg. replace (m =? 0) with true by lia. reflexivity.
    + rewrite Hg. replace (m =? 0) with false by lia. reflexivity.
  - (* DqUnl *) unfold unlock in E. injection E as <-. assert (Ho : owner s = Some t) by tauto. specialize (Hcur Ho). cbn [skew] in Hcur.
    eapply (inv_step s t _ I Hp); try reflexivity; cbn [setpc setown pcs maxl owner q cur efd log pc_ok credit holding in_cs skew]; fin.
  - (* DqRet *)
    assert (Ho : owner s <> Some t) by (intros Ho; apply Hcs in Ho; discriminate).
    destruct (Z.eqb_spec k 0).
    + injection E as <-. destruct (Z.eqb_spec m 0).
      * eapply (inv_step s t _ I Hp); try reflexivity; cbn [emit setpc pcs maxl owner q cur efd pc_ok credit holding in_cs skew]; fin.
        -- subst k m. cbn [credit Z.eqb orb] in *. lia.
        -- logs. auto.
        -- intros u Hu. logs. auto.
        -- logs. rewrite Hg, app_nil_r. reflexivity.
      * eapply (inv_step s t _ I Hp); try reflexivity; cbn [emit setpc pcs maxl owner q cur efd pc_ok credit holding in_cs skew]; fin.
        -- subst k. rewrite orb_true_r in *. lia.
        -- logs. auto.
        -- intros u Hu. logs. destruct (Nat.eqb_spec t u); [congruence|]. rewrite app_nil_r. auto.
        -- logs. rewrite Nat.eqb_refl, Hg. rewrite ?app_nil_r. try (replace (m =? 0) with false by lia). reflexivity.
    + destruct (Z.eqb_spec m 0).
      * injection E as <-.
        eapply (inv_step s t _ I Hp); try reflexivity; cbn [setpc pcs maxl owner q cur efd log pc_ok credit holding in_cs skew]; fin.
        -- subst m. cbn [orb Z.eqb] in *. lia.
      * injection E as <-. destruct (Z.eqb_spec k 1).
        -- eapply (inv_step s t _ I Hp); try reflexivity; cbn [emit setpc pcs maxl owner q cur efd pc_ok credit holding in_cs skew]; fin.
           ++ replace (m =? 0) with false in * by lia. replace (k =? 0) with false in * by lia. cbn [orb] in *. lia.
           ++ logs. auto.
           ++ intros u Hu. logs. destruct (Nat.eqb_spec t u); [congruence|]. rewrite app_nil_r. auto.
           ++ logs. rewrite Nat.eqb_refl, Hg. rewrite ?app_nil_r. try (replace (m =? 0) with false by lia). reflexivity.
        -- eapply (inv_step s t _ I Hp); try reflexivity; cbn [emit setpc pcs maxl owner q cur efd pc_ok credit holding in_cs skew]; fin.
           ++ replace (m =? 0) with false in * by lia. replace (k =? 0) with false in * by lia. cbn [orb] in *. lia.
           ++ logs. auto.
           ++ intros u Hu. logs. destruct (Nat.eqb_spec t u); [congruence|]. rewrite app_nil_r. auto.
           ++ logs. rewrite Nat.eqb_refl, Hg. rewrite ?app_nil_r. try (replace (m =? 0) with false by lia). reflexivity.
  - (* Disp *) destruct (Z.eqb_spec (efd s) 0); [discriminate|]. injection E as <-.
    eapply (inv_step s t _ I Hp); try reflexivity; cbn [setpc setefd pcs maxl owner q cur efd log pc_ok credit holding in_cs skew]; fin.
  - (* FlWant *) unfold lock in E. destruct (owner s) eqn:Ho; [discriminate|]. injection E as <-. rewrite Hc0 in * by auto.
    eapply (inv_step s t _ I Hp); try reflexivity; cbn [setpc setown pcs maxl owner q cur efd log pc_ok credit holding in_cs skew]; fin.
  - (* FlIn *) assert (Ho : owner s = Some t) by tauto. specialize (Hcur Ho). 
    destruct (q s) as [|m r] eqn:Eq; injection E as <-.
    + change (zlen (@nil Z)) with 0 in *.
      eapply (inv_step s t _ I Hp); try reflexivity; cbn [setpc pcs maxl owner q cur efd log pc_ok credit holding in_cs skew];
      rewrite ?Eq; change (zlen (@nil Z)) with 0; fin.
    + rewrite zlen_cons in *. assert (m <> 0) by (intros ->; apply Hq; left; auto). pose proof (zlen_nonneg r).
      eapply (inv_step s t _ I Hp); try reflexivity; cbn [emit setpc setq pcs maxl owner q cur efd pc_ok credit holding in_cs skew]; fin.
      * intros Hi; apply Hq; right; auto.
      * logs. rewrite Hlog. rewrite <- app_assoc. reflexivity.
      * intros u Hu. logs. auto.
      * logs. rewrite Hg. rewrite app_nil_r. reflexivity.
  - (* FlZero *) injection E as <-. assert (Ho : owner s = Some t) by tauto. specialize (Hcur Ho). destruct Hcur as [Eq Hcur].
    eapply (inv_step s t _ I Hp); try reflexivity; cbn [setpc setcur pcs maxl owner q cur efd log pc_ok credit holding in_cs skew];
      rewrite ?Eq in *; change (zlen (@nil Z)) with 0 in *; fin.
  - (* FlUnl *) unfold unlock in E. injection E as <-. assert (Ho : owner s = Some t) by tauto. specialize (Hcur Ho). cbn [skew] in Hcur.
    eapply (inv_step s t _ I Hp); try reflexivity; cbn [setpc setown pcs maxl owner q cur efd log pc_ok credit holding in_cs skew]; fin.
Qed.



Lemma runs_inv l : forall s, inv s -> Forall sched_ok l -> inv (runs s l).
Proof.
  induction l as [|[t c] l IH]; intros s I F; cbn [runs fold_left]; auto.
  apply IH; [|inversion F; auto]. unfold sstep. cbn [fst snd]. destruct (step s t c) eqn:E; auto.
  eapply step_inv; eauto. inversion F; auto.
Qed.

Lemma nth_repeat_idle n t p : nth_error (repeat Idle n) t = Some p -> p = Idle.
Proof. intros H. apply nth_error_In in H. apply repeat_spec in H. auto. Qed.
Lemma sum_idle n : sum (repeat Idle n) = 0.
Proof. induction n; cbn [repeat sum credit]; lia. Qed.

Lemma init_inv m n : 0 <= m < 4294967295 -> inv (init m n).
Proof.
  intros Hm. unfold init. constructor; cbn [q cur maxl efd owner pcs log]; change (zlen (@nil Z)) with 0; try lia; auto.
  - intros t p H. apply nth_repeat_idle in H. subst. split; discriminate.
  - intros t [=].
  - intros t p H [=].
  - rewrite sum_idle. lia.
  - apply Forall_forall. intros p Hp. apply repeat_spec in Hp. subst. exact Logic.I.
  - intros t p H. apply nth_repeat_idle in H. subst. reflexivity.
Qed.

Lemma sum_quiet l : Forall (fun p => signalling p = false /\ dispatching p = false) l -> sum l = 0.
Proof.
  induction 1 as [|p l [H1 H2] _ IH]; cbn [sum]; [auto|]. rewrite IH.
  destruct p; cbn [signalling dispatching credit] in *; try discriminate; auto;
    destruct (Z.eqb_spec k 0); try discriminate; subst; rewrite ?orb_true_r; auto.
Qed.

Lemma quiet_le s : inv s -> Forall (fun p => signalling p = false /\ dispatching p = false) (pcs s) -> zlen (q s) <= efd s.
Proof. intros I F. pose proof (i_credit _ I). rewrite (sum_quiet _ F) in H. lia. Qed.


Lemma owner_moves s t c : inv s -> owner s = Some t -> step s t c <> None.
Proof.
  intros I Ho. destruct (i_own _ I t Ho) as [p Hp]. pose proof (i_cs _ I t p Hp) as Hc. apply Hc in Ho.
  unfold step. rewrite Hp. destruct p; try discriminate; cbn [unlock]; try discriminate; destruct (q s); discriminate.
Qed.

Lemma sstep_eq s t c s' : step s t c = Some s' -> sstep s (t, c) = s'.
Proof. intros E. unfold sstep. cbn [fst snd]. rewrite E. auto. Qed.
Lemma runs_S s t c n s' : step s t c = Some s' -> runs s (alone t (S n) c) = runs s' (alone t n c).
Proof. intros E. cbn [alone repeat runs fold_left]. rewrite (sstep_eq _ _ _ _ E). auto. Qed.
Lemma runs_0 s t c : runs s (alone t 0 c) = s.
Proof. reflexivity. Qed.

Definition left (s : st) (p : pc) : nat :=
  match p with
  | EqIn _ => 4 | EqAdd _ => 3 | EqInc _ => 2 | EqUnl _ | EqFull _ => 1
  | DqIn _ => 3 | DqDec _ _ => 2 | DqUnl _ _ => 1
  | FlIn => 3 + length (q s) | FlZero => 2 | FlUnl => 1 | _ => 0
  end.

Lemma release s t c : sched_ok (t, c) -> inv s -> owner s = Some t -> exists n, owner (runs s (alone t n c)) = None.
Proof.
  intros Hc.
  assert (G : forall m s p, inv s -> owner s = Some t -> nth_error (pcs s) t = Some p -> (left s p <= m)%nat ->
    exists n, owner (runs s (alone t n c)) = None).
  { induction m as [|m IH]; intros s0 p I Ho Hp Hl.
    - pose proof (proj2 (i_cs _ I t p Hp) Ho) as Hcs. destruct p; cbn in Hcs, Hl; try discriminate; lia.
    - pose proof (proj2 (i_cs _ I t p Hp) Ho) as Hcs.
      destruct (step s0 t c) as [s1|] eqn:E; [|exfalso; apply (owner_moves s0 t c); auto].
      pose proof (step_inv _ _ _ _ I Hc E) as I1.
      assert (D : owner s1 = None \/ exists p1, owner s1 = Some t /\ nth_error (pcs s1) t = Some p1 /\ (left s1 p1 <= m)%nat).
      { pose proof (t_lt s0 t p Hp) as Lt. apply Nat.ltb_lt in Lt.
        unfold step in E. rewrite Hp in E.
        destruct p; cbn [in_cs] in Hcs; try discriminate; cbn [left] in Hl; cbn [unlock] in E;
          try (left; injection E as <-; reflexivity);
          try (right; injection E as <-; eexists; split; [|split; [cbn [emit setpc setq setcur pcs]; rewrite nth_upd, Nat.eqb_refl, Lt; reflexivity|]]; [exact Ho|cbn [left]; lia]).
        - right. injection E as <-. eexists. split; [|split; [cbn [emit setpc setq setcur pcs]; rewrite nth_upd, Nat.eqb_refl, Lt; reflexivity|]]; [exact Ho|].
          destruct (maxl s0 <? _); cbn [left]; lia.
        - right. destruct (q s0); injection E as <-; (eexists; split; [|split; [cbn [emit setpc setq setcur pcs]; rewrite nth_upd, Nat.eqb_refl, Lt; reflexivity|]]; [exact Ho|cbn [left]; lia]).
        - right. injection E as <-. eexists. split; [|split; [cbn [setpc pcs]|]].
          + cbn [setpc owner]. destruct (negb _); exact Ho.
          + destruct (negb _); cbn [setcur pcs]; rewrite nth_upd, Nat.eqb_refl, Lt; reflexivity.
          + cbn [left]. lia.
        - right. destruct (q s0) as [|m0 r] eqn:Eq; injection E as <-; (eexists; split; [|split; [cbn [emit setpc setq setcur pcs]; rewrite nth_upd, Nat.eqb_refl, Lt; reflexivity|]]; [exact Ho|cbn [left emit setpc setq q]; cbn [length] in Hl; lia]). }
      destruct D as [D|(p1 & D1 & D2 & D3)].
      + exists 1%nat. cbn [alone repeat runs fold_left]. rewrite (sstep_eq s0 t c s1 E). auto.
      + destruct (IH s1 p1 I1 D1 D2 D3) as [n Hn]. exists (S n).
        cbn [alone repeat runs fold_left]. rewrite (sstep_eq s0 t c s1 E). exact Hn. }
  intros I Ho. destruct (i_own _ I t Ho) as [p Hp]. eapply G; eauto.
Qed.


(* full check decision *)
Lemma full_iff s t c m : inv s -> nth_error (pcs s) t = Some (EqIn m) ->
  nth_error (pcs (sstep s (t, c))) t = Some (if zlen (q s) =? maxl s then EqFull m else EqAdd m).
Proof.
  intros I Hp. pose proof (i_cs _ I t _ Hp) as Hc. assert (Ho : owner s = Some t) by (apply Hc; reflexivity).
  pose proof (i_cur _ I t _ Hp Ho) as E. cbn [skew] in E. pose proof (i_max _ I). pose proof (i_len _ I). pose proof (zlen_nonneg (q s)).
  unfold sstep, step. cbn [fst snd]. rewrite Hp. cbn [setpc pcs]. rewrite nth_upd, Nat.eqb_refl.
  replace (Nat.ltb t (length (pcs s))) with true by (symmetry; apply Nat.ltb_lt; eapply t_lt; eauto).
  rewrite u32_small by (unfold is_u32; lia). f_equal. destruct (Z.ltb_spec (maxl s) (cur s + 1)), (Z.eqb_spec (zlen (q s)) (maxl s)); auto; lia.
Qed.

(* one dequeue by t alone, in the dispatch loop *)
Lemma runs_app s a b : runs s (a ++ b) = runs (runs s a) b.
Proof. apply fold_left_app. Qed.
Lemma alone_add t a b c : alone t (a + b) c = alone t a c ++ alone t b c.
Proof. apply repeat_app. Qed.

Lemma pcs_setpc s t p p0 : nth_error (pcs s) t = Some p0 -> nth_error (upd (pcs s) t p) t = Some p.
Proof. intros H. rewrite nth_upd, Nat.eqb_refl. replace (Nat.ltb t (length (pcs s))) with true; auto. symmetry. apply Nat.ltb_lt. eapply t_lt; eauto. Qed.

Lemma upd_upd (l : list pc) t a b : upd (upd l t a) t b = upd l t b.
Proof. revert t; induction l as [|x l IH]; intros [|t]; cbn; auto. f_equal. apply IH. Qed.

Lemma st_lock s t c k : nth_error (pcs s) t = Some (DqWant k) -> owner s = None ->
  step s t c = Some (St (q s) (cur s) (maxl s) (efd s) (Some t) (upd (pcs s) t (DqIn k)) (log s)).
Proof. intros H Ho. unfold step. rewrite H. unfold lock. rewrite Ho. reflexivity. Qed.
Lemma st_in s t c k : nth_error (pcs s) t = Some (DqIn k) ->
  step s t c = Some match q s with
    | [] => St [] (cur s) (maxl s) (efd s) (owner s) (upd (pcs s) t (DqDec k 0)) (log s)
    | m :: r => St r (cur s) (maxl s) (efd s) (owner s) (upd (pcs s) t (DqDec k m)) (log s ++ [EvOut t m]) end.
Proof. intros H. unfold step. rewrite H. unfold setpc. destruct (q s) eqn:E; reflexivity. Qed.
Lemma st_dec s t c k m : nth_error (pcs s) t = Some (DqDec k m) ->
  step s t c = Some (St (q s) (if m =? 0 then cur s else u32 (cur s - 1)) (maxl s) (efd s) (owner s) (upd (pcs s) t (DqUnl k m)) (log s)).
Proof. intros H. unfold step. rewrite H. destruct (m =? 0); reflexivity. Qed.
Lemma st_unl s t c k m : nth_error (pcs s) t = Some (DqUnl k m) ->
  step s t c = Some (St (q s) (cur s) (maxl s) (efd s) None (upd (pcs s) t (DqRet k m)) (log s)).
Proof. intros H. unfold step. rewrite H. reflexivity. Qed.

Lemma st_ret0 s t c k : nth_error (pcs s) t = Some (DqRet k 0) -> 1 <= k ->
  step s t c = Some (St (q s) (cur s) (maxl s) (efd s) (owner s) (upd (pcs s) t Idle) (log s)).
Proof. intros H Hk. unfold step. rewrite H. replace (k =? 0) with false by lia. reflexivity. Qed.
Lemma st_ret s t c k m : nth_error (pcs s) t = Some (DqRet k m) -> 1 <= k -> m <> 0 ->
  step s t c = Some (St (q s) (cur s) (maxl s) (efd s) (owner s) (upd (pcs s) t (if k =? 1 then Idle else DqWant (k - 1))) (log s ++ [EvGive t m])).
Proof. intros H Hk Hm. unfold step. rewrite H. replace (k =? 0) with false by lia. replace (m =? 0) with false by lia. reflexivity. Qed.

Lemma deq1 s t c k : owner s = None -> nth_error (pcs s) t = Some (DqWant k) ->
  runs s (alone t 4 c) =
  match q s with
  | [] => St [] (cur s) (maxl s) (efd s) None (upd (pcs s) t (DqRet k 0)) (log s)
  | m :: r => St r (if m =? 0 then cur s else u32 (cur s - 1)) (maxl s) (efd s) None (upd (pcs s) t (DqRet k m)) (log s ++ [EvOut t m])
  end.
Proof.
  intros Ho Hp. rewrite (runs_S _ _ _ _ _ (st_lock s t c k Hp Ho)).
  assert (H1 : forall a b d e o l p0, nth_error (pcs (St a b d e o (upd (pcs s) t p0) l)) t = Some p0) by (intros; cbn [pcs]; apply (pcs_setpc s t _ _ Hp)).
  rewrite (runs_S _ _ _ _ _ (st_in _ t c k (H1 _ _ _ _ _ _ _))). cbn [q cur maxl efd owner pcs log]. rewrite !upd_upd.
  destruct (q s) as [|m r]; rewrite ?upd_upd.
  - rewrite (runs_S _ _ _ _ _ (st_dec _ t c k 0 (H1 _ _ _ _ _ _ _))). cbn [q cur maxl efd owner pcs log]. rewrite !upd_upd.
    rewrite (runs_S _ _ _ _ _ (st_unl _ t c k 0 (H1 _ _ _ _ _ _ _))). cbn [q cur maxl efd owner pcs log]. rewrite !upd_upd.
    rewrite runs_0. reflexivity.
  - rewrite (runs_S _ _ _ _ _ (st_dec _ t c k m (H1 _ _ _ _ _ _ _))). cbn [q cur maxl efd owner pcs log]. rewrite !upd_upd.
    rewrite (runs_S _ _ _ _ _ (st_unl _ t c k m (H1 _ _ _ _ _ _ _))). cbn [q cur maxl efd owner pcs log]. rewrite !upd_upd.
    rewrite runs_0. reflexivity.
Qed.

Lemma dispatch_loop c t : forall l s k, q s = l -> sched_ok (t, c) -> inv s -> owner s = None -> nth_error (pcs s) t = Some (DqWant k) -> 1 <= k -> zlen l <= k ->
  exists n, let s' := runs s (alone t n c) in q s' = [] /\ given t (log s') = given t (log s) ++ l /\ nth_error (pcs s') t = Some Idle /\ owner s' = None.
Proof.
  induction l as [|m r IH]; intros s k Hq Hc I Ho Hp Hk Hl;
    assert (H1 : forall a b d e o l p0, nth_error (pcs (St a b d e o (upd (pcs s) t p0) l)) t = Some p0) by (intros; cbn [pcs]; apply (pcs_setpc s t _ _ Hp)).
  - exists 5%nat. cbv zeta. change 5%nat with (4 + 1)%nat; rewrite (alone_add t 4 1 c), runs_app, (deq1 s t c k Ho Hp), Hq.
     rewrite (runs_S _ _ _ _ _ (st_ret0 _ t c k (H1 _ _ _ _ _ _ _) Hk)). 
    rewrite runs_0. cbn [q log pcs owner]. rewrite app_nil_r, upd_upd, (pcs_setpc s t _ _ Hp). auto.
  - assert (Hm : m <> 0) by (intros ->; apply (i_q _ I); rewrite Hq; left; auto). rewrite zlen_cons in Hl. pose proof (zlen_nonneg r).
    assert (Hf : Forall sched_ok (alone t 5 c)) by (apply Forall_forall; intros x Hx; apply repeat_spec in Hx; subst; auto).
    pose proof (runs_inv (alone t 5 c) s I Hf) as I5.
    assert (E5 : runs s (alone t 5 c) = St r (u32 (cur s - 1)) (maxl s) (efd s) None (upd (pcs s) t (if k =? 1 then Idle else DqWant (k - 1))) ((log s ++ [EvOut t m]) ++ [EvGive t m])).
    { change 5%nat with (4 + 1)%nat; rewrite (alone_add t 4 1 c), runs_app, (deq1 s t c k Ho Hp), Hq.
       rewrite (runs_S _ _ _ _ _ (st_ret _ t c k m (H1 _ _ _ _ _ _ _) Hk Hm)).
      rewrite runs_0. cbn [q cur maxl efd owner pcs log]. rewrite upd_upd. replace (m =? 0) with false by lia. reflexivity. }
    rewrite E5 in I5. destruct (Z.eqb_spec k 1).
    + subst k. assert (r = []) by (destruct r; auto; rewrite zlen_cons in *; pose proof (zlen_nonneg r); lia). subst r.
      exists 5%nat. cbv zeta. rewrite E5. cbn [q log pcs owner]. logs. rewrite Nat.eqb_refl. rewrite (pcs_setpc s t _ _ Hp). auto.
    + destruct (IH (runs s (alone t 5 c)) (k - 1)) as (n1 & K1 & H2 & H3 & H4); try rewrite E5; auto; try lia.
      exists (5 + n1)%nat. cbv zeta. rewrite alone_add, runs_app. repeat split; auto. rewrite H2, E5. cbn [log]. logs. rewrite Nat.eqb_refl, <- app_assoc. reflexivity.
Qed.

Lemma dispatch_all s t : inv s -> owner s = None -> nth_error (pcs s) t = Some Idle ->
  Forall (fun p => signalling p = false /\ dispatching p = false) (pcs s) -> q s <> [] ->
  exists n, let s' := runs s (alone t n CDispatch) in
    q s' = [] /\ given t (log s') = given t (log s) ++ q s /\ nth_error (pcs s') t = Some Idle /\ owner s' = None.
Proof.
  intros I Ho Hp Hqt Hne. pose proof (quiet_le _ I Hqt) as Hle.
  assert (0 < zlen (q s)) by (destruct (q s); [congruence|rewrite zlen_cons; pose proof (zlen_nonneg l); lia]).
  assert (Hc : sched_ok (t, CDispatch)) by exact Logic.I.
  assert (Hf : Forall sched_ok (alone t 2 CDispatch)) by (apply Forall_forall; intros x Hx; apply repeat_spec in Hx; subst; auto).
  pose proof (runs_inv (alone t 2 CDispatch) s I Hf) as I2.
  assert (E2 : runs s (alone t 2 CDispatch) = St (q s) (cur s) (maxl s) 0 None (upd (pcs s) t (DqWant (efd s))) (log s)).
  {  erewrite (runs_S s); [|unfold step; rewrite Hp; reflexivity].
    erewrite runs_S; [|unfold step; cbn [setpc pcs]; rewrite (pcs_setpc s t _ _ Hp); change (efd (setpc s t Disp)) with (efd s); replace (efd s =? 0) with false by lia; reflexivity].
    rewrite runs_0. unfold setpc, setefd. cbn [q cur maxl efd owner pcs log]. rewrite upd_upd, Ho. reflexivity. }
  destruct (dispatch_loop CDispatch t (q s) (runs s (alone t 2 CDispatch)) (efd s)) as (n & H1 & H2 & H3 & H4); try (rewrite E2); auto; try lia.
  { rewrite <- E2. auto. }
  { cbn [pcs]. apply (pcs_setpc s t _ _ Hp). }
  exists (2 + n)%nat. cbv zeta. rewrite alone_add, runs_app. repeat split; auto. rewrite H2, E2. reflexivity.
Qed.

Lemma sstep_maxl s x : maxl (sstep s x) = maxl s.
Proof.
  unfold sstep, step, lock, unlock. destruct (nth_error (pcs s) (fst x)) as [p|]; auto.
  destruct p; try reflexivity;
    repeat (match goal with
            | |- context [match owner s with _ => _ end] => destruct (owner s)
            | |- context [match q s with _ => _ end] => destruct (q s)
            | |- context [if ?b then _ else _] => destruct b
            end; try reflexivity).
Qed.
Lemma runs_maxl l : forall s, maxl (runs s l) = maxl s.
Proof. induction l as [|x l IH]; intros s; [reflexivity|]. cbn [runs fold_left]. change (maxl (runs (sstep s x) l) = maxl s). rewrite IH. apply sstep_maxl. Qed.

Section REACH.
Variables (maxlen : Z) (n : nat) (sch : sched).
Hypothesis Hm : 0 <= maxlen < 4294967295.
Hypothesis F : Forall sched_ok sch.
Let s := runs (init maxlen n) sch.
Let I : inv s := runs_inv sch _ (init_inv maxlen n Hm) F.
Lemma bounded : zlen (q s) <= maxlen /\ (owner s = None -> cur s = zlen (q s)).
Proof. split; [|apply (i_free _ I)]. pose proof (i_len _ I) as L. unfold s in L at 2. rewrite runs_maxl in L. exact L. Qed.
End REACH.

Lemma mutex_excl maxlen n sch t u p1 p2 :
  0 <= maxlen < 4294967295 -> Forall sched_ok sch ->
  let s := runs (init maxlen n) sch in
  nth_error (pcs s) t = Some p1 -> nth_error (pcs s) u = Some p2 -> in_cs p1 = true -> in_cs p2 = true -> t = u.
Proof.
  intros Hm F s H1 H2 C1 C2. pose proof (runs_inv sch _ (init_inv maxlen n Hm) F) as I. fold s in I.
  apply (i_cs _ I t p1 H1) in C1. apply (i_cs _ I u p2 H2) in C2. congruence.
Qed.
Lemma lock_released maxlen n sch t c :
  0 <= maxlen < 4294967295 -> Forall sched_ok sch -> sched_ok (t, c) ->
  let s := runs (init maxlen n) sch in
  owner s = Some t -> exists k, owner (runs s (alone t k c)) = None.
Proof. intros Hm F Hc s Ho. apply release; auto. apply runs_inv; auto. apply init_inv; auto. Qed.
Lemma refused_iff_full maxlen n sch t c m :
  0 <= maxlen < 4294967295 -> Forall sched_ok sch ->
  let s := runs (init maxlen n) sch in
  nth_error (pcs s) t = Some (EqIn m) ->
  nth_error (pcs (sstep s (t, c))) t = Some (if zlen (q s) =? maxlen then EqFull m else EqAdd m).
Proof.
  intros Hm F s Hp. pose proof (full_iff s t c m (runs_inv sch _ (init_inv maxlen n Hm) F) Hp) as E.
  rewrite E. unfold s. rewrite runs_maxl. reflexivity.
Qed.
Lemma no_lost_wakeup maxlen n sch :
  0 <= maxlen < 4294967295 -> Forall sched_ok sch ->
  let s := runs (init maxlen n) sch in
  Forall (fun p => signalling p = false /\ dispatching p = false) (pcs s) -> zlen (q s) <= efd s.
Proof. intros Hm F s Hq. apply quiet_le; auto. apply runs_inv; auto. apply init_inv; auto. Qed.
Lemma dispatch_delivers maxlen n sch t :
  0 <= maxlen < 4294967295 -> Forall sched_ok sch ->
  let s := runs (init maxlen n) sch in
  owner s = None -> nth_error (pcs s) t = Some Idle ->
  Forall (fun p => signalling p = false /\ dispatching p = false) (pcs s) -> q s <> [] ->
  exists k, let s' := runs s (alone t k CDispatch) in
    q s' = [] /\ given t (log s') = given t (log s) ++ q s /\ nth_error (pcs s') t = Some Idle.
Proof.
  intros Hm F s Ho Hp Hq Hne. destruct (dispatch_all s t) as (k & H1 & H2 & H3 & _); auto.
  - apply runs_inv; auto. apply init_inv; auto.
  - exists k. auto.
Qed.
Lemma fifo maxlen n sch t p :
  0 <= maxlen < 4294967295 -> Forall sched_ok sch ->
  let s := runs (init maxlen n) sch in
  accepted (log s) = removed (log s) ++ q s /\
  (nth_error (pcs s) t = Some p -> taken t (log s) = given t (log s) ++ holding p).
Proof. intros Hm F s. pose proof (runs_inv sch _ (init_inv maxlen n Hm) F) as I. split; [apply (i_log _ I)|apply (i_give _ I)]. Qed.
