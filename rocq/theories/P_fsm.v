From Verif Require Import Base M_fsm S_fsm.
Local Ltac sp := repeat match goal with |- _ /\ _ => split end.

Definition is_state fi e := match e with EvState x _ _ _ _ _ => x =? fi | _ => false end.
Lemma has_app p a b : has p (a ++ b) = has p a || has p b.
Proof. unfold has. apply existsb_app. Qed.
Lemma has_cons p k e t : has p ((k, e) :: t) = p e || has p t. Proof. reflexivity. Qed.

Section A.
  Variable D : Z -> fsm.
  Variable env : trace -> cmd + Z.
  Variable safe : bool.

  Record InvA (s : st) : Prop := {
    a_state : forall z, istate (mem s z) = cur (tr s) z;
    a_term : forall z, iterm (mem s z) = termed (tr s) z;
    a_fsm : forall z, ifsm (mem s z) = fsm_of (tr s) z;
    a_new : forall z, next s <= z -> termed (tr s) z = false;
    a_live : forall z, live s z = true -> z < next s;
    a_ok : steps_ok D (tr s) }.
  Record extA (s s' : st) : Prop := {
    x_tr : exists new, tr s' = new ++ tr s /\ Forall (fun x => exists l, fst x = l ++ stk s) new /\
             (forall z, has (is_state z) new = false -> itmr (mem s z) = None -> itmr (mem s' z) = None) /\
             (forall z, z < next s -> has (is_alloc z) new = false);
    x_stk : stk s' = stk s;
    x_next : next s <= next s' }.
  Definition postA (s : st) (o : out) : Prop := InvA (final o) /\ match o with Done s' _ => extA s s' | _ => True end.

  Lemma ext_refl s : extA s s.
  Proof. split; auto; [|lia]. exists []. sp; auto. Qed.
  Lemma ext_trans a b c : extA a b -> extA b c -> extA a c.
  Proof.
    intros [(n1 & E1 & F1 & T1 & S1) K1 N1] [(n2 & E2 & F2 & T2 & S2) K2 N2]. split; [|congruence|lia].
    exists (n2 ++ n1). rewrite E2, E1, app_assoc. sp; auto.
    - apply Forall_app. split; auto. rewrite K1 in F2. auto.
    - intros z Hz. rewrite has_app in Hz. apply orb_false_iff in Hz. destruct Hz. auto.
    - intros z Hz. rewrite has_app, S1, S2 by lia. reflexivity.
  Qed.
  Lemma bindA s x f : postA s x -> (forall s1 v, InvA s1 -> extA s s1 -> postA s1 (f s1 v)) -> postA s (bindo x f).
  Proof.
    intros [H1 H2] Hf. destruct x as [s1 v|s1|s1]; cbn [bindo]; try (split; auto; fail).
    destruct (Hf s1 v H1 H2) as [H3 H4]. split; auto. destruct (f s1 v); auto. eapply ext_trans; eauto.
  Qed.
  Lemma doneA s s' v : InvA s' -> extA s s' -> postA s (Done s' v).
  Proof. split; auto. Qed.
  Lemma crashA s s' : InvA s' -> postA s (Crash s'). Proof. split; auto. Qed.
  Lemma stepA s s1 o : extA s s1 -> postA s1 o -> postA s o.
  Proof. intros H [H1 H2]. split; auto. destruct o; auto. eapply ext_trans; eauto. Qed.

  (* emitting an entry that says nothing about states, descriptors or termination *)
  Definition plain (e : ev) : Prop := match e with EvState _ _ _ _ _ _ | EvAlloc _ _ | EvTerm _ _ => False | _ => True end.
  Lemma emitA e s : plain e -> InvA s -> step_ok D (tr s) (stk s) e -> InvA (emit e s) /\ extA s (emit e s).
  Proof.
    intros P [H1 H2 H3 H4 H5 H6] Ho. split.
    - split; cbn [emit mem tr next live]; auto.
      + intros z. rewrite H1. destruct e; try contradiction; reflexivity.
      + intros z. rewrite H2. destruct e; try contradiction; reflexivity.
      + intros z. rewrite H3. destruct e; try contradiction; reflexivity.
      + intros z Hz. unfold termed. rewrite has_cons. fold (termed (tr s) z). rewrite H4 by auto. destruct e; try contradiction; reflexivity.
      + cbn [steps_ok]. auto.
    - split; cbn [emit stk next]; auto; [|lia]. exists [(stk s, e)]. cbn [tr mem emit]. sp; auto.
      + constructor; auto. exists []. reflexivity.
      + intros z _. rewrite has_cons. destruct e; try contradiction; reflexivity.
  Qed.
  (* updating fields the trace does not show *)
  Lemma setmA s fi f : (forall i, istate (f i) = istate i /\ iterm (f i) = iterm i /\ ifsm (f i) = ifsm i /\ (itmr i = None -> itmr (f i) = None)) ->
    InvA s -> InvA (setm fi f s) /\ extA s (setm fi f s).
  Proof.
    intros Hf [H1 H2 H3 H4 H5 H6]. split.
    - split; cbn [setm mem tr next live]; auto; intros z; destruct (z =? fi) eqn:E; auto; assert (z = fi) by lia; subst z; destruct (Hf (mem s fi)) as (Q1 & Q2 & Q3 & _); congruence.
    - split; cbn [setm stk next]; auto; [|lia]. exists []. cbn [tr setm mem]. sp; auto. intros z _ Hz. destruct (z =? fi) eqn:E; auto. assert (z = fi) by lia. subst z. destruct (Hf (mem s fi)) as (_ & _ & _ & Q). auto.
  Qed.
  Lemma depthA s d : InvA s -> InvA (set_depth d s) /\ extA s (set_depth d s).
  Proof. intros [H1 H2 H3 H4 H5 H6]. split; [split; auto|]. split; auto; cbn; [|lia]. exists []. sp; auto. Qed.

  Variable rec : job -> st -> out.
  Hypothesis recA : forall j s, InvA s -> postA s (rec j s).

  Lemma callbackA k fi arg s : InvA s -> step_ok D (tr s) (stk s) (EvCb k fi arg) -> postA s (callback rec k fi arg s) /\
    (forall s' v, callback rec k fi arg s = Done s' v -> exists n, tr s' = n ++ (stk s, EvCb k fi arg) :: tr s /\ (forall x, In x n -> exists l, fst x = l ++ (k, fi) :: stk s) /\
       (forall z, has (is_state z) n = false -> itmr (mem s z) = None -> itmr (mem s' z) = None) /\
       (forall z, z < next s -> has (is_alloc z) n = false)).
  Proof.
    intros H Ho. destruct (emitA (EvCb k fi arg) s I H Ho) as [H1 E1]. unfold callback.
    assert (H2 : InvA (set_stk ((k, fi) :: stk s) (emit (EvCb k fi arg) s))) by (destruct H1; split; auto).
    pose proof (recA JLoop _ H2) as [Hp He]. destruct (rec JLoop _) as [s2 v|s2|s2]; cbn [bindo]; try (split; [split; auto|intros; discriminate]).
    destruct He as [(n & En & Fn & Tn & Sn) Ks Nx]. cbn [set_stk emit stk tr next mem] in *.
    split.
    - split. { cbn [final] in *. destruct Hp; split; auto. }
      split; cbn [set_stk stk next]; auto. exists (n ++ [(stk s, EvCb k fi arg)]). cbn [tr set_stk mem]. rewrite En, <- app_assoc. sp; auto.
      + apply Forall_app. split; [|constructor; [exists []; reflexivity|auto]]. eapply Forall_impl; [|exact Fn]. intros x (l & ->). exists (l ++ [(k, fi)]). rewrite <- app_assoc. reflexivity.
      + intros z Hz. rewrite has_app in Hz. apply orb_false_iff in Hz. destruct Hz. auto.
      + intros z Hz. rewrite has_app, Sn by lia. reflexivity.
    - intros s' w [= <- <-]. exists n. cbn [tr set_stk mem]. sp; auto. apply Forall_forall. auto.
  Qed.

  Lemma dispatchA fi e s : InvA s -> postA s (dispatch D rec fi e s).
  Proof.
    intros H. unfold dispatch. destruct (fi =? 0). { apply doneA; auto using ext_refl. } destruct (negb (live s fi)). { apply crashA; auto. }
    destruct (iterm (mem s fi)) eqn:Et. { apply doneA; auto using ext_refl. } destruct (num _ <=? _). { apply crashA; auto. }
    destruct (_ || _). { apply crashA; auto. }
    pose proof (a_term s H fi) as Ht. rewrite Et in Ht. rewrite (a_fsm s H fi), (a_state s H fi).
    destruct (Z.testbit (all_mask _) e && has_all _) eqn:Ea.
    - apply andb_true_iff in Ea. apply bindA. { apply callbackA; auto. cbn [step_ok]. split; auto. tauto. } intros. apply doneA; auto using ext_refl.
    - destruct (Z.testbit (in_mask _ _) e) eqn:Ei; cbn [negb]; [|apply doneA; auto using ext_refl]. destruct (has_action _ _); [|apply doneA; auto using ext_refl].
      apply bindA. { apply callbackA; auto. cbn [step_ok]. sp; auto. apply andb_false_iff in Ea. tauto. } intros. apply doneA; auto using ext_refl.
  Qed.

  Lemma calm_has fi k new t : calm (new ++ t) -> (forall x, In x new -> exists l, fst x = l ++ k) -> In (KLeave, fi) k -> has (is_state fi) new = false /\ has (is_term fi) new = false.
  Proof.
    intros Hc Hs Hk. unfold calm in Hc. apply Forall_app in Hc. destruct Hc as [Hc _]. rewrite Forall_forall in Hc.
    split; (destruct (has _ new) eqn:E; auto; exfalso; unfold has in E; apply existsb_exists in E; destruct E as ((k' & e) & Hi & He); cbn [snd] in He; specialize (Hc _ Hi); destruct (Hs _ Hi) as (l & El); cbn [fst] in El; subst k';
      destruct e; try discriminate; cbn [is_state is_term] in He; assert (fi0 = fi) by lia; subst fi0; apply Hc; cbn [fst]; apply in_or_app; auto).
  Qed.
  Lemma cur_has_app fi new t : has (is_state fi) new = false -> has (is_alloc fi) new = false -> cur (new ++ t) fi = cur t fi.
  Proof. induction new as [|[k e] n IH]; auto. rewrite !has_cons. intros H1 H2. apply orb_false_iff in H1, H2. destruct H1 as [? ?], H2 as [? ?]. rewrite <- IH by auto. destruct e; cbn [app cur is_state is_alloc] in *; auto; repeat match goal with Hx : (_ =? _) = false |- _ => rewrite Hx end; auto. Qed.

  Lemma fsm_has_app fi new t : has (is_alloc fi) new = false -> fsm_of (new ++ t) fi = fsm_of t fi.
  Proof. induction new as [|[k e] n IH]; auto. rewrite !has_cons. intros H1. apply orb_false_iff in H1. destruct H1 as [? ?]. rewrite <- IH by auto. destruct e; cbn [app fsm_of is_alloc] in *; auto; repeat match goal with Hx : (_ =? _) = false |- _ => rewrite Hx end; auto. Qed.
  Lemma bindA' s x f : postA s x -> (forall s1 v, x = Done s1 v -> InvA s1 -> extA s s1 -> postA s1 (f s1 v)) -> postA s (bindo x f).
  Proof.
    intros [H1 H2] Hf. destruct x as [s1 v|s1|s1]; cbn [bindo]; try (split; auto; fail).
    destruct (Hf s1 v eq_refl H1 H2) as [H3 H4]. split; auto. destruct (f s1 v); auto. eapply ext_trans; eauto.
  Qed.
  Lemma chgA fi new keep ms T s : InvA s -> postA s (state_chg D rec fi new keep ms T s).
  Proof.
    intros H. unfold state_chg. destruct (live s fi) eqn:El; cbn [negb]; [|apply crashA; auto]. destruct (iterm (mem s fi)) eqn:Et. { apply doneA; auto using ext_refl. }
    destruct (_ || _ || _). { apply crashA; auto. } destruct (Z.testbit (out_mask _ _) new) eqn:Ep; cbn [negb]; [|apply doneA; auto using ext_refl].
    set (s1 := if keep then s else setm fi (w_tmr None) s). set (f := D (ifsm (mem s fi))) in *. set (old := istate (mem s fi)) in *.
    assert (S1 : InvA s1 /\ extA s s1). { unfold s1. destruct keep; auto using ext_refl. apply setmA; auto. }
    destruct S1 as [I1 X1]. apply (stepA s s1); auto.
    assert (T1 : termed (tr s1) fi = false /\ cur (tr s1) fi = old /\ D (fsm_of (tr s1) fi) = f /\ (keep = false -> itmr (mem s1 fi) = None) /\ fi < next s1).
    { pose proof (a_live s H fi El). assert (tr s1 = tr s) by (unfold s1; destruct keep; auto). rewrite H1. rewrite <- (a_term s H fi), <- (a_state s H fi), <- (a_fsm s H fi). sp; auto; unfold s1; destruct keep; auto; try discriminate. intros _. cbn [setm mem]. rewrite Z.eqb_refl. reflexivity. }
    destruct T1 as (T1 & C1 & F1 & M1 & N1). clearbody s1.
    (* what is known once the old state was left *)
    assert (L : postA s1 (if has_leave f old then callback rec KLeave fi new s1 else Done s1 0) /\
      forall s2 v, (if has_leave f old then callback rec KLeave fi new s1 else Done s1 0) = Done s2 v ->
        fsm_of (tr s2) fi = fsm_of (tr s1) fi /\
        (calm (tr s2) -> cur (tr s2) fi = old /\ termed (tr s2) fi = false /\ (keep = false -> itmr (mem s2 fi) = None))).
    { destruct (has_leave f old).
      - destruct (callbackA KLeave fi new s1 I1) as [P Q]. { cbn [step_ok]. rewrite F1, C1. auto. } split; auto. intros s2 v E2. destruct (Q s2 v E2) as (n & En & Fn & Tn & An).
        split. { rewrite En. rewrite fsm_has_app by auto. reflexivity. }
        intros Hc. rewrite En in Hc. destruct (calm_has fi _ n _ Hc Fn) as [Hs Ht]; [left; reflexivity|].
        rewrite En. rewrite cur_has_app by auto. cbn [cur]. unfold termed. rewrite has_app, Ht, has_cons. cbn [orb is_term]. sp; auto.
      - split; [apply doneA; auto using ext_refl|]. intros s2 v [= <- <-]. auto. }
    destruct L as [LP LQ]. apply bindA'; auto. intros s2 v E2 I2 X2. destruct (LQ s2 v E2) as [F2 L2]. clear LQ LP.
    destruct (live s2 fi) eqn:El2; cbn [negb orb]; [|apply crashA; auto]. destruct (num f <=? new). { apply crashA; auto. }
    match goal with |- context [w_state new ?a ?b] => set (T' := a); set (tm := b) end.
    set (s3 := emit (EvState fi old new keep ms tm) (setm fi (w_state new T' tm) s2)).
    assert (S3 : InvA s3 /\ extA s2 s3).
    { destruct I2 as [H1 H2 H3 H4 H5 H6]. split.
      - split; unfold s3; cbn [emit setm mem tr next live cur fsm_of steps_ok]; auto.
        + intros z. rewrite Z.eqb_sym. destruct (fi =? z) eqn:E; auto.
        + intros z. unfold termed. rewrite has_cons. cbn [is_term orb]. fold (termed (tr s2) z). rewrite <- H2. destruct (z =? fi) eqn:E; auto. cbn [w_state iterm]. assert (z = fi) by lia. subst z. auto.
        + intros z. rewrite <- H3. destruct (z =? fi) eqn:E; auto. cbn [w_state ifsm]. assert (z = fi) by lia. subst z. auto.
        + split; auto. cbn [step_ok setm tr]. rewrite F2, F1. split; auto. intros Hc. inversion Hc as [|? ? Hc1 Hc2]; subst. destruct (L2 Hc2) as (Q1 & Q2 & Q3). sp; auto. intros ->. specialize (Q3 eq_refl). unfold tm. rewrite Q3. cbn [negb orb andb]. destruct (ms =? 0); reflexivity.
      - unfold s3. split; cbn [emit setm stk next]; auto; [|lia]. exists [(stk s2, EvState fi old new keep ms tm)]. cbn [tr emit setm mem]. sp; auto.
        + constructor; auto. exists []. reflexivity.
        + intros z Hz. rewrite has_cons in Hz. cbn [is_state has existsb] in Hz. rewrite Z.eqb_sym. destruct (fi =? z); [discriminate|auto]. }
    destruct S3 as [I3 X3]. apply (stepA s2 s3); auto. destruct (has_enter f new); [|apply doneA; auto using ext_refl].
    apply bindA. { apply callbackA; auto. cbn [step_ok]. unfold s3. cbn [emit tr setm]. auto. } intros. apply doneA; auto using ext_refl.
  Qed.

  Lemma freeA fi s : InvA s -> postA s (inst_free fi s).
  Proof.
    intros H. unfold inst_free. destruct (live s fi) eqn:El; cbn [negb]; [|apply crashA; auto].
    destruct (setmA s fi (w_tmr None)) as [I1 X1]; auto. set (s1 := setm fi (w_tmr None) s) in *. clearbody s1. apply (stepA s s1); auto.
    destruct (negb (depth s1 =? 0)).
    - apply doneA; [destruct I1; split; auto|]. split; cbn; auto; [|lia]. exists []. sp; auto.
    - assert (G : forall l s0, InvA s0 -> InvA (fold_left free1 l s0) /\ extA s0 (fold_left free1 l s0)).
      { induction l as [|x l IH]; intros s0 I0; cbn [fold_left]; auto using ext_refl.
        assert (Q : InvA (free1 s0 x) /\ extA s0 (free1 s0 x)).
        { unfold free1. set (sx := St _ _ _ _ _ _ _). assert (Ix : InvA sx). { destruct I0; split; auto. cbn [sx live next]. intros z. destruct (z =? x); auto. discriminate. }
          destruct (emitA (EvFree x) sx) as [Q1 Q2]; cbn; auto. split; auto. apply (ext_trans _ sx); auto. split; cbn; auto; [|lia]. exists []. sp; auto. }
        destruct Q as [Q1 Q2]. destruct (IH _ Q1). split; auto. eapply ext_trans; eauto. }
      destruct (G (fi :: coll s1) s1 I1) as [Q1 Q2]. cbn [fold_left] in *. apply doneA; [destruct Q1; split; auto|]. eapply ext_trans; [exact Q2|]. split; cbn; auto; [|lia]. exists []. sp; auto.
  Qed.
  Lemma detachA fi s : InvA s -> postA s (detach fi s).
  Proof. intros H. unfold detach. destruct (_ || _). { apply crashA; auto. } destruct (setmA s (iparent (mem s fi)) (fun i => w_children (remove Z.eq_dec fi (ichildren i)) i)) as [I1 X1]; auto. apply doneA; auto. Qed.

  Lemma emitP e s o : plain e -> InvA s -> step_ok D (tr s) (stk s) e -> (InvA (emit e s) -> postA (emit e s) o) -> postA s o.
  Proof. intros P H Ho Hp. destruct (emitA e s P H Ho) as [I1 X1]. apply (stepA s _ _ X1); auto. Qed.

  Lemma notifyA fi c p s : InvA s -> postA s (term_notify D rec fi c p s).
  Proof.
    intros H. unfold term_notify. destruct (negb (live s fi)). { apply crashA; auto. }
    apply bindA. { destruct (depth s =? 0); [apply freeA; auto|apply doneA; auto using ext_refl]. } intros s1 v1 I1 _.
    apply bindA. { destruct (_ && _); [|apply doneA; auto using ext_refl]. apply (emitP (EvNotify fi (iparent (mem s fi)) p)); cbn; auto. intros. apply dispatchA; auto. } intros s2 v2 I2 _.
    destruct (depth s2 =? 0). { apply (emitP (EvDone fi)); cbn; auto. intros. apply doneA; auto using ext_refl. }
    destruct (depthA s2 (depth s2 - 1) I2) as [I3 X3]. apply (stepA _ _ _ X3). apply (emitP (EvDone fi)); cbn; auto. intros. apply freeA; auto.
  Qed.
  Lemma leaveA fi c p s : InvA s -> postA s (term_leave D rec fi c p s).
  Proof.
    intros H. unfold term_leave. destruct (negb (live s fi)). { apply crashA; auto. }
    apply bindA. { destruct (_ =? 0); [apply doneA; auto using ext_refl|apply detachA; auto]. } intros s1 v1 I1 _.
    apply (emitP (EvGone fi)); cbn; auto. intros I2. apply bindA. { destruct (has_clean _); [|apply doneA; auto using ext_refl]. apply callbackA; cbn; auto. } intros. apply notifyA; auto.
  Qed.
  Lemma termA fi c s : InvA s -> postA s (term D safe rec fi c s).
  Proof.
    intros H. unfold term. destruct (live s fi) eqn:El; cbn [negb]; [|apply crashA; auto]. destruct (iterm (mem s fi)) eqn:Et. { apply doneA; auto using ext_refl. }
    set (s1 := emit (EvTerm fi c) (setm fi w_term s)).
    assert (S1 : InvA s1 /\ extA s s1).
    { pose proof (a_live s H fi El) as Hn. destruct H as [H1 H2 H3 H4 H5 H6]. split.
      - split; unfold s1; cbn [emit setm mem tr next live cur fsm_of steps_ok step_ok]; auto.
        + intros z. rewrite <- H1. destruct (z =? fi) eqn:E; auto. cbn [w_term istate]. f_equal. f_equal. lia.
        + intros z. unfold termed. rewrite has_cons. cbn [is_term]. fold (termed (tr s) z). rewrite <- H2, (Z.eqb_sym fi). destruct (z =? fi) eqn:E; auto.
        + intros z. rewrite <- H3. destruct (z =? fi) eqn:E; auto. cbn [w_term ifsm]. f_equal. f_equal. lia.
        + intros z Hz. unfold termed. rewrite has_cons. cbn [is_term]. fold (termed (tr s) z). rewrite H4 by auto. replace (fi =? z) with false by lia. reflexivity.
      - unfold s1. split; cbn [emit setm stk next]; auto; [|lia]. exists [(stk s, EvTerm fi c)]. cbn [tr emit setm mem]. sp; auto.
        + constructor; auto. exists []. reflexivity.
        + intros z _. destruct (z =? fi) eqn:E; auto. cbn [w_term itmr]. replace z with fi by lia. auto. }
    destruct S1 as [I1 X1]. apply (stepA _ _ _ X1). set (s2 := if safe || _ then _ else s1). assert (S2 : InvA s2 /\ extA s1 s2) by (unfold s2; destruct (safe || _); auto using ext_refl, depthA).
    destruct S2 as [I2 X2]. apply (stepA _ _ _ X2). apply bindA. { destruct (has_pre _); [|apply doneA; auto using ext_refl]. apply callbackA; cbn; auto. } intros s3 v3 I3 _.
    apply bindA; auto. intros. apply leaveA; auto.
  Qed.
  Lemma termchA fi c last s : InvA s -> postA s (term_children rec fi c last s).
  Proof.
    intros H. unfold term_children. destruct (negb (live s fi)). { apply crashA; auto. } destruct (ichildren (mem s fi)) as [|x l]. { apply doneA; auto using ext_refl. }
    destruct (x =? last). { apply (emitP (EvStuck fi x)); cbn; auto. intros. apply doneA; auto using ext_refl. } apply bindA; auto.
  Qed.
  Lemma allocA f s : InvA s -> postA s (alloc f s).
  Proof.
    intros [H1 H2 H3 H4 H5 H6]. apply doneA.
    - split; cbn [emit mem tr next live cur fsm_of steps_ok step_ok]; auto.
      + intros z. rewrite (Z.eqb_sym (next s)). destruct (z =? next s) eqn:E; auto.
      + intros z. unfold termed. rewrite has_cons. cbn [is_term orb]. fold (termed (tr s) z). destruct (z =? next s) eqn:E; auto. symmetry. apply H4. lia.
      + intros z. rewrite (Z.eqb_sym (next s)). destruct (z =? next s) eqn:E; auto.
      + intros z Hz. unfold termed. rewrite has_cons. cbn [is_term orb]. apply H4. lia.
      + intros z. destruct (z =? next s) eqn:E; [lia|]. intros Hz. apply H5 in Hz. lia.
    - split; cbn [emit stk next]; auto; [|lia]. exists [(stk s, EvAlloc (next s) f)]. cbn [tr emit mem]. sp; auto.
      + constructor; auto. exists []. reflexivity.
      + intros z _. destruct (z =? next s); auto.
      + intros z Hz. rewrite has_cons. cbn [is_alloc has existsb]. lia.
  Qed.
  Lemma unlinkA fi s : InvA s -> postA s (unlink_parent fi s).
  Proof.
    intros H. unfold unlink_parent. destruct (negb (live s fi)). { apply crashA; auto. } destruct (_ =? 0). { apply doneA; auto using ext_refl. }
    apply bindA. { apply detachA; auto. } intros s1 v1 I1 _. destruct (setmA s1 fi (w_parent 0 0)) as [I2 X2]; auto. apply (stepA _ _ _ X2). apply (emitP (EvDetach fi)); cbn; auto. intros. apply doneA; auto using ext_refl.
  Qed.
  Lemma reparentA fi np e s : InvA s -> postA s (change_parent fi np e s).
  Proof.
    intros H. unfold change_parent. apply bindA. { apply unlinkA; auto. } intros s1 v1 I1 _. destruct (np =? 0). { apply doneA; auto using ext_refl. } destruct (negb (live s1 np)). { apply crashA; auto. }
    destruct (setmA s1 fi (w_parent np e)) as [I2 X2]; auto. apply (stepA _ _ _ X2). set (s2 := setm fi _ s1) in *. destruct (setmA s2 np (fun i => w_children (fi :: ichildren i) i)) as [I3 X3]; auto. apply (stepA _ _ _ X3).
    apply (emitP (EvAttach fi np e)); cbn; auto. intros. apply doneA; auto using ext_refl.
  Qed.
  Lemma tickA fi s : InvA s -> postA s (tick D rec fi s).
  Proof.
    intros H. unfold tick. destruct (itmr (mem s fi)). 2:{ apply doneA; auto using ext_refl. } destruct (negb (live s fi)). { apply crashA; auto. }
    destruct (setmA s fi (w_tmr None)) as [I1 X1]; auto. apply (stepA _ _ _ X1). destruct (has_tmr _); auto.
    apply bindA. { apply callbackA; cbn; auto. } intros s2 v2 I2 _. destruct (v2 =? 1); [|apply doneA; auto using ext_refl]. apply (emitP (EvCmd (CTerm fi TERM_TIMEOUT))); cbn; auto.
  Qed.
  Lemma execA c s : InvA s -> postA s (exec D rec c s).
  Proof.
    intros H. unfold exec. apply (emitP (EvCmd c)); cbn [plain step_ok]; auto. intros I1. destruct c; auto using dispatchA, chgA, allocA, unlinkA, reparentA, tickA.
    unfold alloc_child. destruct (negb _). { apply crashA; auto. } apply bindA. { apply allocA; auto. } intros. apply bindA. { apply reparentA; auto. } intros. apply doneA; auto using ext_refl.
  Qed.
  Lemma jobA j s : InvA s -> postA s (do_job D env safe rec j s).
  Proof.
    intros H. destruct j; cbn [do_job]; auto using termA, termchA. destruct (env (tr s)) as [c|rc]; [|apply doneA; auto using ext_refl].
    apply bindA. { apply execA; auto. } intros s1 v1 I1 _. apply (emitP (EvRet v1)); cbn; auto.
  Qed.
End A.

Lemma exec_jobA D env safe : forall fuel j s, InvA D s -> postA D s (exec_job D env safe fuel j s).
Proof. induction fuel as [|n IH]; intros j s H; cbn [exec_job]. { split; auto. } apply jobA; auto. Qed.
Lemma initA D : InvA D init_st.
Proof. split; cbn; auto; discriminate. Qed.
Lemma programA D env safe fuel : InvA D (final (program D env safe fuel)).
Proof. apply (exec_jobA D env safe fuel JLoop init_st (initA D)). Qed.
