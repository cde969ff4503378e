From Verif Require Import Base M_fsm S_fsm P_fsm.
Local Ltac sp := repeat match goal with |- _ /\ _ => split end.

Lemma rank_range fi e : 0 <= rank fi e <= 7.
Proof. destruct e; cbn [rank]; try lia; try (destruct (_ =? _); lia). destruct k; try lia; destruct (_ =? _); lia. Qed.
Lemma phase_nn t fi : 0 <= phase t fi <= 7.
Proof. induction t as [|[k e] t IH]; cbn [phase]; [lia|]. pose proof (rank_range fi e). lia. Qed.
Lemma phase_cons k e t z : phase ((k, e) :: t) z = Z.max (rank z e) (phase t z). Proof. reflexivity. Qed.

(* reading off the stage *)
Lemma phase_has t : terms_ok t -> forall z, (termed t z = true <-> 1 <= phase t z) /\ (gone t z = true <-> 3 <= phase t z) /\
  (done t z = true <-> 6 <= phase t z) /\ (freed t z = true <-> 7 <= phase t z).
Proof.
  induction t as [|[k e] t IH]; intros H z. { cbn. sp; split; intros; try discriminate; lia. }
  destruct H as [[Hp _] H]. specialize (IH H z). specialize (Hp z). unfold termed, gone, done, freed in *. rewrite !has_cons, phase_cons. pose proof (phase_nn t z).
  assert (R : (is_term z e = true <-> rank z e = 1) /\ (is_gone z e = true <-> rank z e = 3) /\ (is_done z e = true <-> rank z e = 6) /\ (is_free z e = true <-> rank z e = 7)).
  { clear. destruct e as [| | | | |k f a| | | | | | |]; cbn [is_term is_gone is_done is_free rank]; try destruct k; sp; split; intros; try discriminate; try lia; destruct (_ =? z); try discriminate; try lia; auto. }
  destruct R as (R1 & R2 & R3 & R4). rewrite !orb_true_iff, R1, R2, R3, R4. pose proof (rank_range z e). destruct IH as (I1 & I2 & I3 & I4). rewrite I1, I2, I3, I4. lia.
Qed.

Lemma calm_app a b : calm (a ++ b) -> calm b. Proof. intros H. apply Forall_app in H. tauto. Qed.
Lemma legal_app a b : legal_trace (a ++ b) -> legal_trace b.
Proof. induction a as [|[k e] a IH]; auto. cbn [app legal_trace]. destruct e; auto; tauto. Qed.
Lemma behaved_app a b : behaved (a ++ b) -> behaved b.
Proof. intros (H1 & H2 & H3). split; [eapply calm_app; eauto|]. split; [eapply legal_app; eauto|]. intros fi. specialize (H3 fi). rewrite has_app in H3. apply orb_false_iff in H3. tauto. Qed.
Lemma behaved_cons k e t : behaved ((k, e) :: t) -> behaved t. Proof. apply (behaved_app [(k, e)]). Qed.
Lemma terms_app a b : terms_ok (a ++ b) -> terms_ok b.
Proof. induction a as [|[k e] a IH]; auto. cbn [app terms_ok]. tauto. Qed.
Lemma phase_mono a t z : phase t z <= phase (a ++ t) z.
Proof. induction a as [|[k e] a IH]; cbn [app]; [lia|]. rewrite phase_cons. lia. Qed.
Lemma alloced_mono a t z : alloced t z = true -> alloced (a ++ t) z = true.
Proof. unfold alloced. rewrite has_app. intros ->. apply orb_true_r. Qed.
Lemma phase0_app a t z : terms_ok (a ++ t) -> has (is_term z) a = false -> phase t z = 0 -> phase (a ++ t) z = 0.
Proof.
  induction a as [|[k e] a IH]; cbn [app terms_ok]; auto. intros [[Hp _] H]. rewrite has_cons. intros Ha H0. apply orb_false_iff in Ha. destruct Ha as [Ha1 Ha2]. specialize (IH H Ha2 H0).
  rewrite phase_cons, IH. specialize (Hp z). rewrite IH in Hp. assert (rank z e <> 1). { destruct e as [| | | | |k0 f0 a0| | | | | | |]; cbn [rank is_term] in *; try destruct k0; try lia; destruct (_ =? z); lia || discriminate. } lia.
Qed.

(* entries that change neither who exists, nor the tree, nor which terminations are in progress *)
Definition neutral (e : ev) : Prop :=
  match e with EvCmd _ | EvRet _ | EvCb _ _ _ | EvStuck _ _ | EvNotify _ _ _ | EvState _ _ _ _ _ _ => True | _ => False end.

Lemma NoDup_app_single (l : list Z) x : NoDup l -> ~ In x l -> NoDup (l ++ [x]).
Proof.
  induction l as [|a l IH]; cbn [app]; intros H Hx. { repeat constructor. auto. } inversion H; subst. constructor. { rewrite in_app_iff. cbn [In] in *. intuition. } apply IH; auto. intros G. apply Hx. right. auto.
Qed.

Section B.
  Variable D : Z -> fsm.
  Variable env : trace -> cmd + Z.

  Record InvB (s : st) : Prop := {
    b_live : forall z, live s z = true <-> usable (tr s) z;
    b_next : forall z, alloced (tr s) z = true <-> 1 <= z < next s;
    b_next1 : 1 <= next s;
    b_term : forall z, iterm (mem s z) = termed (tr s) z;
    b_par : forall z, iparent (mem s z) = parent_of (tr s) z /\ ipte (mem s z) = pte_of (tr s) z;
    b_unal : forall z, alloced (tr s) z = false -> phase (tr s) z = 0 /\ parent_of (tr s) z = 0;
    b_palloc : forall z, parent_of (tr s) z <> 0 -> alloced (tr s) (parent_of (tr s) z) = true;
    b_ch1 : forall p c, p <> 0 -> parent_of (tr s) c = p -> gone (tr s) c = false -> In c (ichildren (mem s p));
    b_ch2 : forall p c, In c (ichildren (mem s p)) -> p <> 0 /\ parent_of (tr s) c = p /\ (legal_trace (tr s) -> gone (tr s) c = false);
    b_busyn : NoDup (busy (tr s));
    b_busy : forall z, In z (busy (tr s)) <-> 1 <= phase (tr s) z < 6;
    b_depth : depth s = zlen (busy (tr s));
    b_coll : forall z, In z (coll s) <-> phase (tr s) z = 6;
    b_colln : NoDup (coll s);
    b_idle : busy (tr s) = [] -> coll s = [];
    b_ok : terms_ok (tr s);
    b_nice : valid_fsms D -> behaved (tr s) ->
      (forall z, 6 <= phase (tr s) z \/ alloced (tr s) z = false -> itmr (mem s z) = None) /\
      (forall c, parent_of (tr s) c <> 0 -> phase (tr s) c < 3 -> phase (tr s) (parent_of (tr s) c) < 3) /\
      (forall z, 0 <= istate (mem s z) < num (D (ifsm (mem s z)))) /\
      (forall z, 0 <= ipte (mem s z) < 32) }.
  Record extB (x : Z) (s s' : st) : Prop := {
    e_tr : exists new, tr s' = new ++ tr s /\ (forall y, In y new -> exists l, fst y = l ++ stk s);
    e_stk : stk s' = stk s;
    e_busy : busy (tr s') = busy (tr s);
    e_free : busy (tr s) <> [] -> forall z, phase (tr s) z < 7 -> phase (tr s') z < 7;
    e_phase : forall z, z <> x -> 1 <= phase (tr s) z < 6 -> phase (tr s') z = phase (tr s) z;
    e_cause : forall z, 1 <= phase (tr s) z -> cause_of (tr s') z = cause_of (tr s) z /\ term_pte (tr s') z = term_pte (tr s) z;
    e_par : forall z, legal_trace (tr s') -> 3 <= phase (tr s) z -> parent_of (tr s') z = parent_of (tr s) z;
    e_fsm : forall z, alloced (tr s) z = true -> ifsm (mem s' z) = ifsm (mem s z);
    e_next : next s <= next s' }.
  Definition post (x : Z) (s : st) (o : out) : Prop :=
    InvB (final o) /\ match o with Done s' _ => extB x s s' | Crash s' => valid_fsms D -> behaved (tr s') -> False | Halt _ => True end.

  Lemma extB_refl x s : extB x s s.
  Proof. split; auto; try lia. exists []. split; auto. intros y []. Qed.
  Lemma extB_trans x a b c : extB x a b -> extB x b c -> extB x a c.
  Proof.
    intros H1 H2. destruct H1 as [(n1 & E1 & F1) K1 B1 Fr1 P1 C1 Pa1 Fs1 N1]. destruct H2 as [(n2 & E2 & F2) K2 B2 Fr2 P2 C2 Pa2 Fs2 N2].
    assert (M : forall z, phase (tr a) z <= phase (tr b) z) by (intros; rewrite E1; apply phase_mono).
    assert (M2 : legal_trace (tr c) -> legal_trace (tr b)) by (rewrite E2; apply legal_app).
    split.
    - exists (n2 ++ n1). rewrite E2, E1, app_assoc. split; auto. intros y Hy. apply in_app_or in Hy. destruct Hy as [Hy|Hy]; auto. rewrite K1 in F2. auto.
    - congruence.
    - congruence.
    - intros Hb z Hz. apply Fr2; [congruence|auto].
    - intros z Hz Hr. specialize (P1 z Hz Hr). rewrite <- P1. apply P2; auto. lia.
    - intros z Hz. specialize (M z). destruct (C1 z Hz), (C2 z ltac:(lia)). split; congruence.
    - intros z Hl Hz. specialize (M z). rewrite Pa2 by (auto; lia). auto.
    - intros z Hz. rewrite Fs2; auto. rewrite E1. apply alloced_mono; auto.
    - lia.
  Qed.
  Lemma extB_weak x s s' : extB 0 s s' -> (forall z, phase (tr s) z = 0 \/ z <> 0) -> extB x s s'.
  Proof. intros [] Hz. split; auto. intros z _ Hr. apply e_phase0; auto. destruct (Hz z); lia. Qed.
  Lemma bindB x s o f : post x s o -> (forall s1 v, o = Done s1 v -> InvB s1 -> extB x s s1 -> post x s1 (f s1 v)) -> post x s (bindo o f).
  Proof.
    intros [H1 H2] Hf. destruct o as [s1 v|s1|s1]; cbn [bindo]; try (split; auto; fail).
    destruct (Hf s1 v eq_refl H1 H2) as [H3 H4]. split; auto. destruct (f s1 v); auto. eapply extB_trans; eauto.
  Qed.
  Lemma doneB x s s' v : InvB s' -> extB x s s' -> post x s (Done s' v). Proof. split; auto. Qed.
  Lemma doneB0 x s v : InvB s -> post x s (Done s v). Proof. split; auto. apply extB_refl. Qed.
  Lemma crashB x s s' : InvB s' -> (valid_fsms D -> behaved (tr s') -> False) -> post x s (Crash s'). Proof. split; auto. Qed.
  Lemma stepB x s s1 o : extB x s s1 -> post x s1 o -> post x s o.
  Proof. intros H [H1 H2]. split; auto. destruct o; auto. eapply extB_trans; eauto. Qed.

  Lemma zero_phase s z : InvB s -> z = 0 -> phase (tr s) z = 0.
  Proof. intros H ->. apply (b_unal s H). destruct (alloced (tr s) 0) eqn:E; auto. apply (b_next s H) in E. lia. Qed.
  Lemma weakB x s o : InvB s -> post 0 s o -> post x s o.
  Proof. intros H [H1 H2]. split; auto. destruct o; auto. apply extB_weak; auto. intros z. destruct (Z.eq_dec z 0); auto. left. apply zero_phase; auto. Qed.

  Lemma emitB x e s : neutral e -> (forall z, rank z e <> 0 -> z = x) -> InvB s -> term_ok (tr s) e ->
    (behaved ((stk s, e) :: tr s) -> behaved (tr s)) -> InvB (emit e s) /\ extB x s (emit e s).
  Proof.
    intros Hn Hr H Ho _. pose proof (phase_has _ (b_ok s H)) as PH. destruct H.
    (* which functions of the trace the entry leaves alone *)
    assert (A : (forall p, (forall z, p = is_alloc z \/ p = is_gone z \/ p = is_free z \/ p = is_term z -> True) -> True)) by auto. clear A.
    assert (Qa : forall z, alloced (tr (emit e s)) z = alloced (tr s) z) by (intros; destruct e; try contradiction; reflexivity).
    assert (Qf : forall z, freed (tr (emit e s)) z = freed (tr s) z) by (intros; destruct e; try contradiction; reflexivity).
    assert (Qg : forall z, gone (tr (emit e s)) z = gone (tr s) z) by (intros; destruct e; try contradiction; reflexivity).
    assert (Qt : forall z, termed (tr (emit e s)) z = termed (tr s) z) by (intros; destruct e; try contradiction; reflexivity).
    assert (Qp : forall z, parent_of (tr (emit e s)) z = parent_of (tr s) z) by (intros; destruct e; try contradiction; reflexivity).
    assert (Qe : forall z, pte_of (tr (emit e s)) z = pte_of (tr s) z) by (intros; destruct e; try contradiction; reflexivity).
    assert (Qb : busy (tr (emit e s)) = busy (tr s)) by (destruct e; try contradiction; reflexivity).
    assert (Qc : forall z, cause_of (tr (emit e s)) z = cause_of (tr s) z /\ term_pte (tr (emit e s)) z = term_pte (tr s) z) by (intros; destruct e; try contradiction; split; reflexivity).
    assert (R : forall z, rank z e = 0 \/ rank z e = 2 \/ rank z e = 4 \/ rank z e = 5).
    { intros z. destruct e as [| | | | |k f a| | | | | | |]; try contradiction; cbn [rank]; try destruct k; try (destruct (_ =? z)); auto. }
    assert (Qh : forall z, phase (tr (emit e s)) z = phase (tr s) z \/ (1 <= phase (tr s) z < 3 /\ 1 <= phase (tr (emit e s)) z < 3 /\ z = x) \/ (3 <= phase (tr s) z < 6 /\ 3 <= phase (tr (emit e s)) z < 6 /\ z = x)).
    { intros z. cbn [emit tr]. rewrite phase_cons. destruct Ho as [Hp _]. specialize (Hp z). specialize (R z). specialize (Hr z). pose proof (phase_nn (tr s) z). lia. }
    split.
    - split; cbn [emit mem live next depth coll].
      + intros z. unfold usable. rewrite Qa, Qf. apply b_live0.
      + intros z. rewrite Qa. auto.
      + auto.
      + intros z. rewrite Qt. auto.
      + intros z. rewrite Qp, Qe. auto.
      + intros z Hz. rewrite Qa in Hz. rewrite Qp. specialize (b_unal0 z Hz). specialize (Qh z). split; [lia|tauto].
      + intros z Hz. rewrite Qp in *. rewrite Qa. auto.
      + intros p c. rewrite Qp, Qg. auto.
      + intros p c Hc. rewrite Qp, Qg. destruct (b_ch4 p c Hc) as (C1 & C2 & C3). sp; auto. intros Hl. apply C3. exact (legal_app [(stk s, e)] _ Hl).
      + rewrite Qb. auto.
      + intros z. rewrite Qb, b_busy0. specialize (Qh z). lia.
      + rewrite Qb. auto.
      + intros z. rewrite b_coll0. specialize (Qh z). lia.
      + auto.
      + rewrite Qb. auto.
      + cbn [tr emit terms_ok]. auto.
      + intros Hv Hb. specialize (b_nice0 Hv (behaved_cons _ _ _ Hb)). destruct b_nice0 as (N1 & N2 & N3 & N4). sp; auto.
        * intros z Hz. apply N1. rewrite Qa in Hz. specialize (Qh z). destruct Hz; [left; lia|auto].
        * intros c Hc Hz. rewrite Qp in *. specialize (N2 c Hc). pose proof (Qh c). pose proof (Qh (parent_of (tr s) c)). lia.
    - split; cbn [emit stk next mem].
      + exists [(stk s, e)]. split; auto. intros y [<-|[]]. exists []. reflexivity.
      + auto.
      + auto.
      + intros _ z Hz. specialize (Qh z). lia.
      + intros z Hz Hz2. specialize (Qh z). lia.
      + auto.
      + auto.
      + auto.
      + lia.
  Qed.
  (* memory updates the trace does not show *)
  Lemma setmB x s fi f : (forall i, istate (f i) = istate i /\ iterm (f i) = iterm i /\ ifsm (f i) = ifsm i /\ iparent (f i) = iparent i /\ ipte (f i) = ipte i /\ ichildren (f i) = ichildren i /\ (itmr i = None -> itmr (f i) = None)) ->
    InvB s -> InvB (setm fi f s) /\ extB x s (setm fi f s).
  Proof.
    intros Hf H. destruct (Hf (mem s fi)) as (F1 & F2 & F3 & F4 & F5 & F6 & F7). split.
    - destruct H. split; cbn [setm mem tr live next depth coll]; auto.
      + intros z. destruct (z =? fi) eqn:E; auto. assert (z = fi) by lia. subst. rewrite F2. auto.
      + intros z. destruct (z =? fi) eqn:E; auto. assert (z = fi) by lia. subst. rewrite F4, F5. auto.
      + intros p c. destruct (p =? fi) eqn:E; auto. assert (p = fi) by lia. subst. rewrite F6. auto.
      + intros p c. destruct (p =? fi) eqn:E; auto. assert (p = fi) by lia. subst. rewrite F6. auto.
      + intros Hv Hb. destruct (b_nice0 Hv Hb) as (N1 & N2 & N3 & N4). sp; auto; intros z; destruct (z =? fi) eqn:E; auto; assert (z = fi) by lia; subst; rewrite ?F1, ?F3, ?F5; auto.
    - split; cbn [setm stk tr mem next]; auto; try lia. { exists []. split; auto. intros y []. }
      intros z _. destruct (z =? fi) eqn:E; auto. assert (z = fi) by lia. subst. auto.
  Qed.
  Lemma emitP x e s o : neutral e -> (forall z, rank z e <> 0 -> z = x) -> InvB s -> term_ok (tr s) e -> (InvB (emit e s) -> extB x s (emit e s) -> post x (emit e s) o) -> post x s o.
  Proof. intros P R H Ho Hp. destruct (emitB x e s P R H Ho) as [I1 X1]. { apply behaved_cons. } apply (stepB x s _ _ X1); auto. Qed.

  Variable rec : job -> st -> out.
  Definition jpre (j : job) (s : st) : Prop :=
    match j with
    | JLoop => True
    | JTerm fi _ => valid_fsms D -> behaved (tr s) -> live s fi = true
    | JTermCh fi _ _ => valid_fsms D -> behaved (tr s) -> live s fi = true /\ busy (tr s) <> []
    end.
  Definition jpost (j : job) (s s' : st) : Prop :=
    match j with
    | JLoop => True
    | JTerm fi _ => termed (tr s) fi = false -> 6 <= phase (tr s') fi
    | JTermCh fi _ _ => ichildren (mem s' fi) = [] \/ has (is_stuck fi) (tr s') = true
    end.
  Hypothesis recB : forall j s, InvB s -> jpre j s -> post 0 s (rec j s) /\ (forall s' v, rec j s = Done s' v -> jpost j s s').

  Lemma plain_ok t e : (forall z, rank z e = 0) -> neutral e -> match e with EvNotify _ _ _ => False | _ => True end -> term_ok t e.
  Proof. intros R N M. split. { intros z. left. auto. } destruct e; try contradiction; auto. Qed.

  Lemma callbackB x k fi arg s : InvB s -> term_ok (tr s) (EvCb k fi arg) -> (forall z, rank z (EvCb k fi arg) <> 0 -> z = x) ->
    post x s (callback rec k fi arg s) /\
    (forall s' v, callback rec k fi arg s = Done s' v -> extB 0 (emit (EvCb k fi arg) s) s' /\ exists n, tr s' = n ++ (stk s, EvCb k fi arg) :: tr s /\ (forall y, In y n -> exists l, fst y = l ++ (k, fi) :: stk s)).
  Proof.
    intros H Ho Hr. destruct (emitB x (EvCb k fi arg) s I Hr H Ho) as [H1 E1]. { apply behaved_cons. } unfold callback. set (s1 := emit (EvCb k fi arg) s) in *.
    assert (H2 : InvB (set_stk ((k, fi) :: stk s) s1)) by (destruct H1; split; auto).
    destruct (recB JLoop _ H2 I) as [[Hp He] _]. destruct (rec JLoop _) as [s2 v|s2|s2]; cbn [bindo]; try (split; [split; auto|intros; discriminate]).
    cbn [final] in Hp. assert (Hx : extB 0 s1 (set_stk (stk s) s2)).
    { destruct He as [(n & En & Fn) Ks Bs Fr Ph Cs Pa Fs Nx]. cbn [set_stk stk tr next mem] in *. split; cbn [set_stk stk tr next mem]; auto.
      exists n. split; auto. intros y Hy. destruct (Fn y Hy) as (l & ->). exists (l ++ [(k, fi)]). rewrite <- app_assoc. reflexivity. }
    split.
    - split. { cbn [final]. destruct Hp; split; auto. } eapply extB_trans; [exact E1|]. apply extB_weak; auto. intros z. destruct (Z.eq_dec z 0); auto. left. apply zero_phase; auto.
    - intros s' w [= <- <-]. split; auto. destruct He as [(n & En & Fn) _ _ _ _ _ _ _ _]. exists n. auto.
  Qed.
  Lemma cb_ok t k fi a : (k <> KPre) -> (k <> KClean) -> term_ok t (EvCb k fi a) /\ forall z, rank z (EvCb k fi a) = 0.
  Proof. intros. assert (R : forall z, rank z (EvCb k fi a) = 0) by (intros; destruct k; try congruence; reflexivity). split; auto. apply plain_ok; cbn; auto. Qed.

  Lemma live_of s fi : InvB s -> alloced (tr s) fi = true -> phase (tr s) fi < 7 -> live s fi = true.
  Proof. intros H Ha Hp. apply (b_live s H). split; auto. destruct (freed (tr s) fi) eqn:E; auto. apply (phase_has _ (b_ok s H)) in E. lia. Qed.
  Lemma of_live s fi : InvB s -> live s fi = true -> alloced (tr s) fi = true /\ phase (tr s) fi < 7 /\ fi <> 0.
  Proof. intros H Hl. pose proof (proj1 (b_live s H fi) Hl) as [Ha Hf]. split; auto. split. { destruct (Z_lt_dec (phase (tr s) fi) 7); auto. exfalso. assert (freed (tr s) fi = true) by (apply (phase_has _ (b_ok s H)); lia). congruence. } apply (b_next s H) in Ha. lia. Qed.

  Lemma dispatchB fi e s : InvB s -> (valid_fsms D -> behaved (tr s) -> fi = 0 \/ (live s fi = true /\ 0 <= e < 32)) -> post 0 s (dispatch D rec fi e s).
  Proof.
    intros H Hpre. unfold dispatch. destruct (fi =? 0) eqn:E0. { apply doneB0; auto. }
    destruct (live s fi) eqn:El; cbn [negb]. 2:{ apply crashB; auto. intros V B. destruct (Hpre V B) as [?|[? ?]]; [lia|discriminate]. }
    destruct (iterm (mem s fi)) eqn:Et. { apply doneB0; auto. }
    destruct (num _ <=? _) eqn:En. { apply crashB; auto. intros V B. destruct (b_nice s H V B) as (_ & _ & N3 & _). specialize (N3 fi). lia. }
    destruct (_ || _) eqn:Ee. { apply crashB; auto. intros V B. destruct (Hpre V B) as [?|[? ?]]; [lia|]. lia. }
    destruct (_ && _).
    - destruct (cb_ok (tr s) KAll fi e) as [C1 C2]; try discriminate. apply bindB. { apply callbackB; auto. intros z Hz. specialize (C2 z). congruence. } intros. apply doneB0; auto.
    - destruct (negb _). { apply doneB0; auto. } destruct (has_action _ _); [|apply doneB0; auto]. destruct (cb_ok (tr s) KAction fi e) as [C1 C2]; try discriminate.
      apply bindB. { apply callbackB; auto. intros z Hz. specialize (C2 z). congruence. } intros. apply doneB0; auto.
  Qed.

  Lemma chgB fi new keep ms T s : InvB s -> (valid_fsms D -> behaved (tr s) -> live s fi = true /\ 0 <= new < 32) -> post 0 s (state_chg D rec fi new keep ms T s).
  Proof.
    intros H Hpre. unfold state_chg. destruct (live s fi) eqn:El; cbn [negb]. 2:{ apply crashB; auto. intros V B. destruct (Hpre V B) as [? _]. discriminate. }
    destruct (iterm (mem s fi)) eqn:Et. { apply doneB0; auto. }
    destruct (_ || _ || _) eqn:En. { apply crashB; auto. intros V B. destruct (b_nice s H V B) as (_ & _ & N3 & _). specialize (N3 fi). destruct (Hpre V B). lia. }
    destruct (Z.testbit (out_mask _ _) new) eqn:Ep; cbn [negb]; [|apply doneB0; auto].
    set (s1 := if keep then s else setm fi (w_tmr None) s). set (f := D (ifsm (mem s fi))) in *. set (old := istate (mem s fi)) in *.
    assert (S1 : InvB s1 /\ extB 0 s s1). { unfold s1. destruct keep; auto using extB_refl. apply setmB; auto. intros i. cbn. sp; auto. }
    destruct S1 as [I1 X1]. apply (stepB 0 s s1); auto.
    assert (Hold : valid_fsms D -> behaved (tr s) -> 0 <= old < num f). { intros V B. destruct (b_nice s H V B) as (_ & _ & N3 & _). apply N3. }
    assert (T1 : tr s1 = tr s /\ ifsm (mem s1 fi) = ifsm (mem s fi)). { unfold s1. destruct keep; auto. split; auto. cbn [setm mem]. rewrite Z.eqb_refl. reflexivity. }
    destruct T1 as [T1 F1]. destruct (of_live s fi H El) as (Ha & Hp7 & H0).
    assert (P0 : phase (tr s1) fi = 0). { rewrite T1. pose proof (phase_nn (tr s) fi). destruct (Z.eq_dec (phase (tr s) fi) 0); auto. assert (termed (tr s) fi = true) by (apply (phase_has _ (b_ok s H)); lia). rewrite (b_term s H) in Et. congruence. }
    rewrite <- T1 in *. clear T1. clearbody s1.
    assert (L : post 0 s1 (if has_leave f old then callback rec KLeave fi new s1 else Done s1 0) /\
      forall s2 v, (if has_leave f old then callback rec KLeave fi new s1 else Done s1 0) = Done s2 v -> InvB s2 -> calm (tr s2) -> phase (tr s2) fi = 0).
    { destruct (has_leave f old).
      - destruct (cb_ok (tr s1) KLeave fi new) as [C1 C2]; try discriminate. destruct (callbackB 0 KLeave fi new s1 I1 C1) as [P Q]. { intros z Hz. specialize (C2 z). congruence. }
        split; auto. intros s2 v E2 I2 Hc. destruct (Q s2 v E2) as (_ & n & En2 & Fn). rewrite En2 in Hc. destruct (calm_has env fi _ n _ Hc Fn) as [_ Ht]; [left; reflexivity|].
        pose proof (b_ok s2 I2) as Hk. rewrite En2 in *. apply phase0_app; auto. rewrite phase_cons, P0, C2. reflexivity.
      - split; [apply doneB0; auto|]. intros s2 v [= <- <-]. auto. }
    destruct L as [LP LQ]. apply bindB; auto. intros s2 v E2 I2 X2. specialize (LQ s2 v E2 I2). clear LP.
    assert (V2 : forall a, valid_fsms D -> behaved (tr s2) -> live s2 fi = a -> a = true /\ new < num f).
    { intros a V B La. destruct X2 as [(n & En2 & _) _ _ _ _ _ _ _ Nx]. pose proof B as [Bc _]. specialize (LQ Bc). split.
      - rewrite <- La. apply live_of; auto; [|lia]. rewrite En2. apply alloced_mono; auto.
      - rewrite En2 in B. apply behaved_app in B. destruct (V (ifsm (mem s fi))) as [_ V']. apply (V' old new); auto; lia. }
    destruct (live s2 fi) eqn:El2; cbn [negb orb]. 2:{ apply crashB; auto. intros V B. destruct (V2 _ V B eq_refl). discriminate. }
    destruct (num f <=? new) eqn:Enn. { apply crashB; auto. intros V B. destruct (V2 _ V B eq_refl). lia. }
    match goal with |- context [w_state new ?a ?b] => set (T' := a); set (tm := b) end.
    set (s2' := setm fi (w_state new T' tm) s2).
    set (s3 := emit (EvState fi old new keep ms tm) s2').
    assert (S3 : InvB s3 /\ extB 0 s2 s3).
    { (* the update itself: emit on the updated memory *)
      assert (Fs : ifsm (mem s2 fi) = ifsm (mem s fi)) by (rewrite <- F1; apply (e_fsm 0 s1 s2); auto).
      destruct (emitB 0 (EvState fi old new keep ms tm) s2 I (fun z Hz => False_ind _ (Hz eq_refl)) I2 (plain_ok (tr s2) (EvState fi old new keep ms tm) (fun z => eq_refl) I I) (behaved_cons _ _ _)) as [I3 X3].
      unfold s3, s2'. split.
      - destruct I3. split; cbn [emit setm mem tr live next depth coll stk] in *; auto.
        + intros z. destruct (z =? fi) eqn:E; auto. cbn [w_state iterm]. assert (z = fi) by lia. subst. auto.
        + intros z. destruct (z =? fi) eqn:E; auto. cbn [w_state iparent ipte]. assert (z = fi) by lia. subst. auto.
        + intros p c. destruct (p =? fi) eqn:E; auto. cbn [w_state ichildren]. assert (p = fi) by lia. subst. auto.
        + intros p c. destruct (p =? fi) eqn:E; auto. cbn [w_state ichildren]. assert (p = fi) by lia. subst. auto.
        + intros V B. destruct (b_nice0 V B) as (N1 & N2 & N3 & N4). sp; auto; intros z; destruct (z =? fi) eqn:E; auto; cbn [w_state itmr istate ifsm ipte]; assert (z = fi) by lia; subst z; auto.
          * intros Hz. exfalso. rewrite phase_cons in Hz. apply behaved_cons in B. destruct B as [Bc _]. rewrite (LQ Bc) in Hz. cbn [rank] in Hz. destruct Hz as [Hz|Hz]; [lia|].
            destruct (of_live s2 fi I2 El2) as [Ha2 _]. unfold alloced in *. rewrite has_cons in Hz. cbn [is_alloc orb] in Hz. congruence.
          * rewrite Fs. fold f. lia.
      - destruct X3. split; cbn [emit setm mem tr live next depth coll stk] in *; auto. intros z Hz. destruct (z =? fi) eqn:E; auto. cbn [w_state ifsm]. f_equal. f_equal. lia. }
    destruct S3 as [I3 X3]. apply (stepB 0 s2 s3); auto. destruct (has_enter f new); [|apply doneB0; auto].
    destruct (cb_ok (tr s3) KEnter fi old) as [C1 C2]; try discriminate. apply bindB. { apply callbackB; auto. intros z Hz. specialize (C2 z). congruence. } intros. apply doneB0; auto.
  Qed.

  (* ---- deallocation ---- *)
  Definition free_only (n : trace) : Prop := forall y, In y n -> exists k x, y = (k, EvFree x).
  Lemma free_same n t : free_only n -> forall z,
    alloced (n ++ t) z = alloced t z /\ termed (n ++ t) z = termed t z /\ gone (n ++ t) z = gone t z /\ parent_of (n ++ t) z = parent_of t z /\ pte_of (n ++ t) z = pte_of t z /\
    cause_of (n ++ t) z = cause_of t z /\ term_pte (n ++ t) z = term_pte t z /\ busy (n ++ t) = busy t /\ (legal_trace (n ++ t) <-> legal_trace t).
  Proof.
    intros Hn z. induction n as [|y n IH]. { cbn. sp; tauto. }
    destruct (Hn y (or_introl eq_refl)) as (k & x & ->). apply IH. intros w Hw. apply Hn. right. auto.
  Qed.

  Lemma freesB l : forall s, NoDup l -> (forall z, In z l -> phase (tr s) z = 6) -> busy (tr s) = [] -> terms_ok (tr s) ->
    let s' := fold_left free1 l s in
    mem s' = mem s /\ next s' = next s /\ depth s' = depth s /\ stk s' = stk s /\ (forall z, live s' z = true <-> live s z = true /\ ~ In z l) /\ terms_ok (tr s') /\
    (exists n, tr s' = n ++ tr s /\ free_only n /\ (forall y, In y n -> fst y = stk s)) /\ (forall z, In z l -> phase (tr s') z = 7) /\ (forall z, ~ In z l -> phase (tr s') z = phase (tr s) z).
  Proof.
    induction l as [|a l IH]; intros s Hn Hp Hb Ht; cbn [fold_left].
    - sp; auto; try (intros z; cbn [In]; tauto). exists []. sp; auto; intros y [].
    - inversion Hn; subst. destruct (IH (free1 s a)) as (E1 & E2 & E3 & E4 & E5 & E6 & (n & En & Fo & Fs) & E7 & E8); auto.
      + intros z Hz. cbn [free1 emit tr]. rewrite phase_cons. cbn [rank]. destruct (a =? z) eqn:E. { assert (a = z) by lia. subst. contradiction. } rewrite Hp by (right; auto). reflexivity.
      + cbn [free1 emit tr terms_ok]. split; auto. split; auto. intros z. cbn [rank]. destruct (a =? z) eqn:E; auto. right. assert (a = z) by lia. subst. rewrite (Hp z) by (left; auto). lia.
      + cbn [free1 emit mem next depth stk] in *. sp; auto.
        * intros z. rewrite E5. cbn [free1 emit live]. destruct (z =? a) eqn:E. { assert (z = a) by lia. subst. split; [intros [? _]; discriminate|intros [_ Hx]; exfalso; apply Hx; left; auto]. }
          cbn [In]. split; intros [G1 G2]; split; auto. intros [G3|G3]; [lia|auto].
        * exists (n ++ [(stk s, EvFree a)]). rewrite <- app_assoc. sp; auto.
          -- intros y Hy. apply in_app_or in Hy. destruct Hy as [Hy|[<-|[]]]; auto. eexists _, _. reflexivity.
          -- intros y Hy. apply in_app_or in Hy. destruct Hy as [Hy|[<-|[]]]; auto.
        * intros z [<-|Hz]; auto. rewrite E8 by auto. cbn [free1 emit tr]. rewrite phase_cons. cbn [rank]. rewrite Z.eqb_refl. pose proof (phase_nn (tr s) a). lia.
        * intros z Hz. cbn [In] in Hz. rewrite E8 by tauto. cbn [free1 emit tr]. rewrite phase_cons. cbn [rank]. destruct (a =? z) eqn:E. { exfalso. apply Hz. left. lia. } pose proof (phase_nn (tr s) z). lia.
  Qed.

  (* what the end of a termination may change *)
  Record fin (fi : Z) (s s' : st) : Prop := {
    f_tr : exists new, tr s' = new ++ tr s /\ (forall y, In y new -> exists l, fst y = l ++ stk s);
    f_stk : stk s' = stk s;
    f_busy : busy (tr s') = remove Z.eq_dec fi (busy (tr s));
    f_done : 6 <= phase (tr s') fi;
    f_phase : forall z, z <> fi -> phase (tr s') z = phase (tr s) z \/ (phase (tr s) z = 6 /\ phase (tr s') z = 7 /\ busy (tr s') = []);
    f_busyf : busy (tr s') <> [] -> phase (tr s') fi = 6;
    f_same : forall z, cause_of (tr s') z = cause_of (tr s) z /\ term_pte (tr s') z = term_pte (tr s) z /\ parent_of (tr s') z = parent_of (tr s) z;
    f_fsm : forall z, ifsm (mem s' z) = ifsm (mem s z);
    f_next : next s' = next s }.

  Lemma remove_nin (l : list Z) x : ~ In x l -> remove Z.eq_dec x l = l.
  Proof. induction l as [|a l IH]; auto. intros H. cbn [remove]. destruct (Z.eq_dec x a). { exfalso. apply H. left. auto. } f_equal. apply IH. intros Hx. apply H. right. auto. Qed.

  Lemma finish_core s s' fi rest L n : InvB s -> busy (tr s) = fi :: rest -> 3 <= phase (tr s) fi < 6 -> term_ok (tr s) (EvDone fi) ->
    (forall z, mem s' z = if z =? fi then w_tmr None (mem s z) else mem s z) -> next s' = next s -> stk s' = stk s -> depth s' = depth s - 1 ->
    (forall z, live s' z = true <-> live s z = true /\ ~ In z L) ->
    tr s' = n ++ (stk s, EvDone fi) :: tr s -> free_only n -> (forall y, In y n -> fst y = stk s) -> terms_ok (tr s') ->
    (forall z, In z L -> phase (tr s') z = 7) -> (forall z, ~ In z L -> phase (tr s') z = if z =? fi then 6 else phase (tr s) z) ->
    (forall z, In z L -> z = fi \/ phase (tr s) z = 6) -> (L <> [] -> rest = []) ->
    NoDup (coll s') -> (forall z, In z (coll s') <-> phase (tr s') z = 6) -> (rest = [] -> coll s' = []) ->
    InvB s' /\ fin fi s s'.
  Proof.
    intros H Hb Hp Ho Hm Hnx Hk Hd Hl Ht Hf Hfs Hok HL1 HL2 HL3 HL4 Hc1 Hc2 Hc3.
    pose proof (free_same n ((stk s, EvDone fi) :: tr s) Hf) as FS. rewrite <- Ht in FS.
    assert (Hnr : ~ In fi rest) by (pose proof (b_busyn s H) as Hx; rewrite Hb in Hx; inversion Hx; auto).
    assert (Bz : busy (tr s') = rest). { destruct (FS 0) as (_ & _ & _ & _ & _ & _ & _ & -> & _). cbn [busy]. rewrite Hb. cbn [remove]. destruct (Z.eq_dec fi fi); [|congruence]. apply remove_nin; auto. }
    assert (Qa : forall z, alloced (tr s') z = alloced (tr s) z) by (intros z; destruct (FS z) as (-> & _); reflexivity).
    assert (Qt : forall z, termed (tr s') z = termed (tr s) z) by (intros z; destruct (FS z) as (_ & -> & _); reflexivity).
    assert (Qg : forall z, gone (tr s') z = gone (tr s) z) by (intros z; destruct (FS z) as (_ & _ & -> & _); reflexivity).
    assert (Qp : forall z, parent_of (tr s') z = parent_of (tr s) z) by (intros z; destruct (FS z) as (_ & _ & _ & -> & _); reflexivity).
    assert (Qe : forall z, pte_of (tr s') z = pte_of (tr s) z) by (intros z; destruct (FS z) as (_ & _ & _ & _ & -> & _); reflexivity).
    assert (Ql : legal_trace (tr s') -> legal_trace (tr s)) by (destruct (FS 0) as (_ & _ & _ & _ & _ & _ & _ & _ & G); intros G1; apply G in G1; exact G1).
    assert (Qh : forall z, (z = fi /\ 6 <= phase (tr s') z) \/ (z <> fi /\ (phase (tr s') z = phase (tr s) z \/ (phase (tr s) z = 6 /\ phase (tr s') z = 7 /\ rest = [])))).
    { intros z. destruct (in_dec Z.eq_dec z L) as [Hi|Hi].
      - rewrite (HL1 z Hi). destruct (Z.eq_dec z fi); [left; lia|right]. split; auto. right. destruct (HL3 z Hi); [contradiction|]. sp; auto. apply HL4. intros ->. destruct Hi.
      - rewrite (HL2 z Hi). destruct (z =? fi) eqn:E; [left; lia|right]. split; [lia|auto]. }
    assert (Hfl : forall z, freed (tr s') z = true <-> freed (tr s) z = true \/ In z L).
    { intros z. rewrite (proj2 (proj2 (proj2 (phase_has _ Hok z)))), (proj2 (proj2 (proj2 (phase_has _ (b_ok s H) z)))). destruct (in_dec Z.eq_dec z L) as [Hi|Hi].
      - rewrite (HL1 z Hi). split; intros; [auto|lia].
      - rewrite (HL2 z Hi). pose proof (phase_nn (tr s) z). destruct (z =? fi) eqn:E; [assert (z = fi) by lia; subst; split; intros; [lia|destruct H1; [lia|contradiction]]|tauto]. }
    pose proof (b_busy s H) as BB. rewrite Hb in BB. split.
    - destruct H. split.
      + intros z. rewrite Hl, b_live0. unfold usable. rewrite Qa. specialize (Hfl z). destruct (freed (tr s) z), (freed (tr s') z); intuition congruence.
      + intros z. rewrite Qa, Hnx. auto.
      + lia.
      + intros z. rewrite Hm, Qt. destruct (z =? fi); cbn [w_tmr iterm]; auto.
      + intros z. rewrite Hm, Qp, Qe. destruct (z =? fi); cbn [w_tmr iparent ipte]; auto.
      + intros z Hz. rewrite Qa in Hz. rewrite Qp. destruct (b_unal0 z Hz) as [U1 U2]. split; auto. specialize (Qh z). assert (z <> fi) by (intros ->; lia). lia.
      + intros z Hz. rewrite Qp in *. rewrite Qa. auto.
      + intros p c G1 G2 G3. rewrite Qp in G2. rewrite Qg in G3. rewrite Hm. destruct (p =? fi); cbn [w_tmr ichildren]; auto.
      + intros p c G. rewrite Hm in G. rewrite Qp, Qg. assert (G' : In c (ichildren (mem s p))) by (destruct (p =? fi); auto). destruct (b_ch4 p c G') as (? & ? & ?). sp; auto.
      + rewrite Bz. rewrite Hb in b_busyn0. inversion b_busyn0. auto.
      + intros z. rewrite Bz. specialize (BB z). specialize (Qh z). cbn [In] in BB. split.
        * intros Hz. assert (z <> fi) by (intros ->; auto). assert (1 <= phase (tr s) z < 6) by tauto. lia.
        * intros Hz. assert (z <> fi) by (intros ->; lia). assert (1 <= phase (tr s) z < 6) by lia. assert (fi = z \/ In z rest) by tauto. destruct H1; auto. congruence.
      + rewrite Bz, Hd, b_depth0, Hb. unfold zlen. cbn [length]. lia.
      + auto.
      + auto.
      + rewrite Bz. auto.
      + auto.
      + intros V B. assert (B' : behaved (tr s)). { rewrite Ht in B. apply behaved_app, behaved_cons in B. auto. }
        destruct (b_nice0 V B') as (N1 & N2 & N3 & N4). sp.
        * intros z Hz. rewrite Hm. destruct (z =? fi) eqn:E; [reflexivity|]. apply N1. rewrite Qa in Hz. specialize (Qh z). destruct Hz; [left; lia|auto].
        * intros c Hc Hz. rewrite Qp in *. pose proof (Qh c) as Q1. pose proof (Qh (parent_of (tr s) c)) as Q2. specialize (N2 c Hc). destruct Q2 as [[Q2 Q3]|Q2]; [rewrite Q2 in N2|]; lia.
        * intros z. rewrite Hm. destruct (z =? fi); cbn [w_tmr istate ifsm]; auto.
        * intros z. rewrite Hm. destruct (z =? fi); cbn [w_tmr ipte]; auto.
    - split.
      + exists (n ++ [(stk s, EvDone fi)]). rewrite <- app_assoc. split; auto. intros y Hy. exists []. apply in_app_or in Hy. destruct Hy as [Hy|[<-|[]]]; [apply Hfs|]; auto.
      + auto.
      + rewrite Bz, Hb. cbn [remove]. destruct (Z.eq_dec fi fi); [|congruence]. symmetry. apply remove_nin; auto.
      + specialize (Qh fi). lia.
      + intros z Hz. rewrite Bz. specialize (Qh z). destruct Qh as [[? _]|[_ G]]; [contradiction|exact G].
      + rewrite Bz. intros Hr. rewrite HL2. { rewrite Z.eqb_refl. reflexivity. } destruct L as [|a L]; auto. exfalso. apply Hr, HL4. discriminate.
      + intros z. destruct (FS z) as (_ & _ & _ & G1 & _ & G2 & G3 & _). rewrite G1, G2, G3. auto.
      + intros z. rewrite Hm. destruct (z =? fi); reflexivity.
      + auto.
  Qed.

  Lemma finishB s fi rest : InvB s -> busy (tr s) = fi :: rest -> 3 <= phase (tr s) fi < 6 -> term_ok (tr s) (EvDone fi) ->
    exists s', inst_free fi (emit (EvDone fi) (set_depth (depth s - 1) s)) = Done s' 0 /\ InvB s' /\ fin fi s s'.
  Proof.
    intros H Hb Hp Ho. assert (Ha : alloced (tr s) fi = true). { destruct (alloced (tr s) fi) eqn:E; auto. apply (b_unal s H) in E. lia. }
    assert (Hl : live s fi = true) by (apply live_of; auto; lia).
    set (t1 := (stk s, EvDone fi) :: tr s). assert (P1 : forall z, phase t1 z = if z =? fi then 6 else phase (tr s) z).
    { intros z. unfold t1. rewrite phase_cons. cbn [rank]. rewrite (Z.eqb_sym fi z). pose proof (phase_nn (tr s) z). destruct (z =? fi) eqn:E; [assert (z = fi) by lia; subst|]; lia. }
    assert (Ok1 : terms_ok t1) by (split; auto; apply (b_ok s H)).
    unfold inst_free. cbn [emit set_depth live]. rewrite Hl. cbn [negb setm depth emit set_depth].
    pose proof (b_depth s H) as Hd. rewrite Hb in Hd. unfold zlen in Hd. cbn [length] in Hd.
    assert (Hm0 : forall z, (if z =? fi then w_tmr None (mem s fi) else mem s z) = if z =? fi then w_tmr None (mem s z) else mem s z).
    { intros z. destruct (z =? fi) eqn:E; auto. repeat f_equal. lia. }
    destruct (depth s - 1 =? 0) eqn:Ed; cbn [negb].
    - assert (rest = []) by (destruct rest; auto; cbn [length] in Hd; lia). subst rest.
      match goal with |- context [fold_left free1 ?l ?x] => change (fold_left free1 l x) with (fold_left free1 (fi :: l) (setm fi (w_tmr None) (emit (EvDone fi) (set_depth (depth s - 1) s)))) end.
      set (s1 := setm fi (w_tmr None) (emit (EvDone fi) (set_depth (depth s - 1) s))). change (coll s1) with (coll s).
      destruct (freesB (fi :: coll s) s1) as (E1 & E2 & E3 & E4 & E5 & E6 & (n & En & Fo & Fs) & E7 & E8).
      { constructor; [|apply (b_colln s H)]. rewrite (b_coll s H). lia. }
      { change (tr s1) with t1. intros z [<-|Hz]; rewrite P1. { rewrite Z.eqb_refl. auto. } apply (b_coll s H) in Hz. destruct (z =? fi); auto. }
      { change (tr s1) with t1. unfold t1. cbn [busy]. rewrite Hb. cbn [remove]. destruct (Z.eq_dec fi fi); [reflexivity|congruence]. }
      { exact Ok1. }
      eexists. split; [reflexivity|]. eapply (finish_core s _ fi [] (fi :: coll s) n); cbn [set_coll mem next stk depth live tr coll]; auto.
      + intros z. rewrite E1. cbn [s1 setm mem emit set_depth]. apply Hm0.
      + intros z Hz. rewrite E8 by auto. apply P1.
      + intros z [<-|Hz]; auto. right. apply (b_coll s H); auto.
      + constructor.
      + intros z. split; [intros []|]. intros Hz. destruct (in_dec Z.eq_dec z (fi :: coll s)) as [Hi|Hi]. { rewrite E7 in Hz by auto. discriminate. }
        rewrite E8 in Hz by auto. change (tr s1) with t1 in Hz. rewrite P1 in Hz. cbn [In] in Hi. destruct (z =? fi) eqn:E. { apply Hi. left. lia. } apply (b_coll s H) in Hz. apply Hi. right. auto.
    - assert (rest <> []) by (destruct rest; [cbn [length] in Hd; lia|discriminate]).
      eexists. split; [reflexivity|]. eapply (finish_core s _ fi rest [] []); cbn [set_coll setm mem next stk depth live tr coll emit set_depth app In]; auto.
      + tauto.
      + intros y [].
      + intros y [].
      + intros z [].
      + intros z [].
      + congruence.
      + apply NoDup_app_single. { apply (b_colln s H). } rewrite (b_coll s H). lia.
      + intros z. rewrite in_app_iff. fold t1. rewrite P1, (b_coll s H). cbn [In]. destruct (z =? fi) eqn:E; split; intros G.
        * auto.
        * right. left. lia.
        * destruct G as [G|[G|[]]]; [auto|lia].
        * auto.
      + intros G. congruence.
  Qed.

  (* ---- termination ---- *)
  Definition started (fi cause : Z) (s : st) : st := set_depth (depth s + 1) (emit (EvTerm fi cause) (setm fi w_term s)).
  Lemma startB s fi cause : InvB s -> live s fi = true -> termed (tr s) fi = false -> InvB (started fi cause s).
  Proof.
    intros H Hl Ht. destruct (of_live s fi H Hl) as (Ha & _ & H0).
    assert (P0 : phase (tr s) fi = 0). { pose proof (phase_nn (tr s) fi). destruct (Z.eq_dec (phase (tr s) fi) 0); auto. assert (termed (tr s) fi = true) by (apply (phase_has _ (b_ok s H)); lia). congruence. }
    assert (P1 : forall z, phase (tr (started fi cause s)) z = if z =? fi then 1 else phase (tr s) z).
    { intros z. cbn [started emit setm set_depth tr stk]. rewrite phase_cons. cbn [rank]. rewrite (Z.eqb_sym fi z). pose proof (phase_nn (tr s) z). destruct (z =? fi) eqn:E; [assert (z = fi) by lia; subst|]; lia. }
    assert (Hnb : ~ In fi (busy (tr s))) by (rewrite (b_busy s H); lia).
    destruct H. split; cbn [started emit setm set_depth tr stk live next mem depth coll] in *; auto.
    - intros z. unfold termed. rewrite has_cons. cbn [is_term]. rewrite (Z.eqb_sym fi z). destruct (z =? fi); cbn [w_term iterm orb]; auto. apply b_term0.
    - intros z. cbn [parent_of pte_of]. destruct (z =? fi) eqn:E; cbn [w_term iparent ipte]; auto. assert (z = fi) by lia. subst. auto.
    - intros z Hz. destruct (b_unal0 z Hz) as [U1 U2]. split; auto. rewrite P1. destruct (z =? fi) eqn:E; auto. assert (z = fi) by lia. subst. unfold alloced in *. rewrite has_cons in Hz. cbn [is_alloc orb] in Hz. congruence.
    - intros p c. cbn [parent_of]. intros G1 G2 G3. specialize (b_ch3 p c G1 G2 G3). destruct (p =? fi) eqn:E; auto. cbn [w_term ichildren]. assert (p = fi) by lia. subst. auto.
    - intros p c G. assert (G' : In c (ichildren (mem s p))) by (destruct (p =? fi) eqn:E; auto; cbn [w_term ichildren] in G; assert (p = fi) by lia; subst; auto). destruct (b_ch4 p c G') as (? & ? & ?). sp; auto.
    - cbn [busy]. constructor; auto.
    - intros z. rewrite P1. cbn [busy In]. rewrite b_busy0. destruct (z =? fi) eqn:E; [assert (z = fi) by lia; subst; split; intros; [lia|auto]|]. split; [intros [G|G]; [lia|auto]|auto].
    - cbn [busy]. rewrite b_depth0. unfold zlen. cbn [length]. lia.
    - intros z. rewrite P1, b_coll0. destruct (z =? fi) eqn:E; [assert (z = fi) by lia; subst; lia|tauto].
    - discriminate.
    - split; auto. split; auto. intros z. cbn [rank]. rewrite (Z.eqb_sym fi z). destruct (z =? fi) eqn:E; auto. assert (z = fi) by lia. subst. right. lia.
    - intros V B. destruct (b_nice0 V (behaved_cons _ _ _ B)) as (N1 & N2 & N3 & N4). sp.
      + intros z Hz. rewrite P1 in Hz. assert (G : 6 <= phase (tr s) z \/ alloced (tr s) z = false) by (destruct Hz as [Hz|Hz]; [left; destruct (z =? fi); lia|right; exact Hz]).
        specialize (N1 z G). destruct (z =? fi) eqn:E; auto. cbn [w_term itmr]. assert (z = fi) by lia. subst. auto.
      + intros c. cbn [parent_of]. intros Hc. specialize (N2 c Hc). intros Hz. rewrite P1 in *. destruct (parent_of (tr s) c =? fi) eqn:E2; [lia|]. apply N2. destruct (c =? fi) eqn:E; [assert (c = fi) by lia; subst; lia|auto].
      + intros z. destruct (z =? fi) eqn:E; cbn [w_term istate ifsm]; auto.
      + intros z. destruct (z =? fi) eqn:E; cbn [w_term ipte]; auto.
  Qed.

  (* removal from the parent's list *)
  Lemma leaveB s fi : InvB s -> 1 <= phase (tr s) fi < 3 -> (ichildren (mem s fi) = [] \/ has (is_stuck fi) (tr s) = true) ->
    post fi s (run (s1, rc) <- (if iparent (mem s fi) =? 0 then Done s 0 else detach fi s) ; Done (emit (EvGone fi) s1) 0) /\
    (forall s' v, (run (s1, rc) <- (if iparent (mem s fi) =? 0 then Done s 0 else detach fi s) ; Done (emit (EvGone fi) s1) 0) = Done s' v ->
       phase (tr s') fi = 3 /\ parent_of (tr s') fi = parent_of (tr s) fi /\ (forall z, z <> fi -> phase (tr s') z = phase (tr s) z) /\ exists s1, (if iparent (mem s fi) =? 0 then Done s 0 else detach fi s) = Done s1 0 /\ s' = emit (EvGone fi) s1).
  Proof.
    intros H Hp Hc. destruct (b_par s H fi) as [Ep _].
    assert (Ha : alloced (tr s) fi = true). { destruct (alloced (tr s) fi) eqn:E; auto. apply (b_unal s H) in E. lia. }
    assert (H0 : fi <> 0) by (intros ->; pose proof (zero_phase s 0 H eq_refl); lia).
    assert (Hg : gone (tr s) fi = false). { destruct (gone (tr s) fi) eqn:E; auto. apply (phase_has _ (b_ok s H)) in E. lia. }
    set (p := iparent (mem s fi)) in *.
    set (s1 := if p =? 0 then s else setm p (fun i => w_children (remove Z.eq_dec fi (ichildren i)) i) s).
    assert (D1 : (if p =? 0 then Done s 0 else detach fi s) = Done s1 0 \/ ((if p =? 0 then Done s 0 else detach fi s) = Crash s /\ (valid_fsms D -> behaved (tr s) -> False))).
    { unfold s1, detach. fold p. destruct (p =? 0) eqn:E0; auto. destruct (live s p) eqn:El; cbn [negb orb].
      - replace (existsb (Z.eqb fi) (ichildren (mem s p))) with true. { left. reflexivity. } symmetry. apply existsb_exists. exists fi. split; [|apply Z.eqb_refl]. apply (b_ch1 s H); auto. lia.
      - right. split; auto. intros V B. destruct (b_nice s H V B) as (_ & N2 & _). assert (parent_of (tr s) fi <> 0) by lia. specialize (N2 fi H1 ltac:(lia)). rewrite <- Ep in N2.
        assert (live s p = true); [|congruence]. apply live_of; auto; [|lia]. rewrite Ep. apply (b_palloc s H); auto. }
    destruct D1 as [D1|[D1 Dc]]; rewrite D1; cbn [bindo]. 2:{ split; [apply crashB; auto|]. intros. discriminate. }
    assert (T1 : tr s1 = tr s /\ live s1 = live s /\ next s1 = next s /\ depth s1 = depth s /\ coll s1 = coll s /\ stk s1 = stk s) by (unfold s1; destruct (p =? 0); sp; reflexivity).
    destruct T1 as (T1 & T2 & T3 & T4 & T5 & T6).
    assert (M1 : forall z, ifsm (mem s1 z) = ifsm (mem s z) /\ istate (mem s1 z) = istate (mem s z) /\ itmr (mem s1 z) = itmr (mem s z) /\ iparent (mem s1 z) = iparent (mem s z) /\ ipte (mem s1 z) = ipte (mem s z) /\ iterm (mem s1 z) = iterm (mem s z)).
    { intros z. unfold s1. destruct (p =? 0); [sp; auto|]. cbn [setm mem]. destruct (z =? p) eqn:E; cbn [w_children ifsm istate itmr iparent ipte iterm]; [assert (z = p) by lia; subst z|]; sp; auto. }
    assert (C1 : forall z c, In c (ichildren (mem s1 z)) <-> In c (ichildren (mem s z)) /\ (c = fi -> z <> p \/ p = 0)).
    { intros z c. unfold s1. destruct (p =? 0) eqn:E0. { assert (p = 0) by lia. tauto. } cbn [setm mem]. destruct (z =? p) eqn:E; cbn [w_children ichildren].
      - assert (z = p) by lia. subst z. split. { intros G. apply in_remove in G. destruct G. split; auto; intros ->; congruence. } intros [G1 G2]. apply in_in_remove; auto. intros ->. destruct (G2 eq_refl); lia.
      - assert (z <> p) by lia. tauto. }
    set (s' := emit (EvGone fi) s1).
    assert (Tr : tr s' = (stk s, EvGone fi) :: tr s) by (unfold s'; cbn [emit tr]; rewrite T1, T6; reflexivity).
    assert (P1 : forall z, phase (tr s') z = if z =? fi then 3 else phase (tr s) z).
    { intros z. rewrite Tr, phase_cons. cbn [rank]. rewrite (Z.eqb_sym fi z). pose proof (phase_nn (tr s) z). destruct (z =? fi) eqn:E; [assert (z = fi) by lia; subst z|]; lia. }
    assert (Ok : term_ok (tr s) (EvGone fi)).
    { split. { intros z. cbn [rank]. rewrite (Z.eqb_sym fi z). destruct (z =? fi) eqn:E; auto. assert (z = fi) by lia. subst z. right. lia. }
      intros Hs c Hpc. destruct Hc as [Hc|Hc]; [|congruence]. destruct (gone (tr s) c) eqn:Eg; auto. pose proof (b_ch1 s H fi c H0 Hpc Eg) as G. rewrite Hc in G. destruct G. }
    assert (G1 : forall z, gone (tr s') z = (z =? fi) || gone (tr s) z). { intros z. rewrite Tr. unfold gone. rewrite has_cons. cbn [is_gone]. rewrite (Z.eqb_sym fi z). reflexivity. }
    assert (I' : InvB s').
    { destruct H. split; try rewrite Tr; try (unfold s'; cbn [emit live next depth coll mem]; rewrite ?T2, ?T3, ?T4, ?T5); auto.
      - intros z. destruct (M1 z) as (_ & _ & _ & _ & _ & ->). apply b_term0.
      - intros z. destruct (M1 z) as (_ & _ & _ & -> & -> & _). apply b_par0.
      - intros z Hz. destruct (b_unal0 z Hz) as [U1 U2]. split; auto. rewrite <- Tr, P1. destruct (z =? fi) eqn:E; auto. assert (z = fi) by lia. subst z. change (alloced (tr s) fi = false) in Hz. congruence.
      - intros q c K1 K2 K3. rewrite <- Tr, G1 in K3. apply orb_false_iff in K3. destruct K3 as [K3 K4]. apply C1. split; [apply b_ch3; auto|]. intros ->. lia.
      - intros q c K. apply C1 in K. destruct K as [K1 K2]. destruct (b_ch4 q c K1) as (K3 & K4 & K5). sp; auto. intros Kl. rewrite <- Tr, G1. apply orb_false_iff. split; [|apply K5; exact Kl].
        apply Z.eqb_neq. intros ->. destruct (K2 eq_refl); [congruence|]. lia.
      - intros z. cbn [busy]. rewrite <- Tr, P1, b_busy0. destruct (z =? fi) eqn:E; [assert (z = fi) by lia; subst z|]; lia.
      - intros z. rewrite <- Tr, P1, b_coll0. destruct (z =? fi) eqn:E; [assert (z = fi) by lia; subst z|]; lia.
      - split; auto.
      - intros V B. pose proof (behaved_cons _ _ _ B) as B'. destruct (b_nice0 V B') as (N1 & N2 & N3 & N4). rewrite <- Tr. sp.
        + intros z Hz. destruct (M1 z) as (_ & _ & -> & _). apply N1. rewrite P1 in Hz. rewrite Tr in Hz. destruct Hz as [Hz|Hz]; [left; destruct (z =? fi); lia|right; exact Hz].
        + intros c. rewrite !P1. rewrite Tr. cbn [parent_of]. intros Kc Kz. destruct (c =? fi) eqn:E; [lia|]. destruct (parent_of (tr s) c =? fi) eqn:E2; [|apply N2; auto].
          destruct Ok as [_ Ok]. assert (gone (tr s) c = true) by (apply Ok; [apply B'|lia]). apply (phase_has _ b_ok0) in H. lia.
        + intros z. destruct (M1 z) as (-> & -> & _). auto.
        + intros z. destruct (M1 z) as (_ & _ & _ & _ & -> & _). auto. }
    split.
    - apply doneB; auto. split.
      + exists [(stk s, EvGone fi)]. split; auto. intros y [<-|[]]. exists []. reflexivity.
      + unfold s'. cbn [emit stk]. auto.
      + rewrite Tr. reflexivity.
      + intros _ z Hz. rewrite P1. destruct (z =? fi); lia.
      + intros z Hz _. rewrite P1. destruct (z =? fi) eqn:E; [lia|auto].
      + intros z _. rewrite Tr. auto.
      + intros z _ _. rewrite Tr. auto.
      + intros z _. unfold s'. cbn [emit mem]. apply M1.
      + unfold s'. cbn [emit next]. lia.
    - intros s2 v [= <- <-]. fold s'. rewrite P1, Z.eqb_refl. sp; auto.
      + rewrite Tr. reflexivity.
      + intros z Hz. rewrite P1. destruct (z =? fi) eqn:E; [lia|auto].
      + exists s1. auto.
  Qed.

  (* outcome of a termination whose start left state s2 *)
  Definition tpost (fi : Z) (s2 : st) (o : out) : Prop :=
    InvB (final o) /\ match o with Done s' _ => exists s5, InvB s5 /\ extB fi s2 s5 /\ fin fi s5 s' | Crash s' => valid_fsms D -> behaved (tr s') -> False | Halt _ => True end.
  Lemma bindT fi s2 o f : post fi s2 o -> (forall s3 v, o = Done s3 v -> InvB s3 -> extB fi s2 s3 -> tpost fi s3 (f s3 v)) -> tpost fi s2 (bindo o f).
  Proof.
    intros [H1 H2] Hf. destruct o as [s3 v|s3|s3]; cbn [bindo]; try (split; auto; fail). destruct (Hf s3 v eq_refl H1 H2) as [H3 H4]. split; auto.
    destruct (f s3 v); auto. destruct H4 as (s5 & G1 & G2 & G3). exists s5. sp; auto. eapply extB_trans; eauto.
  Qed.
  Lemma in_busy_depth s fi : InvB s -> 1 <= phase (tr s) fi < 6 -> 1 <= depth s /\ busy (tr s) <> [].
  Proof. intros H Hp. apply (b_busy s H) in Hp. rewrite (b_depth s H). destruct (busy (tr s)); [destruct Hp|]. unfold zlen. cbn [length]. split; [lia|discriminate]. Qed.
  Lemma alloc_phase s fi : InvB s -> 1 <= phase (tr s) fi -> alloced (tr s) fi = true.
  Proof. intros H Hp. destruct (alloced (tr s) fi) eqn:E; auto. apply (b_unal s H) in E. lia. Qed.

  Lemma notifyB s fi cause pte rest : InvB s -> busy (tr s) = fi :: rest -> 3 <= phase (tr s) fi < 5 -> cause_of (tr s) fi = cause -> term_pte (tr s) fi = pte ->
    (valid_fsms D -> behaved (tr s) -> 0 <= pte < 32 /\ (parent_of (tr s) fi <> 0 -> live s (parent_of (tr s) fi) = true)) -> tpost fi s (term_notify D rec fi cause pte s).
  Proof.
    intros H Hb Hp Hca Hpt Hpar. unfold term_notify. pose proof (alloc_phase s fi H ltac:(lia)) as Ha. rewrite (live_of s fi H Ha ltac:(lia)). cbn [negb].
    destruct (b_par s H fi) as [-> _]. set (p := parent_of (tr s) fi) in *. destruct (in_busy_depth s fi H ltac:(lia)) as [Hd _]. replace (depth s =? 0) with false by lia. cbn [bindo].
    assert (N : post fi s (if negb (p =? 0) && negb (cause =? 0) then dispatch D rec p pte (emit (EvNotify fi p pte) s) else Done s 0) /\
      forall s2 v, (if negb (p =? 0) && negb (cause =? 0) then dispatch D rec p pte (emit (EvNotify fi p pte) s) else Done s 0) = Done s2 v ->
        3 <= phase (tr s2) fi < 6 /\ (legal_trace (tr s2) -> cause <> 0 -> parent_of (tr s2) fi <> 0 -> In (stk s, EvNotify fi p pte) (tr s2) /\ parent_of (tr s2) fi = p)).
    { destruct (negb (p =? 0) && negb (cause =? 0)) eqn:Ec.
      - apply andb_true_iff in Ec. destruct Ec as [Ec1 Ec2].
        assert (Ok : term_ok (tr s) (EvNotify fi p pte)). { split. { intros z. cbn [rank]. destruct (fi =? z) eqn:E; auto. assert (fi = z) by lia. subst z. right. lia. } sp; auto; lia. }
        destruct (emitB fi (EvNotify fi p pte) s I) as [I1 X1]; auto. { intros z. cbn [rank]. destruct (fi =? z) eqn:E; [lia|congruence]. } { apply behaved_cons. }
        assert (Dp : post 0 (emit (EvNotify fi p pte) s) (dispatch D rec p pte (emit (EvNotify fi p pte) s))).
        { apply dispatchB; auto. intros V B. destruct (Hpar V (behaved_cons _ _ _ B)) as [R1 R2]. right. split; auto. apply R2. lia. }
        assert (Ph : phase (tr (emit (EvNotify fi p pte) s)) fi = 5). { cbn [emit tr]. rewrite phase_cons. cbn [rank]. rewrite Z.eqb_refl. lia. }
        split. { eapply stepB; [exact X1|]. apply weakB; auto. }
        intros s2 v E2. rewrite E2 in Dp. destruct Dp as [_ X2]. pose proof (e_phase _ _ _ X2 fi) as Q1. assert (H0 : fi <> 0) by (apply (b_next s H) in Ha; lia). specialize (Q1 H0 ltac:(lia)). split; [lia|].
        intros Hl _ _. split.
        + destruct (e_tr _ _ _ X2) as (n & -> & _). apply in_or_app. right. left. reflexivity.
        + rewrite (e_par _ _ _ X2 fi) by (auto; lia). reflexivity.
      - split; [apply doneB0; auto|]. intros s2 v [= <- <-]. split; [lia|]. intros _ G1 G2. fold p in G2. exfalso. destruct (p =? 0) eqn:E1; [lia|]. destruct (cause =? 0) eqn:E2; [lia|discriminate]. }
    destruct N as [N1 N2]. apply bindT; auto. intros s2 v E2 I2 X2. destruct (N2 s2 v E2) as [Q1 Q2]. destruct (in_busy_depth s2 fi I2 ltac:(lia)) as [Hd2 _]. replace (depth s2 =? 0) with false by lia.
    assert (Ok : term_ok (tr s2) (EvDone fi)).
    { split. { intros z. cbn [rank]. destruct (fi =? z) eqn:E; auto. assert (fi = z) by lia. subst z. right. lia. }
      intros B G1 G2. destruct (e_cause _ _ _ X2 fi ltac:(lia)) as [Ec _]. rewrite Ec, Hca in G1. destruct (Q2 (proj1 (proj2 B)) G1 G2) as [K1 K2]. rewrite K2. eexists _, _. exact K1. }
    destruct (finishB s2 fi rest I2) as (s' & -> & I' & F'); auto. { rewrite (e_busy _ _ _ X2). auto. }
    split; auto. exists s2. sp; auto. apply extB_refl.
  Qed.

  Lemma cb_phase k fi arg s s' v : InvB s -> callback rec k fi arg s = Done s' v -> 1 <= rank fi (EvCb k fi arg) < 6 -> 1 <= phase (tr s) fi < rank fi (EvCb k fi arg) -> fi <> 0 ->
    extB 0 (emit (EvCb k fi arg) s) s' -> phase (tr s') fi = rank fi (EvCb k fi arg).
  Proof. intros H E R P H0 X. assert (Q : phase (tr (emit (EvCb k fi arg) s)) fi = rank fi (EvCb k fi arg)) by (cbn [emit tr]; rewrite phase_cons; lia). rewrite (e_phase _ _ _ X fi) by (auto; lia). exact Q. Qed.

  Lemma leave_split fi cause pte s : term_leave D rec fi cause pte s = if negb (live s fi) then Crash s else
    run (s2, rc) <- (run (s1, rc) <- (if iparent (mem s fi) =? 0 then Done s 0 else detach fi s) ; Done (emit (EvGone fi) s1) 0) ;
    run (s3, rc) <- (if has_clean (D (ifsm (mem s2 fi))) then callback rec KClean fi cause s2 else Done s2 0) ; term_notify D rec fi cause pte s3.
  Proof. unfold term_leave. destruct (negb (live s fi)); auto. destruct (if iparent (mem s fi) =? 0 then Done s 0 else detach fi s); reflexivity. Qed.

  Lemma termB fi cause s : InvB s -> jpre (JTerm fi cause) s -> post 0 s (term D true rec fi cause s) /\ forall s' v, term D true rec fi cause s = Done s' v -> jpost (JTerm fi cause) s s'.
  Proof.
    intros H Hpre. unfold term. destruct (live s fi) eqn:El; cbn [negb]. 2:{ split; [|intros; discriminate]. apply crashB; auto. intros V B. cbn [jpre] in Hpre. specialize (Hpre V B). congruence. }
    destruct (iterm (mem s fi)) eqn:Et. { split; [apply doneB0; auto|]. intros s' v _ G. rewrite (b_term s H) in Et. congruence. }
    rewrite (b_term s H) in Et. pose proof (startB s fi cause H El Et) as I2. cbn [orb].
    change (set_depth (depth (emit (EvTerm fi cause) (setm fi w_term s)) + 1) (emit (EvTerm fi cause) (setm fi w_term s))) with (started fi cause s).
    destruct (of_live s fi H El) as (Ha & _ & H0).
    assert (P0 : phase (tr s) fi = 0). { pose proof (phase_nn (tr s) fi). destruct (Z.eq_dec (phase (tr s) fi) 0); auto. assert (termed (tr s) fi = true) by (apply (phase_has _ (b_ok s H)); lia). congruence. }
    set (s2 := started fi cause s) in *. assert (T2 : tr s2 = (stk s, EvTerm fi cause) :: tr s) by reflexivity.
    assert (P2 : phase (tr s2) fi = 1). { rewrite T2, phase_cons, P0. cbn [rank]. rewrite Z.eqb_refl. reflexivity. }
    assert (B2 : busy (tr s2) = fi :: busy (tr s)) by reflexivity.
    assert (C2 : cause_of (tr s2) fi = cause /\ term_pte (tr s2) fi = pte_of (tr s) fi). { rewrite T2. cbn [cause_of term_pte]. rewrite Z.eqb_refl. auto. }
    set (pte := ipte (mem s fi)) in *. assert (Ept : pte = pte_of (tr s) fi) by apply (b_par s H).
    set (o := run (s3, rc) <- _ ; _).
    assert (T : tpost fi s2 o).
    { unfold o. clear o.
      assert (L1 : post fi s2 (if has_pre (D (ifsm (mem s fi))) then callback rec KPre fi cause s2 else Done s2 0) /\
        forall s3 v, (if has_pre (D (ifsm (mem s fi))) then callback rec KPre fi cause s2 else Done s2 0) = Done s3 v -> 1 <= phase (tr s3) fi < 3).
      { destruct (has_pre _). 2:{ split; [apply doneB0; auto|]. intros s3 v [= <- <-]. lia. }
        assert (Ok : term_ok (tr s2) (EvCb KPre fi cause)). { split; auto. intros z. cbn [rank]. destruct (fi =? z) eqn:E; auto. assert (fi = z) by lia. subst z. right. lia. }
        destruct (callbackB fi KPre fi cause s2 I2 Ok) as [K1 K2]. { intros z. cbn [rank]. destruct (fi =? z) eqn:E; [lia|congruence]. }
        split; auto. intros s3 v E3. destruct (K2 s3 v E3) as [K3 _]. assert (R : rank fi (EvCb KPre fi cause) = 2) by (cbn [rank]; rewrite Z.eqb_refl; reflexivity). rewrite (cb_phase KPre fi cause s2 s3 v); auto; lia. }
      destruct L1 as [L1 L1']. apply bindT; auto. intros s3 v3 E3 I3 X3. specialize (L1' s3 v3 E3). clear E3.
      pose proof (alloc_phase s3 fi I3 ltac:(lia)) as A3. pose proof (live_of s3 fi I3 A3 ltac:(lia)) as V3. destruct (in_busy_depth s3 fi I3 ltac:(lia)) as [_ B3].
      destruct (recB (JTermCh fi TERM_PARENT 0) s3 I3) as [R1 R2]. { cbn [jpre]. auto. }
      apply bindT. { apply weakB; auto. } intros s4 v4 E4 I4 X4. specialize (R2 s4 v4 E4). cbn [jpost] in R2. rewrite E4 in R1. destruct R1 as [_ X4'].
      assert (P4 : 1 <= phase (tr s4) fi < 3). { rewrite (e_phase _ _ _ X4' fi) by (auto; lia). auto. }
      pose proof (extB_trans _ _ _ _ X3 X4) as X24. clear X4'.
      rewrite leave_split. pose proof (alloc_phase s4 fi I4 ltac:(lia)) as A4. rewrite (live_of s4 fi I4 A4) by lia. cbn [negb].
      destruct (leaveB s4 fi I4 P4 R2) as [L4 L4']. apply bindT; auto. intros s5 v5 E5 I5 X5. destruct (L4' s5 v5 E5) as (P5 & Pa5 & Ph5 & _). clear E5 L4 L4'.
      assert (C5 : cause_of (tr s5) fi = cause /\ term_pte (tr s5) fi = pte). { pose proof (extB_trans _ _ _ _ X24 X5) as X25. destruct (e_cause _ _ _ X25 fi ltac:(lia)) as [-> ->]. destruct C2 as [-> ->]. auto. }
      assert (B5 : busy (tr s5) = fi :: busy (tr s)). { rewrite (e_busy _ _ _ X5), (e_busy _ _ _ X24). auto. }
      assert (Par5 : valid_fsms D -> behaved (tr s5) -> 0 <= pte < 32 /\ (parent_of (tr s5) fi <> 0 -> phase (tr s5) (parent_of (tr s5) fi) < 7)).
      { intros V B. destruct (e_tr _ _ _ X5) as (n5 & En5 & _). destruct (e_tr _ _ _ X24) as (n4 & En4 & _). rewrite En5 in B. apply behaved_app in B. split.
        - assert (B' : behaved (tr s)). { rewrite En4, T2 in B. apply behaved_app, behaved_cons in B. auto. } destruct (b_nice s H V B') as (_ & _ & _ & N4). apply N4.
        - rewrite Pa5. intros G. destruct (b_nice s4 I4 V B) as (_ & N2 & _). specialize (N2 fi G ltac:(lia)). destruct (Z.eq_dec (parent_of (tr s4) fi) fi) as [->|Ne]; [lia|]. rewrite Ph5 by auto. lia. }
      assert (L5 : post fi s5 (if has_clean (D (ifsm (mem s5 fi))) then callback rec KClean fi cause s5 else Done s5 0) /\
        forall s6 v, (if has_clean (D (ifsm (mem s5 fi))) then callback rec KClean fi cause s5 else Done s5 0) = Done s6 v -> 3 <= phase (tr s6) fi < 5).
      { destruct (has_clean _). 2:{ split; [apply doneB0; auto|]. intros s6 v [= <- <-]. lia. }
        assert (Ok : term_ok (tr s5) (EvCb KClean fi cause)). { split; auto. intros z. cbn [rank]. destruct (fi =? z) eqn:E; auto. assert (fi = z) by lia. subst z. right. lia. }
        destruct (callbackB fi KClean fi cause s5 I5 Ok) as [K1 K2]. { intros z. cbn [rank]. destruct (fi =? z) eqn:E; [lia|congruence]. }
        split; auto. intros s6 v E6. destruct (K2 s6 v E6) as [K3 _]. assert (R : rank fi (EvCb KClean fi cause) = 4) by (cbn [rank]; rewrite Z.eqb_refl; reflexivity). rewrite (cb_phase KClean fi cause s5 s6 v); auto; lia. }
      destruct L5 as [L5 L5']. apply bindT; auto. intros s6 v6 E6 I6 X6. specialize (L5' s6 v6 E6). clear E6 L5.
      apply (notifyB s6 fi cause pte (busy (tr s))); auto.
      - rewrite (e_busy _ _ _ X6). auto.
      - destruct (e_cause _ _ _ X6 fi ltac:(lia)) as [-> _]. tauto.
      - destruct (e_cause _ _ _ X6 fi ltac:(lia)) as [_ ->]. tauto.
      - intros V B. destruct (e_tr _ _ _ X6) as (n6 & En6 & _). assert (B' : behaved (tr s5)) by (rewrite En6 in B; apply behaved_app in B; auto). destruct (Par5 V B') as [G1 G2]. split; auto.
        rewrite (e_par _ _ _ X6 fi) by (try lia; apply B). intros G. specialize (G2 G). apply live_of; auto.
        + rewrite En6. apply alloced_mono. apply (b_palloc s5 I5); auto.
        + apply (e_free _ _ _ X6); auto. rewrite B5. discriminate. }
    clearbody o. destruct T as [T1 T3]. split.
    - split; auto. destruct o as [s' v| |]; auto. destruct T3 as (s5 & I5 & X & F). destruct F. destruct X.
      assert (Bs : busy (tr s') = busy (tr s)). { rewrite f_busy0, e_busy0, B2. cbn [remove]. destruct (Z.eq_dec fi fi); [|congruence]. apply remove_nin. rewrite (b_busy s H). lia. }
      assert (Psz : forall z, z <> fi -> phase (tr s2) z = phase (tr s) z). { intros z Hz. rewrite T2, phase_cons. cbn [rank]. destruct (fi =? z) eqn:E; [lia|]. pose proof (phase_nn (tr s) z). lia. }
      assert (Mz : forall z, phase (tr s2) z <= phase (tr s5) z). { intros z. destruct e_tr0 as (n & -> & _). apply phase_mono. }
      split.
      + destruct f_tr0 as (n1 & En1 & Fn1). destruct e_tr0 as (n2 & En2 & Fn2). exists (n1 ++ n2 ++ [(stk s, EvTerm fi cause)]). split. { rewrite En1, En2, T2, <- !app_assoc. reflexivity. }
        assert (Sk : stk s5 = stk s) by (rewrite e_stk0; reflexivity). change (stk s2) with (stk s) in *. rewrite Sk in Fn1. intros y Hy. apply in_app_or in Hy. destruct Hy as [Hy|Hy]; auto. apply in_app_or in Hy. destruct Hy as [Hy|[<-|[]]]; auto. exists []. reflexivity.
      + rewrite f_stk0, e_stk0. reflexivity.
      + auto.
      + intros Hb z Hz. rewrite <- Bs in Hb. destruct (Z.eq_dec z fi) as [->|Ne]. { rewrite f_busyf0 by auto. lia. } destruct (f_phase0 z Ne) as [->|(_ & _ & ?)]; [|congruence]. apply e_free0; [rewrite B2; discriminate|]. rewrite Psz; auto.
      + intros z _ Hz. assert (Ne : z <> fi) by (intros ->; lia). destruct (f_phase0 z Ne) as [->|(G1 & G2 & G3)]. { rewrite e_phase0; auto. rewrite Psz; auto. } exfalso. rewrite e_phase0 in G1 by (auto; rewrite Psz; auto). rewrite Psz in G1 by auto. lia.
      + intros z Hz. assert (Ne : z <> fi) by (intros ->; lia). destruct (f_same0 z) as (-> & -> & _). destruct (e_cause0 z) as [-> ->]. { rewrite Psz; auto. } rewrite T2. cbn [cause_of term_pte]. destruct (fi =? z) eqn:E; [lia|auto].
      + intros z Hl Hz. assert (Ne : z <> fi) by (intros ->; lia). destruct (f_same0 z) as (_ & _ & ->). rewrite e_par0; auto. { destruct f_tr0 as (n1 & En1 & _). rewrite En1 in Hl. apply legal_app in Hl. auto. } rewrite Psz; auto.
      + intros z Hz. rewrite f_fsm0, e_fsm0 by exact Hz. unfold s2, started. cbn [set_depth emit setm mem]. destruct (z =? fi) eqn:E; auto. cbn [w_term ifsm]. repeat f_equal. lia.
      + rewrite f_next0. exact e_next0.
    - intros s' v E. rewrite E in T3. destruct T3 as (s5 & _ & _ & F). intros _. apply F.
  Qed.

  Lemma termchB fi cause last s : InvB s -> jpre (JTermCh fi cause last) s -> post 0 s (term_children rec fi cause last s) /\ forall s' v, term_children rec fi cause last s = Done s' v -> jpost (JTermCh fi cause last) s s'.
  Proof.
    intros H Hpre. unfold term_children. cbn [jpre] in Hpre. destruct (live s fi) eqn:El; cbn [negb]. 2:{ split; [|intros; discriminate]. apply crashB; auto. intros V B. destruct (Hpre V B). discriminate. }
    destruct (ichildren (mem s fi)) as [|c l] eqn:Ec. { split; [apply doneB0; auto|]. intros s' v [= <- <-]. cbn [jpost]. auto. }
    destruct (c =? last).
    { split. { apply (emitP 0 (EvStuck fi c)); [exact I| intros z Hz; exfalso; apply Hz; reflexivity | exact H | apply plain_ok; cbn; auto |]. intros. apply doneB0; auto. } intros s' v [= <- <-]. cbn [jpost]. right. cbn [emit tr]. rewrite has_cons. cbn [is_stuck]. rewrite Z.eqb_refl. reflexivity. }
    assert (Hc : In c (ichildren (mem s fi))) by (rewrite Ec; left; reflexivity). destruct (b_ch2 s H fi c Hc) as (G1 & G2 & G3).
    destruct (recB (JTerm c cause) s H) as [R1 _].
    { cbn [jpre]. intros V B. apply live_of; auto. { destruct (alloced (tr s) c) eqn:E; auto. apply (b_unal s H) in E. lia. } specialize (G3 (proj1 (proj2 B))). destruct (Z_lt_dec (phase (tr s) c) 7); auto. assert (gone (tr s) c = true) by (apply (phase_has _ (b_ok s H)); lia). congruence. }
    assert (R : forall s1 v, rec (JTerm c cause) s = Done s1 v -> InvB s1 -> extB 0 s s1 -> jpre (JTermCh fi cause c) s1).
    { intros s1 v E1 I1 X1 V B. destruct (e_tr _ _ _ X1) as (n & En & _). assert (B' : behaved (tr s)) by (rewrite En in B; apply behaved_app in B; auto). destruct (Hpre V B') as [_ Hb]. split; [|rewrite (e_busy _ _ _ X1); auto].
      destruct (of_live s fi H El) as (Ha & Hp & _). apply live_of; auto. { rewrite En. apply alloced_mono; auto. } apply (e_free _ _ _ X1); auto. }
    split. { apply bindB; auto. intros s1 v E1 I1 X1. apply recB; eauto. }
    intros s' v E. destruct (rec (JTerm c cause) s) as [s1 v1| |] eqn:E1; cbn [bindo] in E; try discriminate. destruct R1 as [I1 X1]. destruct (recB (JTermCh fi cause c) s1 I1 (R s1 v1 eq_refl I1 X1)) as [_ R2]. exact (R2 s' v E).
  Qed.

  (* ---- allocation and the tree ---- *)
  Lemma allocB f s : InvB s -> post 0 s (alloc f s) /\
    exists s', alloc f s = Done s' (next s) /\ tr s' = (stk s, EvAlloc (next s) f) :: tr s /\ (forall z, live s' z = if z =? next s then true else live s z).
  Proof.
    intros H. unfold alloc. set (fi := next s). set (s' := emit _ _). split; [|exists s'; sp; reflexivity].
    assert (Hna : alloced (tr s) fi = false). { destruct (alloced (tr s) fi) eqn:E; auto. apply (b_next s H) in E. unfold fi in E. lia. }
    destruct (b_unal s H fi Hna) as [U1 U2].
    assert (Hf : freed (tr s) fi = false). { destruct (freed (tr s) fi) eqn:E; auto. apply (phase_has _ (b_ok s H)) in E. lia. }
    assert (Htm : termed (tr s) fi = false). { destruct (termed (tr s) fi) eqn:E; auto. apply (phase_has _ (b_ok s H)) in E. lia. }
    assert (Qa : forall z, alloced (tr s') z = (z =? fi) || alloced (tr s) z) by (intros z; unfold s', alloced; cbn [emit tr]; rewrite has_cons; cbn [is_alloc]; rewrite (Z.eqb_sym fi z); reflexivity).
    assert (Qp : forall z, parent_of (tr s') z = parent_of (tr s) z). { intros z. unfold s'. cbn [emit tr parent_of]. destruct (fi =? z) eqn:E; auto. assert (fi = z) by lia. subst z. auto. }
    assert (Qh : forall z, phase (tr s') z = phase (tr s) z). { intros z. unfold s'. cbn [emit tr stk]. rewrite phase_cons. cbn [rank]. pose proof (phase_nn (tr s) z). lia. }
    assert (Np : forall c, parent_of (tr s) c <> fi). { intros c Hc. assert (G : parent_of (tr s) c <> 0) by (rewrite Hc; pose proof (b_next1 s H); unfold fi; lia). apply (b_palloc s H) in G. congruence. }
    apply doneB.
    - pose proof (b_next1 s H) as Hn1. destruct H. split.
      + intros z. unfold usable. rewrite Qa. unfold s'. cbn [emit live tr]. change (freed ((stk s, EvAlloc fi f) :: tr s) z) with (freed (tr s) z). destruct (z =? fi) eqn:E; cbn [orb]; [assert (z = fi) by lia; subst z; tauto|exact (b_live0 z)].
      + intros z. rewrite Qa. unfold s'. cbn [emit next]. rewrite orb_true_iff, b_next0. unfold fi in *. split; [intros [G|G]; lia|intros G; destruct (Z.eq_dec z (next s)); [left; lia|right; lia]].
      + unfold s'. cbn [emit next]. lia.
      + intros z. change (termed (tr s') z) with (termed (tr s) z). unfold s'. cbn [emit mem]. destruct (z =? fi) eqn:E; [assert (z = fi) by lia; subst z; auto|auto].
      + intros z. rewrite Qp. unfold s'. cbn [emit mem tr pte_of]. rewrite (Z.eqb_sym fi z). destruct (z =? fi) eqn:E; [assert (z = fi) by lia; subst z; auto|auto].
      + intros z. rewrite Qa, Qp, Qh. intros G. apply orb_false_iff in G. apply b_unal0. tauto.
      + intros z. rewrite Qp, Qa. intros G. rewrite b_palloc0 by auto. apply orb_true_r.
      + intros p c. rewrite Qp. intros G1 G2 G3. unfold s'. cbn [emit mem]. destruct (p =? fi) eqn:E; [exfalso; apply (Np c); lia|]. apply b_ch3; auto.
      + intros p c. unfold s'. cbn [emit mem]. destruct (p =? fi) eqn:E; [intros []|]. intros G. fold s'. rewrite Qp. apply b_ch4 in G. auto.
      + auto.
      + intros z. rewrite Qh. apply b_busy0.
      + auto.
      + intros z. rewrite Qh. apply b_coll0.
      + auto.
      + auto.
      + split; auto. split; auto. intros z. left. reflexivity.
      + intros V B. destruct (b_nice0 V (behaved_cons _ _ _ B)) as (N1 & N2 & N3 & N4). sp.
        * intros z. rewrite Qh, Qa. unfold s'. cbn [emit mem]. destruct (z =? fi) eqn:E; auto.
        * intros c. rewrite Qp, !Qh. auto.
        * intros z. unfold s'. cbn [emit mem]. destruct (z =? fi) eqn:E; auto. cbn [istate ifsm]. destruct (V f) as [V1 _]. lia.
        * intros z. unfold s'. cbn [emit mem]. destruct (z =? fi) eqn:E; auto. cbn [ipte]. lia.
    - split.
      + exists [(stk s, EvAlloc fi f)]. split; auto. intros y [<-|[]]. exists []. reflexivity.
      + reflexivity.
      + reflexivity.
      + intros _ z. rewrite Qh. auto.
      + intros z _ _. apply Qh.
      + intros z _. auto.
      + intros z _ _. apply Qp.
      + intros z Hz. unfold s'. cbn [emit mem]. destruct (z =? fi) eqn:E; auto. assert (z = fi) by lia. subst z. congruence.
      + unfold s'. cbn [emit next]. lia.
  Qed.

  Lemma unlinkB fi s : InvB s -> (valid_fsms D -> behaved (tr s) -> live s fi = true /\ gone (tr s) fi = false) ->
    post 0 s (unlink_parent fi s) /\ forall s' v, unlink_parent fi s = Done s' v ->
      parent_of (tr s') fi = 0 /\ live s' = live s /\ live s fi = true /\ (forall z, gone (tr s') z = gone (tr s) z /\ termed (tr s') z = termed (tr s) z /\ alloced (tr s') z = alloced (tr s) z) /\ (legal_trace (tr s') -> legal_trace (tr s)).
  Proof.
    intros H Hpre. unfold unlink_parent. destruct (live s fi) eqn:El; cbn [negb]. 2:{ split; [|intros; discriminate]. apply crashB; auto. intros V B. destruct (Hpre V B). discriminate. }
    destruct (b_par s H fi) as [Ep _]. set (p := iparent (mem s fi)) in *. destruct (p =? 0) eqn:E0.
    { split; [apply doneB0; auto|]. intros s' v [= <- <-]. sp; auto. lia. }
    unfold detach. fold p. destruct (live s p) eqn:Elp; cbn [negb orb bindo].
    2:{ split; [|intros; discriminate]. apply crashB; auto. intros V B. destruct (Hpre V B) as [_ Hg]. destruct (b_nice s H V B) as (_ & N2 & _). assert (G : parent_of (tr s) fi <> 0) by lia.
        assert (P3 : phase (tr s) fi < 3). { destruct (Z_lt_dec (phase (tr s) fi) 3); auto. assert (gone (tr s) fi = true) by (apply (phase_has _ (b_ok s H)); lia). congruence. }
        specialize (N2 fi G P3). assert (live s p = true); [|congruence]. rewrite Ep. apply live_of; auto; [|lia]. apply (b_palloc s H); auto. }
    destruct (existsb (Z.eqb fi) (ichildren (mem s p))) eqn:Ex; cbn [negb bindo].
    2:{ split; [|intros; discriminate]. apply crashB; auto. intros V B. destruct (Hpre V B) as [_ Hg]. assert (existsb (Z.eqb fi) (ichildren (mem s p)) = true); [|congruence]. apply existsb_exists. exists fi. split; [|apply Z.eqb_refl]. apply (b_ch1 s H); auto. lia. }
    apply existsb_exists in Ex. destruct Ex as (c & Hin & Ec). assert (c = fi) by lia. subst c. destruct (b_ch2 s H p fi Hin) as (G1 & G2 & G3).
    set (s1 := setm p _ s). set (s' := emit (EvDetach fi) (setm fi (w_parent 0 0) s1)). destruct (of_live s fi H El) as (Ha & Hp7 & H0).
    assert (Qp : forall z, parent_of (tr s') z = if z =? fi then 0 else parent_of (tr s) z) by (intros z; unfold s'; cbn [emit tr parent_of]; rewrite (Z.eqb_sym fi z); destruct (z =? fi); reflexivity).
    assert (Qe : forall z, pte_of (tr s') z = if z =? fi then 0 else pte_of (tr s) z) by (intros z; unfold s'; cbn [emit tr pte_of]; rewrite (Z.eqb_sym fi z); destruct (z =? fi); reflexivity).
    assert (Qh : forall z, phase (tr s') z = phase (tr s) z). { intros z. unfold s'. cbn [emit tr stk setm s1]. rewrite phase_cons. cbn [rank]. pose proof (phase_nn (tr s) z). lia. }
    assert (M1 : forall z, ifsm (mem s' z) = ifsm (mem s z) /\ istate (mem s' z) = istate (mem s z) /\ itmr (mem s' z) = itmr (mem s z) /\ iterm (mem s' z) = iterm (mem s z) /\
      iparent (mem s' z) = (if z =? fi then 0 else iparent (mem s z)) /\ ipte (mem s' z) = (if z =? fi then 0 else ipte (mem s z))).
    { intros z. unfold s', s1. cbn [emit setm mem]. destruct (z =? fi) eqn:E1; cbn [w_parent ifsm istate itmr iterm iparent ipte].
      - assert (z = fi) by lia. subst z. destruct (fi =? p) eqn:E2; cbn [w_children ifsm istate itmr iterm iparent ipte]; sp; auto; assert (fi = p) by lia; congruence.
      - destruct (z =? p) eqn:E2; cbn [w_children ifsm istate itmr iterm iparent ipte]; [assert (z = p) by lia; subst z|]; sp; auto. }
    assert (C1 : forall z c, In c (ichildren (mem s' z)) <-> In c (ichildren (mem s z)) /\ (c = fi -> z <> p)).
    { assert (Ch : forall z, ichildren (mem s' z) = if z =? p then remove Z.eq_dec fi (ichildren (mem s z)) else ichildren (mem s z)).
      { intros z. unfold s', s1. cbn [emit setm mem]. destruct (z =? fi) eqn:E1; cbn [w_parent ichildren].
        - assert (z = fi) by lia. subst z. destruct (fi =? p) eqn:E2; cbn [w_children ichildren]; auto. assert (fi = p) by lia. congruence.
        - destruct (z =? p) eqn:E2; cbn [w_children ichildren]; auto. assert (z = p) by lia. subst z. auto. }
      intros z c. rewrite Ch. destruct (z =? p) eqn:E. 2:{ assert (z <> p) by lia. tauto. } assert (z = p) by lia. subst z. split.
      - intros G. apply in_remove in G. destruct G. split; auto; intros ->; congruence.
      - intros [K1 K2]. apply in_in_remove; auto. intros ->. apply K2; auto. }
    assert (Ok : term_ok (tr s) (EvDetach fi)). { split; auto. intros z. left. reflexivity. }
    split.
    - apply doneB.
      + destruct H. split.
        * auto.
        * auto.
        * auto.
        * intros z. destruct (M1 z) as (_ & _ & _ & -> & _). exact (b_term0 z).
        * intros z. rewrite Qp, Qe. destruct (M1 z) as (_ & _ & _ & _ & -> & ->). destruct (z =? fi); auto.
        * intros z Hz. rewrite Qp, Qh. destruct (b_unal0 z Hz) as [-> ->]. destruct (z =? fi); auto.
        * intros z. rewrite Qp. destruct (z =? fi) eqn:E; [congruence|]. apply b_palloc0.
        * intros q c. rewrite Qp. destruct (c =? fi) eqn:E; [congruence|]. intros K1 K2 K3. apply C1. split; [apply b_ch3; auto|]. intros ->. lia.
        * intros q c K. apply C1 in K. destruct K as [K1 K2]. destruct (b_ch4 q c K1) as (K3 & K4 & K5). rewrite Qp. destruct (c =? fi) eqn:E; [exfalso; apply K2; [lia|]; assert (c = fi) by lia; congruence|]. exact (conj K3 (conj K4 K5)).
        * auto.
        * intros z. rewrite Qh. apply b_busy0.
        * auto.
        * intros z. rewrite Qh. apply b_coll0.
        * auto.
        * auto.
        * split; auto.
        * intros V B. destruct (b_nice0 V (behaved_cons _ _ _ B)) as (N1 & N2 & N3 & N4). sp.
          -- intros z. rewrite Qh. destruct (M1 z) as (_ & _ & -> & _). apply N1.
          -- intros c. rewrite Qp, !Qh. destruct (c =? fi); [congruence|]. apply N2.
          -- intros z. destruct (M1 z) as (-> & -> & _). auto.
          -- intros z. destruct (M1 z) as (_ & _ & _ & _ & _ & ->). destruct (z =? fi); [lia|auto].
      + split.
        * exists [(stk s, EvDetach fi)]. split; auto. intros y [<-|[]]. exists []. reflexivity.
        * reflexivity.
        * reflexivity.
        * intros _ z. rewrite Qh. auto.
        * intros z _ _. apply Qh.
        * intros z _. auto.
        * intros z Hl Hz. rewrite Qp. destruct (z =? fi) eqn:E; auto. assert (z = fi) by lia. subst z. exfalso. assert (gone (tr s) fi = true) by (apply (phase_has _ (b_ok s H)); lia). assert (gone (tr s) fi = false) by (apply G3; exact Hl). congruence.
        * intros z _. apply M1.
        * unfold s', s1. cbn [emit setm next]. lia.
    - intros s2 v [= <- <-]. fold s'. rewrite Qp, Z.eqb_refl. sp; auto.
  Qed.

  Lemma attachB fi np e s : InvB s -> live s fi = true -> live s np = true -> np <> 0 -> parent_of (tr s) fi = 0 ->
    (legal_trace (tr s) -> gone (tr s) fi = false /\ termed (tr s) np = false /\ 0 <= e < 32) ->
    post 0 s (Done (emit (EvAttach fi np e) (setm np (fun i => w_children (fi :: ichildren i) i) (setm fi (w_parent np e) s))) 0).
  Proof.
    intros H El Eln Hn0 Hp0 Hleg. destruct (of_live s fi H El) as (Ha & Hp7 & H0). destruct (of_live s np H Eln) as (Han & Hpn & _). set (s' := emit _ _).
    assert (Qp : forall z, parent_of (tr s') z = if z =? fi then np else parent_of (tr s) z) by (intros z; unfold s'; cbn [emit tr parent_of]; rewrite (Z.eqb_sym fi z); destruct (z =? fi); reflexivity).
    assert (Qe : forall z, pte_of (tr s') z = if z =? fi then e else pte_of (tr s) z) by (intros z; unfold s'; cbn [emit tr pte_of]; rewrite (Z.eqb_sym fi z); destruct (z =? fi); reflexivity).
    assert (Qh : forall z, phase (tr s') z = phase (tr s) z). { intros z. unfold s'. cbn [emit tr stk setm]. rewrite phase_cons. cbn [rank]. pose proof (phase_nn (tr s) z). lia. }
    assert (M1 : forall z, ifsm (mem s' z) = ifsm (mem s z) /\ istate (mem s' z) = istate (mem s z) /\ itmr (mem s' z) = itmr (mem s z) /\ iterm (mem s' z) = iterm (mem s z) /\
      iparent (mem s' z) = (if z =? fi then np else iparent (mem s z)) /\ ipte (mem s' z) = (if z =? fi then e else ipte (mem s z)) /\ ichildren (mem s' z) = if z =? np then fi :: ichildren (mem s z) else ichildren (mem s z)).
    { intros z. unfold s'. cbn [emit setm mem]. destruct (z =? np) eqn:E2.
      - assert (z = np) by lia. subst z. destruct (np =? fi) eqn:E1; cbn [w_children w_parent ifsm istate itmr iterm iparent ipte ichildren]; [assert (np = fi) by lia; subst np|]; sp; auto.
      - destruct (z =? fi) eqn:E1; cbn [w_children w_parent ifsm istate itmr iterm iparent ipte ichildren]; [assert (z = fi) by lia; subst z|]; sp; auto. }
    apply doneB.
    - destruct H. split.
      + auto.
      + auto.
      + auto.
      + intros z. destruct (M1 z) as (_ & _ & _ & -> & _). exact (b_term0 z).
      + intros z. rewrite Qp, Qe. destruct (M1 z) as (_ & _ & _ & _ & -> & -> & _). destruct (z =? fi); auto.
      + intros z Hz. rewrite Qp, Qh. destruct (b_unal0 z Hz) as [-> ->]. destruct (z =? fi) eqn:E; auto. assert (z = fi) by lia. subst z. change (alloced (tr s) fi = false) in Hz. congruence.
      + intros z. rewrite Qp. destruct (z =? fi) eqn:E; [auto|]. apply b_palloc0.
      + intros q c. rewrite Qp. intros K1 K2 K3. destruct (M1 q) as (_ & _ & _ & _ & _ & _ & ->). destruct (c =? fi) eqn:E.
        * subst q. rewrite Z.eqb_refl. left. lia.
        * assert (K : In c (ichildren (mem s q))) by (apply b_ch3; auto). destruct (q =? np); auto. right. auto.
      + intros q c K. destruct (M1 q) as (_ & _ & _ & _ & _ & _ & K'). rewrite K' in K. rewrite Qp. assert (Kc : (c = fi /\ q = np) \/ In c (ichildren (mem s q))). { destruct (q =? np) eqn:E; auto. destruct K as [K|K]; auto. left. lia. }
        destruct Kc as [[-> ->]|Kc].
        * rewrite Z.eqb_refl. sp; auto. intros Hl. apply Hleg. exact Hl.
        * destruct (b_ch4 q c Kc) as (K3 & K4 & K5). destruct (c =? fi) eqn:E; [exfalso; assert (c = fi) by lia; subst c; congruence|]. exact (conj K3 (conj K4 K5)).
      + auto.
      + intros z. rewrite Qh. apply b_busy0.
      + auto.
      + intros z. rewrite Qh. apply b_coll0.
      + auto.
      + auto.
      + split; auto. split. { intros z. left. reflexivity. } intros Hl. destruct (Hleg Hl) as (? & ? & _). auto.
      + intros V B. pose proof (behaved_cons _ _ _ B) as B'. destruct (b_nice0 V B') as (N1 & N2 & N3 & N4). destruct (Hleg (proj1 (proj2 B'))) as (L1 & L2 & L3). sp.
        * intros z. rewrite Qh. destruct (M1 z) as (_ & _ & -> & _). apply N1.
        * intros c. rewrite Qp, !Qh. destruct (c =? fi); [|apply N2]. intros _ _. destruct (Z_lt_dec (phase (tr s) np) 3); auto. assert (termed (tr s) np = true) by (apply (phase_has _ b_ok0); lia). congruence.
        * intros z. destruct (M1 z) as (-> & -> & _). auto.
        * intros z. destruct (M1 z) as (_ & _ & _ & _ & _ & -> & _). destruct (z =? fi); [lia|auto].
    - split.
      + exists [(stk s, EvAttach fi np e)]. split; auto. intros y [<-|[]]. exists []. reflexivity.
      + reflexivity.
      + reflexivity.
      + intros _ z. rewrite Qh. auto.
      + intros z _ _. apply Qh.
      + intros z _. auto.
      + intros z Hl Hz. rewrite Qp. destruct (z =? fi) eqn:E; auto. assert (z = fi) by lia. subst z. exfalso. assert (gone (tr s) fi = true) by (apply (phase_has _ (b_ok s H)); lia). destruct (Hleg Hl). congruence.
      + intros z _. apply M1.
      + unfold s'. cbn [emit setm next]. lia.
  Qed.

  Lemma reparentB fi np e s : InvB s -> (legal_trace (tr s) -> live s fi = true /\ gone (tr s) fi = false /\ (np = 0 \/ (live s np = true /\ termed (tr s) np = false)) /\ 0 <= e < 32) ->
    post 0 s (change_parent fi np e s).
  Proof.
    intros H Hl. unfold change_parent. destruct (unlinkB fi s H) as [U1 U2]. { intros V B. destruct (Hl (proj1 (proj2 B))) as (? & ? & _). auto. }
    apply bindB; auto. intros s1 v E1 I1 X1. destruct (U2 s1 v E1) as (P0 & Lv & Lf & Q & Ql). destruct (np =? 0) eqn:E0. { apply doneB0; auto. }
    destruct (live s1 np) eqn:Eln; cbn [negb]. 2:{ apply crashB; auto. intros V B. destruct (Hl (Ql (proj1 (proj2 B)))) as (_ & _ & [?|[? _]] & _); [lia|]. rewrite Lv in Eln. congruence. }
    apply attachB; auto. { rewrite Lv; auto. } { lia. } intros G. destruct (Hl (Ql G)) as (G1 & G2 & G3 & G4). destruct (Q fi) as (-> & _). destruct (Q np) as (_ & -> & _). sp; auto; try lia. destruct G3 as [G3|[_ G3]]; [lia|auto].
  Qed.

  Lemma allocchB f p e s : InvB s -> (legal_trace (tr s) -> live s p = true /\ termed (tr s) p = false /\ 0 <= e < 32) -> post 0 s (alloc_child f p e s).
  Proof.
    intros H Hl. unfold alloc_child. destruct (live s p) eqn:El; cbn [negb]. 2:{ apply crashB; auto. intros V B. destruct (Hl (proj1 (proj2 B))). discriminate. }
    destruct (allocB f s H) as [A1 (s0 & A2 & A3 & A4)]. apply bindB; auto. intros s1 fi E1 I1 X1. rewrite A2 in E1. injection E1 as <- <-.
    destruct (of_live s p H El) as (Ha & _). pose proof Ha as Han. apply (b_next s H) in Han.
    apply bindB; [|intros; apply doneB0; auto]. apply reparentB; auto. rewrite A3. intros G. destruct (Hl G) as (_ & G2 & G3). rewrite !A4, Z.eqb_refl. sp; auto; try lia.
    - assert (G1 : gone (tr s) (next s) = false); [|exact G1]. destruct (gone (tr s) (next s)) eqn:E; auto. apply (phase_has _ (b_ok s H)) in E. pose proof (alloc_phase s (next s) H ltac:(lia)) as K. apply (b_next s H) in K. lia.
    - right. split; auto. rewrite El. destruct (p =? next s); auto.
  Qed.

  Lemma tickB fi s : InvB s -> post 0 s (tick D rec fi s).
  Proof.
    intros H. unfold tick. destruct (itmr (mem s fi)) eqn:Et; [|apply doneB0; auto].
    destruct (live s fi) eqn:El; cbn [negb].
    2:{ apply crashB; auto. intros V B. destruct (b_nice s H V B) as (N1 & _). rewrite N1 in Et; [discriminate|]. destruct (alloced (tr s) fi) eqn:Ea; auto. left. destruct (Z_le_dec 6 (phase (tr s) fi)); auto.
        rewrite live_of in El; auto; [discriminate|lia]. }
    destruct (setmB 0 s fi (w_tmr None)) as [I1 X1]; auto. { intros i. cbn. sp; auto. } eapply stepB; [exact X1|].
    destruct (has_tmr _).
    - destruct (cb_ok (tr (setm fi (w_tmr None) s)) KTimer fi (iT (mem s fi))) as [C1 C2]; try discriminate. apply bindB. { apply callbackB; auto. intros z Hz. specialize (C2 z). congruence. }
      intros s2 v E2 I2 X2. destruct (v =? 1); [|apply doneB0; auto]. apply (emitP 0 (EvCmd (CTerm fi TERM_TIMEOUT))); auto. { exact I. } { intros z Hz. exfalso. apply Hz. reflexivity. } { apply plain_ok; cbn; auto. }
      intros I3 X3. apply recB; auto. cbn [jpre]. intros V B. apply (b_live _ I3). destruct B as (_ & B & _). cbn [emit tr legal_trace legal] in B. exact (proj1 B).
    - apply recB; auto. cbn [jpre]. auto.
  Qed.

  Lemma execB c s : InvB s -> post 0 s (exec D rec c s).
  Proof.
    intros H. unfold exec. apply (emitP 0 (EvCmd c)); auto. { exact I. } { intros z Hz. exfalso. apply Hz. reflexivity. } { apply plain_ok; cbn; auto. }
    intros I1 X1. set (s1 := emit (EvCmd c) s) in *.
    assert (L : legal_trace (tr s1) -> legal (tr s) c) by (intros G; exact (proj1 G)).
    assert (Us : forall z, usable (tr s) z -> live s1 z = true) by (intros z Hz; apply (b_live s1 I1); exact Hz).
    destruct c; cbn [legal] in L.
    - apply dispatchB; auto. intros V B. destruct (L (proj1 (proj2 B))) as [?|[? ?]]; auto.
    - apply chgB; auto. intros V B. destruct (L (proj1 (proj2 B))). auto.
    - apply recB; auto. intros V B. pose proof (L (proj1 (proj2 B))). auto.
    - apply recB; auto. intros V B. destruct (L (proj1 (proj2 B))). auto.
    - apply allocB; auto.
    - apply allocchB; auto. intros G. destruct (L G) as (? & ? & ?). sp; auto; lia.
    - apply unlinkB; auto. intros V B. destruct (L (proj1 (proj2 B))). auto.
    - apply reparentB; auto. intros G. destruct (L G) as (? & ? & [?|[? ?]] & ?); sp; auto; lia.
    - apply tickB; auto.
  Qed.

  Lemma do_jobB j s : InvB s -> jpre j s -> post 0 s (do_job D env true rec j s) /\ (forall s' v, do_job D env true rec j s = Done s' v -> jpost j s s').
  Proof.
    intros H Hp. destruct j; cbn [do_job].
    - split; [|intros; exact I]. destruct (env (tr s)) as [c|rc]; [|apply doneB0; auto]. apply bindB. { apply execB; auto. } intros s1 v E1 I1 X1.
      apply (emitP 0 (EvRet v)); [exact I|intros z Hz; exfalso; apply Hz; reflexivity|auto|apply plain_ok; cbn; auto|]. intros I2 X2. apply recB; [auto|exact I].
    - apply termB; auto.
    - apply termchB; auto.
  Qed.
End B.

Lemma exec_jobB D env fuel : forall j s, InvB D s -> jpre D j s -> post D 0 s (exec_job D env true fuel j s) /\ (forall s' v, exec_job D env true fuel j s = Done s' v -> jpost j s s').
Proof.
  induction fuel as [|n IH]; intros j s H Hp; cbn [exec_job]. { split; [|intros; discriminate]. split; auto. }
  apply do_jobB; auto.
Qed.
Lemma initB D : InvB D init_st.
Proof.
  split.
  - intros z. split; [discriminate|]. intros [? _]. discriminate.
  - intros z. split; [discriminate|cbn; lia].
  - cbn. lia.
  - reflexivity.
  - split; reflexivity.
  - split; reflexivity.
  - intros z Hz. cbn in Hz. lia.
  - intros p c H1 H2. cbn in H2. lia.
  - intros p c [].
  - constructor.
  - intros z. split; [intros []|cbn; lia].
  - reflexivity.
  - intros z. split; [intros []|cbn; lia].
  - constructor.
  - reflexivity.
  - exact I.
  - intros V B. cbn. sp; auto; try lia. intros z. destruct (V 0). lia.
Qed.
Lemma programB D env fuel : post D 0 init_st (program D env true fuel).
Proof. apply exec_jobB; [apply initB|exact I]. Qed.

(* the trace only grows *)
Section G.
  Variable D : Z -> fsm.
  Variable env : trace -> cmd + Z.
  Variable safe : bool.
  Definition grow (s : st) (o : out) : Prop := exists n, tr (final o) = n ++ tr s.
  Lemma grow_refl s v : grow s (Done s v). Proof. exists []. reflexivity. Qed.
  Lemma grow_crash s : grow s (Crash s). Proof. exists []. reflexivity. Qed.
  Lemma grow_pre s s1 o : (exists n, tr s1 = n ++ tr s) -> grow s1 o -> grow s o.
  Proof. intros (n & E) (m & F). exists (m ++ n). rewrite F, E, app_assoc. reflexivity. Qed.
  Lemma grow_emit s e o : grow (emit e s) o -> grow s o. Proof. apply grow_pre. exists [(stk s, e)]. reflexivity. Qed.
  Lemma grow_bind s o f : grow s o -> (forall s1 v, grow s1 (f s1 v)) -> grow s (bindo o f).
  Proof. intros H Hf. destruct o as [s1 v|s1|s1]; cbn [bindo]; auto. eapply grow_pre; [exact H|apply Hf]. Qed.
  Variable rec : job -> st -> out.
  Hypothesis Hr : forall j s, grow s (rec j s).
  Lemma grow_cb k fi a s : grow (emit (EvCb k fi a) s) (callback rec k fi a s).
  Proof. unfold callback. apply grow_bind. { apply (Hr JLoop (set_stk _ _)). } intros. exists []. reflexivity. Qed.
  Lemma grow_dispatch fi e s : grow s (dispatch D rec fi e s).
  Proof.
    unfold dispatch. repeat match goal with |- grow _ (if ?c then _ else _) => destruct c | |- grow ?s (Done ?s _) => apply grow_refl | |- grow ?s (Crash ?s) => apply grow_crash end;
    (apply grow_bind; [eapply grow_emit, grow_cb|intros; apply grow_refl]).
  Qed.
  Lemma grow_chg fi new keep ms T s : grow s (state_chg D rec fi new keep ms T s).
  Proof.
    unfold state_chg. do 4 (match goal with |- grow _ (if ?c then _ else _) => destruct c end; [try apply grow_refl; apply grow_crash|]).
    assert (G : forall x, grow x (if has_leave (D (ifsm (mem s fi))) (istate (mem s fi)) then callback rec KLeave fi new x else Done x 0)).
    { intros x. destruct (has_leave _ _); [eapply grow_emit, grow_cb|apply grow_refl]. }
    apply grow_bind. { eapply (grow_pre s (if keep then s else setm fi (w_tmr None) s)); [destruct keep; exists []; reflexivity|apply G]. }
    intros s1 v. destruct (_ || _); [apply grow_crash|].
    match goal with |- grow _ (if _ then bindo (callback _ _ _ _ ?s3) _ else _) => apply (grow_pre s1 s3); [eexists [_]; reflexivity|] end.
    destruct (has_enter _ _); [|apply grow_refl]. apply grow_bind; [eapply grow_emit, grow_cb|]. intros; apply grow_refl.
  Qed.
  Lemma grow_free1 l : forall s, exists n, tr (fold_left free1 l s) = n ++ tr s.
  Proof. induction l as [|a l IH]; intros s; cbn [fold_left]. { exists []; auto. } destruct (IH (free1 s a)) as (n & ->). exists (n ++ [(stk s, EvFree a)]). rewrite <- app_assoc. reflexivity. Qed.
  Lemma grow_inst_free fi s : grow s (inst_free fi s).
  Proof.
    unfold inst_free. destruct (negb (live s fi)); [apply grow_crash|]. destruct (negb _); [exists []; reflexivity|].
    match goal with |- context [fold_left free1 ?l ?x] => destruct (grow_free1 l x) as (n & E) end. unfold grow. cbn [final set_coll tr]. rewrite E. exists (n ++ [(stk s, EvFree fi)]). rewrite <- app_assoc. reflexivity.
  Qed.
  Lemma grow_detach fi s : grow s (detach fi s).
  Proof. unfold detach. destruct (_ || _); [apply grow_crash|exists []; reflexivity]. Qed.
  Lemma grow_notify fi c p s : grow s (term_notify D rec fi c p s).
  Proof.
    unfold term_notify. destruct (negb _); [apply grow_crash|]. apply grow_bind. { destruct (_ =? _); [apply grow_inst_free|apply grow_refl]. }
    intros s1 v. apply grow_bind. { destruct (_ && _); [eapply grow_emit, grow_dispatch|apply grow_refl]. } intros s2 v2. destruct (_ =? _). { eexists [_]. reflexivity. }
    eapply (grow_pre s2 (emit (EvDone fi) (set_depth (depth s2 - 1) s2))); [eexists [_]; reflexivity|apply grow_inst_free].
  Qed.
  Lemma grow_term fi c s : grow s (term D safe rec fi c s).
  Proof.
    unfold term. destruct (negb _); [apply grow_crash|]. destruct (iterm _); [apply grow_refl|].
    match goal with |- grow _ (bindo (if _ then callback _ _ _ _ ?s2 else _) _) => apply (grow_pre s s2) end. { destruct (_ || _); eexists [_]; reflexivity. }
    apply grow_bind. { destruct (has_pre _); [eapply grow_emit, grow_cb|apply grow_refl]. } intros s3 v3. apply grow_bind. { apply Hr. } intros s4 v4.
    unfold term_leave. destruct (negb _); [apply grow_crash|]. apply grow_bind. { destruct (_ =? _); [apply grow_refl|apply grow_detach]. } intros s5 v5. eapply grow_emit.
    apply grow_bind. { destruct (has_clean _); [eapply grow_emit, grow_cb|apply grow_refl]. } intros s6 v6. apply grow_notify.
  Qed.
  Lemma grow_unlink fi s : grow s (unlink_parent fi s).
  Proof. unfold unlink_parent. destruct (negb _); [apply grow_crash|]. destruct (_ =? _); [apply grow_refl|]. apply grow_bind. { apply grow_detach. } intros. eexists [_]. reflexivity. Qed.
  Lemma grow_reparent fi np e s : grow s (change_parent fi np e s).
  Proof. unfold change_parent. apply grow_bind. { apply grow_unlink. } intros. destruct (_ =? _); [apply grow_refl|]. destruct (negb _); [apply grow_crash|]. eexists [_]. reflexivity. Qed.
  Lemma grow_do j s : grow s (do_job D env safe rec j s).
  Proof.
    destruct j; cbn [do_job].
    - destruct (env (tr s)) as [c|v]; [|apply grow_refl]. apply grow_bind; [|intros; eapply grow_emit; apply Hr]. unfold exec. eapply grow_emit. destruct c.
      + apply grow_dispatch. + apply grow_chg. + apply Hr. + apply Hr.
      + eexists [_]. reflexivity.
      + unfold alloc_child. destruct (negb _); [apply grow_crash|]. apply grow_bind. { eexists [_]. reflexivity. } intros. apply grow_bind. { apply grow_reparent. } intros. apply grow_refl.
      + apply grow_unlink. + apply grow_reparent.
      + unfold tick. destruct (itmr _); [|apply grow_refl]. destruct (negb _); [apply grow_crash|]. match goal with |- grow ?x _ => apply (grow_pre x (setm fi (w_tmr None) x)); [exists []; reflexivity|] end.
        destruct (has_tmr _); [|apply Hr]. apply grow_bind. { eapply grow_emit, grow_cb. } intros. destruct (_ =? _); [eapply grow_emit, Hr|apply grow_refl].
    - apply grow_term.
    - unfold term_children. destruct (negb _); [apply grow_crash|]. destruct (ichildren _); [apply grow_refl|]. destruct (_ =? _). { eexists [_]. reflexivity. } apply grow_bind; auto.
  Qed.
End G.
Lemma grow_job D env safe fuel : forall j s, grow s (exec_job D env safe fuel j s).
Proof. induction fuel as [|n IH]; intros j s; cbn [exec_job]. { exists []. reflexivity. } apply grow_do; auto. Qed.

(* splitting *)
Lemma steps_split D post k e pre : steps_ok D (post ++ (k, e) :: pre) -> step_ok D pre k e.
Proof. induction post as [|[k' e'] p IH]; cbn [app steps_ok]; tauto. Qed.
Lemma terms_split post k e pre : terms_ok (post ++ (k, e) :: pre) -> term_ok pre e.
Proof. induction post as [|[k' e'] p IH]; cbn [app terms_ok]; tauto. Qed.
