From Verif Require Import Base M_smc S_smc P_smc.
From Coq Require Import Permutation.

Ltac tc T := inversion T; subst;
  repeat match goal with H : _ = Pend _ _ _ \/ _ = Wait _ _ _ |- _ => destruct H; subst end.
Ltac given := match goal with m : msg, G : given_ev (Send _ ?m) |- _ => destruct m as [[?id|] ?dd]; [|discriminate G] end.

Lemma case_sends s e s' o cur : inv s -> given_ev e -> rel1 s cur -> tcase s e s' o ->
  rel1 s' (next1 cur e o) /\
  match (match accepted e o with Some d => Some (d, 0%nat) | None => cur end) with
  | None => cp_data_sent o = []
  | Some (d, n) => cp_data_sent o = repeat d (length (cp_data_sent o)) /\ (length (cp_data_sent o) = 0%nat \/ (n + length (cp_data_sent o) <= 3)%nat)
  end.
Proof.
  intros I G R T. unfold next1. tc T; try given; rewrite ?accepted_free; cbn -[Z.eqb Z.to_nat] in *.
  all: try (split; [exact Logic.I|]).
  all: try (destruct cur as [[d n]|]; auto; fail).
  all: destruct cur as [[d n]|]; cbn -[Z.to_nat] in *; try contradiction; rewrite ?Nat.add_0_r; auto.
  all: unfold rel1, cnt in *; cbn -[Z.to_nat] in *.
  3,4: split; [split; [reflexivity|right; split; reflexivity]|split; [reflexivity|right; lia]].
  all: destruct R as [-> R]; destruct I as (_ & _ & I); cbn in I.
  - assert (n = 0)%nat by (destruct R as [[_ ?]|[? _]]; [auto|discriminate]). subst n.
    split; [split; [reflexivity|right; split; reflexivity]|split; [reflexivity|right; lia]].
  - assert (n = Z.to_nat (rx + 1)) by (destruct R as [[? _]|[_ ?]]; [discriminate|auto]). subst n.
    assert (0 <= rx <= 2) by (destruct I as [[? _]|[[? _]|[I|[? _]]]]; try discriminate; apply I).
    split; [split; [reflexivity|right; split; [reflexivity|lia]]|]. split; [reflexivity|right; lia].
Qed.

Lemma case_rel s e s' o asked : given_ev e -> rel2 s asked -> tcase s e s' o ->
  rel2 s' (asked_after asked e o) /\ (is_ack e o = true -> n_mm MMSMS_REL_REQ o = if asked then 1%nat else 0%nat).
Proof.
  intros G R T. unfold rel2 in *. tc T; cbn -[Z.eqb] in *.
  all: try (split; [intros; congruence|discriminate]).
  all: repeat match goal with H : ?t <> ?c |- context [?t =? ?c] => rewrite (proj2 (Z.eqb_neq t c) H) end; cbn.
  all: rewrite ?andb_false_r; try (split; [auto|intros; discriminate]; fail).
  all: split; [try (intros X; contradiction X; reflexivity); intros _; apply R; discriminate|].
  all: intros; try discriminate; rewrite R by discriminate; reflexivity.
Qed.

Lemma case_up s e s' o up : rel3 s up -> tcase s e s' o ->
  rel3 s' (if (0 <? n_mm MMSMS_REL_REQ o)%nat then false else up_after up e o) /\
  (up_after up e o = false -> cp_data_sent o = []).
Proof.
  intros R T. unfold rel3 in *. tc T; cbn -[Z.eqb] in *.
  all: try (split; [intros [?|?]; discriminate|reflexivity]).
  all: repeat match goal with H : ?t <> ?c |- context [?t =? ?c] => rewrite (proj2 (Z.eqb_neq t c) H) end; cbn.
  all: try (destruct (t =? MMSMS_EST_CNF)); split; intros; auto.
  all: try discriminate; try (rewrite R in * by auto; discriminate).
Qed.

(** Histories. *)
Lemma hist_cons f s e es s2 h : history f s (e :: es) = Ok (s2, h) ->
  exists s1 o h', f s e = Ok (s1, o) /\ history f s1 es = Ok (s2, h') /\ h = (e, o) :: h'.
Proof.
  cbn [history]. unfold bind. destruct (f s e) as [[s1 o]| | |]; try discriminate.
  destruct (history f s1 es) as [[s3 h3]| | |] eqn:E2; try discriminate. intros H; inversion H; subst. eauto 8.
Qed.
Lemma given_nc e : given_ev e -> e <> Clear. Proof. intros G ->. exact G. Qed.

Lemma hist_sends es : forall s s' h cur, Forall given_ev es -> inv s -> rel1 s cur ->
  match cur with Some (_, n) => (n <= 3)%nat | None => True end ->
  history tidy_step s es = Ok (s', h) -> sends_ok 3 cur h.
Proof.
  induction es as [|e es IH]; intros s s' h cur F I R N E.
  - cbn in E. inversion E; subst. exact Logic.I.
  - apply hist_cons in E. destruct E as (s1 & o & h' & E1 & E2 & ->).
    apply Forall_cons_iff in F. destruct F as [Fe F].
    pose proof (tidy_case _ _ _ _ I (given_nc _ Fe) E1) as T.
    destruct (case_sends _ _ _ _ _ I Fe R T) as [R1 K]. pose proof (case_inv _ _ _ _ I T) as I1.
    cbn [sends_ok]. unfold next1 in R1.
    destruct (accepted e o) as [d|].
    + destruct K as [K1 K2]. exists (length (cp_data_sent o)). split; [exact K1|].
      assert (0 + length (cp_data_sent o) <= 3)%nat by lia. split; [auto|]. eapply IH; eauto.
    + destruct cur as [[d n]|].
      * destruct K as [K1 K2]. exists (length (cp_data_sent o)). split; [exact K1|].
        assert (n + length (cp_data_sent o) <= 3)%nat by lia. split; [auto|]. eapply IH; eauto.
      * split; [exact K|]. eapply IH; eauto.
Qed.
Lemma hist_rel es : forall s s' h asked, Forall given_ev es -> inv s -> rel2 s asked ->
  history tidy_step s es = Ok (s', h) -> releases_ok asked h.
Proof.
  induction es as [|e es IH]; intros s s' h asked F I R E.
  - cbn in E. inversion E; subst. exact Logic.I.
  - apply hist_cons in E. destruct E as (s1 & o & h' & E1 & E2 & ->).
    apply Forall_cons_iff in F. destruct F as [Fe F].
    pose proof (tidy_case _ _ _ _ I (given_nc _ Fe) E1) as T.
    destruct (case_rel _ _ _ _ _ Fe R T) as [R1 K]. pose proof (case_inv _ _ _ _ I T) as I1.
    cbn [releases_ok]. split; [exact K|]. eapply IH; eauto.
Qed.
Lemma hist_up es : forall s s' h up, Forall given_ev es -> inv s -> rel3 s up ->
  history tidy_step s es = Ok (s', h) -> only_when_up up h.
Proof.
  induction es as [|e es IH]; intros s s' h up F I R E.
  - cbn in E. inversion E; subst. exact Logic.I.
  - apply hist_cons in E. destruct E as (s1 & o & h' & E1 & E2 & ->).
    apply Forall_cons_iff in F. destruct F as [Fe F].
    pose proof (tidy_case _ _ _ _ I (given_nc _ Fe) E1) as T.
    destruct (case_up _ _ _ _ _ R T) as [R1 K]. pose proof (case_inv _ _ _ _ I T) as I1.
    cbn [only_when_up]. split; [exact K|]. eapply IH; eauto.
Qed.
Lemma hist_inv es : forall s s' h, Forall given_ev es -> inv s -> history tidy_step s es = Ok (s', h) -> inv s'.
Proof.
  induction es as [|e es IH]; intros s s' h F I E.
  - cbn in E. inversion E; subst. exact I.
  - apply hist_cons in E. destruct E as (s1 & o & h' & E1 & E2 & ->).
    apply Forall_cons_iff in F. destruct F as [Fe F].
    pose proof (tidy_case _ _ _ _ I (given_nc _ Fe) E1) as T. eapply IH; [exact F| |exact E2]. eapply case_inv; eauto.
Qed.

(** Ownership. *)
Definition stored (s : smc) : list msg := match c_msg s with Some m => [m] | None => [] end.
Definition taken (e : ev) : list msg := match e with Send _ m => [m] | _ => [] end.
Lemma disposed_app a b : disposed (a ++ b) = disposed a ++ disposed b.
Proof. induction a as [|[]]; cbn; auto; rewrite IHa; auto. Qed.
Lemma shown_app a b : shown_fresh (a ++ b) = (shown_fresh a + shown_fresh b)%nat.
Proof. induction a as [|[]]; cbn; auto. destruct (is_given m); rewrite IHa; auto. Qed.
Lemma freed_app a b : freed_fresh (a ++ b) = (freed_fresh a + freed_fresh b)%nat.
Proof. induction a as [|[]]; cbn; auto. destruct (is_given m); rewrite IHa; auto. Qed.

Definition given_st (s : smc) : Prop := match c_msg s with Some m => is_given m = true | None => True end.
Definition given_ev2 (e : ev) : Prop :=
  match e with Send _ m => is_given m = true | Recv _ m _ => is_given m = true | Expire => True | Clear => True end.

Lemma step_own s e s' o : vst s -> given_st s -> given_ev2 e -> step s e = Ok (s', o) ->
  given_st s' /\ Permutation (taken e ++ stored s) (filter is_given (disposed o) ++ stored s') /\ shown_fresh o = freed_fresh o.
Proof.
  intros V S G E. rewrite (step_eq s e V) in E. unf E. clear V.
  unfold given_st, stored in *.
  destruct s as [st ti [m0|] rl rx mx tc];
  unfold set_state, set_timer, set_msg, set_rel, set_retx in E; cbn [c_state c_timer c_msg c_rel c_retx c_max c_tc1] in *;
  destruct e as [t m|t m cp| |]; cbn [given_ev2 taken] in *; hcases; inversion E; subst; clear E;
  cbn -[Z.eqb is_given]; rewrite ?G, ?S; cbn -[Z.eqb]; auto using perm_swap.
Qed.


Lemma hist_own es : forall s s' h, vst s -> given_st s -> Forall given_ev2 es -> history step s es = Ok (s', h) ->
  Permutation (handed es ++ stored s) (filter is_given (disposed (outs h)) ++ stored s') /\
  shown_fresh (outs h) = freed_fresh (outs h).
Proof.
  induction es as [|e es IH]; intros s s' h V S F E.
  - cbn in E. inversion E; subst. split; [apply Permutation_refl|reflexivity].
  - apply hist_cons in E. destruct E as (s1 & o & h' & E1 & E2 & ->).
    apply Forall_cons_iff in F. destruct F as [Fe F].
    destruct (step_own _ _ _ _ V S Fe E1) as (S1 & P & N).
    destruct (IH s1 s' h' (step_wf0 _ _ _ _ V E1) S1 F E2) as [P2 N2].
    unfold outs in *. cbn [map concat snd]. rewrite disposed_app, filter_app, shown_app, freed_app, N, N2.
    split; [|reflexivity].
    replace (handed (e :: es)) with (taken e ++ handed es) by (destruct e; reflexivity).
    rewrite <- app_assoc. eapply Permutation_trans.
    + apply (Permutation_app_swap_app (taken e) (handed es) (stored s)).
    + eapply Permutation_trans; [apply Permutation_app_head; exact P|].
      eapply Permutation_trans; [apply Permutation_app_swap_app|]. rewrite <- app_assoc. apply Permutation_app_head. exact P2.
Qed.

Definition small (m : msg) : Prop := zlen (m_data m) <= 896.
Definition small_st (s : smc) : Prop := match c_msg s with Some m => small m | None => True end.
Lemma step_total s e : vst s -> small_st s -> Forall small (taken e) ->
  exists s' o, step s e = Ok (s', o) /\ small_st s'.
Proof.
  intros V S G. rewrite (step_eq s e V). unfold small_st, small in *. clear V.
  assert (L : forall m, zlen (m_data m) <= 896 -> (ALLOC_ROOM <? zlen (m_data m)) = false) by (intros; apply Z.ltb_ge; assumption).
  destruct s as [st ti [m0|] rl rx mx tc]; cbn [c_msg] in *;
  destruct e as [t m|t m cp| |]; cbn [taken] in *; try (apply Forall_inv in G);
  unfold cp_timer_expired, mnsms_est_req, mnsms_rel_req, mnsms_data_req, mnsms_abort_req, mmsms_est_cnf, mmsms_cp_data, mmsms_cp_ack,
    mmsms_cp_error, mmsms_rel_ind, unexpected, mmsms_send_msg, smc_clear, drop_msg, bind;
  unfold set_state, set_timer, set_msg, set_rel, set_retx; cbn [c_state c_timer c_msg c_rel c_retx c_max c_tc1];
  rewrite ?(L _ S), ?(L _ G);
  repeat match goal with |- context [if ?b then _ else _] => destruct b end; eexists; eexists; (split; [reflexivity|]); cbn [c_msg]; auto.
Qed.
Lemma hist_total es : forall s, vst s -> small_st s -> Forall small (handed es) ->
  exists s' h, history step s es = Ok (s', h).
Proof.
  induction es as [|e es IH]; intros s V S F; [cbn; eauto|].
  replace (handed (e :: es)) with (taken e ++ handed es) in F by (destruct e; reflexivity).
  apply Forall_app in F. destruct F as [Fe F].
  destruct (step_total s e V S Fe) as (s1 & o & E & S1). destruct (IH s1 (step_wf0 _ _ _ _ V E) S1 F) as (s2 & h & E2).
  cbn [history]. rewrite E. cbn [bind]. rewrite E2. cbn [bind]. eauto.
Qed.

(** Every start of the timer is for the same time. *)
Definition starts_10 (x : out) : Prop := match x with TimerStart n => n = 10 | _ => True end.
Lemma step_start s e s' o : vst s -> c_tc1 s = 10 -> step s e = Ok (s', o) -> c_tc1 s' = 10 /\ Forall starts_10 o.
Proof.
  intros V S E. rewrite (step_eq s e V) in E. unf E. clear V.
  destruct s as [st ti [m0|] rl rx mx tc];
  unfold set_state, set_timer, set_msg, set_rel, set_retx in E; cbn [c_state c_timer c_msg c_rel c_retx c_max c_tc1] in *;
  destruct e as [t m|t m cp| |]; hcases; inversion E; subst; clear E; cbn -[Z.eqb]; split; auto;
  repeat constructor.
Qed.
Lemma hist_start es : forall s s' h, vst s -> c_tc1 s = 10 -> history step s es = Ok (s', h) -> Forall starts_10 (outs h).
Proof.
  induction es as [|e es IH]; intros s s' h V S E.
  - cbn in E. inversion E; subst. constructor.
  - apply hist_cons in E. destruct E as (s1 & o & h' & E1 & E2 & ->).
    destruct (step_start _ _ _ _ V S E1) as [S1 F]. unfold outs in *. cbn [map concat snd]. apply Forall_app. split; auto.
    eapply IH; [|exact S1|exact E2]. eapply step_wf0; eauto.
Qed.

(** Scenarios. *)
Lemma hist_app f es1 : forall es2 s, history f s (es1 ++ es2) =
  do r <- history f s es1 ;; let '(s1, h1) := r in do r2 <- history f s1 es2 ;; let '(s2, h2) := r2 in Ok (s2, h1 ++ h2).
Proof.
  induction es1 as [|e es1 IH]; intros es2 s; cbn [history app bind].
  - destruct (history f s es2) as [[]| | |]; reflexivity.
  - destruct (f s e) as [[s1 o]| | |]; cbn [bind]; auto. rewrite IH.
    destruct (history f s1 es1) as [[s2 h]| | |]; cbn [bind]; auto.
    destruct (history f s2 es2) as [[s3 h3]| | |]; cbn [bind]; auto.
Qed.
Lemma hist_expire m rl : small m -> forall k rx, 0 <= rx -> rx + Z.of_nat k <= 2 ->
  history tidy_step (Wait m rl rx) (repeat Expire k) = Ok (Wait m rl (rx + Z.of_nat k), repeat (Expire, tx (m_data m)) k).
Proof.
  intros S. induction k as [|k IH]; intros rx H1 H2.
  - cbn [repeat history]. rewrite Z.add_0_r. reflexivity.
  - cbn [repeat history].
    assert (E : tidy_step (Wait m rl rx) Expire = Ok (Wait m rl (rx + 1), tx (m_data m))).
    { unfold tidy_step, step, Wait, cp_timer_expired, set_timer. cbn [c_timer c_retx c_max].
      replace (rx =? 2) with false by (symmetry; apply Z.eqb_neq; lia).
      unfold mmsms_est_cnf, mmsms_send_msg, set_retx. cbn -[zlen Z.ltb Z.add].
      replace (ALLOC_ROOM <? zlen (m_data m)) with false by (symmetry; apply Z.ltb_ge; exact S). reflexivity. }
    rewrite E. cbn [bind]. rewrite IH by lia. cbn [bind]. do 3 f_equal. lia.
Qed.
