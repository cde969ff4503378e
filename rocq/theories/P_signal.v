(** Proofs about signals: entries are numbered in the order of registration, so the list is always sorted. *)
From Verif Require Import Base M_signal S_signal.
From Coq Require Import Sorted.

Definition lt_id (a b : handler) := h_id a < h_id b.
Definition wf (st : sigs) : Prop := StronglySorted lt_id (list_of st) /\ Forall (fun h => h_id h < next_id st) (list_of st).

Lemma sorted_snoc l h : StronglySorted lt_id l -> Forall (fun x => h_id x < h_id h) l -> StronglySorted lt_id (l ++ [h]).
Proof.
  induction l as [|a l IH]; intros S F; cbn [app].
  - constructor; [constructor|constructor].
  - inversion S; subst. inversion F; subst. constructor; [apply IH; assumption|]. apply Forall_app. split; [assumption|]. constructor; [assumption|constructor].
Qed.
Lemma unreg_in l s c d x : In x (unreg l s c d) -> In x l.
Proof.
  induction l as [|h l IH]; cbn [unreg]; [auto|]. destruct (_ && _ && _); [right; assumption|]. intros [->|H]; [left; reflexivity|right; auto].
Qed.
Lemma unreg_sorted l s c d : StronglySorted lt_id l -> StronglySorted lt_id (unreg l s c d).
Proof.
  induction l as [|h l IH]; cbn [unreg]; intros S; [constructor|]. inversion S; subst. destruct (_ && _ && _); [assumption|].
  constructor; [auto|]. apply Forall_forall. intros x X. apply unreg_in in X. rewrite Forall_forall in H2. auto.
Qed.
Lemma unreg_keeps l s c d x : In x l -> ~ is_for s c d x -> In x (unreg l s c d).
Proof.
  induction l as [|h l IH]; cbn [unreg]; [auto|]. intros [->|H] N.
  - destruct ((h_cbfn x =? c) && (h_data x =? d) && (s =? h_subsys x)) eqn:E; [|left; reflexivity].
    exfalso. apply N. rewrite !andb_true_iff, !Z.eqb_eq in E. unfold is_for. intuition congruence.
  - destruct (_ && _ && _); [assumption|]. right. auto.
Qed.
Lemma unreg_none l s c d : (forall x, In x l -> ~ is_for s c d x) -> unreg l s c d = l.
Proof.
  induction l as [|h l IH]; cbn [unreg]; intros N; [reflexivity|].
  destruct ((h_cbfn h =? c) && (h_data h =? d) && (s =? h_subsys h)) eqn:E.
  - exfalso. apply (N h (or_introl eq_refl)). rewrite !andb_true_iff, !Z.eqb_eq in E. unfold is_for. intuition congruence.
  - rewrite IH; [reflexivity|]. intros x X. apply N. right. exact X.
Qed.
Lemma unreg_first pre h post s c d : (forall x, In x pre -> ~ is_for s c d x) -> is_for s c d h -> unreg (pre ++ h :: post) s c d = pre ++ post.
Proof.
  induction pre as [|a pre IH]; cbn [unreg app]; intros N (A & B & C).
  - subst. rewrite !Z.eqb_refl. reflexivity.
  - destruct ((h_cbfn a =? c) && (h_data a =? d) && (s =? h_subsys a)) eqn:E.
    + exfalso. apply (N a (or_introl eq_refl)). rewrite !andb_true_iff, !Z.eqb_eq in E. unfold is_for. intuition congruence.
    + rewrite IH; [reflexivity| |unfold is_for; auto]. intros x X. apply N. right. exact X.
Qed.

Lemma op_wf st o : wf st -> wf (do_op st o).
Proof.
  intros (S & F). destruct o as [m s c d|s c d]; cbn [do_op].
  - unfold osmo_signal_register_handler. destruct m; cbn [negb snd]; [|split; assumption]. split; cbn [list_of next_id].
    + apply sorted_snoc; [assumption|]. exact F.
    + apply Forall_app. split; [|constructor; [cbn [h_id]; lia|constructor]]. eapply Forall_impl; [|exact F]. cbn. intros; lia.
  - split; cbn [osmo_signal_unregister_handler list_of next_id]; [apply unreg_sorted; assumption|].
    rewrite Forall_forall in *. intros x X. apply unreg_in in X. auto.
Qed.
Lemma ops_wf os : forall st, wf st -> wf (fold_left do_op os st).
Proof. induction os as [|o os IH]; intros st W; [exact W|]. cbn [fold_left]. apply IH. apply op_wf. exact W. Qed.
Lemma after_wf h : wf (after h).
Proof. apply ops_wf. split; constructor. Qed.
Lemma op_next st o : next_id st <= next_id (do_op st o).
Proof. destruct o as [m s c d|s c d]; cbn [do_op osmo_signal_unregister_handler next_id]; [|lia]. unfold osmo_signal_register_handler. destruct m; cbn; lia. Qed.
(** entries after an operation: those of before, or a new one with a new number *)
Lemma op_in st o x : In x (list_of (do_op st o)) -> In x (list_of st) \/ (next_id st <= h_id x /\ exists s c d, o = Reg true s c d /\ is_for s c d x).
Proof.
  destruct o as [m s c d|s c d]; cbn [do_op].
  - unfold osmo_signal_register_handler. destruct m; cbn [negb snd list_of]; [|auto]. intros H. apply in_app_or in H. destruct H as [H|[<-|[]]]; [auto|].
    right. split; [cbn; lia|]. exists s, c, d. split; [reflexivity|]. repeat split.
  - cbn [osmo_signal_unregister_handler list_of]. intros H. left. eapply unreg_in. exact H.
Qed.
Lemma ops_in os : forall st x, In x (list_of (fold_left do_op os st)) -> In x (list_of st) \/ (next_id st <= h_id x /\ exists s c d, In (Reg true s c d) os /\ is_for s c d x).
Proof.
  induction os as [|o os IH]; intros st x H; [auto|]. cbn [fold_left] in H. apply IH in H. destruct H as [H|(N & s & c & d & I & F)].
  - apply op_in in H. destruct H as [H|(N & s & c & d & -> & F)]; [auto|]. right. split; [exact N|]. exists s, c, d. split; [left; reflexivity|exact F].
  - right. split; [pose proof (op_next st o); lia|]. exists s, c, d. split; [right; exact I|exact F].
Qed.
Lemma ops_keep os : forall st x, In x (list_of st) -> ~ In (Unreg (h_subsys x) (h_cbfn x) (h_data x)) os -> In x (list_of (fold_left do_op os st)).
Proof.
  induction os as [|o os IH]; intros st x H N; [exact H|]. cbn [fold_left]. apply IH; [|intros I; apply N; right; exact I].
  destruct o as [m s c d|s c d]; cbn [do_op].
  - unfold osmo_signal_register_handler. destruct m; cbn [negb snd list_of]; [|exact H]. apply in_or_app. left. exact H.
  - apply unreg_keeps; [exact H|]. intros (A & B & C). subst. apply N. left. reflexivity.
Qed.

Lemma next_spec l : StronglySorted lt_id l -> forall h, In h l ->
  exists n, next_of l (h_id h) = Ok n /\
  match n with
  | None => forall x, In x l -> h_id x <= h_id h
  | Some y => In y l /\ h_id h < h_id y /\ forall x, In x l -> h_id x < h_id y -> h_id x <= h_id h
  end.
Proof.
  induction l as [|a l IH]; intros S h H; [destruct H|]. inversion S as [|? ? S' F]; subst. rewrite Forall_forall in F. cbn [next_of].
  destruct H as [->|H].
  - rewrite Z.eqb_refl. exists (hd_error l). split; [reflexivity|]. destruct l as [|b l]; cbn [hd_error].
    + intros x [->|[]]. lia.
    + split; [right; left; reflexivity|]. split; [exact (F b (or_introl eq_refl))|]. intros x [->|[->|X]] L; [lia|lia|].
      inversion S' as [|? ? _ F']; subst. rewrite Forall_forall in F'. specialize (F' x X). unfold lt_id in F'. lia.
  - pose proof (F h H) as L. unfold lt_id in L. destruct (Z.eqb_spec (h_id a) (h_id h)); [lia|].
    destruct (IH S' h H) as (n' & E & K). exists n'. split; [exact E|]. destruct n' as [y|].
    + destruct K as (I & L1 & K). split; [right; exact I|]. split; [exact L1|]. intros x [->|X] L2; [lia|auto].
    + intros x [->|X]; [lia|auto].
Qed.
Lemma next_in l id n : next_of l id = Ok n -> exists h, In h l /\ h_id h = id.
Proof.
  induction l as [|a l IH]; cbn [next_of]; [discriminate|]. destruct (Z.eqb_spec (h_id a) id) as [E|]; [intros _; exists a; split; [left; reflexivity|exact E]|].
  intros H. destruct (IH H) as (h & I & E). exists h. split; [right; exact I|exact E].
Qed.
Lemma sorted_inj l a b : StronglySorted lt_id l -> In a l -> In b l -> h_id a = h_id b -> a = b.
Proof.
  induction l as [|c l IH]; intros S A B E; [destruct A|]. inversion S as [|? ? S' F]; subst. rewrite Forall_forall in F. unfold lt_id in F.
  destruct A as [->|A], B as [->|B]; [reflexivity| | |auto].
  - specialize (F b B). lia.
  - specialize (F a A). lia.
Qed.

(** where the handlers of the list come from *)
Definition origin (beh : list call -> list op) (init : list handler) (s c d : Z) : Prop :=
  (exists h, In h init /\ is_for s c d h) \/ exists tr, In (Reg true s c d) (beh tr).
Definition good (init : list handler) beh subsys signal sigdata (st : sigs) (tr : list call) : Prop :=
  wf st /\ StronglySorted (fun a b => c_id a < c_id b) tr /\
  (forall x, In x (list_of st) -> origin beh init (h_subsys x) (h_cbfn x) (h_data x)) /\
  (forall c, In c tr -> c_subsys c = subsys /\ c_signal c = signal /\ c_sigdata c = sigdata /\ origin beh init subsys (c_cbfn c) (c_data c)).

Lemma sorted_csnoc tr (c : call) : StronglySorted (fun a b => c_id a < c_id b) tr -> (forall x, In x tr -> c_id x < c_id c) -> StronglySorted (fun a b => c_id a < c_id b) (tr ++ [c]).
Proof.
  induction tr as [|a l IH]; intros S F; cbn [app]; [constructor; constructor|]. inversion S; subst.
  constructor; [apply IH; [assumption|]; intros x X; apply F; right; exact X|]. apply Forall_app. split; [assumption|].
  constructor; [apply F; left; reflexivity|constructor].
Qed.

Lemma loop_good init beh subsys signal sigdata : forall fuel st cur tr st' tr',
  good init beh subsys signal sigdata st tr ->
  match cur with
  | None => forall x, In x (list_of st) -> h_subsys x = subsys -> In (call_for signal sigdata x) tr
  | Some h => In h (list_of st) /\ (forall c, In c tr -> c_id c < h_id h) /\
              forall x, In x (list_of st) -> h_id x < h_id h -> h_subsys x = subsys -> In (call_for signal sigdata x) tr
  end ->
  dispatch_loop fuel beh subsys signal sigdata st cur tr = Ok (st', tr') ->
  good init beh subsys signal sigdata st' tr' /\ forall x, In x (list_of st') -> h_subsys x = subsys -> In (call_for signal sigdata x) tr'.
Proof.
  induction fuel as [|fuel IH]; intros st cur tr st' tr' G C E.
  - destruct cur; [discriminate E|]. injection E as <- <-. split; assumption.
  - destruct cur as [h|]; [|injection E as <- <-; split; assumption]. cbn [dispatch_loop] in E. destruct C as (I & TL & D).
    destruct G as (W & TS & O & TC).
    destruct (Z.eqb_spec (h_subsys h) subsys) as [Es|Ns]; cbn [negb] in E.
    + set (c := Call (h_id h) (h_cbfn h) subsys signal (h_data h) sigdata) in *. set (tr1 := tr ++ [c]) in *. set (st1 := fold_left do_op (beh tr1) st) in *.
      assert (Cc : call_for signal sigdata h = c) by (unfold call_for, c; congruence).
      assert (W1 : wf st1) by (apply ops_wf; exact W).
      destruct (next_of (list_of st1) (h_id h)) as [n| | |] eqn:En; cbn [bind] in E; try discriminate E.
      destruct (next_in _ _ _ En) as (h1 & I1 & E1).
      assert (Hh : h1 = h).
      { destruct (ops_in _ _ _ I1) as [K|(K & _)].
        - exact (sorted_inj _ _ _ (proj1 W) K I E1).
        - destruct W as (_ & F). rewrite Forall_forall in F. specialize (F h I). cbn in F. lia. }
      subst h1. destruct (next_spec _ (proj1 W1) h I1) as (n' & En' & K). rewrite En in En'. injection En' as <-.
      assert (G1 : good init beh subsys signal sigdata st1 tr1).
      { split; [exact W1|]. split; [apply sorted_csnoc; [exact TS|exact TL]|]. split.
        - intros x X. destruct (ops_in _ _ _ X) as [X'|(_ & s & cc & d & R & (A1 & A2 & A3))]; [auto|]. right. exists tr1. rewrite A1, A2, A3. exact R.
        - intros x X. apply in_app_or in X. destruct X as [X|[<-|[]]]; [auto|]. cbn. split; [reflexivity|]. split; [reflexivity|]. split; [reflexivity|].
          rewrite <- Es. apply O. exact I. }
      assert (D1 : forall x, In x (list_of st1) -> h_id x <= h_id h -> h_subsys x = subsys -> In (call_for signal sigdata x) tr1).
      { intros x X L Sx. destruct (ops_in _ _ _ X) as [X'|(N & _)].
        - apply in_or_app. destruct (Z.eq_dec (h_id x) (h_id h)) as [Ex|].
          + right. left. rewrite <- Cc. f_equal. symmetry. exact (sorted_inj _ _ _ (proj1 W) X' I Ex).
          + left. apply D; [exact X'|lia|exact Sx].
        - destruct W as (_ & F). rewrite Forall_forall in F. specialize (F h I). cbn in F. lia. }
      apply (IH st1 n tr1 st' tr'); [exact G1| |exact E]. destruct n as [y|].
      * destruct K as (Iy & Ly & Ky). split; [exact Iy|]. split.
        -- intros x X. apply in_app_or in X. destruct X as [X|[<-|[]]]; [specialize (TL x X); lia|exact Ly].
        -- intros x X L Sx. apply D1; [exact X|apply Ky; assumption|exact Sx].
      * intros x X Sx. apply D1; [exact X|apply K; exact X|exact Sx].
    + destruct (next_spec _ (proj1 W) h I) as (n & En & K). rewrite En in E. cbn [bind] in E.
      assert (D1 : forall x, In x (list_of st) -> h_id x <= h_id h -> h_subsys x = subsys -> In (call_for signal sigdata x) tr).
      { intros x X L Sx. destruct (Z.eq_dec (h_id x) (h_id h)) as [Ex|]; [|apply D; [exact X|lia|exact Sx]].
        exfalso. apply Ns. rewrite <- (sorted_inj _ _ _ (proj1 W) X I Ex). exact Sx. }
      apply (IH st n tr st' tr'); [split; [exact W|split; [exact TS|split; [exact O|exact TC]]]| |exact E]. destruct n as [y|].
      * destruct K as (Iy & Ly & Ky). split; [exact Iy|]. split; [intros x X; specialize (TL x X); lia|].
        intros x X L Sx. apply D1; [exact X|apply Ky; assumption|exact Sx].
      * intros x X Sx. apply D1; [exact X|apply K; exact X|exact Sx].
Qed.

Lemma loop_safe beh subsys signal sigdata : keeps_itself subsys beh -> forall fuel st cur tr, wf st ->
  (forall h, cur = Some h -> In h (list_of st)) -> dispatch_loop fuel beh subsys signal sigdata st cur tr <> UB.
Proof.
  intros KI. induction fuel as [|fuel IH]; intros st cur tr W C.
  - destruct cur; discriminate.
  - destruct cur as [h|]; [|discriminate]. specialize (C h eq_refl). cbn [dispatch_loop].
    destruct (Z.eqb_spec (h_subsys h) subsys) as [Es|Ns]; cbn [negb].
    + set (c := Call (h_id h) (h_cbfn h) subsys signal (h_data h) sigdata). set (st1 := fold_left do_op (beh (tr ++ [c])) st).
      assert (W1 : wf st1) by (apply ops_wf; exact W).
      assert (I1 : In h (list_of st1)). { apply ops_keep; [exact C|]. rewrite Es. exact (KI tr c eq_refl). }
      destruct (next_spec _ (proj1 W1) h I1) as (n & En & K). rewrite En. cbn [bind]. apply IH; [exact W1|].
      intros y ->. exact (proj1 K).
    + destruct (next_spec _ (proj1 W) h C) as (n & En & K). rewrite En. cbn [bind]. apply IH; [exact W|]. intros y ->. exact (proj1 K).
Qed.

(** how many entries are left to be looked at *)
Definition left_from (l : list handler) (id : Z) : nat := length (filter (fun x => id <=? h_id x) l).
Lemma filter_le (f : handler -> bool) l s c d : (length (filter f (unreg l s c d)) <= length (filter f l))%nat.
Proof.
  induction l as [|h l IH]; cbn [unreg filter]; [lia|]. destruct (_ && _ && _); [destruct (f h); cbn [length]; lia|].
  cbn [filter]. destruct (f h); cbn [length]; lia.
Qed.
Lemma ops_left os : (forall m s c d, ~ In (Reg m s c d) os) -> forall st id, (left_from (list_of (fold_left do_op os st)) id <= left_from (list_of st) id)%nat.
Proof.
  induction os as [|o os IH]; intros N st id; [cbn; lia|]. cbn [fold_left].
  etransitivity; [apply IH; intros m s c d X; apply (N m s c d); right; exact X|].
  destruct o as [m s c d|s c d]; [exfalso; apply (N m s c d); left; reflexivity|]. apply filter_le.
Qed.
Lemma left_next l h y : In h l -> In y l -> h_id h < h_id y -> (left_from l (h_id y) < left_from l (h_id h))%nat.
Proof.
  intros H _ L. unfold left_from. induction l as [|a l IH]; [destruct H|]. cbn [filter].
  assert (M : forall k, (length (filter (fun x => Z.leb (h_id y) (h_id x)) k) <= length (filter (fun x => Z.leb (h_id h) (h_id x)) k))%nat).
  { induction k as [|b k IHk]; cbn [filter]; [lia|]. destruct (Z.leb_spec (h_id y) (h_id b)), (Z.leb_spec (h_id h) (h_id b)); cbn [length]; lia. }
  destruct H as [->|H].
  - destruct (Z.leb_spec (h_id y) (h_id h)); [lia|]. destruct (Z.leb_spec (h_id h) (h_id h)); [|lia]. cbn [length]. specialize (M l). lia.
  - specialize (IH H). destruct (Z.leb_spec (h_id y) (h_id a)), (Z.leb_spec (h_id h) (h_id a)); cbn [length]; lia.
Qed.
Lemma loop_ends beh subsys signal sigdata : keeps_itself subsys beh -> registers_nothing beh -> forall fuel st cur tr, wf st ->
  (forall h, cur = Some h -> In h (list_of st) /\ (left_from (list_of st) (h_id h) <= fuel)%nat) ->
  exists st' tr', dispatch_loop fuel beh subsys signal sigdata st cur tr = Ok (st', tr').
Proof.
  intros KI RN. induction fuel as [|fuel IH]; intros st cur tr W C.
  - destruct cur as [h|]; [|eexists; eexists; reflexivity]. destruct (C h eq_refl) as (I & L). exfalso.
    unfold left_from in L. assert (X : In h (filter (fun x => h_id h <=? h_id x) (list_of st))) by (apply filter_In; split; [exact I|apply Z.leb_le; lia]).
    destruct (filter _ _); [destruct X|cbn in L; lia].
  - destruct cur as [h|]; [|eexists; eexists; reflexivity]. destruct (C h eq_refl) as (I & L). cbn [dispatch_loop].
    destruct (Z.eqb_spec (h_subsys h) subsys) as [Es|Ns]; cbn [negb].
    + set (c := Call (h_id h) (h_cbfn h) subsys signal (h_data h) sigdata). set (st1 := fold_left do_op (beh (tr ++ [c])) st).
      assert (W1 : wf st1) by (apply ops_wf; exact W).
      assert (I1 : In h (list_of st1)). { apply ops_keep; [exact I|]. rewrite Es. exact (KI tr c eq_refl). }
      destruct (next_spec _ (proj1 W1) h I1) as (n & En & K). rewrite En. cbn [bind]. apply IH; [exact W1|].
      intros y ->. destruct K as (Iy & Ly & _). split; [exact Iy|].
      pose proof (left_next (list_of st1) h y I1 Iy Ly). pose proof (ops_left (beh (tr ++ [c])) (RN _) st (h_id h)) as X. fold st1 in X. lia.
    + destruct (next_spec _ (proj1 W) h I) as (n & En & K). rewrite En. cbn [bind]. apply IH; [exact W|]. intros y ->. destruct K as (Iy & Ly & _).
      split; [exact Iy|]. pose proof (left_next (list_of st) h y I Iy Ly). lia.
Qed.
Lemma left_all l h : (left_from l h <= length l)%nat.
Proof. unfold left_from. induction l as [|a l IH]; cbn [filter length]; [lia|]. destruct (_ <=? _); cbn [length]; lia. Qed.
