(* C18, C19: finite state machines *)
From Verif Require Import Base M_fsm S_fsm P_fsm P_fsm2.

(* everything that happened in a program running for at most fuel steps *)
Definition history (D : Z -> fsm) (env : trace -> cmd + Z) (safe : bool) (fuel : nat) : trace := tr (final (program D env safe fuel)).
Ltac steps H := pose proof (a_ok _ _ (programA _ _ _ _)) as H.

(* ---------- C18: transitions and dispatch ---------- *)
(* Whatever the program does, a state is only entered along a transition permitted from the old state.  If user code leaves an instance
   alone inside that instance's own onleave callback, the old state is the current one, the instance is not terminating, and without
   keep_timer the timer is armed exactly if a timeout was given *)
Theorem C18_transition : forall D env safe fuel after k fi old new keep ms tm before,
  history D env safe fuel = after ++ (k, EvState fi old new keep ms tm) :: before ->
  Z.testbit (out_mask (D (fsm_of before fi)) old) new = true /\
  (calm ((k, EvState fi old new keep ms tm) :: before) ->
     cur before fi = old /\ termed before fi = false /\
     (keep = false -> (ms = 0 -> tm = None) /\ (ms <> 0 -> tm = Some (s32 (ms / 1000), ms mod 1000 * 1000)))).
Proof.
  intros D env safe fuel after k fi old new keep ms tm before E. pose proof (a_ok _ _ (programA D env safe fuel)) as H. unfold history in E. rewrite E in H. apply steps_split in H.
  destruct H as [H1 H2]. split; auto. intros Hc. destruct (H2 Hc) as (A & B & C). split; auto. split; auto. intros Hk. specialize (C Hk). destruct (ms =? 0) eqn:E0; split; intros; try lia; auto.
Qed.
Print Assumptions C18_transition.

(* an event reaches the action of the current state only if permitted there, and not if the allstate action takes it; the allstate action
   gets only its own events; neither is called once termination has begun *)
Theorem C18_action : forall D env safe fuel after k fi event before,
  history D env safe fuel = after ++ (k, EvCb KAction fi event) :: before ->
  termed before fi = false /\ Z.testbit (in_mask (D (fsm_of before fi)) (cur before fi)) event = true /\
  (Z.testbit (all_mask (D (fsm_of before fi))) event = false \/ has_all (D (fsm_of before fi)) = false).
Proof. intros D env safe fuel after k fi event before E. pose proof (a_ok _ _ (programA D env safe fuel)) as H. unfold history in E. rewrite E in H. apply steps_split in H. exact H. Qed.
Print Assumptions C18_action.
Theorem C18_allstate : forall D env safe fuel after k fi event before,
  history D env safe fuel = after ++ (k, EvCb KAll fi event) :: before ->
  termed before fi = false /\ Z.testbit (all_mask (D (fsm_of before fi))) event = true.
Proof. intros D env safe fuel after k fi event before E. pose proof (a_ok _ _ (programA D env safe fuel)) as H. unfold history in E. rewrite E in H. apply steps_split in H. exact H. Qed.
Print Assumptions C18_allstate.
(* onleave runs only for a permitted transition from the current state; onenter directly after the state change, with the state it came from *)
Theorem C18_leave_enter : forall D env safe fuel after k fi arg before,
  (history D env safe fuel = after ++ (k, EvCb KLeave fi arg) :: before ->
     termed before fi = false /\ Z.testbit (out_mask (D (fsm_of before fi)) (cur before fi)) arg = true) /\
  (history D env safe fuel = after ++ (k, EvCb KEnter fi arg) :: before ->
     exists k' new keep ms tm earlier, before = (k', EvState fi arg new keep ms tm) :: earlier).
Proof.
  intros D env safe fuel after k fi arg before. pose proof (a_ok _ _ (programA D env safe fuel)) as H. unfold history. split; intros E; rewrite E in H; apply steps_split in H; [exact H|].
  cbn [step_ok] in H. destruct before as [|[k' e] b]; [contradiction|]. destruct e; try contradiction. destruct H as [-> ->]. do 6 eexists. reflexivity.
Qed.
Print Assumptions C18_leave_enter.

(* the state the instance shows is the one the history gives *)
Theorem C18_state : forall D env safe fuel fi,
  istate (mem (final (program D env safe fuel)) fi) = cur (history D env safe fuel) fi.
Proof. intros. apply (a_state _ _ (programA D env safe fuel)). Qed.
Print Assumptions C18_state.

(* a refused transition or event: an error, and nothing at all changes (in any state, with any user code) *)
Theorem C18_refused : forall D rec s fi, live s fi = true -> istate (mem s fi) < num (D (ifsm (mem s fi))) ->
  (forall new keep ms T, 0 <= new < 32 -> iterm (mem s fi) = true \/ Z.testbit (out_mask (D (ifsm (mem s fi))) (istate (mem s fi))) new = false ->
     exists rc, state_chg D rec fi new keep ms T s = Done s rc /\ rc < 0) /\
  (forall event, 0 <= event < 32 -> fi <> 0 -> iterm (mem s fi) = true \/ (Z.testbit (in_mask (D (ifsm (mem s fi))) (istate (mem s fi))) event = false /\ (Z.testbit (all_mask (D (ifsm (mem s fi)))) event = false \/ has_all (D (ifsm (mem s fi))) = false)) ->
     exists rc, dispatch D rec fi event s = Done s rc /\ rc < 0).
Proof.
  intros D rec s fi Hl Hs. split.
  - intros new keep ms T Hn Hr. unfold state_chg. rewrite Hl. cbn [negb]. destruct (iterm (mem s fi)). { eexists. split; [reflexivity|]. unfold EINVAL. lia. }
    replace (_ || _ || _) with false by lia. destruct Hr as [?|Hr]; [discriminate|]. rewrite Hr. cbn [negb]. eexists. split; [reflexivity|]. unfold EPERM. lia.
  - intros event He H0 Hr. unfold dispatch. replace (fi =? 0) with false by lia. rewrite Hl. cbn [negb]. destruct (iterm (mem s fi)). { eexists. split; [reflexivity|]. unfold EINVAL. lia. }
    replace (num _ <=? _) with false by lia. replace (_ || _) with false by lia. destruct Hr as [?|[Hr1 Hr2]]; [discriminate|]. rewrite Hr1. cbn [negb].
    replace (Z.testbit (all_mask (D (ifsm (mem s fi)))) event && has_all (D (ifsm (mem s fi)))) with false by (destruct Hr2 as [-> | ->]; [reflexivity|symmetry; apply andb_false_r]).
    eexists. split; [reflexivity|lia].
Qed.
Print Assumptions C18_refused.

(* a permitted event does reach the handler: its call is the next thing that happens *)
Theorem C18_delivered : forall D env safe fuel s fi event, live s fi = true -> fi <> 0 -> iterm (mem s fi) = false -> 0 <= event < 32 ->
  let f := D (ifsm (mem s fi)) in let x := istate (mem s fi) in x < num f ->
  (Z.testbit (all_mask f) event = true -> has_all f = true ->
     exists more, tr (final (dispatch D (exec_job D env safe fuel) fi event s)) = more ++ (stk s, EvCb KAll fi event) :: tr s) /\
  (Z.testbit (all_mask f) event = false \/ has_all f = false -> Z.testbit (in_mask f x) event = true -> has_action f x = true ->
     exists more, tr (final (dispatch D (exec_job D env safe fuel) fi event s)) = more ++ (stk s, EvCb KAction fi event) :: tr s).
Proof.
  intros D env safe fuel s fi event Hl H0 Ht He f x Hx. unfold dispatch. replace (fi =? 0) with false by lia. rewrite Hl, Ht. cbn [negb]. fold f x. replace (num f <=? x) with false by lia. replace (_ || _) with false by lia.
  assert (G : forall k, exists more, tr (final (run (s1, rc) <- callback (exec_job D env safe fuel) k fi event s; Done s1 0)) = more ++ (stk s, EvCb k fi event) :: tr s).
  { intros k. destruct (grow_cb (exec_job D env safe fuel) (grow_job D env safe fuel) k fi event s) as (n & E). exists n. destruct (callback _ _ _ _ _); exact E. }
  split.
  - intros E1 E2. rewrite E1, E2. cbn [andb]. apply G.
  - intros E1 E2 E3. replace (Z.testbit (all_mask f) event && has_all f) with false by (destruct E1 as [-> | ->]; [reflexivity|symmetry; apply andb_false_r]). rewrite E2, E3. cbn [negb]. apply G.
Qed.
Print Assumptions C18_delivered.

(* a permitted transition is made, whatever the callbacks do: unless user code runs on for ever or crashes, the call returns 0 with the change in
   the history, onleave called before and onenter after it.  Without callbacks the result is: new state, timer per the rules, all else equal;
   with keep_timer a running timer is left alone, and a timeout is set only if none was running *)
Theorem C18_changed : forall D env safe fuel s fi new keep ms T, live s fi = true -> iterm (mem s fi) = false -> 0 <= new < 32 ->
  let f := D (ifsm (mem s fi)) in let old := istate (mem s fi) in old < num f -> new < num f -> Z.testbit (out_mask f old) new = true ->
  (forall s' rc, state_chg D (exec_job D env safe fuel) fi new keep ms T s = Done s' rc ->
     rc = 0 /\ exists a b tm, tr s' = a ++ (if has_enter f new then [(stk s, EvCb KEnter fi old)] else []) ++ [(stk s, EvState fi old new keep ms tm)] ++ b ++ (if has_leave f old then [(stk s, EvCb KLeave fi new)] else []) ++ tr s) /\
  (has_leave f old = false -> has_enter f new = false ->
     exists s', state_chg D (exec_job D env safe fuel) fi new keep ms T s = Done s' 0 /\
       istate (mem s' fi) = new /\
       itmr (mem s' fi) = (if keep then match itmr (mem s fi) with Some t => Some t | None => if ms =? 0 then None else arm ms end else if ms =? 0 then None else arm ms) /\
       iT (mem s' fi) = (if keep then match itmr (mem s fi) with Some _ => iT (mem s fi) | None => T end else T) /\
       (forall z, z <> fi -> mem s' z = mem s z) /\ live s' = live s).
Proof.
  intros D env safe fuel s fi new keep ms T Hl Ht Hn f old Ho Hnn Hp. unfold state_chg. rewrite Hl, Ht. cbn [negb]. fold f old. rewrite Hp. replace (_ || _ || _) with false by lia. cbn [negb].
  set (R := exec_job D env safe fuel). set (s1 := if keep then s else setm fi (w_tmr None) s). assert (T1 : tr s1 = tr s /\ stk s1 = stk s) by (unfold s1; destruct keep; auto). destruct T1 as [T1 K1]. split.
  - intros s' rc. set (lv := if has_leave f old then callback R KLeave fi new s1 else Done s1 0).
    assert (L : forall s2 v, lv = Done s2 v -> stk s2 = stk s /\ exists b, tr s2 = b ++ (if has_leave f old then [(stk s, EvCb KLeave fi new)] else []) ++ tr s).
    { unfold lv. intros s2 v. destruct (has_leave f old).
      - intros E. destruct (grow_cb R (grow_job D env safe fuel) KLeave fi new s1) as (n & En). rewrite E in En. cbn [final] in En. split.
        + unfold callback in E. destruct (R JLoop _); cbn [bindo] in E; try discriminate. injection E as <- _. exact K1.
        + exists n. rewrite En. cbn [emit tr]. rewrite T1, K1. reflexivity.
      - intros [= <- <-]. split; auto. exists []. auto. }
    destruct lv as [s2 v| |]; cbn [bindo]; try discriminate. destruct (L s2 v eq_refl) as (K2 & b & Eb). clear L. destruct (negb _ || _); [discriminate|].
    match goal with |- context [w_state new ?a ?b] => set (T' := a); set (tm := b) end. set (s3 := emit _ _).
    assert (E3 : tr s3 = (stk s, EvState fi old new keep ms tm) :: tr s2 /\ stk s3 = stk s) by (unfold s3; cbn [emit tr stk setm]; rewrite K2; auto). destruct E3 as [E3 K3].
    destruct (has_enter f new).
    + intros E. destruct (grow_cb R (grow_job D env safe fuel) KEnter fi old s3) as (n & En). destruct (callback R KEnter fi old s3) as [s4 v4| |]; cbn [bindo final] in *; try discriminate. injection E as <- <-. split; auto.
      exists n, b, tm. rewrite En. cbn [emit tr]. rewrite K3, E3, Eb. reflexivity.
    + intros [= <- <-]. split; auto. exists [], b, tm. rewrite E3, Eb. reflexivity.
  - intros HL HE. rewrite HL, HE. cbn [bindo]. assert (L1 : live s1 fi = true) by (unfold s1; destruct keep; exact Hl). rewrite L1. replace (num f <=? new) with false by lia. cbn [negb orb].
    eexists. split; [reflexivity|]. cbn [emit mem setm live]. rewrite Z.eqb_refl. cbn [w_state istate itmr iT]. split; auto.
    assert (M1 : mem s1 fi = if keep then mem s fi else w_tmr None (mem s fi)) by (unfold s1; destruct keep; auto; cbn [setm mem]; rewrite Z.eqb_refl; reflexivity). rewrite M1. split; [|split; [|split]].
    + destruct keep; cbn [negb orb w_tmr itmr]; [|destruct (ms =? 0); reflexivity]. destruct (itmr (mem s fi)); cbn [andb]; [reflexivity|destruct (ms =? 0); reflexivity].
    + destruct keep; cbn [negb orb w_tmr itmr iT]; [|reflexivity]. destruct (itmr (mem s fi)); reflexivity.
    + intros z Hz. replace (z =? fi) with false by lia. unfold s1. destruct keep; auto. cbn [setm mem]. replace (z =? fi) with false by lia. reflexivity.
    + unfold s1. destruct keep; reflexivity.
Qed.
Print Assumptions C18_changed.

(* an expired state timer: without timer_cb the instance is terminated with cause OSMO_FSM_TERM_TIMEOUT (4) at once; timer_cb is called
   with the T number, and if it returns 1 the same happens unless it has terminated the instance itself; otherwise nothing more is
   done.  A timer that is not armed does not expire *)
Theorem C18_timeout : forall D env safe fuel s fi, live s fi = true -> iterm (mem s fi) = false ->
  let f := D (ifsm (mem s fi)) in let R := exec_job D env safe (S fuel) in let s1 := setm fi (w_tmr None) s in
  (itmr (mem s fi) = None -> tick D R fi s = Done s 0) /\
  (itmr (mem s fi) <> None -> has_tmr f = false -> exists more, tr (final (tick D R fi s)) = more ++ (stk s, EvTerm fi 4) :: tr s) /\
  (itmr (mem s fi) <> None -> has_tmr f = true ->
    (exists more, tr (final (tick D R fi s)) = more ++ (stk s, EvCb KTimer fi (iT (mem s fi))) :: tr s) /\
    forall s2 rc, callback R KTimer fi (iT (mem s fi)) s1 = Done s2 rc ->
      (rc <> 1 -> tick D R fi s = Done s2 0) /\
      (rc = 1 -> live s2 fi = true -> iterm (mem s2 fi) = false ->
        exists more, tr (final (tick D R fi s)) = more ++ (stk s2, EvTerm fi 4) :: (stk s2, EvCmd (CTerm fi 4)) :: tr s2)).
Proof.
  intros D env safe fuel s fi Hl Ht f R s1.
  assert (TM : forall x, live x fi = true -> iterm (mem x fi) = false -> exists more, tr (final (R (JTerm fi 4) x)) = more ++ (stk x, EvTerm fi 4) :: tr x).
  { intros x L T. unfold R. cbn [exec_job do_job]. unfold term. rewrite L, T. cbn [negb]. set (x1 := emit _ _).
    set (x2 := if safe || _ then _ else x1). assert (E2 : tr x2 = (stk x, EvTerm fi 4) :: tr x) by (unfold x2, x1; destruct (safe || _); reflexivity).
    rewrite <- E2. clearbody x2. pose proof (grow_job D env safe fuel) as G.
    change (grow x2 (run (s3, rc) <- (if has_pre (D (ifsm (mem x fi))) then callback (exec_job D env safe fuel) KPre fi 4 x2 else Done x2 0);
      run (s4, rc) <- exec_job D env safe fuel (JTermCh fi TERM_PARENT 0) s3; term_leave D (exec_job D env safe fuel) fi 4 (ipte (mem x fi)) s4)).
    apply grow_bind. { destruct (has_pre _); [eapply grow_emit, grow_cb; exact G|apply grow_refl]. } intros s3 v3. apply grow_bind. { apply G. } intros s4 v4.
    unfold term_leave. destruct (negb _); [apply grow_crash|]. apply grow_bind. { destruct (_ =? _); [apply grow_refl|apply grow_detach]. } intros s5 v5. eapply grow_emit.
    apply grow_bind. { destruct (has_clean _); [eapply grow_emit, grow_cb; exact G|apply grow_refl]. } intros s6 v6. apply grow_notify. exact G. }
  split; [intros E; unfold tick; rewrite E; reflexivity|]. split.
  - intros E HT. unfold tick. destruct (itmr (mem s fi)); [|congruence]. rewrite Hl. cbn [negb]. fold f. rewrite HT. fold s1.
    change TERM_TIMEOUT with 4. apply (TM s1); [exact Hl|]. unfold s1. cbn [setm mem]. rewrite Z.eqb_refl. exact Ht.
  - intros E HT. unfold tick. destruct (itmr (mem s fi)); [|congruence]. rewrite Hl. cbn [negb]. fold f. rewrite HT. fold s1. split.
    + destruct (grow_cb R (grow_job D env safe (S fuel)) KTimer fi (iT (mem s fi)) s1) as (n & En).
      destruct (callback R KTimer fi (iT (mem s fi)) s1) as [s2 rc| |]; cbn [bindo final] in *; [|exists n; exact En|exists n; exact En].
      destruct (rc =? 1); [|exists n; exact En].
      destruct (grow_job D env safe (S fuel) (JTerm fi TERM_TIMEOUT) (emit (EvCmd (CTerm fi TERM_TIMEOUT)) s2)) as (m & Em).
      fold R in Em. rewrite Em. cbn [emit tr]. rewrite En. exists (m ++ (stk s2, EvCmd (CTerm fi TERM_TIMEOUT)) :: n). rewrite <- app_assoc. reflexivity.
    + intros s2 rc EC. rewrite EC. cbn [bindo]. split.
      * intros N. destruct (Z.eqb_spec rc 1); [congruence|reflexivity].
      * intros -> L2 T2. change (1 =? 1) with true. cbv iota. change TERM_TIMEOUT with 4.
        apply (TM (emit (EvCmd (CTerm fi 4)) s2)); auto.
Qed.
Print Assumptions C18_timeout.

(* example programs: the n-th command is issued when the history has the given length; callbacks otherwise return 0 *)
Definition script (l : list (nat * cmd)) (t : trace) : cmd + Z :=
  match find (fun x => Nat.eqb (fst x) (length t)) l with Some (_, c) => inl c | None => inr 0 end.
(* three states; from 0 to 1 and 2 only; event 0 everywhere, event 1 allstate; onleave only in descriptor 1 *)
Definition demo (f : Z) : fsm :=
  Fsm 3 (fun s => 1) (fun s => if s =? 0 then 6 else 0) (fun _ => true) (fun _ => true) (fun _ => f =? 1) 2 true true true true.
Lemma demo_valid : valid_fsms demo.
Proof.
  intros f. cbn [demo num]. split; [lia|]. intros a b Ha Hb. cbn [demo out_mask]. destruct (a =? 0). 2:{ rewrite Z.testbit_0_l. discriminate. }
  intros H. destruct (Z_lt_dec b 3); auto. exfalso. assert (b = Z.log2 6 \/ Z.log2 6 < b) by (cbn; lia). cbn in H0. rewrite Z.bits_above_log2 in H; [discriminate|lia|cbn; lia].
Qed.
(* checking behaved by computation *)
Definition in_stack (fi : Z) (k : list (kind * Z)) : bool := existsb (fun x => match fst x with KLeave => snd x =? fi | _ => false end) k.
Definition calmb (t : trace) : bool := forallb (fun x => match snd x with EvState fi _ _ _ _ _ | EvTerm fi _ => negb (in_stack fi (fst x)) | _ => true end) t.
Lemma calmb_ok t : calmb t = true -> calm t.
Proof.
  intros H. apply Forall_forall. intros [k e] Hi. unfold calmb in H. rewrite forallb_forall in H. specialize (H _ Hi). unfold calm_entry. cbn [fst snd] in *.
  assert (G : forall fi, negb (in_stack fi k) = true -> ~ In (KLeave, fi) k).
  { intros fi Hn Hk. apply negb_true_iff in Hn. assert (in_stack fi k = true); [|congruence]. unfold in_stack. apply existsb_exists. exists (KLeave, fi). split; auto. cbn [fst snd]. apply Z.eqb_refl. }
  destruct e; auto.
Qed.

(* onleave of the same instance making a state change of its own: the outer change then is made from a state that does not permit it,
   and although it gave no timeout the timer is left running.  "Only along permitted transitions" fails for such programs *)
Theorem C18_nested_leave_refuted : exists D env fuel after k fi old new keep ms tm before,
  valid_fsms D /\ history D env false fuel = after ++ (k, EvState fi old new keep ms tm) :: before /\ legal_trace before /\
  Z.testbit (out_mask (D (fsm_of before fi)) (cur before fi)) new = false /\ keep = false /\ ms = 0 /\ tm <> None.
Proof.
  set (env := script [(0, CAlloc 1); (3, CChg 1 1 false 0 7); (5, CChg 1 2 false 5000 7)]%nat).
  exists demo, env, 20%nat. remember (history demo env false 20) as h eqn:Eh. vm_compute in Eh.
  match type of Eh with h = ?a :: ?b :: ?c :: ?r => exists [a; b] end. match type of Eh with h = _ :: _ :: (?k, EvState ?fi ?old ?new ?keep ?ms ?tm) :: ?r => exists k, fi, old, new, keep, ms, tm, r end.
  split; [apply demo_valid|]. split; [exact Eh|]. split. { cbn. repeat (split; auto); lia. } split; [reflexivity|]. split; [reflexivity|]. split; [reflexivity|discriminate].
Qed.
Print Assumptions C18_nested_leave_refuted.
(* the manual promises that a timeout is clamped to 2147483647 seconds; it is truncated to an int instead *)
Theorem C18_timeout_clamp_refuted : exists D env fuel after k fi old new ms tm before,
  valid_fsms D /\ history D env false fuel = after ++ (k, EvState fi old new false ms tm) :: before /\ behaved (history D env false fuel) /\
  ms = 2147483648 * 1000 /\ tm = Some (-2147483648, 0).
Proof.
  set (env := script [(0, CAlloc 0); (3, CChg 1 1 false 2147483648000 7)]%nat).
  exists demo, env, 20%nat. remember (history demo env false 20) as h eqn:Eh. vm_compute in Eh.
  match type of Eh with h = ?a :: ?b :: ?r => exists [a; b] end. match type of Eh with h = _ :: _ :: (?k, EvState ?fi ?old ?new ?keep ?ms ?tm) :: ?r => exists k, fi, old, new, ms, tm, r end.
  split; [apply demo_valid|]. split; [exact Eh|]. split. { split; [apply calmb_ok; subst; reflexivity|]. split; [subst; cbn; repeat (split; auto); lia|]. subst. reflexivity. } split; reflexivity.
Qed.
Print Assumptions C18_timeout_clamp_refuted.

(* a program with two transitions, a refused one and both kinds of events is in the scope of the theorems *)
Example C18_nonvacuous : let h := history demo (script [(0, CAlloc 0); (3, CDispatch 1 0); (6, CChg 1 1 false 5000 7); (10, CDispatch 1 1); (13, CChg 1 2 false 0 0)]%nat) false 30 in
  calm h /\ rev (map snd h) =
    [EvCmd (CAlloc 0); EvAlloc 1 0; EvRet 1; EvCmd (CDispatch 1 0); EvCb KAction 1 0; EvRet 0; EvCmd (CChg 1 1 false 5000 7); EvState 1 0 1 false 5000 (Some (5, 0)); EvCb KEnter 1 0; EvRet 0;
     EvCmd (CDispatch 1 1); EvCb KAll 1 1; EvRet 0; EvCmd (CChg 1 2 false 0 0); EvRet (-1)].
Proof. split; [apply calmb_ok|]; vm_compute; reflexivity. Qed.

(* ---------- C19: termination with osmo_fsm_term_safely(true) ---------- *)
(* the stages of an instance's termination happen in order, each at most once: begun 1, pre_term 2, off the parent's list 3, cleanup 4,
   parent notified 5, complete 6, deallocated 7; none but the first without a beginning, none from 4 on without 3, 7 only after 6 *)
Theorem C19_stages : forall D env fuel after k e before fi,
  history D env true fuel = after ++ (k, e) :: before -> rank fi e <> 0 ->
  phase before fi < rank fi e /\ (rank fi e = 1 \/ 1 <= phase before fi) /\ (4 <= rank fi e -> 3 <= phase before fi) /\ (rank fi e = 7 -> phase before fi = 6).
Proof.
  intros D env fuel after k e before fi E Hr. destruct (programB D env fuel) as [H _]. apply b_ok in H. unfold history in E. rewrite E in H. apply terms_split in H. destruct H as [H _]. destruct (H fi); [contradiction|auto].
Qed.
Print Assumptions C19_stages.

(* children first: unless the loop over the children gave up, every child has been terminated that far or moved away before the
   parent leaves its own parent, is cleaned up and reports its end *)
Theorem C19_children_first : forall D env fuel after k fi before,
  history D env true fuel = after ++ (k, EvGone fi) :: before -> has (is_stuck fi) before = false -> forall c, parent_of before c = fi -> gone before c = true.
Proof. intros D env fuel after k fi before E. destruct (programB D env fuel) as [H _]. apply b_ok in H. unfold history in E. rewrite E in H. apply terms_split in H. exact (proj2 H). Qed.
Print Assumptions C19_children_first.

(* the parent gets the termination event only if the cause is not "parent", and it is the instance's parent and the event set
   when the termination began; conversely it is told before the end if the cause is another one and there is a parent *)
Theorem C19_parent_event : forall D env fuel after k fi p e before,
  history D env true fuel = after ++ (k, EvNotify fi p e) :: before -> cause_of before fi <> 0 /\ p = parent_of before fi /\ p <> 0 /\ e = term_pte before fi.
Proof. intros D env fuel after k fi p e before E. destruct (programB D env fuel) as [H _]. apply b_ok in H. unfold history in E. rewrite E in H. apply terms_split in H. exact (proj2 H). Qed.
Print Assumptions C19_parent_event.
Theorem C19_parent_told : forall D env fuel after k fi before,
  history D env true fuel = after ++ (k, EvDone fi) :: before -> behaved before -> cause_of before fi <> 0 -> parent_of before fi <> 0 ->
  exists k e, In (k, EvNotify fi (parent_of before fi) e) before.
Proof. intros D env fuel after k fi before E. destruct (programB D env fuel) as [H _]. apply b_ok in H. unfold history in E. rewrite E in H. apply terms_split in H. exact (proj2 H). Qed.
Print Assumptions C19_parent_told.

(* no instance is deallocated while any termination is in progress *)
Theorem C19_no_free_in_progress : forall D env fuel after k fi before,
  history D env true fuel = after ++ (k, EvFree fi) :: before -> forall z, termed before z = true -> done before z = true.
Proof.
  intros D env fuel after k fi before E z Hz. destruct (programB D env fuel) as [H _]. pose proof (b_ok _ _ H) as Hk. unfold history in E. rewrite E in Hk.
  pose proof (terms_split _ _ _ _ Hk) as [_ Hb]. cbn in Hb. assert (Hok : terms_ok before) by (apply terms_app in Hk; apply Hk).
  (* an instance that has begun and not ended is busy *)
  clear - Hok Hb Hz. destruct (done before z) eqn:Ed; auto. exfalso.
  assert (G : In z (busy before)); [|rewrite Hb in G; destruct G]. clear Hb. revert Hz Ed. induction before as [|[k e] t IH]; [discriminate|]. destruct Hok as [Hp Hok]. specialize (IH Hok).
  unfold termed, done in *. rewrite !has_cons. intros Hz Hd. apply orb_false_iff in Hd. destruct Hd as [Hd1 Hd2]. apply orb_true_iff in Hz.
  destruct e; cbn [busy is_term is_done] in *; try (destruct Hz as [Hz|Hz]; [discriminate|auto]).
  - destruct Hz as [Hz|Hz]; [left; lia|right; auto].
  - apply in_in_remove; [lia|auto].
Qed.
Print Assumptions C19_no_free_in_progress.

(* after the beginning of the termination no event reaches an action; the state does not change any more (C18_transition) *)
Theorem C19_no_events : forall D env fuel after k fi event before,
  history D env true fuel = after ++ (k, EvCb KAction fi event) :: before \/ history D env true fuel = after ++ (k, EvCb KAll fi event) :: before -> termed before fi = false.
Proof. intros D env fuel after k fi event before [E|E]; [apply C18_action in E|apply C18_allstate in E]; tauto. Qed.
Print Assumptions C19_no_events.

(* The cascade: when a well-behaved program is done with any calls it made, every instance whose termination was begun is deallocated,
   and so are all its descendants *)
Inductive descendant (t : trace) : Z -> Z -> Prop :=
| desc_child c p : parent_of t c = p -> p <> 0 -> descendant t c p
| desc_step c p a : parent_of t c = p -> p <> 0 -> descendant t p a -> descendant t c a.
Theorem C19_cascade : forall D env fuel s rc, valid_fsms D -> program D env true fuel = Done s rc -> behaved (tr s) ->
  forall p, termed (tr s) p = true -> freed (tr s) p = true /\ live s p = false /\ forall c, descendant (tr s) c p -> freed (tr s) c = true /\ live s c = false.
Proof.
  intros D env fuel s rc V E B. destruct (programB D env fuel) as [H X]. rewrite E in H, X. cbn [final] in H. pose proof (phase_has _ (b_ok _ _ H)) as PH.
  assert (Bz : busy (tr s) = []) by (rewrite (e_busy _ _ _ X); reflexivity).
  assert (A : forall z, 1 <= phase (tr s) z -> freed (tr s) z = true /\ live s z = false).
  { intros z Hz. assert (F : freed (tr s) z = true).
    { apply PH. pose proof (b_busy _ _ H z) as G1. rewrite Bz in G1. pose proof (b_coll _ _ H z) as G2. rewrite (b_idle _ _ H Bz) in G2. cbn [In] in *. pose proof (phase_nn (tr s) z). lia. }
    split; auto. destruct (live s z) eqn:El; auto. apply (b_live _ _ H) in El. destruct El. congruence. }
  assert (N : forall c, parent_of (tr s) c <> 0 -> 1 <= phase (tr s) (parent_of (tr s) c) -> 1 <= phase (tr s) c).
  { intros c Hc Hp. destruct (b_nice _ _ H V B) as (_ & N2 & _). destruct (A _ Hp) as [F _]. apply PH in F. specialize (N2 c Hc). lia. }
  intros p Hp. apply PH in Hp. destruct (A p Hp) as [A1 A2]. split; auto. split; auto. intros c Hd. apply A. induction Hd; subst; auto.
Qed.
Print Assumptions C19_cascade.

(* no use of freed memory, no failed assertion, no invalid shift: a crash means the program misbehaved *)
Theorem C19_no_crash : forall D env fuel s, valid_fsms D -> program D env true fuel = Crash s -> ~ behaved (tr s).
Proof. intros D env fuel s V E B. destruct (programB D env fuel) as [_ H]. rewrite E in H. exact (H V B). Qed.
Print Assumptions C19_no_crash.

(* the property in full fails where the restrictions are dropped: *)
(* a child's pre_term callback terminating the parent: the loop over the children gives up and a sibling survives its deallocated parent *)
Theorem C19_sibling_survives_refuted : exists D env fuel s rc p c, valid_fsms D /\ program D env true fuel = Done s rc /\ calm (tr s) /\ legal_trace (tr s) /\
  freed (tr s) p = true /\ parent_of (tr s) c = p /\ termed (tr s) c = false /\ live s c = true.
Proof.
  set (env := script [(0, CAlloc 0); (3, CAllocChild 0 1 0); (7, CAllocChild 0 1 0); (11, CTerm 3 1); (14, CTerm 1 1)]%nat).
  exists demo, env, 30%nat. assert (G : match program demo env true 30 with Done s rc => calmb (tr s) = true /\ legal_trace (tr s) /\ freed (tr s) 1 = true /\ parent_of (tr s) 2 = 1 /\ termed (tr s) 2 = false /\ live s 2 = true | _ => False end).
  { vm_compute. repeat (split; auto); try (intros ?; discriminate). }
  destruct (program demo env true 30) as [s rc| |]; try contradiction. exists s, rc, 1, 2. split; [apply demo_valid|]. split; auto. destruct G as (G1 & G). split; [apply calmb_ok; auto|exact G].
Qed.
Print Assumptions C19_sibling_survives_refuted.
(* osmo_fsm_inst_term_children outside any termination, with a parent that terminates when told that a child ended: use of the freed parent *)
Theorem C19_term_children_refuted : exists D env fuel s, valid_fsms D /\ program D env true fuel = Crash s /\ calm (tr s) /\ (forall fi, has (is_stuck fi) (tr s) = false) /\
  (forall after k c before, tr s = after ++ (k, EvCmd c) :: before -> legal before c \/ exists fi cause, c = CTermCh fi cause /\ usable before fi).
Proof.
  set (env := script [(0, CAlloc 0); (3, CAllocChild 0 1 0); (7, CTermCh 1 2); (14, CTerm 1 1)]%nat).
  exists demo, env, 30%nat. assert (G : match program demo env true 30 with Crash s => calmb (tr s) = true /\ (forall fi, has (is_stuck fi) (tr s) = false) /\
    (fix ok (t : trace) := match t with [] => True | (_, EvCmd c) :: t => (match c with CTermCh fi _ => usable t fi | _ => legal t c end) /\ ok t | _ :: t => ok t end) (tr s) | _ => False end).
  { vm_compute. repeat (split; auto); try (intros ?; discriminate). }
  destruct (program demo env true 30) as [| |s]; try contradiction. exists s. split; [apply demo_valid|]. split; auto. destruct G as (G1 & G2 & G3). split; [apply calmb_ok; auto|]. split; auto.
  intros after k c before E. rewrite E in G3. clear - G3. induction after as [|[k' e] a IH]; cbn [app] in G3.
  - destruct G3 as [G3 _]. destruct c; auto. right. eauto.
  - apply IH. destruct e; auto. destruct G3; auto.
Qed.
Print Assumptions C19_term_children_refuted.
(* terminating an instance in its own onleave callback: state_chg goes on with the freed instance *)
Theorem C19_term_in_leave_refuted : exists D env fuel s, valid_fsms D /\ program D env true fuel = Crash s /\ legal_trace (tr s) /\ (forall fi, has (is_stuck fi) (tr s) = false).
Proof.
  set (env := script [(0, CAlloc 1); (3, CChg 1 1 false 0 7); (5, CTerm 1 1)]%nat).
  exists demo, env, 30%nat. assert (G : match program demo env true 30 with Crash s => legal_trace (tr s) /\ (forall fi, has (is_stuck fi) (tr s) = false) | _ => False end).
  { vm_compute. repeat (split; auto); try (intros ?; discriminate). }
  destruct (program demo env true 30) as [| |s]; try contradiction. exists s. split; [apply demo_valid|]. auto.
Qed.
Print Assumptions C19_term_in_leave_refuted.
(* moving the instance to another parent in its pre_term callback: the new parent gets the event meant for the old one *)
Theorem C19_reparent_event_refuted : exists D env fuel after k fi p e before, valid_fsms D /\ history D env true fuel = after ++ (k, EvNotify fi p e) :: before /\ behaved before /\
  p = parent_of before fi /\ e <> pte_of before fi.
Proof.
  set (env := script [(0, CAlloc 0); (3, CAlloc 0); (6, CAllocChild 0 1 0); (10, CTerm 3 2); (13, CReparent 3 2 5)]%nat).
  exists demo, env, 30%nat. remember (history demo env true 30) as h eqn:Eh. vm_compute in Eh.
  match type of Eh with h = ?a :: ?b :: ?c :: ?d :: (?k, EvNotify ?fi ?p ?e) :: ?r => exists [a; b; c; d], k, fi, p, e, r end.
  split; [apply demo_valid|]. split; [exact Eh|]. split. { split; [apply calmb_ok; reflexivity|]. split; [vm_compute; repeat (split; auto); try (intros ?; discriminate)|reflexivity]. } split; [reflexivity|discriminate].
Qed.
Print Assumptions C19_reparent_event_refuted.

(* a tree of depth three, terminated from inside an action of the root: behaved, and everything is deallocated *)
Example C19_nonvacuous : let o := program demo (script [(0, CAlloc 0); (3, CAllocChild 0 1 0); (7, CAllocChild 0 2 0); (11, CAllocChild 0 1 0); (15, CDispatch 1 0); (17, CTerm 1 2)]%nat) true 60 in
  match o with Done s rc => behaved (tr s) /\ freed (tr s) 1 = true /\ freed (tr s) 2 = true /\ freed (tr s) 3 = true /\ freed (tr s) 4 = true /\ descendant (tr s) 3 1 /\
     filter (fun e => match e with EvCb KClean _ _ => true | _ => false end) (rev (map snd (tr s))) = [EvCb KClean 4 0; EvCb KClean 3 0; EvCb KClean 2 0; EvCb KClean 1 2] | _ => False end.
Proof.
  vm_compute. split. { split; [apply calmb_ok; reflexivity|]. split; [vm_compute; repeat match goal with |- _ /\ _ => split | |- _ \/ _ => right end; auto; try (intros ?; discriminate)|reflexivity]. }
  repeat (split; [reflexivity|]). split; [|reflexivity]. apply (desc_step _ _ 2); [reflexivity|discriminate|]. apply desc_child; [reflexivity|discriminate].
Qed.
