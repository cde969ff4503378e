(** C64: the SMS control layer (gsm0411_smc). *)
From Verif Require Import Base M_smc S_smc P_smc P_smc2.
From Coq Require Import Permutation.

(** The messages an environment can bring along are its own ones; [Clear] is left to the tidy caller. *)
Definition plain (e : ev) : Prop := match e with Send _ m => is_given m = true | Clear => False | _ => True end.
Definition lone (e : ev) : Prop := match e with Send _ m | Recv _ m _ => is_given m = true | _ => True end.

Ltac calc := match goal with |- exists s h, ?X = Ok (s, h) /\ _ =>
  let v := eval vm_compute in X in match v with Ok (?a, ?b) => exists a, b; split; [vm_compute; reflexivity|] end end.

(** For any history: what goes to and comes from the lower and the upper layer when the instance becomes idle. Leaving
    a connection releases it exactly once (not at all when the lower layer itself released it), and indicates an error
    exactly once unless the user ended it or a release waited for the acknowledgement. *)
Theorem C64_release : forall es s h e s' o,
  history step smc_init es = Ok (s, h) -> step s e = Ok (s', o) ->
  (n_mm MMSMS_REL_REQ o <= 1)%nat /\
  (c_state s' <> CPS_IDLE -> n_mm MMSMS_REL_REQ o = 0%nat /\ n_mn MNSMS_ERROR_IND o = 0%nat) /\
  (c_state s <> CPS_IDLE -> c_state s' = CPS_IDLE ->
     n_mm MMSMS_REL_REQ o = (match e with Recv t _ _ => if (t =? MMSMS_REL_IND)%Z then 0 else 1 | _ => 1 end)%nat /\
     n_mn MNSMS_ERROR_IND o =
       (match e with
        | Send _ _ => 0
        | Recv t _ cp => if ((t =? MMSMS_DATA_IND) && (cp =? MT_CP_ACK) && (c_state s =? CPS_WAIT_CP_ACK))%Z then 0 else 1
        | _ => 1
        end)%nat).
Proof.
  intros es s h e s' o H E. pose proof (step_release s e s' o (reach_vst _ _ _ H) E) as (A & B & C).
  split; [exact A|]. split; [exact B|]. intros N0 N1. specialize (C N0 N1). destruct e; exact C.
Qed.
Print Assumptions C64_release.
Definition sms : msg := Msg (Given 7) [1; 2; 3].
Definition pdu : msg := Msg (Given 8) [9].
Example C64_release_nonvacuous : exists s h s' o,
  history step smc_init [Send MNSMS_EST_REQ sms; Recv MMSMS_EST_CNF pdu 0] = Ok (s, h) /\
  step s (Recv MMSMS_DATA_IND pdu MT_CP_ERROR) = Ok (s', o) /\ c_state s = CPS_WAIT_CP_ACK /\ c_state s' = CPS_IDLE /\ length o = 3%nat.
Proof. do 4 eexists. repeat split; vm_compute; reflexivity. Qed.

(** Ownership, for any history: every message handed in from above is given away (freed, or passed to the lower layer)
    exactly once, or is the one still stored; nothing else of the caller's is (in particular no message received from
    below); and every fresh message shown to the upper layer is freed. *)
Theorem C64_ownership : forall es s h, Forall lone es -> history step smc_init es = Ok (s, h) ->
  Permutation (handed es) (filter is_given (disposed (outs h)) ++ match c_msg s with Some m => [m] | None => [] end) /\
  shown_fresh (outs h) = freed_fresh (outs h).
Proof.
  intros es s h F H. destruct (hist_own es smc_init s h init_vst Logic.I F H) as [P N].
  cbn [stored smc_init c_msg] in P. rewrite app_nil_r in P. split; auto.
Qed.
Print Assumptions C64_ownership.
Example C64_ownership_nonvacuous : exists s h,
  history step smc_init [Send MNSMS_EST_REQ sms; Recv MMSMS_EST_CNF pdu 0; Send MNSMS_EST_REQ (Msg (Given 9) []); Expire;
     Recv MMSMS_DATA_IND pdu MT_CP_ACK; Send MNSMS_ABORT_REQ (Msg (Given 10) [4])] = Ok (s, h) /\ length (outs h) = 10%nat.
Proof. calc. reflexivity. Qed.

(** No call and no timeout aborts the program as long as the messages handed in fit a fresh buffer (896 octets) ... *)
Theorem C64_no_abort : forall es, Forall (fun m => zlen (m_data m) <= 896) (handed es) ->
  exists s h, history step smc_init es = Ok (s, h).
Proof. intros es F. exact (hist_total es smc_init init_vst Logic.I F). Qed.
Print Assumptions C64_no_abort.
Example C64_no_abort_nonvacuous : Forall (fun m => zlen (m_data m) <= 896) (handed [Send MNSMS_EST_REQ (Msg (Given 1) (repeat 5 896))]).
Proof. repeat constructor. vm_compute. discriminate. Qed.
(** ... and a longer one is accepted and aborts it when the connection is confirmed. *)
Theorem C64_abort_refuted : forall m r cp, 896 < zlen (m_data m) ->
  history step smc_init [Send MNSMS_EST_REQ m; Recv MMSMS_EST_CNF r cp] = Abort.
Proof.
  intros m r cp L. cbn [history step]. rewrite (send_eq _ _ _ init_vst).
  cbn -[ALLOC_ROOM zlen Z.ltb smc_recv]. rewrite recv_eq by (right; left; reflexivity).
  cbn -[ALLOC_ROOM zlen Z.ltb]. unfold mmsms_send_msg. cbn -[ALLOC_ROOM zlen Z.ltb].
  replace (ALLOC_ROOM <? zlen (m_data m)) with true by (symmetry; apply Z.ltb_lt; exact L). reflexivity.
Qed.
Print Assumptions C64_abort_refuted.

(** The acknowledgement timer is always started for the same time; the three periods together are TC1A. *)
Theorem C64_period : forall es s h sec, history step smc_init es = Ok (s, h) -> In (TimerStart sec) (outs h) ->
  sec * (1 + MAX_SMS_RETRY) = TMR_TC1A_SEC /\ 0 < sec.
Proof.
  intros es s h sec H I. pose proof (hist_start es smc_init s h init_vst eq_refl H) as F.
  rewrite Forall_forall in F. specialize (F _ I). cbn in F. subst. split; reflexivity.
Qed.
Print Assumptions C64_period.

(** A caller that clears the instance whenever it is idle again. For any history of such a caller: *)
(** every CP-DATA carries the data of the last accepted request, and none is sent more than three times; *)
Theorem C64_sends : forall es s h, Forall plain es -> history tidy_step smc_init es = Ok (s, h) -> sends_ok 3 None h.
Proof. intros es s h F H. eapply hist_sends; [exact F|exact init_inv|exact Logic.I|exact Logic.I|exact H]. Qed.
Print Assumptions C64_sends.
(** CP-DATA goes out only while the lower layer's connection is up; *)
Theorem C64_only_when_up : forall es s h, Forall plain es -> history tidy_step smc_init es = Ok (s, h) -> only_when_up false h.
Proof.
  intros es s h F H. eapply hist_up; [exact F|exact init_inv| |exact H]. intros [K|K]; discriminate K.
Qed.
Print Assumptions C64_only_when_up.
(** a release asked for too early is done exactly when the message in flight is acknowledged; *)
Theorem C64_deferred_release : forall es s h, Forall plain es -> history tidy_step smc_init es = Ok (s, h) -> releases_ok false h.
Proof. intros es s h F H. eapply hist_rel; [exact F|exact init_inv| |exact H]. intros K; contradiction K; reflexivity. Qed.
Print Assumptions C64_deferred_release.
(** the timer runs exactly while an acknowledgement is awaited, so that every wait ends, and a message is kept exactly
    until it is acknowledged or given up. *)
Theorem C64_waits : forall es s h, Forall plain es -> history tidy_step smc_init es = Ok (s, h) ->
  (c_timer s = true <-> c_state s = CPS_WAIT_CP_ACK) /\
  (c_msg s <> None <-> c_state s = CPS_WAIT_CP_ACK \/ c_state s = CPS_MM_CONN_PENDING) /\
  (c_state s = CPS_IDLE \/ c_state s = CPS_MM_CONN_PENDING \/ c_state s = CPS_WAIT_CP_ACK \/ c_state s = CPS_MM_ESTABLISHED).
Proof.
  intros es s h F H. pose proof (hist_inv es _ _ _ F init_inv H) as (_ & _ & I).
  destruct I as [(A & B & C)|[(A & B & m & C)|[(A & B & _ & m & C)|(A & B & C)]]]; rewrite A, B, C; kont;
    (split; [|split]); intuition (try discriminate; try congruence).
Qed.
Print Assumptions C64_waits.
Definition demo : list ev :=
  [Send MNSMS_EST_REQ sms; Send MNSMS_REL_REQ (Msg (Given 11) []); Recv MMSMS_EST_CNF pdu 0; Expire; Expire;
   Recv MMSMS_DATA_IND pdu MT_CP_ACK; Recv MMSMS_EST_IND pdu MT_CP_DATA; Send MNSMS_DATA_REQ (Msg (Given 12) [5; 6]);
   Expire; Expire; Expire; Send MNSMS_EST_REQ (Msg (Given 13) [7])].
Example C64_sends_nonvacuous : Forall plain demo /\ exists s h,
  history tidy_step smc_init demo = Ok (s, h) /\ cp_data_sent (outs h) = [[1;2;3]; [1;2;3]; [1;2;3]; [5;6]; [5;6]; [5;6]] /\
  n_mm MMSMS_REL_REQ (outs h) = 2%nat /\ n_mn MNSMS_ERROR_IND (outs h) = 1%nat /\ c_state s = CPS_MM_CONN_PENDING.
Proof. split; [repeat constructor|]. calc. repeat split. Qed.

(** What the caller sees of one message: it is sent at once when the connection is confirmed and again after each of up
    to two periods without an acknowledgement; the acknowledgement ends it ... *)
Theorem C64_delivery : forall m r cp a k, zlen (m_data m) <= 896 -> (k <= 2)%nat ->
  exists s h, history tidy_step smc_init ([Send MNSMS_EST_REQ m; Recv MMSMS_EST_CNF r cp] ++ repeat Expire k ++ [Recv MMSMS_DATA_IND a MT_CP_ACK]) = Ok (s, h) /\
  c_state s = CPS_MM_ESTABLISHED /\
  outs h = [MmSend MMSMS_EST_REQ (Msg Fresh []) 0] ++
           concat (repeat [TimerStart 10; MmSend MMSMS_DATA_REQ (Msg Fresh (m_data m)) MT_CP_DATA] (S k)) ++
           [Free m; TimerStop].
Proof.
  intros m r cp a k L K.
  assert (E1 : history tidy_step smc_init [Send MNSMS_EST_REQ m; Recv MMSMS_EST_CNF r cp] =
    Ok (Wait m false 0, [(Send MNSMS_EST_REQ m, [MmSend MMSMS_EST_REQ nmsg 0]); (Recv MMSMS_EST_CNF r cp, tx (m_data m))])).
  { cbn [history]. unfold tidy_step at 1. cbn [step]. rewrite (send_eq _ _ _ init_vst). cbn -[ALLOC_ROOM zlen Z.ltb smc_recv tidy_step].
    unfold tidy_step. cbn [step]. rewrite recv_eq by (right; left; reflexivity).
    cbn -[ALLOC_ROOM zlen Z.ltb]. unfold mmsms_send_msg. cbn -[ALLOC_ROOM zlen Z.ltb].
    replace (ALLOC_ROOM <? zlen (m_data m)) with false by (symmetry; apply Z.ltb_ge; exact L). reflexivity. }
  rewrite hist_app, E1. cbn [bind]. rewrite hist_app. rewrite (hist_expire m false L k 0) by lia. cbn [bind].
  eexists. eexists. split; [reflexivity|]. split; [reflexivity|].
  unfold outs. cbn [app map concat snd repeat]. rewrite map_app, concat_app. cbn [map concat snd].
  replace (map snd (repeat (Expire, tx (m_data m)) k)) with (repeat (tx (m_data m)) k) by (clear; induction k; cbn; congruence).
  unfold tx, nmsg. rewrite <- ?app_assoc. reflexivity.
Qed.
Print Assumptions C64_delivery.
(** ... and without one the third period ends it: one error indication, the message freed, one release. *)
Theorem C64_give_up : forall m r cp, zlen (m_data m) <= 896 ->
  exists s h, history tidy_step smc_init ([Send MNSMS_EST_REQ m; Recv MMSMS_EST_CNF r cp] ++ repeat Expire 3) = Ok (s, h) /\
  c_state s = CPS_IDLE /\ c_timer s = false /\
  outs h = [MmSend MMSMS_EST_REQ (Msg Fresh []) 0] ++
           concat (repeat [TimerStart 10; MmSend MMSMS_DATA_REQ (Msg Fresh (m_data m)) MT_CP_DATA] 3) ++
           [MnRecv MNSMS_ERROR_IND (Msg Fresh []); Free (Msg Fresh []); Free m; MmSend MMSMS_REL_REQ (Msg Fresh []) 0; TimerStop].
Proof.
  intros m r cp L.
  assert (E1 : history tidy_step smc_init [Send MNSMS_EST_REQ m; Recv MMSMS_EST_CNF r cp] =
    Ok (Wait m false 0, [(Send MNSMS_EST_REQ m, [MmSend MMSMS_EST_REQ nmsg 0]); (Recv MMSMS_EST_CNF r cp, tx (m_data m))])).
  { cbn [history]. unfold tidy_step at 1. cbn [step]. rewrite (send_eq _ _ _ init_vst). cbn -[ALLOC_ROOM zlen Z.ltb smc_recv tidy_step].
    unfold tidy_step. cbn [step]. rewrite recv_eq by (right; left; reflexivity).
    cbn -[ALLOC_ROOM zlen Z.ltb]. unfold mmsms_send_msg. cbn -[ALLOC_ROOM zlen Z.ltb].
    replace (ALLOC_ROOM <? zlen (m_data m)) with false by (symmetry; apply Z.ltb_ge; exact L). reflexivity. }
  rewrite hist_app, E1. cbn [bind]. change (repeat Expire 3) with (repeat Expire 2 ++ [Expire]).
  rewrite hist_app. rewrite (hist_expire m false L 2 0) by lia. cbn [bind].
  eexists. eexists. split; [reflexivity|]. repeat split; reflexivity.
Qed.
Print Assumptions C64_give_up.
Example C64_delivery_nonvacuous : zlen (m_data sms) <= 896 /\ (2 <= 2)%nat.
Proof. split; [vm_compute; discriminate|lia]. Qed.

(** Received CP-DATA: acknowledged once, then indicated once, unchanged; the first one of a connection as EST-IND. *)
Theorem C64_receive : forall es s h m cp, history step smc_init es = Ok (s, h) ->
  (c_state s = CPS_IDLE -> exists s', step s (Recv MMSMS_EST_IND m cp) =
     Ok (s', [MmSend MMSMS_DATA_REQ (Msg Fresh []) MT_CP_ACK; MnRecv MNSMS_EST_IND m]) /\ c_state s' = CPS_MM_ESTABLISHED) /\
  (c_state s = CPS_MM_ESTABLISHED -> step s (Recv MMSMS_DATA_IND m MT_CP_DATA) =
     Ok (s, [MmSend MMSMS_DATA_REQ (Msg Fresh []) MT_CP_ACK; MnRecv MNSMS_DATA_IND m])).
Proof.
  intros es s h m cp H. pose proof (reach_vst _ _ _ H) as V. cbn [step]. rewrite !(recv_eq _ _ _ _ V). cbn -[mmsms_cp_data c_state].
  split; intros E; rewrite E; unfold mmsms_cp_data; rewrite E; cbn; eauto.
Qed.
Print Assumptions C64_receive.
Example C64_receive_nonvacuous : exists s h, history step smc_init [Recv MMSMS_EST_IND pdu MT_CP_DATA] = Ok (s, h) /\ c_state s = CPS_MM_ESTABLISHED.
Proof. calc. reflexivity. Qed.

(** What does not hold without clearing. CP-ERROR (and MMSMS-REL-IND, an abort, an unexpected message) leaves the timer
    running: it sends the next message before its connection is confirmed. *)
Theorem C64_stale_timer_refuted : exists es s h, Forall plain es /\ history step smc_init es = Ok (s, h) /\ ~ only_when_up false h.
Proof.
  exists [Send MNSMS_EST_REQ sms; Recv MMSMS_EST_CNF pdu 0; Recv MMSMS_DATA_IND pdu MT_CP_ERROR;
          Send MNSMS_EST_REQ (Msg (Given 9) [4]); Expire].
  do 2 eexists. split; [repeat constructor|]. split; [vm_compute; reflexivity|].
  intros (_ & _ & _ & _ & K & _). specialize (K eq_refl). discriminate K.
Qed.
Print Assumptions C64_stale_timer_refuted.
(** CP-DATA received while an acknowledgement is awaited makes the instance idle with message and timer kept; the timer
    then sends again and starts counting anew: one message handed in, any number of transmissions. *)
Theorem C64_unbounded_refuted : forall n, exists es s h, history step smc_init es = Ok (s, h) /\
  handed es = [sms] /\ cp_data_sent (outs h) = repeat (m_data sms) (S n).
Proof.
  assert (C : forall a b, cp_data_sent (a ++ b) = cp_data_sent a ++ cp_data_sent b).
  { induction a as [|[]]; intros b; cbn; auto. destruct ((type =? MMSMS_DATA_REQ) && (cp =? MT_CP_DATA)); cbn; rewrite IHa; auto. }
  assert (L : forall n, exists s h,
    history step (Wait sms false 0) (concat (repeat [Recv MMSMS_DATA_IND pdu MT_CP_DATA; Expire] n)) = Ok (s, h) /\
    cp_data_sent (outs h) = repeat (m_data sms) n).
  { induction n as [|n IH]; [do 2 eexists; split; reflexivity|].
    destruct IH as (s & h & E & D).
    cbn [repeat concat]. rewrite hist_app.
    match goal with |- context [history step ?a [?e; Expire]] =>
      let v := eval vm_compute in (history step a [e; Expire]) in
      match v with Ok (?s1, ?h1) => assert (E1 : history step a [e; Expire] = Ok (Wait sms false 0, h1)) by (vm_compute; reflexivity) end end.
    rewrite E1. cbn [bind]. rewrite E. cbn [bind]. do 2 eexists. split; [reflexivity|].
    unfold outs in *. rewrite map_app, concat_app, C, D. reflexivity. }
  intros n. destruct (L n) as (s & h & E & D).
  exists ([Send MNSMS_EST_REQ sms; Recv MMSMS_EST_CNF pdu 0] ++ concat (repeat [Recv MMSMS_DATA_IND pdu MT_CP_DATA; Expire] n)).
  rewrite hist_app.
  match goal with |- context [history step ?a [?e; ?f]] =>
      let v := eval vm_compute in (history step a [e; f]) in
      match v with Ok (?s1, ?h1) => assert (E1 : history step a [e; f] = Ok (Wait sms false 0, h1)) by (vm_compute; reflexivity) end end.
  rewrite E1. cbn [bind]. rewrite E. cbn [bind]. do 2 eexists. split; [reflexivity|].
  split; [cbn [app handed]; f_equal; clear; induction n; cbn; auto|].
  unfold outs in *. rewrite map_app, concat_app, C, D. reflexivity.
Qed.
Print Assumptions C64_unbounded_refuted.
(** The message that opens a connection from the peer's side is taken for CP-DATA whatever its type is. *)
Theorem C64_est_ind_type_refuted : forall m cp, exists s,
  step smc_init (Recv MMSMS_EST_IND m cp) = Ok (s, [MmSend MMSMS_DATA_REQ (Msg Fresh []) MT_CP_ACK; MnRecv MNSMS_EST_IND m]).
Proof. intros m cp. eexists. reflexivity. Qed.
Print Assumptions C64_est_ind_type_refuted.

(** The same from any point at which the connection stands, whatever happened before: a further message is sent at once,
    again after each of up to two periods, and the acknowledgement ends it (or the release asked for meanwhile). *)
Theorem C64_second_delivery : forall es s0 h0 m a k, Forall plain es -> history tidy_step smc_init es = Ok (s0, h0) ->
  c_state s0 = CPS_MM_ESTABLISHED -> zlen (m_data m) <= 896 -> (k <= 2)%nat ->
  exists s h, history tidy_step s0 ([Send MNSMS_DATA_REQ m] ++ repeat Expire k ++ [Recv MMSMS_DATA_IND a MT_CP_ACK]) = Ok (s, h) /\
  outs h = concat (repeat [TimerStart 10; MmSend MMSMS_DATA_REQ (Msg Fresh (m_data m)) MT_CP_DATA] (S k)) ++
           [Free m; TimerStop] ++ (if c_rel s0 then [MmSend MMSMS_REL_REQ (Msg Fresh []) 0; TimerStop] else []) /\
  c_state s = if c_rel s0 then CPS_IDLE else CPS_MM_ESTABLISHED.
Proof.
  intros es s0 h0 m a k F H E L K. pose proof (hist_inv es _ _ _ F init_inv H) as (M & T & I).
  assert (Q : exists rl rx, s0 = Est rl rx).
  { destruct s0 as [st ti ms rl rx mx tc]. cbn in *. subst. exists rl, rx.
    destruct I as [(A & B)|[(A & B)|[(A & B)|(A & B & C)]]]; try discriminate A. subst. reflexivity. }
  destruct Q as (rl & rx & ->). clear -L K.
  assert (E1 : history tidy_step (Est rl rx) [Send MNSMS_DATA_REQ m] = Ok (Wait m rl 0, [(Send MNSMS_DATA_REQ m, tx (m_data m))])).
  { cbn [history]. unfold tidy_step. cbn [step]. rewrite send_eq by (right; right; right; reflexivity).
    cbn -[ALLOC_ROOM zlen Z.ltb]. unfold mnsms_data_req, mmsms_send_msg. cbn -[ALLOC_ROOM zlen Z.ltb].
    replace (ALLOC_ROOM <? zlen (m_data m)) with false by (symmetry; apply Z.ltb_ge; exact L). reflexivity. }
  rewrite hist_app, E1. cbn [bind]. rewrite hist_app. rewrite (hist_expire m rl L k 0) by lia. cbn [bind].
  assert (P : forall y, concat (map snd ((Send MNSMS_DATA_REQ m, tx (m_data m)) :: repeat (Expire, tx (m_data m)) k ++ [y])) =
              concat (repeat [TimerStart 10; MmSend MMSMS_DATA_REQ (Msg Fresh (m_data m)) MT_CP_DATA] (S k)) ++ snd y).
  { intros y. cbn [map concat snd repeat]. rewrite map_app, concat_app. cbn [map concat snd]. rewrite app_nil_r.
    replace (map snd (repeat (Expire, tx (m_data m)) k)) with (repeat (tx (m_data m)) k) by (clear; induction k; cbn; congruence).
    unfold tx. rewrite <- ?app_assoc. reflexivity. }
  destruct rl; (eexists; eexists; split; [reflexivity|]; split; [|reflexivity]); unfold outs; (etransitivity; [exact (P _)|reflexivity]).
Qed.
Print Assumptions C64_second_delivery.
Example C64_second_delivery_nonvacuous : exists s h, history tidy_step smc_init [Recv MMSMS_EST_IND pdu MT_CP_DATA] = Ok (s, h) /\ c_state s = CPS_MM_ESTABLISHED.
Proof. calc. reflexivity. Qed.

(** Single steps, at any point of any history: a release asked for too early only frees its message; *)
Theorem C64_early_release : forall es s h m, history step smc_init es = Ok (s, h) ->
  c_state s = CPS_MM_CONN_PENDING \/ c_state s = CPS_WAIT_CP_ACK ->
  exists s', step s (Send MNSMS_REL_REQ m) = Ok (s', [Free m]) /\
    c_state s' = c_state s /\ c_timer s' = c_timer s /\ c_msg s' = c_msg s /\ c_retx s' = c_retx s.
Proof.
  intros es s h m H E. cbn [step]. rewrite (send_eq _ _ _ (reach_vst _ _ _ H)). cbn -[mnsms_rel_req]. unfold mnsms_rel_req.
  destruct E as [E|E]; rewrite E; eexists; (split; [reflexivity|]); cbn; rewrite ?E; repeat split.
Qed.
Print Assumptions C64_early_release.
(** an abort ends the connection with CP-ERROR carrying the user's message, and one release; *)
Theorem C64_abort : forall es s h m, history step smc_init es = Ok (s, h) -> c_state s <> CPS_IDLE ->
  exists s', step s (Send MNSMS_ABORT_REQ m) =
    Ok (s', match c_msg s with Some k => [Free k] | None => [] end ++
            [MmSend MMSMS_DATA_REQ m MT_CP_ERROR; MmSend MMSMS_REL_REQ (Msg Fresh []) 0]) /\
    c_state s' = CPS_IDLE /\ c_msg s' = None.
Proof.
  intros es s h m H E. cbn [step]. rewrite (send_eq _ _ _ (reach_vst _ _ _ H)). cbn -[mnsms_abort_req Z.eqb].
  apply Z.eqb_neq in E. unfold CPS_IDLE in E. change (MNSMS_ABORT_REQ =? MNSMS_EST_REQ) with false.
  change (MNSMS_ABORT_REQ =? MNSMS_REL_REQ) with false. change (MNSMS_ABORT_REQ =? MNSMS_DATA_REQ) with false.
  change (MNSMS_ABORT_REQ =? MNSMS_ABORT_REQ) with true. cbn iota. rewrite E.
  unfold mnsms_abort_req, drop_msg. destruct s as [st ti [k|] rl rx mx tc]; cbn; eexists; repeat split; reflexivity.
Qed.
Print Assumptions C64_abort.
(** CP-ERROR ends it with the error indicated and one release, the lower layer's release with the error indicated; *)
Theorem C64_fail : forall es s h m cp, history step smc_init es = Ok (s, h) ->
  (exists s', step s (Recv MMSMS_DATA_IND m MT_CP_ERROR) =
    Ok (s', match c_msg s with Some k => [Free k] | None => [] end ++ [MnRecv MNSMS_ERROR_IND m; MmSend MMSMS_REL_REQ (Msg Fresh []) 0]) /\
    c_state s' = CPS_IDLE /\ c_msg s' = None) /\
  (c_state s <> CPS_IDLE -> exists s', step s (Recv MMSMS_REL_IND m cp) =
    Ok (s', match c_msg s with Some k => [Free k] | None => [] end ++ [MnRecv MNSMS_ERROR_IND (Msg Fresh []); Free (Msg Fresh [])]) /\
    c_state s' = CPS_IDLE /\ c_msg s' = None).
Proof.
  intros es s h m cp H. cbn [step]. rewrite !(recv_eq _ _ _ _ (reach_vst _ _ _ H)). split.
  - cbn -[mmsms_cp_error Z.eqb]. change (mmsms_cp_error s m) with (mmsms_cp_error s m).
    change (MMSMS_DATA_IND =? MMSMS_EST_CNF) with false. change (MMSMS_DATA_IND =? MMSMS_EST_IND) with false.
    change (MMSMS_DATA_IND =? MMSMS_DATA_IND) with true. change (MT_CP_ERROR =? MT_CP_DATA) with false.
    change (MT_CP_ERROR =? MT_CP_ACK) with false. change (MT_CP_ERROR =? MT_CP_ERROR) with true. cbn iota.
    unfold mmsms_cp_error, drop_msg. destruct s as [st ti [k|] rl rx mx tc]; cbn; eexists; repeat split; reflexivity.
  - intros E. apply Z.eqb_neq in E. unfold CPS_IDLE in E.
    change (MMSMS_REL_IND =? MMSMS_EST_CNF) with false. change (MMSMS_REL_IND =? MMSMS_EST_IND) with false.
    change (MMSMS_REL_IND =? MMSMS_DATA_IND) with false. change (MMSMS_REL_IND =? MMSMS_REL_IND) with true. cbn iota. rewrite E.
    unfold mmsms_rel_ind, drop_msg. destruct s as [st ti [k|] rl rx mx tc]; cbn; eexists; repeat split; reflexivity.
Qed.
Print Assumptions C64_fail.
(** any other CP message that does not fit the state is answered with CP-ERROR, cause 97, and ends it as well. *)
Theorem C64_unexpected : forall es s h t m cp, history step smc_init es = Ok (s, h) ->
  (t = MMSMS_EST_IND /\ c_state s <> CPS_IDLE) \/
  (t = MMSMS_DATA_IND /\ cp <> MT_CP_ERROR /\ ~ (cp = MT_CP_DATA /\ c_state s = CPS_MM_ESTABLISHED) /\ ~ (cp = MT_CP_ACK /\ c_state s = CPS_WAIT_CP_ACK)) ->
  exists s', step s (Recv t m cp) =
    Ok (s', [MmSend MMSMS_DATA_REQ (Msg Fresh [97]) MT_CP_ERROR; MnRecv MNSMS_ERROR_IND (Msg Fresh []); Free (Msg Fresh []);
             MmSend MMSMS_REL_REQ (Msg Fresh []) 0]) /\ c_state s' = CPS_IDLE.
Proof.
  intros es s h t m cp H E. cbn [step]. rewrite !(recv_eq _ _ _ _ (reach_vst _ _ _ H)).
  assert (U : exists s', unexpected s = Ok (s', [MmSend MMSMS_DATA_REQ (Msg Fresh [97]) MT_CP_ERROR; MnRecv MNSMS_ERROR_IND (Msg Fresh []); Free (Msg Fresh []);
             MmSend MMSMS_REL_REQ (Msg Fresh []) 0]) /\ c_state s' = CPS_IDLE) by (eexists; split; reflexivity).
  destruct E as [[-> E]|(-> & E1 & E2 & E3)].
  - change (MMSMS_EST_IND =? MMSMS_EST_CNF) with false. change (MMSMS_EST_IND =? MMSMS_EST_IND) with true. cbn iota.
    apply Z.eqb_neq in E. unfold CPS_IDLE in E. rewrite E. exact U.
  - change (MMSMS_DATA_IND =? MMSMS_EST_CNF) with false. change (MMSMS_DATA_IND =? MMSMS_EST_IND) with false.
    change (MMSMS_DATA_IND =? MMSMS_DATA_IND) with true. cbn iota.
    destruct (Z.eqb_spec cp MT_CP_DATA); [destruct (Z.eqb_spec (c_state s) 3); [exfalso; apply E2; auto|exact U]|].
    destruct (Z.eqb_spec cp MT_CP_ACK); [destruct (Z.eqb_spec (c_state s) 2); [exfalso; apply E3; auto|exact U]|].
    destruct (Z.eqb_spec cp MT_CP_ERROR); [contradiction|exact U].
Qed.
Print Assumptions C64_unexpected.
Example C64_unexpected_nonvacuous : exists s h, history step smc_init [Send MNSMS_EST_REQ sms; Recv MMSMS_EST_CNF pdu 0] = Ok (s, h) /\
  (c_state s = CPS_WAIT_CP_ACK /\ c_msg s = Some sms).
Proof. calc. split; reflexivity. Qed.
