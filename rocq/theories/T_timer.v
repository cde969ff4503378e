(* C15: timers *)
From Verif Require Import Base M_rbtree S_rbtree M_timer S_timer P_timer.

(* Any program (API calls and select-loop passes, callbacks making any calls) run from a fresh thread neither crashes nor hangs;
   what fires in each pass and what is pending at the end is what the queue specification says *)
Theorem C15_history : forall es h f fuel, Forall ev_ok es -> (prog_size es + 2 <= fuel)%nat ->
  exists s, timer_run fuel (timer_init h f) es = Ok (s, snd (q_run [] es)) /\ implements s (fst (q_run [] es)).
Proof.
  intros es h f fuel He Hf. destruct (run_ok fuel es (timer_init h f) [] (init_ok h f) eq_refl He Hf) as (s & ? & ? & _). eauto.
Qed.
Print Assumptions C15_history.

(* one pass of osmo_timers_update in plain terms: fired lists the timers called back, in order *)
Theorem C15_update : forall s q now cbs fuel, implements s q -> Forall (Forall op_ok) cbs -> (length q + length (concat cbs) + 2 <= fuel)%nat ->
  exists s' fired work, timers_update fuel s now cbs = Ok (s', fired, work) /\
    (* only expired timers, latest expiry first, each at most once *)
    subseq fired (rev (due now q)) /\ NoDup fired /\
    (* every expired timer, unless a callback earlier in the pass deleted or re-armed it *)
    (forall t x, In (t, x) q -> tvlt now x = false -> In t fired \/ exists i, (i < length fired)%nat /\ In t (map target (nth i cbs []))) /\
    (* and none that was deleted or re-armed before its turn *)
    (forall i t, nth_error fired i = Some t -> forall j, (j < i)%nat -> ~ In t (map target (nth j cbs []))) /\
    (* a fired timer is no longer pending when its callback runs; everything else stays as it was *)
    implements s' (q_ops q (pass_ops fired cbs)) /\
    (work = 1 <-> fired <> []) /\ (work = 0 <-> fired = []).
Proof.
  intros s q now cbs fuel H Hc Hf. destruct (update_ok fuel s q now cbs H Hc Hf) as (s' & E & H' & _ & _). unfold q_pass in *.
  eexists s', _, _. split; [exact E|]. pose proof (implements_nodup _ _ H) as [ND _].
  split; [apply q_fire_sub|]. split.
  { eapply subseq_nodup; [apply q_fire_sub|]. apply NoDup_rev. unfold due. clear - ND. induction q as [|e q IH]; cbn [filter map]; [constructor|]. cbn [map] in ND. inversion ND; subst. destruct (tvle (snd e) now); cbn [map]; auto. constructor; auto. intros Q. apply map_fst_filter_in in Q. tauto. }
  split. { intros t x Hin Hx. destruct (in_dec Z.eq_dec t (snd (q_fire (rev (due now q)) [] q cbs))) as [Q|Q]; auto. right.
    destruct (q_fire_all (rev (due now q)) [] q cbs t) as [[]|(i & ? & ?)]; eauto. apply in_rev. rewrite rev_involutive. apply due_in. eauto. }
  split. { intros i t Hi. apply (q_fire_untouched _ _ _ _ _ _ Hi). }
  split. { rewrite <- q_fire_queue. exact H'. }
  destruct (snd (q_fire (rev (due now q)) [] q cbs)); split; split; try discriminate; auto; try tauto; intros; congruence.
Qed.
Print Assumptions C15_update.

(* osmo_timer_pending after any program *)
Theorem C15_pending : forall s q t, implements s q ->
  timer_pending s t = 1 <-> exists x, In (t, x) q.
Proof.
  intros s q t H. unfold timer_pending. pose proof (imp_act s q t H) as Ha. rewrite in_map_iff in Ha. split.
  - destruct (act s t); [|discriminate]. intros _. destruct (proj1 Ha eq_refl) as ((t' & x) & E & Hi). cbn in E. subst. eauto.
  - intros (x & Hi). destruct (act s t); auto. destruct Ha as [_ Ha]. assert (false = true) by (apply Ha; exists (t, x); auto). discriminate.
Qed.
Print Assumptions C15_pending.

(* osmo_timers_prepare / osmo_timers_nearest: time until the earliest timer, zero if that is overdue, NULL without timers *)
Theorem C15_nearest : forall s q now fuel, implements s q -> (length q < fuel)%nat -> clock_ok now -> Forall (fun e => clock_ok (snd e)) q ->
  match timers_prepare fuel s now with
  | Ok None => q = []
  | Ok (Some r) => (exists e, In e q /\ usecs r = Z.max 0 (usecs (snd e) - usecs now)) /\
                   (forall e, In e q -> usecs r <= Z.max 0 (usecs (snd e) - usecs now)) /\
                   (* in milliseconds (if an int can hold them): never too short, less than one millisecond too long *)
                   (usecs r < 2147483647 * 1000 -> exists ms, nearest_ms (Some r) = Ok ms /\ usecs r <= ms * 1000 < usecs r + 1000)
  | _ => False
  end.
Proof.
  intros s q now fuel H Hf Hn Hq. rewrite (prepare_ok fuel s q now H Hf). destruct q as [|[t x] q]; auto.
  pose proof (proj1 (Forall_forall _ _) Hq) as Hq'. destruct (nearest_ok x now (Hq' (t, x) (or_introl eq_refl)) Hn) as (r & -> & E & Hr).
  split; [exists (t, x); split; auto; left; auto|]. split.
  - intros e He. pose proof (sorted_head t x q e (imp_sorted _ _ H) He) as Q. rewrite tvlt_us in Q; [|apply Hq'; auto|apply (Hq' (t, x)); left; auto]. lia.
  - intros Hs. apply nearest_ms_ok; auto. lia.
Qed.
Print Assumptions C15_nearest.

(* a timer further away than INT_MAX milliseconds (24.8 days) makes the int result wrap: 2^32 ms ahead reads as "now" *)
Theorem C15_nearest_ms_wraps_refuted : exists r, tusec r = 296000 /\ tsec r = 4294967 /\ nearest_ms (Some r) = Ok 0.
Proof. exists (Tv 4294967 296000). vm_compute. auto. Qed.
Print Assumptions C15_nearest_ms_wraps_refuted.

(* osmo_timer_schedule with microseconds below one million sets the timeout to now + seconds + microseconds *)
Theorem C15_schedule : forall s q now t sec us fuel,
  implements s q -> t <> 0 -> clock_ok now -> is_s32 sec -> 0 <= us < 1000000 -> (length q + 2 <= fuel)%nat ->
  exists s' x, timer_schedule fuel s now t sec us = Ok s' /\ implements s' (q_add t x q) /\
    usecs x = usecs now + sec * 1000000 + us /\ 0 <= tusec x < 1000000.
Proof.
  intros s q now t sec us fuel H Ht Hn Hs Hu Hf. destruct (op_run fuel s q (TSched now t sec us) H) as (s' & E & H' & _); auto.
  { split; auto. split; auto. split; auto. unfold is_s32. lia. }
  exists s', (later now sec us). split; [exact E|]. split; [exact H'|]. apply later_us; auto.
Qed.
Print Assumptions C15_schedule.

(* osmo_timer_remaining: the exact difference; 0 exactly when the timeout is not in the past *)
Theorem C15_remaining : forall s now t, clock_ok (tmo s t) -> clock_ok now ->
  exists r rc, timer_remaining s now t = Ok (rc, r) /\ usecs r = usecs (tmo s t) - usecs now /\ 0 <= tusec r < 1000000 /\
    (rc = 0 <-> usecs now <= usecs (tmo s t)) /\ (rc = -1 <-> usecs (tmo s t) < usecs now).
Proof.
  intros s now t H1 H2. unfold timer_remaining. destruct (tvsub_ok _ _ H1 H2) as (r & -> & Q1 & Q2). cbn [bind]. eexists r, _. split; [reflexivity|].
  split; auto. split; auto. unfold usecs at 1 in Q1. destruct (tsec r <? 0) eqn:E; split; split; intros; try discriminate; try lia.
Qed.
Print Assumptions C15_remaining.

(* osmo_timers_check counts the pending timers *)
Theorem C15_check : forall s q fuel, implements s q -> (length q < fuel)%nat -> timers_check fuel s = Ok (zlen q).
Proof. intros s q fuel. apply timers_check_ok. Qed.
Print Assumptions C15_check.

(* three timers; 1 and 3 expire together with 2; the callback of 2 re-arms 1 and deletes 3 *)
Example C15_nonvacuous :
  let es := [EOp (TAdd 1 (Tv 5 0)); EOp (TSched (Tv 0 0) 2 6 0); EOp (TSched (Tv 0 900000) 3 5 50000); EOp (TAdd 4 (Tv 99 0));
             EUpdate (Tv 7 0) [[TSched (Tv 7 0) 1 0 0; TDel 3]]; EUpdate (Tv 7 0) []] in
  Forall ev_ok es /\ q_run [] es = ([(4, Tv 99 0)], [[2]; [1]]) /\
  match timer_run 20 (timer_init (Hp (fun _ => Nd 0 R 0 0) 0) (fun _ => Tv 0 0)) es with
  | Ok (s, ls) => ls = [[2]; [1]] /\ timer_pending s 4 = 1 /\ timers_prepare 20 s (Tv 98 1) = Ok (Some (Tv 0 999999)) | _ => False end.
Proof.
  split; [|split; [reflexivity|vm_compute; auto]].
  unfold ev_ok, op_ok, clock_ok, is_s32. repeat constructor; cbn; try discriminate; try lia.
Qed.
