(* T_bfc.v - property C61: BSSGP downlink flow control *)
From Coq Require Import Permutation.
From Verif Require Import Base S_bfc M_bfc P_bfc.
Ltac Zify.zify_post_hook ::= idtac.

Lemma init_fok bmax rate maxq t : 0 <= maxq < 2 ^ 32 -> fok (bssgp_fc_init bmax rate maxq t).
Proof. intros H. constructor; cbn; auto; try lia; congruence. Qed.

(* every PDU offered is passed on at once, queued or refused - exactly one of these; the queued ones leave the queue in
   the order in which they came, each once; the queue never holds more than max_queue_depth; and as long as there is
   something in it and the leak rate is not 0, the timer runs *)
Theorem C61_exactly_once : forall bmax rate maxq t0 es, 0 <= maxq < 2 ^ 32 ->
  let '(f, l) := frun (bssgp_fc_init bmax rate maxq t0) es in
  Permutation (offered es) (passed l ++ queued l ++ map fst (refused l)) /\
  queued l = dequeued l ++ f_queue f /\
  zlen (f_queue f) <= maxq /\
  (f_queue f <> [] -> f_rate f <> 0 -> f_timer f <> None).
Proof.
  intros bmax rate maxq t0 es H. pose proof (frun_ok es _ (init_fok bmax rate maxq t0 H)) as R.
  destruct (frun (bssgp_fc_init bmax rate maxq t0) es) as [f l]. destruct R as (K & M & Q & P).
  split; auto. split; [exact Q|]. cbn in M. rewrite <- M, <- (k_depth _ K). split; [apply (k_max _ K)|apply (k_tm _ K)].
Qed.
Print Assumptions C61_exactly_once.

(* a PDU is refused only for a reason the user can see: after any history, -EIO means that it is larger than the bucket,
   -ENOSPC that max_queue_depth PDUs are waiting at that moment *)
Theorem C61_refused : forall bmax rate maxq t0 es now p q rc, 0 <= maxq < 2 ^ 32 ->
  let '(f, l) := frun (bssgp_fc_init bmax rate maxq t0) es in
  In (Refused q rc) (snd (fstep f (FIn now p))) ->
  q = p /\ ((rc = - 5 /\ f_bmax f < snd p) \/ (rc = - 28 /\ zlen (f_queue f) = maxq)).
Proof.
  intros bmax rate maxq t0 es now p q rc H. pose proof (frun_ok es _ (init_fok bmax rate maxq t0 H)) as R.
  destruct (frun (bssgp_fc_init bmax rate maxq t0) es) as [f l]. destruct R as (K & M & _). cbn in M.
  pose proof (k_depth _ K) as KD. pose proof (k_max _ K) as KM. cbn [fstep]. unfold bssgp_fc_in.
  destruct (Z.gtb_spec (snd p) (f_bmax f)) as [G|G].
  - cbn. intros [E|[]]. split; [congruence|]. left. split; [congruence|lia].
  - pose proof (nq_same f now (snd p)) as NS. destruct (needs_queueing f now (snd p)) as [f1 b].
    destruct b; [|cbn; intros [E|[]]; congruence]. unfold fc_enqueue.
    destruct (Z.geb_spec (f_depth f1) (f_maxq f1)) as [D|D]; [|cbn; intros [E|[]]; congruence].
    cbn. intros [E|[]]. split; [congruence|]. right. split; [congruence|].
    destruct NS as (_ & _ & _ & N4 & N5 & _). lia.
Qed.
Print Assumptions C61_refused.

(* the decision, whatever the state, as long as the 32 bit arithmetic does not wrap: a PDU that is not larger than the
   bucket passes if and only if the bucket, less what has leaked since the last transmission, has room for it;
   otherwise it is queued, or refused when the queue is full *)
Theorem C61_decision : forall f now p,
  0 <= f_rate f -> 0 <= f_cnt f <= f_bmax f -> f_bmax f < 2 ^ 31 -> f_last f <= now -> (now - f_last f) / 10000 < 2 ^ 32 ->
  leak (f_rate f) (f_last f) now < 2 ^ 32 -> 0 <= snd p ->
  let '(f1, o, rc) := bssgp_fc_in f now p in
  let room := f_cnt f - leak (f_rate f) (f_last f) now + snd p <= f_bmax f in
  (f_bmax f < snd p -> f1 = f /\ o = None /\ rc = - EIO) /\
  (snd p <= f_bmax f -> room -> o = Some p /\ rc = 0 /\ f_last f1 = now) /\
  (snd p <= f_bmax f -> ~ room -> f_depth f < f_maxq f -> o = None /\ rc = 0 /\ f_queue f1 = f_queue f ++ [p]) /\
  (snd p <= f_bmax f -> ~ room -> f_maxq f <= f_depth f -> f1 = f /\ o = None /\ rc = - ENOSPC).
Proof.
  intros f now p H0 H1 H2 H3 H4 H5 HL. unfold bssgp_fc_in. destruct (Z.gtb_spec (snd p) (f_bmax f)) as [G|G].
  - cbv zeta. repeat split; auto; lia.
  - rewrite nq_calm by (auto; try lia; repeat split; auto; lia). cbv zeta.
    destruct (Z.ltb_spec (f_cnt f - leak (f_rate f) (f_last f) now) 0) as [A|A].
    + repeat split; auto; lia.
    + destruct (Z.leb_spec (f_cnt f - leak (f_rate f) (f_last f) now + snd p) (f_bmax f)) as [B|B].
      * repeat split; auto; lia.
      * unfold fc_enqueue. destruct (Z.geb_spec (f_depth f) (f_maxq f)) as [D|D].
        -- repeat split; auto; lia.
        -- set (f2 := set_q _ _ _). destruct (tc_same f2 now) as (_ & _ & _ & _ & _ & _ & C7 & _).
           repeat split; auto; try lia.
Qed.
Print Assumptions C61_decision.

(* when the timer expires and enough has leaked, the head of the queue is passed on; otherwise it stays and the timer
   is started again *)
Theorem C61_progress : forall f now p q,
  0 <= f_rate f -> 0 <= f_cnt f <= f_bmax f -> f_bmax f < 2 ^ 31 -> f_last f <= now -> (now - f_last f) / 10000 < 2 ^ 32 ->
  leak (f_rate f) (f_last f) now < 2 ^ 32 -> f_queue f = p :: q -> 0 <= snd p <= f_bmax f ->
  let '(f1, o) := fc_timer_cb f now in
  (f_cnt f + snd p - f_bmax f <= leak (f_rate f) (f_last f) now -> o = Some p /\ f_queue f1 = q) /\
  (leak (f_rate f) (f_last f) now < f_cnt f + snd p - f_bmax f -> o = None /\ f_queue f1 = p :: q /\
     (f_rate f <> 0 -> exists d, f_timer f1 = Some d)).
Proof.
  intros f now p q H0 H1 H2 H3 H4 H5 EQ HL. unfold fc_timer_cb. cbn [set_tm f_queue]. rewrite EQ.
  rewrite nq_calm by (try exact HL; repeat split; cbn; auto; lia). cbv zeta. cbn [set_tm f_cnt f_rate f_last f_bmax].
  destruct (Z.ltb_spec (f_cnt f - leak (f_rate f) (f_last f) now) 0) as [A|A];
    [|destruct (Z.leb_spec (f_cnt f - leak (f_rate f) (f_last f) now + snd p) (f_bmax f)) as [B|B]].
  - set (f2 := set_last _ now). destruct (tc_same f2 now) as (_ & _ & _ & _ & _ & _ & C7 & _). rewrite C7.
    repeat split; auto; lia.
  - set (f2 := set_last _ now). destruct (tc_same f2 now) as (_ & _ & _ & _ & _ & _ & C7 & _). rewrite C7.
    repeat split; auto; lia.
  - destruct (tc_same (set_tm f None) now) as (_ & _ & _ & _ & _ & _ & C7 & C8). rewrite C7. cbn [set_tm f_queue f_rate] in C8 |- *.
    split; [intros; lia|]. intros _. split; auto. split; auto. intros RN.
    assert (N : f_timer (queue_timer_cfg (set_tm f None) now) <> None) by (apply C8; congruence).
    destruct (f_timer (queue_timer_cfg (set_tm f None) now)); [eauto|congruence].
Qed.
Print Assumptions C61_progress.

(* when the timer is due: every time a PDU is queued, the timer expires or new limits arrive, it is set for the time in
   which the PDU now at the head leaks at the configured rate, in whole milliseconds from that moment *)
Definition due (f : bfc) (now : Z) : Prop :=
  forall i len q, f_queue f = (i, len) :: q -> 0 <= len < 4294967 -> 0 < f_rate f -> f_timer f = Some (now + 1000 * (len * 1000 / f_rate f)).
Theorem C61_timer : forall f e, match e with
  | FIn now p => forall f1, fstep f e = (f1, [Queued p]) -> due f1 now
  | FTick now => due (fst (fstep f e)) now
  | FLimits now size rate => due (fst (fstep f e)) now
  end.
Proof.
  assert (G : forall f now, due (queue_timer_cfg f now) now).
  { intros f now i len q EQ HL HR. destruct (tc_same f now) as (_ & C2 & _ & _ & _ & _ & C7 & _). rewrite C7 in EQ. rewrite C2 in HR |- *.
    unfold queue_timer_cfg. rewrite EQ. destruct (Z.eqb_spec (f_rate f) 0); [lia|]. cbn [negb set_tm f_timer]. rewrite u32_small by lia. reflexivity. }
  intros f [now p|now|now size rate].
  - intros f1. cbn [fstep]. unfold bssgp_fc_in. destruct (snd p >? f_bmax f); [cbn; congruence|].
    destruct (needs_queueing f now (snd p)) as [f2 b]. destruct b; [|cbn; congruence]. unfold fc_enqueue.
    destruct (f_depth f2 >=? f_maxq f2); [cbn; congruence|]. intros E. assert (Y : f1 = queue_timer_cfg (set_q f2 (u32 (f_depth f2 + 1)) (f_queue f2 ++ [p])) now) by congruence.
    rewrite Y. apply G.
  - cbn [fstep]. unfold fc_timer_cb. cbn [set_tm f_queue]. destruct (f_queue f) as [|p q] eqn:EQ.
    + cbn [fst]. intros i len q E. cbn [set_tm f_queue] in E. congruence.
    + destruct (needs_queueing _ now (snd p)) as [f1 b]. destruct b; cbn [fst]; apply G.
  - cbn [fstep fst]. apply G.
Qed.
Print Assumptions C61_timer.

(* FLOW-CONTROL-BVC: the size counts in 100 octets, the rate in 100 bit/s; nothing but the limits and the timer changes *)
Theorem C61_limits : forall f now size rate, 0 <= size < 65536 -> 0 <= rate < 65536 ->
  let f1 := rx_fc_bvc f now size rate in
  f_bmax f1 = size * 100 /\ 8 * f_rate f1 <= rate * 100 < 8 * (f_rate f1 + 1) /\
  f_cnt f1 = f_cnt f /\ f_last f1 = f_last f /\ f_maxq f1 = f_maxq f /\ f_depth f1 = f_depth f /\ f_queue f1 = f_queue f.
Proof.
  intros f now size rate HS HR f1. unfold f1, rx_fc_bvc. set (f2 := mkFc _ _ _ _ _ _ _ _).
  destruct (tc_same f2 now) as (C1 & C2 & C3 & C4 & C5 & C6 & C7 & _). rewrite C1, C2, C3, C4, C5, C6, C7. unfold f2.
  cbn [f_bmax f_rate f_cnt f_last f_maxq f_depth f_queue]. pose proof (Z.div_mod (100 * rate) 8 ltac:(lia)). pose proof (Z.mod_pos_bound (100 * rate) 8 ltac:(lia)).
  repeat split; auto; lia.
Qed.
Print Assumptions C61_limits.

(* a PDU queued behind it puts off the head: the timer starts anew, although the head's time was nearly over *)
Theorem C61_restart_refuted :
  f_timer (fst (frun (bssgp_fc_init 1000 100 10 0) [FIn 0 (1, 900); FIn 0 (2, 500)])) = Some 5000000 /\
  f_timer (fst (frun (bssgp_fc_init 1000 100 10 0) [FIn 0 (1, 900); FIn 0 (2, 500); FIn 4999000 (3, 1000)])) = Some 9999000.
Proof. split; vm_compute; reflexivity. Qed.
Print Assumptions C61_restart_refuted.

(* the rate: as long as the bucket has not run empty at a transmission, bucket_counter is the level of TS 48.018 and
   the volume sent is at most the free room of the bucket plus what leaks at the configured rate *)
Theorem C61_rate_busy : forall f es hz tm, fok f -> Forall no_limits es -> f_last f <= tm -> in_order tm es ->
  Forall (fun e => now_of e <= hz) es -> 0 <= f_rate f -> 0 <= f_cnt f <= f_bmax f -> f_bmax f < 2 ^ 31 ->
  (hz - f_last f) / 10000 < 2 ^ 32 -> leak (f_rate f) (f_last f) hz < 2 ^ 32 ->
  Forall (fun p => 0 <= snd p <= f_bmax f) (f_queue f) -> Forall (fun p => 0 <= snd p) (offered es) ->
  let '(f1, l) := frun f es in
  let out := map (fun x => (fst x, snd (snd x))) (sent l) in
  0 <= f_cnt f1 <= f_bmax f /\
  (never_empty (f_rate f) (f_cnt f) (f_last f) out ->
     (f_cnt f1, f_last f1) = level (f_rate f) (f_cnt f) (f_last f) out /\
     1000000 * volume out <= 1000000 * (f_bmax f - f_cnt f) + f_rate f * (f_last f1 - f_last f)).
Proof.
  intros f es hz tm K NL LT OD HZ R0 C0 B0 W1 W2 FQ FO. pose proof (frun_bucket es f hz tm K NL LT OD HZ R0 C0 B0 W1 W2 FQ FO) as B.
  destruct (frun f es) as [f1 l]. destruct B as (B1 & B2 & B3 & B4 & B5). cbv zeta. split; auto.
  intros NE. specialize (B5 NE). split; auto. fold (ilen (sent l)).
  destruct (level_volume (f_rate f) (ilen (sent l)) (f_cnt f) (f_last f) R0 B4) as [_ V]. rewrite <- B5 in V. cbn [fst snd] in V. lia.
Qed.
Print Assumptions C61_rate_busy.

(* but a transmission at which the bucket has run empty is not counted at all: with the least leak rate that leaks,
   100 octets/s, a PDU of a full bucket (here 1000 octets) passes every 10 ms, for ever: 100 000 octets/s *)
Definition free_ride (n : nat) : list fev := map (fun i => FIn (10000 * i) (i, 1000)) (zseq 1 n).
Theorem C61_rate_refuted : forall n,
  let '(f, l) := frun (bssgp_fc_init 1000 100 10 0) (free_ride n) in
  volume (map (fun x => (fst x, snd (snd x))) (sent l)) = 1000 * Z.of_nat n /\ f_cnt f = 0 /\ f_last f = 10000 * Z.of_nat n.
Proof.
  assert (G : forall n a f, 0 <= a -> f = mkFc 1000 100 0 (10000 * a) 10 0 [] None ->
    let '(f1, l) := frun f (map (fun i => FIn (10000 * i) (i, 1000)) (zseq (a + 1) n)) in
    volume (map (fun x => (fst x, snd (snd x))) (sent l)) = 1000 * Z.of_nat n /\ f_cnt f1 = 0 /\ f_last f1 = 10000 * (a + Z.of_nat n)).
  { induction n as [|n IH]; intros a f HA ->; cbn [zseq map frun].
    - cbn [f_cnt f_last]. repeat split; auto; lia.
    - assert (E : fstep (mkFc 1000 100 0 (10000 * a) 10 0 [] None) (FIn (10000 * (a + 1)) (a + 1, 1000)) =
        (mkFc 1000 100 0 (10000 * (a + 1)) 10 0 [] None, [Passed (10000 * (a + 1)) (a + 1, 1000)])).
      { unfold fstep, bssgp_fc_in, needs_queueing. cbn [snd f_bmax f_last f_rate f_cnt]. change (1000 >? 1000) with false. cbv iota zeta.
        replace (10000 * (a + 1) - 10000 * a) with 10000 by lia. reflexivity. }
      rewrite E. specialize (IH (a + 1) _ ltac:(lia) eq_refl).
      destruct (frun (mkFc 1000 100 0 (10000 * (a + 1)) 10 0 [] None) _) as [f1 l]. destruct IH as (I1 & I2 & I3).
      cbn [sent flat_map app map volume fold_right fst snd]. unfold volume, sent in I1. rewrite I1, I2, I3. repeat split; lia. }
  intros n. apply (G n 0 (bssgp_fc_init 1000 100 10 0)); [lia|reflexivity].
Qed.
Print Assumptions C61_rate_refuted.

(* the order of the PDUs is not kept: one that fits overtakes a queued one *)
Theorem C61_order_refuted : exists f, frun (bssgp_fc_init 1000 100 10 0) [FIn 0 (1, 900); FIn 0 (2, 500); FIn 0 (3, 100); FTick 5000000] =
  (f, [Passed 0 (1, 900); Queued (2, 500); Passed 0 (3, 100); Dequeued 5000000 (2, 500)]).
Proof. eexists. vm_compute. reflexivity. Qed.
Print Assumptions C61_order_refuted.

(* with a leak rate below 100 octets/s nothing ever leaks: a queued PDU is never passed on, however often the timer
   expires and whatever the times *)
Theorem C61_stall_refuted : forall rate es, 0 < rate < 100 -> Forall (fun e => exists t, e = FTick t) es ->
  forall f, f_rate f = rate -> f_cnt f = f_bmax f -> 0 <= f_bmax f < 2 ^ 31 -> forall p q, f_queue f = p :: q -> 0 < snd p < 2 ^ 31 ->
  snd (frun f es) = [] /\ f_queue (fst (frun f es)) = p :: q.
Proof.
  intros rate es HR F. induction F as [|e es (t & ->) F IH]; intros f E1 E2 HB p q EQ HP; cbn [frun]; [auto|].
  assert (S1 : exists tm, fstep f (FTick t) = (set_tm f tm, [])).
  { cbn [fstep]. unfold fc_timer_cb. cbn [set_tm f_queue]. rewrite EQ. unfold needs_queueing. cbn [set_tm f_rate f_last f_cnt f_bmax].
    rewrite E1. replace (rate / 100) with 0 by (symmetry; apply Z.div_small; lia). rewrite Z.mul_0_r. change (u32 0) with 0. cbv zeta.
    rewrite Z.sub_0_r. rewrite u32_small by lia. rewrite E2.
    destruct (Z.ltb_spec (f_bmax f + snd p) (snd p)); [lia|]. destruct (Z.leb_spec (f_bmax f + snd p) (f_bmax f)); [lia|].
    unfold queue_timer_cfg. cbn [set_tm f_queue f_rate]. rewrite EQ. destruct p as [i len]. rewrite E1.
    destruct (Z.eqb_spec rate 0); [lia|]. cbn [negb]. eexists. reflexivity. }
  destruct S1 as (tm & S1). rewrite S1. specialize (IH (set_tm f tm) E1 E2 HB p q EQ HP).
  destruct (frun (set_tm f tm) es) as [f2 l2]. cbn [fst snd] in *. destruct IH as [-> IH]. auto.
Qed.
Print Assumptions C61_stall_refuted.

(* the leak is computed modulo 2^32: after nearly three hours of silence (2^20 hundredths of a second at 409600 octets/s,
   4 Goctets) the bucket still counts as full and the PDU is held back; a second earlier it would have passed *)
Theorem C61_silence_refuted : exists f2 l2,
  frun (bssgp_fc_init 1000 409600 30 0) [FIn 0 (1, 1000); FIn (10485760000) (2, 500)] = (f2, l2) /\ l2 = [Passed 0 (1, 1000); Queued (2, 500)] /\
  leak 409600 0 10485760000 = 4294967296 /\
  snd (frun (bssgp_fc_init 1000 409600 30 0) [FIn 0 (1, 1000); FIn (10484760000) (2, 500)]) = [Passed 0 (1, 1000); Passed 10484760000 (2, 500)].
Proof. do 2 eexists. split; [vm_compute; reflexivity|]. split; [vm_compute; reflexivity|]. split; vm_compute; reflexivity. Qed.
Print Assumptions C61_silence_refuted.

(* flushing empties the queue but not queue_depth: when it was full, every later PDU that would have to wait is refused *)
Theorem C61_flush_refuted : exists f, frun (bssgp_fc_init 1000 100 2 0) [FIn 0 (1, 900); FIn 0 (2, 500); FIn 0 (3, 500)] =
    (f, [Passed 0 (1, 900); Queued (2, 500); Queued (3, 500)]) /\
  f_queue (bssgp_fc_flush_queue f) = [] /\
  snd (frun (bssgp_fc_flush_queue f) [FIn 0 (4, 500)]) = [Refused (4, 500) (- ENOSPC)].
Proof. eexists. split; [vm_compute; reflexivity|]. split; vm_compute; reflexivity. Qed.
Print Assumptions C61_flush_refuted.

(* PDUs passed, queued, refused and taken from the queue; the premises of the theorems above *)
Example C61_nonvacuous : exists f,
  let es := [FIn 0 (1, 900); FIn 20000 (2, 500); FIn 30000 (3, 400); FIn 40000 (4, 2000); FIn 40000 (5, 300); FTick 4000000; FTick 7000000; FTick 8500000] in
  frun (bssgp_fc_init 1000 100 2 0) es =
    (f, [Passed 0 (1, 900); Queued (2, 500); Queued (3, 400); Refused (4, 2000) (-5); Refused (5, 300) (-28); Dequeued 4000000 (2, 500); Dequeued 8500000 (3, 400)]) /\
  in_order 0 es /\ never_empty 100 0 0 [(0, 900); (4000000, 500); (8500000, 400)] /\ level 100 0 0 [(0, 900); (4000000, 500); (8500000, 400)] = (950, 8500000).
Proof. eexists. cbv zeta. split; [vm_compute; reflexivity|]. split; [cbn; lia|]. split; [cbn; lia|]. vm_compute. reflexivity. Qed.
