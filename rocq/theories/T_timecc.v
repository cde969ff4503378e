(* T_timecc.v - property C60: the cumulative time counter *)
From Verif Require Import Base S_timecc M_timecc P_timecc.
Ltac Zify.zify_post_hook ::= idtac.

(* What happens to a counter configured with gran_usec, round_threshold_usec and forget_sum_usec (no T timers): reports
   of the flag, the first one at t0, and its timer, which may be late.  Only when surplus time is to be forgotten is the
   timer required to be handled before a report that comes later than it was due. *)
Inductive runs (gran thr forget t0 : Z) : hist -> Z -> tcc -> Prop :=
| run_first f : runs gran thr forget t0 [(t0, f)] t0 (osmo_time_cc_set_flag None t0 (osmo_time_cc_init gran thr forget) f)
| run_flag h now c t f : runs gran thr forget t0 h now c -> now <= t ->
    (forget <> 0 -> forall d, c_timer c = Some d -> t < d) ->
    runs gran thr forget t0 ((t, f) :: h) t (osmo_time_cc_set_flag None t c f)
| run_timer h now c t d : runs gran thr forget t0 h now c -> c_timer c = Some d -> d <= t -> now <= t ->
    runs gran thr forget t0 h t (timer_cb None t c).

(* the documented meaning of the settings *)
Definition granularity (gran : Z) : Z := if gran =? 0 then 1000000 else gran.
Definition threshold (gran thr : Z) : Z := if thr =? 0 then granularity gran / 2 else Z.min thr (granularity gran).

Lemma same_G gran thr forget : G0 gran thr forget = granularity gran.
Proof. unfold G0, GRAN_USEC, granularity. cbn [osmo_time_cc_init cf_gran]. destruct (gran =? 0); reflexivity. Qed.
Lemma same_R gran thr forget : R0 gran thr forget = threshold gran thr.
Proof.
  unfold R0, ROUND_THRESHOLD_USEC, threshold. fold (G0 gran thr forget). rewrite same_G. cbn [osmo_time_cc_init cf_thr].
  destruct (thr =? 0); reflexivity.
Qed.
Lemma runs_time gran thr forget t0 h now c : runs gran thr forget t0 h now c -> t0 <= now.
Proof. induction 1; lia. Qed.
Lemma runs_inv gran thr forget t0 hz h now c :
  1 <= G0 gran thr forget < 2 ^ 61 -> 1 <= R0 gran thr forget <= G0 gran thr forget -> 0 <= forget < 2 ^ 61 -> 0 < t0 ->
  hz < 2 ^ 61 /\ hz - t0 <= G0 gran thr forget * 2147483646 ->
  runs gran thr forget t0 h now c -> now <= hz -> inv gran thr forget t0 h now c.
Proof.
  intros A B C D E R. induction R; intros HZ.
  - eapply first_step; eauto.
  - eapply flag_step with (now := now) (hz := hz); eauto; try lia; try (apply IHR; lia).
  - eapply timer_step with (now := now) (hz := hz); eauto; try lia; try (apply IHR; lia).
Qed.

(* At every time t at which no expired timer waits to be handled, the counter has exactly the increments that the
   history of the flag is worth, whatever the reports and timers were; and total_sum, with the time since it was
   last updated, is the time for which the flag was true.  (2^61 us are 73000 years, 2147483646 granules what one
   rate_ctr_add can express.) *)
Theorem C60_counts : forall gran thr forget t0 h now c t,
  0 <= gran < 2 ^ 61 -> 1 <= threshold gran thr -> 0 <= thr -> 0 <= forget < 2 ^ 61 -> 0 < t0 ->
  t < 2 ^ 61 -> t - t0 <= granularity gran * 2147483646 ->
  runs gran thr forget t0 h now c -> now <= t -> (forall d, c_timer c = Some d -> t < d) ->
  c_ctr c = increments (granularity gran) (threshold gran thr) forget h t0 t /\
  c_total c + (if c_flag c then t - c_last c else 0) = true_time h t /\ c_flag c = flag_now h.
Proof.
  intros gran thr forget t0 h now c t Hg Ht Hth Hf H0 H1 H2 R HN P.
  assert (A : 1 <= G0 gran thr forget < 2 ^ 61).
  { rewrite same_G. unfold granularity. destruct (Z.eqb_spec gran 0); lia. }
  assert (B : 1 <= R0 gran thr forget <= G0 gran thr forget).
  { rewrite same_R, same_G in *. split; auto. unfold threshold. destruct (thr =? 0); [|lia].
    apply Z.div_le_upper_bound; lia. }
  assert (C : t < 2 ^ 61 /\ t - t0 <= G0 gran thr forget * 2147483646) by (rewrite same_G; auto).
  pose proof (runs_inv gran thr forget t0 t h now c A B Hf H0 C R HN) as I.
  destruct (inv_value gran thr forget t0 A h now c t I HN P) as [E1 E2].
  rewrite same_G, same_R in E1. split; auto. split; auto. apply (i_flag _ _ _ _ _ _ _ I).
Qed.
Print Assumptions C60_counts.

(* with forget_sum_usec = 0 that is the true time, rounded as configured: floor, ceiling or to the nearest *)
Lemma acc_noforget G R h t0 : forall t, settled (acc_hist G R 0 h t0) = 0 /\
  (h <> [] -> surplus (acc_hist G R 0 h t0) + (if flag_now h then t - since (acc_hist G R 0 h t0) else 0) = true_time h t).
Proof.
  induction h as [|[s f] h IH]; intros t; cbn [acc_hist]; [cbn; split; [auto|congruence]|].
  destruct (IH s) as [E1 E2]. cbn [flag_now true_time].
  destruct (eqb f (flag_now h)) eqn:EQ.
  - split; auto. intros _. destruct h as [|[s2 f2] h].
    + cbn in *. destruct f; [discriminate|]. cbn. lia.
    + destruct (IH t) as [_ E3]. specialize (E3 ltac:(discriminate)). specialize (E2 ltac:(discriminate)).
      apply eqb_prop in EQ. rewrite EQ. cbn [flag_now] in *. destruct f2; lia.
  - unfold acc_step. destruct (flag_now h) eqn:F.
    + split; auto. intros _. cbn [surplus since settled]. assert (h <> []) by (destruct h; [discriminate|discriminate]).
      specialize (E2 H). destruct f; [discriminate|]. lia.
    + change (0 >? 0) with false. cbn [andb settled surplus since]. split; auto. intros _. destruct f; [|discriminate].
      destruct h as [|x h]; [cbn; lia|]. specialize (E2 ltac:(discriminate)). lia.
Qed.
Theorem C60_rounding : forall gran thr t0 h now c t,
  0 <= gran < 2 ^ 61 -> 1 <= threshold gran thr -> 0 <= thr -> 0 < t0 ->
  t < 2 ^ 61 -> t - t0 <= granularity gran * 2147483646 ->
  runs gran thr 0 t0 h now c -> now <= t -> (forall d, c_timer c = Some d -> t < d) ->
  c_ctr c = (true_time h t + granularity gran - threshold gran thr) / granularity gran /\
  (granularity gran <= thr -> c_ctr c = true_time h t / granularity gran) /\
  (thr = 1 -> (c_ctr c - 1) * granularity gran < true_time h t <= c_ctr c * granularity gran) /\
  (thr = 0 -> 2 * Z.abs (true_time h t - c_ctr c * granularity gran) <= granularity gran + 1).
Proof.
  intros gran thr t0 h now c t Hg Ht Hth H0 H1 H2 R HN P.
  destruct (C60_counts gran thr 0 t0 h now c t Hg Ht Hth ltac:(lia) H0 H1 H2 R HN P) as (E & _).
  assert (NE : h <> []) by (clear - R; induction R; congruence).
  assert (K : c_ctr c = (true_time h t + granularity gran - threshold gran thr) / granularity gran).
  { rewrite E. unfold increments. cbv zeta. destruct (acc_noforget (granularity gran) (threshold gran thr) h t0 t) as [E1 E2].
    rewrite E1, (E2 NE). unfold rounded. lia. }
  split; auto.
  assert (GP : 1 <= granularity gran) by (unfold granularity; destruct (Z.eqb_spec gran 0); lia).
  pose proof (Z.div_mod (true_time h t + granularity gran - threshold gran thr) (granularity gran) ltac:(lia)) as DM.
  pose proof (Z.mod_pos_bound (true_time h t + granularity gran - threshold gran thr) (granularity gran) ltac:(lia)) as MB.
  rewrite <- K in DM. split; [|split].
  - intros L. rewrite K. f_equal. unfold threshold. destruct (Z.eqb_spec thr 0); [lia|]. rewrite Z.min_r by lia. lia.
  - intros ->. assert (TH : threshold gran 1 = 1) by (unfold threshold; cbn [Z.eqb]; apply Z.min_l; auto). rewrite TH in *. nia.
  - intros ->. assert (TH : threshold gran 0 = granularity gran / 2) by reflexivity. rewrite TH in *.
    pose proof (Z.div_mod (granularity gran) 2 ltac:(lia)) as D2. pose proof (Z.mod_pos_bound (granularity gran) 2 ltac:(lia)) as M2.
    set (r := (true_time h t + granularity gran - granularity gran / 2) mod granularity gran) in *. nia.
Qed.
Print Assumptions C60_rounding.

(* a timer is always armed when the next increment, or the time to forget, is still to come *)
Theorem C60_timer : forall gran thr forget t0 h now c,
  0 <= gran < 2 ^ 61 -> 1 <= threshold gran thr -> 0 <= thr -> 0 <= forget < 2 ^ 61 -> 0 < t0 ->
  now < 2 ^ 61 -> now - t0 <= granularity gran * 2147483646 -> runs gran thr forget t0 h now c ->
  (flag_now h = true -> exists d, c_timer c = Some d /\
     increments (granularity gran) (threshold gran thr) forget h t0 d = c_ctr c + 1) /\
  (flag_now h = false -> forget <> 0 -> 0 < c_sum c -> c_timer c = Some (c_last c + forget)).
Proof.
  intros gran thr forget t0 h now c Hg Ht Hth Hf H0 H1 H2 R.
  assert (A : 1 <= G0 gran thr forget < 2 ^ 61).
  { rewrite same_G. unfold granularity. destruct (Z.eqb_spec gran 0); lia. }
  assert (B : 1 <= R0 gran thr forget <= G0 gran thr forget).
  { rewrite same_R, same_G in *. split; auto. unfold threshold. destruct (thr =? 0); [|lia].
    apply Z.div_le_upper_bound; lia. }
  assert (C : now < 2 ^ 61 /\ now - t0 <= G0 gran thr forget * 2147483646) by (rewrite same_G; auto).
  pose proof (runs_inv gran thr forget t0 now h now c A B Hf H0 C R ltac:(lia)) as I.
  pose proof (i_flag _ _ _ _ _ _ _ I) as F. split.
  - intros FN. rewrite FN in F. destruct (i_on _ _ _ _ _ _ _ I F) as (E1 & E2 & E3). eexists. split; [exact E3|].
    unfold increments. cbv zeta. rewrite FN. rewrite <- (same_G gran thr forget), <- (same_R gran thr forget).
    fold (acc gran thr forget t0 h). pose proof (i_rng _ _ _ _ _ _ _ I) as RG.
    rewrite (rounded_spec _ _ _ (c_ctr c + 1 - settled (acc gran thr forget t0 h))); [lia|lia|].
    replace ((c_ctr c + 1 - settled (acc gran thr forget t0 h)) * G0 gran thr forget) with (c_rep c + G0 gran thr forget) by lia. lia.
  - intros FN N S0. rewrite FN in F. destruct (i_off _ _ _ _ _ _ _ I F) as [_ X]. auto.
Qed.
Print Assumptions C60_timer.

(* a timer that was handled is not left expired: whatever timer is armed afterwards lies in the future (no busy loop, and
   surplus time is forgotten in the call that is due, not later) *)
Theorem C60_handled : forall gran thr forget t0 h now c d t d',
  0 <= gran < 2 ^ 61 -> 1 <= threshold gran thr -> 0 <= thr -> 0 <= forget < 2 ^ 61 -> 0 < t0 ->
  t < 2 ^ 61 -> t - t0 <= granularity gran * 2147483646 -> runs gran thr forget t0 h now c ->
  c_timer c = Some d -> d <= t -> now <= t -> c_timer (timer_cb None t c) = Some d' -> t < d'.
Proof.
  intros gran thr forget t0 h now c d t d' Hg Ht Hth Hf H0 H1 H2 R ED HD HN.
  assert (A : 1 <= G0 gran thr forget < 2 ^ 61).
  { rewrite same_G. unfold granularity. destruct (Z.eqb_spec gran 0); lia. }
  assert (B : 1 <= R0 gran thr forget <= G0 gran thr forget).
  { rewrite same_R, same_G in *. split; auto. unfold threshold. destruct (thr =? 0); [|lia].
    apply Z.div_le_upper_bound; lia. }
  assert (C : t < 2 ^ 61 /\ t - t0 <= G0 gran thr forget * 2147483646) by (rewrite same_G; auto).
  pose proof (runs_inv gran thr forget t0 t h now c A B Hf H0 C R HN) as I.
  pose proof (run_timer _ _ _ _ _ _ _ _ _ R ED HD HN) as R2.
  pose proof (runs_inv gran thr forget t0 t h t _ A B Hf H0 C R2 ltac:(lia)) as I2.
  pose proof (i_flag _ _ _ _ _ _ _ I) as F. pose proof (i_flag _ _ _ _ _ _ _ I2) as F2.
  destruct (i_tick _ _ _ _ _ _ _ I) as (T1 & T2 & T3). pose proof (i_last _ _ _ _ _ _ _ I) as L.
  pose proof (acc_bounds gran thr forget t0 h now (i_ord _ _ _ _ _ _ _ I)) as AB.
  destruct (flag_now h).
  - destruct (i_on _ _ _ _ _ _ _ I2 F2) as (_ & _ & E3). pose proof (i_rng _ _ _ _ _ _ _ I2) as RG.
    assert (LT : c_last (timer_cb None t c) = t).
    { unfold timer_cb. cbn [update_from_tdef set_timer c_flag]. rewrite F. unfold schedule_timer. cbn [update_from_tdef].
      set (x := report _). assert (X : c_last x = t).
      { unfold x, report. repeat match goal with |- context [if ?b then _ else _] => destruct b end; cbn [set_sums c_last count_time set_timer c_flag];
          unfold count_time; cbn [set_timer c_flag]; rewrite F; reflexivity. }
      match goal with |- c_last (if ?b then _ else _) = _ => destruct b end; exact X. }
    intros E. assert (d' = c_last (timer_cb None t c) + (c_rep (timer_cb None t c) - c_sum (timer_cb None t c)) + R0 gran thr forget) by congruence. lia.
  - clear I2 F2 R2. assert (SM : 0 <= c_sum c) by (destruct (i_off _ _ _ _ _ _ _ I F) as [[(X & _)|(_ & X & _)] _]; lia).
    unfold timer_cb. cbn [update_from_tdef set_timer c_flag]. rewrite F. cbn [set_timer cf_forget c_sum c_last]. rewrite T3. cbv zeta.
    assert (U : u64 (c_last c + forget) = c_last c + forget) by (apply u64_small; lia). rewrite U.
    destruct (negb (forget =? 0) && negb (c_sum c =? 0) && (t >=? c_last c + forget)) eqn:Q.
    + unfold schedule_timer. cbn [update_from_tdef forget_sum set_sums set_timer c_flag c_sum cf_forget negb]. rewrite F. cbn [negb].
      change (0 >? 0) with false. rewrite andb_false_r. change (UINT64_MAX =? UINT64_MAX) with true. cbn [c_timer]. discriminate.
    + unfold schedule_timer. cbn [update_from_tdef c_flag c_sum cf_forget set_timer]. rewrite T3, F. cbn [negb]. rewrite andb_true_r.
      destruct (negb (forget =? 0) && (c_sum c >? 0)) eqn:Q2.
      * cbn [c_last set_timer]. rewrite ?T3, ?U. assert (M : Z.min UINT64_MAX (c_last c + forget) = c_last c + forget) by (unfold UINT64_MAX; lia). rewrite M.
        replace (c_last c + forget =? UINT64_MAX) with false by (unfold UINT64_MAX; lia).
        assert (t < c_last c + forget) by lia. replace (c_last c + forget <=? t) with false by lia. cbn [c_timer set_timer]. intros E. assert (d' = t + (c_last c + forget - t)) by congruence. lia.
      * change (UINT64_MAX =? UINT64_MAX) with true. cbn [c_timer]. discriminate.
Qed.
Print Assumptions C60_handled.

(* a granularity of one microsecond with the default threshold (half of it, 0): one increment before any time was true *)
Theorem C60_one_usec_refuted : exists c, runs 1 0 0 5 [(5, true)] 5 c /\ c_ctr c = 1 /\ true_time [(5, true)] 5 = 0.
Proof. eexists. split; [apply run_first|]. split; reflexivity. Qed.
Print Assumptions C60_one_usec_refuted.

(* when a T timer changes the granularity while the flag is true, the time since the last update is lost, from
   total_sum ("overall cumulative sum") too: here 3 of 11 seconds *)
Theorem C60_total_refuted : exists c0 c1 c2 c3,
  let td g := Some (mkTd (Some g) None None) in
  c0 = osmo_time_cc_set_flag (td 1000000) 1000000 (osmo_time_cc_init 0 0 0) true /\
  c1 = timer_cb (td 1000000) 6000000 c0 /\
  c2 = timer_cb (td 4000000) 9000000 c1 /\
  c3 = osmo_time_cc_set_flag (td 4000000) 12000000 c2 false /\
  c_total c3 = 8000000 /\ true_time [(12000000, false); (1000000, true)] 12000000 = 11000000.
Proof. do 4 eexists. cbv zeta. do 4 (split; [reflexivity|]). split; vm_compute; reflexivity. Qed.
Print Assumptions C60_total_refuted.

(* one second granularity, rounded; true from 1 s to 3.6 s, again from 9 s on; surplus forgotten after 3 s *)
Example C60_nonvacuous :
  exists c d, runs 0 0 3000000 1000000 [(9000000, true); (3600000, false); (1000000, true)] 9600000 c /\
    c_ctr c = 4 /\ c_timer c = Some d /\ 10400000 < d /\
    increments 1000000 500000 3000000 [(9000000, true); (3600000, false); (1000000, true)] 1000000 10400000 = 4 /\
    increments 1000000 500000 0 [(9000000, true); (3600000, false); (1000000, true)] 1000000 10400000 = 4 /\
    increments 1000000 500000 0 [(9000000, true); (3600000, false); (1000000, true)] 1000000 9300000 = 3.
Proof.
  pose proof (run_first 0 0 3000000 1000000 true) as R.
  eapply run_timer with (t := 1700000) in R; [|vm_compute; reflexivity|lia|lia].
  eapply run_timer with (t := 2500000) in R; [|vm_compute; reflexivity|lia|lia].
  eapply run_timer with (t := 3500000) in R; [|vm_compute; reflexivity|lia|lia].
  eapply run_flag with (t := 3600000) (f := false) in R; [|lia|intros _ d E; vm_compute in E; injection E as <-; lia].
  eapply run_timer with (t := 6700000) in R; [|vm_compute; reflexivity|lia|lia].
  eapply run_flag with (t := 9000000) (f := true) in R; [|lia|intros _ d E; vm_compute in E; discriminate].
  eapply run_timer with (t := 9600000) in R; [|vm_compute; reflexivity|lia|lia].
  do 2 eexists. split; [exact R|].
  split; [vm_compute; reflexivity|]. split; [vm_compute; reflexivity|]. split; [lia|]. split; [vm_compute; reflexivity|]. split; vm_compute; reflexivity.
Qed.
