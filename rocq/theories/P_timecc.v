From Verif Require Import Base S_timecc M_timecc.
Ltac Zify.zify_post_hook ::= idtac.

Lemma u64_small x : 0 <= x < 2 ^ 64 -> u64 x = x.
Proof. intros. unfold u64. change 18446744073709551616 with (2 ^ 64). apply Z.mod_small. auto. Qed.

Lemma rounded_spec G R sum k : 1 <= G -> R - G <= sum - k * G < R -> rounded G R sum = k.
Proof.
  intros HG H. unfold rounded. symmetry. apply (Z.div_unique_pos _ _ k (sum - k * G + G - R)); lia.
Qed.

(* the moving part of the state *)
Definition sums (c : tcc) (total last sum rep ctr : Z) : tcc := set_sums c total last sum rep ctr.

Lemma report_ok c : let G := GRAN_USEC c in let R := ROUND_THRESHOLD_USEC c in
  1 <= R <= G -> 0 <= c_rep c -> 0 <= c_sum c -> R - G <= c_sum c - c_rep c ->
  c_sum c + G < 2 ^ 63 -> c_sum c - c_rep c <= G * 2147483646 ->
  exists k, 0 <= k /\ report c = set_sums c (c_total c) (c_last c) (c_sum c) (c_rep c + k * G) (c_ctr c + k) /\
    R - G <= c_sum c - (c_rep c + k * G) < R.
Proof.
  cbv zeta. set (G := GRAN_USEC c). set (R := ROUND_THRESHOLD_USEC c). intros HR H0 H1 H2 H3 H4. unfold report. fold G. fold R.
  assert (SAME : set_sums c (c_total c) (c_last c) (c_sum c) (c_rep c + 0 * G) (c_ctr c + 0) = c).
  { rewrite Z.mul_0_l, !Z.add_0_r. destruct c; reflexivity. }
  destruct (Z.gtb_spec (c_rep c) (c_sum c)) as [L|L].
  - exists 0. rewrite SAME. split; [lia|]. split; auto. lia.
  - rewrite (u64_small (c_sum c - c_rep c)) by lia.
    pose proof (Z.div_mod (c_sum c - c_rep c) G ltac:(lia)) as DM.
    pose proof (Z.mod_pos_bound (c_sum c - c_rep c) G ltac:(lia)) as MB.
    set (q := (c_sum c - c_rep c) / G) in *. set (r := (c_sum c - c_rep c) mod G) in *.
    assert (Q0 : 0 <= q) by (apply Z.div_pos; lia).
    assert (QM : q <= 2147483646) by (unfold q; apply Z.div_le_upper_bound; lia).
    assert (QG : 0 <= q * G < 2 ^ 63) by nia.
    rewrite (u64_small (q * G)) by lia. replace (c_sum c - c_rep c - q * G) with r by lia. rewrite (u64_small r) by lia.
    unfold INT_MAX. destruct (Z.geb_spec r R) as [C|C].
    + destruct (Z.eqb_spec (q + 1) 0); [lia|]. destruct (Z.gtb_spec (q + 1) 2147483647); [lia|].
      exists (q + 1). split; [lia|]. rewrite (u64_small ((q + 1) * G)) by lia. rewrite (u64_small (c_rep c + (q + 1) * G)) by lia.
      split; [reflexivity|]. lia.
    + destruct (Z.eqb_spec q 0) as [E|E].
      * exists 0. rewrite SAME. split; [lia|]. split; auto. rewrite E in DM. lia.
      * destruct (Z.gtb_spec q 2147483647); [lia|].
        exists q. split; [lia|]. rewrite (u64_small (q * G)) by lia. rewrite (u64_small (c_rep c + q * G)) by lia.
        split; [reflexivity|]. lia.
Qed.

Section Run.
Variables cg cr forget t0 hz : Z.   (* gran_usec, round_threshold_usec, forget_sum_usec, start, horizon *)
Definition G0 : Z := GRAN_USEC (osmo_time_cc_init cg cr forget).
Definition R0 : Z := ROUND_THRESHOLD_USEC (osmo_time_cc_init cg cr forget).
Hypothesis Hg : 1 <= G0 < 2 ^ 61.
Hypothesis Hr : 1 <= R0 <= G0.
Hypothesis Hf : 0 <= forget < 2 ^ 61.
Hypothesis Ht0 : 0 < t0.
Hypothesis Hhz : hz < 2 ^ 61 /\ hz - t0 <= G0 * 2147483646.

Definition ticking (c : tcc) : Prop := cf_gran c = cg /\ cf_thr c = cr /\ cf_forget c = forget.
Lemma tick_G c : ticking c -> GRAN_USEC c = G0 /\ ROUND_THRESHOLD_USEC c = R0.
Proof. intros (A & B & C). unfold G0, R0, GRAN_USEC, ROUND_THRESHOLD_USEC, GRAN_USEC. rewrite A, B. auto. Qed.

(* the history is over by `now`, and in order *)
Fixpoint ordered (h : hist) (now : Z) : Prop :=
  match h with [] => t0 <= now | (t, _) :: h' => t <= now /\ ordered h' t end.
Lemma ordered_le h : forall now, ordered h now -> t0 <= now.
Proof. induction h as [|[t f] h IH]; cbn [ordered]; auto. intros now [A B]. apply IH in B. lia. Qed.
Lemma ordered_mono h now t : ordered h now -> now <= t -> ordered h t.
Proof. destruct h as [|[s f] h]; cbn [ordered]; intros; [lia|]. split; [lia|tauto]. Qed.

Definition acc (h : hist) : account := acc_hist G0 R0 forget h t0.
Lemma acc_bounds h : forall now, ordered h now ->
  t0 <= since (acc h) <= now /\ 0 <= surplus (acc h) /\ surplus (acc h) + (now - since (acc h)) <= now - t0.
Proof.
  unfold acc. induction h as [|[t f] h IH]; intros now; cbn [ordered acc_hist].
  - cbn. lia.
  - intros [A B]. specialize (IH t B). destruct (eqb f (flag_now h)); [lia|].
    unfold acc_step. destruct (flag_now h); cbn [since surplus]; [lia|].
    destruct ((forget >? 0) && _); cbn [since surplus]; lia.
Qed.

Lemma tt_shift h s t : h <> [] -> true_time h t = (if flag_now h then t - s else 0) + true_time h s.
Proof. destruct h as [|[u f] h]; [congruence|]. intros _. cbn [true_time flag_now]. destruct f; lia. Qed.
Lemma tt_bounds h : forall now, ordered h now -> 0 <= true_time h now <= now - t0.
Proof.
  induction h as [|[t f] h IH]; intros now; cbn [ordered true_time].
  - lia.
  - intros [A B]. specialize (IH t B). destruct f; lia.
Qed.

Definition punctual (c : tcc) (t : Z) : Prop := forall d, c_timer c = Some d -> t < d.

Record inv (h : hist) (now : Z) (c : tcc) : Prop := {
  i_ne : h <> [];
  i_ord : ordered h now;
  i_tick : ticking c;
  i_start : c_start c = t0;
  i_flag : c_flag c = flag_now h;
  i_last : since (acc h) <= c_last c <= now;
  i_tot : c_total c = true_time h (c_last c);
  i_rep0 : 0 <= c_rep c;
  i_rng : R0 - G0 <= c_sum c - c_rep c < R0;
  i_on : c_flag c = true -> c_sum c = surplus (acc h) + (c_last c - since (acc h)) /\ c_rep c = (c_ctr c - settled (acc h)) * G0 /\
         c_timer c = Some (c_last c + (c_rep c - c_sum c) + R0);
  i_off : c_flag c = false ->
         (c_sum c = surplus (acc h) /\ c_rep c = (c_ctr c - settled (acc h)) * G0 /\ c_last c = since (acc h) \/
          0 < forget <= now - since (acc h) /\ c_sum c = 0 /\ c_rep c = 0 /\ c_ctr c = settled (acc h) + rounded G0 R0 (surplus (acc h))) /\
         (forget <> 0 -> 0 < c_sum c -> c_timer c = Some (c_last c + forget)) }.

(* the timer that is set *)
Lemma sched_ok c now : ticking c -> t0 <= now <= hz -> c_last c <= now -> t0 <= c_last c ->
  R0 - G0 <= c_sum c - c_rep c < R0 -> 0 <= c_rep c -> 0 <= c_sum c <= hz -> 
  (c_flag c = true -> c_last c = now) ->
  (c_flag c = false -> forget <> 0 -> 0 < c_sum c -> now < c_last c + forget) ->
  exists tm, schedule_timer None c now = set_timer c tm /\
    (c_flag c = true -> tm = Some (c_last c + (c_rep c - c_sum c) + R0)) /\
    (c_flag c = false -> forget <> 0 -> 0 < c_sum c -> tm = Some (c_last c + forget)).
Proof.
  intros T HN L1 L2 RG RP SM HT HF. destruct (tick_G c T) as [EG ER]. destruct T as (T1 & T2 & T3).
  unfold schedule_timer. cbn [update_from_tdef]. rewrite ER, T3.
  assert (SELF : set_timer c (c_timer c) = c) by (destruct c; reflexivity).
  assert (BIG : UINT64_MAX = 2 ^ 64 - 1) by reflexivity.
  destruct (c_flag c) eqn:F.
  - specialize (HT eq_refl). replace (negb (forget =? 0) && negb true && (c_sum c >? 0)) with false by (rewrite andb_false_r; auto).
    assert (U : u64 (now + u64 (c_rep c - c_sum c) + R0) = now + (c_rep c - c_sum c) + R0).
    { unfold u64. change 18446744073709551616 with (2 ^ 64). rewrite <- Z.add_assoc, (Z.add_comm _ R0), Z.add_assoc.
      rewrite Zplus_mod_idemp_r. rewrite Z.mod_small; lia. }
    rewrite U. rewrite Z.min_r by (rewrite BIG; lia).
    destruct (Z.eqb_spec (now + (c_rep c - c_sum c) + R0) UINT64_MAX) as [X|X]; [rewrite BIG in X; lia|].
    destruct (Z.leb_spec (now + (c_rep c - c_sum c) + R0) now); [lia|].
    eexists. split; [reflexivity|]. split; [|discriminate]. intros _. f_equal. lia.
  - destruct (Z.eqb_spec forget 0) as [E|E]; cbn [negb andb].
    + cbv iota. rewrite Z.eqb_refl. exists (c_timer c). rewrite SELF. split; auto. split; [discriminate|congruence].
    + destruct (Z.gtb_spec (c_sum c) 0) as [S0|S0].
      * rewrite u64_small by lia. rewrite Z.min_r by (rewrite BIG; lia).
        destruct (Z.eqb_spec (c_last c + forget) UINT64_MAX) as [X|X]; [rewrite BIG in X; lia|].
        specialize (HF eq_refl E S0). destruct (Z.leb_spec (c_last c + forget) now); [lia|].
        eexists. split; [reflexivity|]. split; [discriminate|]. intros _ _ _. f_equal. lia.
      * cbv iota. rewrite Z.eqb_refl. exists (c_timer c). rewrite SELF. split; auto. split; [discriminate|]. intros _ _ X. lia.
Qed.

Lemma R_zero : rounded G0 R0 0 = 0.
Proof. apply rounded_spec; lia. Qed.
Lemma inv_round h now c : inv h now c -> c_flag c = true -> c_ctr c = settled (acc h) + rounded G0 R0 (surplus (acc h) + (c_last c - since (acc h))).
Proof.
  intros I F. destruct (i_on _ _ _ I F) as (E1 & E2 & _). rewrite <- E1.
  rewrite (rounded_spec G0 R0 (c_sum c) (c_ctr c - settled (acc h))); [lia|lia|]. rewrite <- E2. apply (i_rng _ _ _ I).
Qed.
Lemma inv_round_off h now c : inv h now c -> c_flag c = false -> c_ctr c = settled (acc h) + rounded G0 R0 (surplus (acc h)).
Proof.
  intros I F. destruct (i_off _ _ _ I F) as [[(E1 & E2 & _)|(_ & _ & _ & E)] _]; [|exact E]. rewrite <- E1.
  rewrite (rounded_spec G0 R0 (c_sum c) (c_ctr c - settled (acc h))); [lia|lia|]. rewrite <- E2. apply (i_rng _ _ _ I).
Qed.

(* what the counter is worth at a time when no expired timer is left *)
Lemma inv_value h now c t : inv h now c -> now <= t -> punctual c t ->
  c_ctr c = increments G0 R0 forget h t0 t /\
  c_total c + (if c_flag c then t - c_last c else 0) = true_time h t.
Proof.
  intros I HT P. pose proof (i_last _ _ _ I) as L. split.
  - unfold increments. fold (acc h). cbv zeta. rewrite <- (i_flag _ _ _ I). destruct (c_flag c) eqn:F.
    + destruct (i_on _ _ _ I F) as (E1 & E2 & E3). pose proof (P _ E3) as D. pose proof (i_rng _ _ _ I) as RG.
      rewrite (rounded_spec G0 R0 _ (c_ctr c - settled (acc h))); [lia|lia|]. rewrite <- E2. lia.
    + rewrite Z.add_0_r. apply (inv_round_off _ _ _ I F).
  - rewrite (i_tot _ _ _ I), (i_flag _ _ _ I), (tt_shift h (c_last c) t (i_ne _ _ _ I)). lia.
Qed.

Lemma set_timer_sums c tm : c_flag (set_timer c tm) = c_flag c /\ c_sum (set_timer c tm) = c_sum c /\ c_rep (set_timer c tm) = c_rep c /\
  c_ctr (set_timer c tm) = c_ctr c /\ c_last (set_timer c tm) = c_last c /\ c_total (set_timer c tm) = c_total c /\
  c_start (set_timer c tm) = c_start c /\ c_timer (set_timer c tm) = tm /\ (ticking c -> ticking (set_timer c tm)).
Proof. repeat split; auto; apply H. Qed.

Lemma eqb_neg a b : eqb a b = false -> b = negb a.
Proof. destruct a, b; cbn; congruence. Qed.

(* osmo_time_cc_set_flag once started *)
Lemma flag_step h now c t f : inv h now c -> now <= t <= hz -> (forget <> 0 -> punctual c t) ->
  inv ((t, f) :: h) t (osmo_time_cc_set_flag None t c f).
Proof.
  intros I HT P. unfold osmo_time_cc_set_flag. pose proof (i_start _ _ _ I) as ST.
  assert (Hstart : c_start c =? 0 = false) by (apply Z.eqb_neq; lia). rewrite Hstart. cbv zeta.
  pose proof (i_ord _ _ _ I) as OD. assert (OT : ordered h t) by (apply (ordered_mono _ _ _ OD); lia).
  pose proof (acc_bounds h t OT) as AB. pose proof (i_last _ _ _ I) as L. pose proof (i_flag _ _ _ I) as FL.
  destruct (eqb f (c_flag c)) eqn:EQ.
  - (* unchanged *)
    assert (AE : acc ((t, f) :: h) = acc h) by (unfold acc; cbn [acc_hist]; rewrite <- FL, EQ; auto).
    assert (FE : flag_now ((t, f) :: h) = c_flag c) by (cbn [flag_now]; apply eqb_prop in EQ; auto).
    destruct I. constructor; rewrite ?AE, ?FE; auto; try discriminate.
    + cbn [ordered]. split; [lia|auto].
    + lia.
    + cbn [true_time]. rewrite i_tot0, (tt_shift h t (c_last c)) by auto.
      apply eqb_prop in EQ. rewrite <- FL, <- EQ. lia.
    + intros F. destruct (i_off0 F) as [[A|A] B]; split; auto. right. destruct A as (A1 & A2). split; [lia|auto].
  - pose proof (eqb_neg _ _ EQ) as NF.
    assert (AE : acc ((t, f) :: h) = acc_step G0 R0 forget (acc h) (c_flag c) t) by (unfold acc; cbn [acc_hist]; rewrite <- FL, EQ; auto).
    destruct (i_tick _ _ _ I) as (T1 & T2 & T3). destruct (tick_G c (i_tick _ _ _ I)) as [EG ER].
    pose proof (tt_bounds h t OT) as TB. pose proof (i_tot _ _ _ I) as TOT.
    pose proof (tt_shift h (c_last c) t (i_ne _ _ _ I)) as TS. rewrite <- FL in TS.
    pose proof (i_rng _ _ _ I) as RG. pose proof (i_rep0 _ _ _ I) as RP.
    assert (LB : ordered h now) by auto. pose proof (acc_bounds h now LB) as AB'.
    unfold count_time. destruct (c_flag c) eqn:F.
    + (* it goes false *)
      destruct (i_on _ _ _ I F) as (E1 & E2 & E3). assert (f = false) by (destruct f; auto; discriminate). subst f. clear EQ NF.
      rewrite (u64_small (t - c_last c)) by lia. rewrite TOT. rewrite u64_small by lia. rewrite u64_small by lia.
      set (c1 := set_sums c (true_time h (c_last c) + (t - c_last c)) t (c_sum c + (t - c_last c)) (c_rep c) (c_ctr c)).
      destruct (report_ok c1) as (k & K0 & EK & RK);
        try (change (ROUND_THRESHOLD_USEC c1) with (ROUND_THRESHOLD_USEC c); change (GRAN_USEC c1) with (GRAN_USEC c);
             rewrite ?ER, ?EG; cbn [c1 set_sums c_rep c_sum]; lia).
      rewrite EK. change (ROUND_THRESHOLD_USEC c1) with (ROUND_THRESHOLD_USEC c) in RK. change (GRAN_USEC c1) with (GRAN_USEC c) in RK |- *.
      rewrite EG in RK |- *. rewrite ER in RK. cbn [c1 set_sums c_rep c_sum c_total c_last c_ctr] in RK |- *.
      set (c2 := set_flagv _ false).
      assert (TK : ticking c2) by (repeat split; auto).
      destruct (sched_ok c2 t) as (tm & ES & _ & TM); auto; try (cbn [c2 c1 set_sums set_flagv c_last c_sum c_rep c_flag]; lia); try (cbn; discriminate).
      rewrite ES. destruct (set_timer_sums c2 tm) as (S1 & S2 & S3 & S4 & S5 & S6 & S7 & S8 & S9).
      cbn [c2 c1 set_sums set_flagv c_last c_sum c_rep c_flag c_total c_ctr c_start] in S1, S2, S3, S4, S5, S6, S7.
      assert (AV : acc ((t, false) :: h) = {| settled := settled (acc h); surplus := surplus (acc h) + (t - since (acc h)); since := t |}) by (rewrite AE; reflexivity).
      constructor; rewrite ?AV, ?S1, ?S2, ?S3, ?S4, ?S5, ?S6, ?S7; cbn [since surplus settled flag_now]; auto; try discriminate; try lia.
      * cbn [ordered]. split; [lia|auto].
      * cbn [true_time]. lia.
      * intros _. split; [left; nia|]. intros N S0. rewrite S8. apply TM; auto.
    + (* it goes true *)
      destruct (i_off _ _ _ I F) as [OF TF]. assert (f = true) by (destruct f; auto; discriminate). subst f. clear EQ NF.
      set (c1 := set_sums c (c_total c) t (c_sum c) (c_rep c) (c_ctr c)).
      assert (SM : 0 <= c_sum c <= hz) by (destruct OF as [(A & _)|(_ & A & _)]; lia).
      assert (AV : exists st sp, acc ((t, true) :: h) = {| settled := st; surplus := sp; since := t |} /\ c_sum c = sp /\ c_rep c = (c_ctr c - st) * G0).
      { rewrite AE. unfold acc_step. destruct (Z.gtb_spec forget 0) as [FP|FP]; cbn [andb].
        - destruct (Z.geb_spec (t - since (acc h)) forget) as [LT|LT].
          + do 2 eexists. split; [reflexivity|]. destruct OF as [(A1 & A2 & A3)|(A1 & A2 & A3 & A4)].
            * assert (SZ : c_sum c = 0).
              { destruct (Z.eq_dec (c_sum c) 0); auto. pose proof (P ltac:(lia) _ (TF ltac:(lia) ltac:(lia))). lia. }
              split; auto. rewrite <- A1, SZ, R_zero, Z.add_0_r. auto.
            * split; auto. rewrite A3, A4. lia.
          + do 2 eexists. split; [reflexivity|]. destruct OF as [(A1 & A2 & A3)|(A1 & A2 & A3 & A4)]; [auto|lia].
        - do 2 eexists. split; [reflexivity|]. destruct OF as [(A1 & A2 & A3)|(A1 & A2 & A3 & A4)]; [auto|lia]. }
      destruct AV as (st & sp & AV & AS & AR).
      destruct (report_ok c1) as (k & K0 & EK & RK);
        try (change (ROUND_THRESHOLD_USEC c1) with (ROUND_THRESHOLD_USEC c); change (GRAN_USEC c1) with (GRAN_USEC c);
             rewrite ?ER, ?EG; cbn [c1 set_sums c_rep c_sum]; lia).
      rewrite EK. change (ROUND_THRESHOLD_USEC c1) with (ROUND_THRESHOLD_USEC c) in RK. change (GRAN_USEC c1) with (GRAN_USEC c) in RK |- *.
      rewrite EG in RK |- *. rewrite ER in RK. cbn [c1 set_sums c_rep c_sum c_total c_last c_ctr] in RK |- *.
      set (c2 := set_flagv _ true).
      assert (TK : ticking c2) by (repeat split; auto).
      destruct (sched_ok c2 t) as (tm & ES & TM & _); auto; try (cbn [c2 c1 set_sums set_flagv c_last c_sum c_rep c_flag]; lia); try (cbn; discriminate).
      rewrite ES. destruct (set_timer_sums c2 tm) as (S1 & S2 & S3 & S4 & S5 & S6 & S7 & S8 & S9).
      cbn [c2 c1 set_sums set_flagv c_last c_sum c_rep c_flag c_total c_ctr c_start] in S1, S2, S3, S4, S5, S6, S7.
      constructor; rewrite ?AV, ?S1, ?S2, ?S3, ?S4, ?S5, ?S6, ?S7; cbn [since surplus settled flag_now]; auto; try discriminate; try lia.
      * cbn [ordered]. split; [lia|auto].
      * cbn [true_time]. lia.
      * intros _. split; [lia|]. split; [nia|]. rewrite S8. apply TM. auto.
Qed.

(* the timer call-back, at any time after it has expired *)
Lemma timer_step h now c t : inv h now c -> now <= t <= hz -> inv h t (timer_cb None t c).
Proof.
  intros I HT. unfold timer_cb. cbn [update_from_tdef]. cbv zeta.
  pose proof (i_start _ _ _ I) as ST. pose proof (i_ord _ _ _ I) as OD. assert (OT : ordered h t) by (apply (ordered_mono _ _ _ OD); lia).
  pose proof (acc_bounds h t OT) as AB. pose proof (i_last _ _ _ I) as L. pose proof (i_flag _ _ _ I) as FL.
  destruct (i_tick _ _ _ I) as (T1 & T2 & T3). destruct (tick_G c (i_tick _ _ _ I)) as [EG ER].
  pose proof (tt_bounds h t OT) as TB. pose proof (i_tot _ _ _ I) as TOT. pose proof (i_ne _ _ _ I) as NE.
  pose proof (tt_shift h (c_last c) t NE) as TS. rewrite <- FL in TS.
  pose proof (i_rng _ _ _ I) as RG. pose proof (i_rep0 _ _ _ I) as RP. pose proof (acc_bounds h now OD) as AB'.
  destruct (set_timer_sums c None) as (S1 & S2 & S3 & S4 & S5 & S6 & S7 & S8 & S9).
  set (c0 := set_timer c None) in *. rewrite S1. specialize (S9 (i_tick _ _ _ I)).
  destruct (c_flag c) eqn:F.
  - destruct (i_on _ _ _ I F) as (E1 & E2 & E3). unfold count_time. rewrite S1, S2, S3, S4, S5, S6, TOT.
    rewrite (u64_small (t - c_last c)) by lia. rewrite u64_small by lia. rewrite u64_small by lia.
    set (c1 := set_sums c0 (true_time h (c_last c) + (t - c_last c)) t (c_sum c + (t - c_last c)) (c_rep c) (c_ctr c)).
    destruct (report_ok c1) as (k & K0 & EK & RK);
      try (change (ROUND_THRESHOLD_USEC c1) with (ROUND_THRESHOLD_USEC c); change (GRAN_USEC c1) with (GRAN_USEC c);
           rewrite ?ER, ?EG; cbn [c1 set_sums c_rep c_sum]; lia).
    rewrite EK. change (ROUND_THRESHOLD_USEC c1) with (ROUND_THRESHOLD_USEC c) in RK. change (GRAN_USEC c1) with (GRAN_USEC c) in RK |- *.
    rewrite EG in RK |- *. rewrite ER in RK. cbn [c1 set_sums c_rep c_sum c_total c_last c_ctr] in RK |- *.
    set (c2 := set_sums _ _ _ _ _ _).
    assert (TK : ticking c2) by (repeat split; auto).
    assert (F2 : c_flag c2 = true) by exact F.
    destruct (sched_ok c2 t) as (tm & ES & TM & _); auto; try (cbn [c2 c1 set_sums set_flagv c_last c_sum c_rep c_flag]; lia); try (rewrite F2; discriminate).
    rewrite ES. destruct (set_timer_sums c2 tm) as (S1' & S2' & S3' & S4' & S5' & S6' & S7' & S8' & S9').
    cbn [c2 c1 set_sums set_flagv c_last c_sum c_rep c_total c_ctr c_start] in S2', S3', S4', S5', S6', S7'. rewrite F2 in S1'.
    constructor; rewrite ?S1', ?S2', ?S3', ?S4', ?S5', ?S6', ?S7'; auto; try discriminate; try lia.
    intros _. split; [lia|]. split; [nia|]. rewrite S8'. apply TM. auto.
  - destruct (i_off _ _ _ I F) as [OF TF]. rewrite S2, S5.
    assert (FE : cf_forget c0 = forget) by apply S9. rewrite FE.
    assert (SM : 0 <= c_sum c <= hz) by (destruct OF as [(A & _)|(_ & A & _)]; lia).
    rewrite (u64_small (c_last c + forget)) by lia.
    destruct (negb (forget =? 0) && negb (c_sum c =? 0) && (t >=? c_last c + forget)) eqn:DO.
    + rewrite !andb_true_iff in DO. destruct DO as [[D1 D2] D3]. apply negb_true_iff, Z.eqb_neq in D1, D2. apply Z.geb_le in D3.
      destruct OF as [(A1 & A2 & A3)|(A1 & A2 & A3 & A4)]; [|congruence].
      unfold forget_sum. rewrite S4, S5, S6. set (c2 := set_sums _ _ _ _ _ _).
      assert (TK : ticking c2) by (repeat split; apply S9). assert (F2 : c_flag c2 = false) by exact F.
      assert (LST : c_last c2 = t) by (cbn [c2 set_sums c_last]; destruct (Z.ltb_spec (c_last c) t); lia).
      destruct (sched_ok c2 t) as (tm & ES & _ & TM); auto; try (rewrite ?LST; cbn [c2 set_sums c_last c_sum c_rep c_flag]; lia); try (rewrite F2; discriminate).
      rewrite ES. destruct (set_timer_sums c2 tm) as (S1' & S2' & S3' & S4' & S5' & S6' & S7' & S8' & S9').
      cbn [c2 set_sums c_sum c_rep c_total c_ctr c_start] in S2', S3', S4', S6', S7'. rewrite F2 in S1'. rewrite LST in S5'.
      constructor; rewrite ?S1', ?S2', ?S3', ?S4', ?S5', ?S6', ?S7'; auto; try discriminate; try lia.
      intros _. split; [right|lia]. split; [lia|]. split; auto. split; auto. rewrite <- A1.
      rewrite (rounded_spec G0 R0 (c_sum c) (c_ctr c - settled (acc h))); lia.
    + assert (F2 : c_flag c0 = false) by (rewrite S1; auto).
      assert (HF : c_flag c0 = false -> forget <> 0 -> 0 < c_sum c0 -> t < c_last c0 + forget).
      { rewrite S2, S5. intros _ N S0. rewrite !andb_false_iff in DO. destruct DO as [[D|D]|D].
        - apply negb_false_iff, Z.eqb_eq in D. congruence.
        - apply negb_false_iff, Z.eqb_eq in D. lia.
        - destruct (Z.geb_spec t (c_last c + forget)); [discriminate|auto]. }
      destruct (sched_ok c0 t S9) as (tm & ES & _ & TM); auto; try (rewrite ?S2, ?S3, ?S5; lia); try (rewrite F2; discriminate).
      rewrite ES. destruct (set_timer_sums c0 tm) as (S1' & S2' & S3' & S4' & S5' & S6' & S7' & S8' & S9').
      rewrite S2 in S2'. rewrite S3 in S3'. rewrite S4 in S4'. rewrite S5 in S5'. rewrite S6 in S6'. rewrite S7 in S7'. rewrite F2 in S1'.
      constructor; rewrite ?S1', ?S2', ?S3', ?S4', ?S5', ?S6', ?S7'; auto; try discriminate; try lia.
      intros _. split.
      * destruct OF as [A|(A1 & A2)]; [left; auto|right; split; [lia|auto]].
      * intros N S0. rewrite S8'. rewrite F2, S2, S5 in TM. apply TM; auto.
Qed.

(* the first report *)
Lemma first_step f : t0 <= hz -> inv [(t0, f)] t0 (osmo_time_cc_set_flag None t0 (osmo_time_cc_init cg cr forget) f).
Proof.
  intros HZ.
  set (c0 := mkTcc cg cr forget false 0 None t0 t0 0 0 0).
  assert (ST : time_cc_start None (osmo_time_cc_init cg cr forget) t0 = c0).
  { unfold time_cc_start. cbn [update_from_tdef].
    change (set_start (osmo_time_cc_cleanup (osmo_time_cc_init cg cr forget)) t0 t0) with c0.
    unfold schedule_timer. cbn [update_from_tdef c0 cf_forget c_flag c_sum negb]. rewrite andb_true_r.
    change (0 >? 0) with false. rewrite andb_false_r. reflexivity. }
  assert (I0 : inv [(t0, false)] t0 c0).
  { assert (AV : acc [(t0, false)] = {| settled := 0; surplus := 0; since := t0 |}) by reflexivity.
    constructor; rewrite ?AV; cbn; auto; try discriminate; try lia; try (repeat split; fail); try (intros _; split; [left; auto|lia]). }
  unfold osmo_time_cc_set_flag. change (c_start (osmo_time_cc_init cg cr forget) =? 0) with true. cbv iota zeta. rewrite ST.
  destruct f; [|exact I0].
  pose proof (flag_step [(t0, false)] t0 c0 t0 true I0 ltac:(lia) ltac:(intros _ d X; discriminate)) as FS.
  unfold osmo_time_cc_set_flag in FS. change (c_start c0) with t0 in FS.
  assert (X : t0 =? 0 = false) by (apply Z.eqb_neq; lia). rewrite X in FS. cbv iota zeta in FS.
  assert (AE : acc [(t0, true); (t0, false)] = acc [(t0, true)]) by reflexivity.
  destruct FS. rewrite AE in *. constructor; auto; try discriminate; try (cbn; lia); try (rewrite i_tot0; cbn [true_time]; lia).
Qed.
End Run.
