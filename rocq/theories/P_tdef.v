From Verif Require Import Base M_tdef S_tdef.
Local Ltac sp := repeat match goal with |- _ /\ _ => split end.

Lemma round_std v from to a b : is_ulong v -> unit_us from = Some a -> unit_us to = Some b -> exists r, tdef_round v from to = Ok r /\ is_ulong r /\ is_round_up v a b r.
Proof.
  intros Hv Ha Hb. unfold is_ulong, ULONG_MAX in *. unfold is_round_up, ULONG_MAX.
  assert (Gf : (from = 4 /\ a = 1) \/ (from = 1 /\ a = 1000) \/ (from = 0 /\ a = 1000000) \/ (from = 2 /\ a = 60000000)).
  { unfold unit_us, TDEF_US, TDEF_MS, TDEF_S, TDEF_M in Ha. repeat match type of Ha with context [from =? ?k] => destruct (from =? k) eqn:?; [injection Ha as Ha; lia|] end. discriminate. }
  assert (Gt : (to = 4 /\ b = 1) \/ (to = 1 /\ b = 1000) \/ (to = 0 /\ b = 1000000) \/ (to = 2 /\ b = 60000000)).
  { unfold unit_us, TDEF_US, TDEF_MS, TDEF_S, TDEF_M in Hb. repeat match type of Hb with context [to =? ?k] => destruct (to =? k) eqn:?; [injection Hb as Hb; lia|] end. discriminate. }
  clear Ha Hb. unfold tdef_round. destruct (v =? 0) eqn:E0. { exists 0. sp; auto; try lia. }
  assert (Up : forall f, 1 < f -> b = f * a -> exists r, Ok (u64 (v / f + (if v mod f =? 0 then 0 else 1))) = Ok r /\ 0 <= r <= 18446744073709551615 /\ (v = 0 -> r = 0) /\ (r < 18446744073709551615 -> v * a <= r * b < v * a + b) /\ (r = 18446744073709551615 -> (18446744073709551615 - 1) * b < v * a)).
  { intros f Hf ->. set (q := v / f + (if v mod f =? 0 then 0 else 1)). assert (Hq : v <= q * f < v + f /\ 0 <= q).
    { pose proof (Z.div_mod v f ltac:(lia)) as E. pose proof (Z.mod_pos_bound v f ltac:(lia)) as M. pose proof (Z.div_pos v f ltac:(lia) ltac:(lia)) as P. unfold q. generalize dependent (v / f). intros d. generalize dependent (v mod f). intros m. intros. destruct (m =? 0) eqn:Em; nia. }
    assert (q < 18446744073709551615) by nia. exists q. unfold u64. rewrite Z.mod_small by lia. assert (0 < a) by lia. sp; auto; try lia; try nia. }
  assert (Dn : forall f, 1 < f -> a = f * b -> exists r, (if ULONG_MAX / v <? f then Ok ULONG_MAX else Ok (u64 (v * f))) = Ok r /\ 0 <= r <= 18446744073709551615 /\ (v = 0 -> r = 0) /\ (r < 18446744073709551615 -> v * a <= r * b < v * a + b) /\ (r = 18446744073709551615 -> (18446744073709551615 - 1) * b < v * a)).
  { intros f Hf ->. unfold ULONG_MAX. assert (0 < b) by lia. pose proof (Z.mul_div_le 18446744073709551615 v ltac:(lia)) as L1. pose proof (Z.mul_succ_div_gt 18446744073709551615 v ltac:(lia)) as L2.
    assert (Hv0 : 0 < v) by (clear - Hv E0; lia). set (M := 18446744073709551615) in *. assert (HM : 1 < M) by reflexivity.
    destruct (M / v <? f) eqn:E.
    - exists M. assert (G : M < v * f). { apply Z.lt_le_trans with (1 := L2). apply Z.mul_le_mono_nonneg_l; clear - Hv0 E; clearbody M; lia. }
      assert (G2 : (M - 1) * b < v * (f * b)). { rewrite Z.mul_assoc. apply Z.mul_lt_mono_pos_r; [exact H|]. clear - G; clearbody M; lia. }
      clear - Hv HM G2 Hv0. clearbody M. sp; auto; try lia.
    - exists (v * f). assert (G : v * f <= M). { apply Z.le_trans with (2 := L1). apply Z.mul_le_mono_nonneg_l; clear - Hv0 E; clearbody M; lia. }
      assert (G0 : 0 <= v * f) by (apply Z.mul_nonneg_nonneg; clear - Hv0 Hf; lia). rewrite !Z.mul_assoc. unfold u64.
      clear - Hv0 Hv G G0 HM H. rewrite Z.mod_small by (unfold M in G; lia). clearbody M. revert G G0. generalize (v * f) as w. intros w G G0.
      sp; auto; try lia. }
  assert (Eq : forall (r : res Z), a = b -> r = Ok v -> exists r', r = Ok r' /\ 0 <= r' <= 18446744073709551615 /\ (v = 0 -> r' = 0) /\ (r' < 18446744073709551615 -> v * a <= r' * b < v * a + b) /\ (r' = 18446744073709551615 -> (18446744073709551615 - 1) * b < v * a)).
  { intros r -> ->. exists v. sp; auto; try lia. }
  destruct Gf as [[-> ->]|[[-> ->]|[[-> ->]|[-> ->]]]]; destruct Gt as [[-> ->]|[[-> ->]|[[-> ->]|[-> ->]]]];
    match goal with |- context [tdef_factor ?x ?y] => let c := eval vm_compute in (tdef_factor x y) in
      let d := eval vm_compute in (tdef_factor y x) in let E1 := fresh in let E2 := fresh in
      assert (E1 : tdef_factor x y = c) by (vm_compute; reflexivity); assert (E2 : tdef_factor y x = d) by (vm_compute; reflexivity);
      rewrite ?E1; rewrite ?E2; clear E1 E2;
      lazymatch c with 1 => exact (Eq _ eq_refl eq_refl) | 0 => exact (Up d eq_refl eq_refl) | _ => exact (Dn c eq_refl eq_refl) end end.
Qed.
Lemma round_custom v from to : is_unit from -> is_unit to -> from = TDEF_CUSTOM \/ to = TDEF_CUSTOM -> tdef_round v from to = Ok v.
Proof.
  intros Hf Ht H. unfold tdef_round. destruct (v =? 0) eqn:E; [f_equal; lia|]. assert (F : tdef_factor from to = 1).
  { unfold tdef_factor. destruct H as [-> | ->]; rewrite Z.eqb_refl; rewrite ?orb_true_r; [|reflexivity]. reflexivity. } rewrite F. reflexivity.
Qed.

Lemma get_entry_spec ts T : terminated ts -> exists o, get_entry ts T = Ok o /\
  match o with
  | None => forall t, In t (entries ts) -> tT t <> T
  | Some i => (i < length (entries ts))%nat /\ nth_tdef (entries ts) i = nth_tdef ts i /\ tT (nth_tdef ts i) = T /\ forall j, (j < i)%nat -> tT (nth_tdef ts j) <> T
  end.
Proof.
  intros (e & Hi & He). induction ts as [|t r IH]; [destruct Hi|]. cbn [get_entry entries]. destruct (tdef_end t) eqn:E. { eexists. split; [reflexivity|]. intros x []. }
  destruct (tT t =? T) eqn:ET. { eexists. split; [reflexivity|]. cbn [length nth_tdef nth]. split; [lia|]. split; [reflexivity|]. split; [unfold nth_tdef; cbn [nth]; lia|intros; lia]. }
  destruct Hi as [->|Hi]; [congruence|]. destruct (IH Hi) as (o & -> & Ho). cbn [bind]. eexists. split; [reflexivity|]. destruct o as [i|]; cbn [option_map].
  - destruct Ho as (H1 & H2 & H3 & H4). cbn [length]. sp; auto; try lia. intros [|j] Hj; cbn; [lia|]. apply H4. lia.
  - intros x [<-|Hx]; [lia|auto].
Qed.
Lemma in_range_spec t v : val_in_range t v = true <-> within t v.
Proof. unfold val_in_range, within. split; [intros H; split; intros; lia|]. intros [H1 H2]. destruct (tmax t =? 0) eqn:E; [lia|]. specialize (H2 ltac:(lia)). lia. Qed.
