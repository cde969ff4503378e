From Verif Require Import Base S_crc M_crc.

(* mathematical register: one shift with feedback *)
Definition T (r poly c : Z) : Z := Z.lxor ((2 * c) mod 2 ^ r) (if Z.testbit c (r - 1) then poly else 0).
Definition stp (r poly c b : Z) : Z := T r poly (Z.lxor c (Z.shiftl b (r - 1))).
Definition feed (r poly c : Z) (l : list Z) : Z := fold_left (fun c b => stp r poly c (Z.land b 1)) l c.

Definition code_ok (w : Z) (c : crc_code) : Prop :=
  1 <= cbits c <= w /\ shl_ok w (cbits c) = true /\ 0 <= cpoly c < 2 ^ cbits c /\
  0 <= cinit c < 2 ^ cbits c /\ 0 <= crem c < 2 ^ cbits c.

Lemma lxor_bound a b n : 0 <= n -> 0 <= a < 2 ^ n -> 0 <= b < 2 ^ n -> 0 <= Z.lxor a b < 2 ^ n.
Proof.
  intros. assert (0 <= Z.lxor a b) by (apply Z.lxor_nonneg; lia). split; auto. apply bits_bound; auto.
  intros m Hm. rewrite Z.lxor_spec, !(testbit_above _ n) by lia. reflexivity.
Qed.
Lemma shl_bit_bound b r : 1 <= r -> is_bit b -> 0 <= Z.shiftl b (r - 1) < 2 ^ r.
Proof.
  intros Hr [-> | ->].
  - rewrite Z.shiftl_0_l. pose proof (pow2_pos r). lia.
  - rewrite Z.shiftl_1_l. split; [apply Z.pow_nonneg; lia|apply Z.pow_lt_mono_r; lia].
Qed.
Lemma land1_bit x : is_bit (Z.land x 1).
Proof. change 1 with (Z.ones 1). rewrite Z.land_ones by lia. unfold is_bit. pose proof (Z.mod_pos_bound x (2 ^ 1)). lia. Qed.

Lemma T_bit r poly c k : 1 <= r -> 0 <= poly < 2 ^ r -> 0 <= k ->
  Z.testbit (T r poly c) k = xorb ((1 <=? k) && (k <? r) && Z.testbit c (k - 1)) (Z.testbit c (r - 1) && Z.testbit poly k).
Proof.
  intros Hr Hp Hk. unfold T. rewrite Z.lxor_spec. f_equal.
  - destruct (Z.ltb_spec k r).
    + rewrite Z.mod_pow2_bits_low by lia. destruct (Z.leb_spec 1 k).
      * replace k with (Z.succ (k - 1)) at 1 by lia. rewrite Z.double_bits_succ. reflexivity.
      * replace k with 0 by lia. rewrite Z.mul_comm, <- Z.shiftl_mul_pow2 with (n := 1), Z.shiftl_spec by lia. cbn [andb].
        apply Z.testbit_neg_r. lia.
    + rewrite Z.mod_pow2_bits_high by lia. rewrite andb_false_r. reflexivity.
  - destruct (Z.testbit c (r - 1)); [reflexivity|apply Z.bits_0].
Qed.
Lemma T_range r poly c : 1 <= r -> 0 <= poly < 2 ^ r -> 0 <= T r poly c < 2 ^ r.
Proof.
  intros. unfold T. apply lxor_bound; [lia|apply Z.mod_pos_bound; apply pow2_pos; lia|].
  destruct (Z.testbit _ _); auto. pose proof (pow2_pos r); lia.
Qed.
Lemma T_lin r poly a b : 1 <= r -> 0 <= poly < 2 ^ r -> T r poly (Z.lxor a b) = Z.lxor (T r poly a) (T r poly b).
Proof.
  intros. apply Z.bits_inj'. intros k Hk. rewrite Z.lxor_spec, !T_bit by auto. rewrite !Z.lxor_spec.
  destruct ((1 <=? k) && (k <? r)), (Z.testbit a (k - 1)), (Z.testbit b (k - 1)), (Z.testbit a (r - 1)), (Z.testbit b (r - 1)), (Z.testbit poly k); reflexivity.
Qed.
Lemma T_0 r poly : T r poly 0 = 0.
Proof. unfold T. rewrite Z.bits_0, Z.lxor_0_r, Z.mul_0_r. reflexivity. Qed.
Lemma T_inj0 r poly c : 1 <= r -> 0 <= poly < 2 ^ r -> Z.odd poly = true -> 0 <= c < 2 ^ r -> T r poly c = 0 -> c = 0.
Proof.
  intros Hr Hp Ho Hc E.
  assert (B : forall k, 0 <= k -> xorb ((1 <=? k) && (k <? r) && Z.testbit c (k - 1)) (Z.testbit c (r - 1) && Z.testbit poly k) = false).
  { intros k Hk. rewrite <- T_bit by auto. rewrite E. apply Z.bits_0. }
  assert (Ht : Z.testbit c (r - 1) = false).
  { specialize (B 0 ltac:(lia)). cbn [Z.leb Z.compare andb] in B. rewrite xorb_false_l, Z.bit0_odd, Ho, andb_true_r in B. auto. }
  apply Z.bits_inj'. intros k Hk. rewrite Z.bits_0. destruct (Z_lt_le_dec k r).
  - destruct (Z.eq_dec k (r - 1)); [subst; auto|]. specialize (B (k + 1) ltac:(lia)). rewrite Ht in B. cbn [andb] in B.
    rewrite xorb_false_r in B. replace (k + 1 - 1) with k in B by lia. replace ((1 <=? k + 1) && (k + 1 <? r)) with true in B by lia. auto.
  - apply testbit_above with r; lia.
Qed.

Fixpoint Titer (n : nat) r poly c : Z := match n with O => c | S m => Titer m r poly (T r poly c) end.
Lemma Titer_inj0 n : forall r poly c, 1 <= r -> 0 <= poly < 2 ^ r -> Z.odd poly = true -> 0 <= c < 2 ^ r ->
  Titer n r poly c = 0 -> c = 0.
Proof.
  induction n; intros r poly c Hr Hp Ho Hc E; cbn [Titer] in E; auto.
  apply IHn in E; auto; [|apply T_range; auto]. apply (T_inj0 r poly); auto.
Qed.
Lemma Titer_lin n : forall r poly a b, 1 <= r -> 0 <= poly < 2 ^ r ->
  Titer n r poly (Z.lxor a b) = Z.lxor (Titer n r poly a) (Titer n r poly b).
Proof. induction n; intros; cbn [Titer]; auto. rewrite T_lin by auto. apply IHn; auto. Qed.
Lemma Titer_0 n r poly : Titer n r poly 0 = 0.
Proof. induction n; cbn [Titer]; auto. rewrite T_0. auto. Qed.

Lemma stp_range r poly c b : 1 <= r -> 0 <= poly < 2 ^ r -> 0 <= stp r poly c b < 2 ^ r.
Proof. intros; apply T_range; auto. Qed.
Lemma feed_range r poly l : forall c, 1 <= r -> 0 <= poly < 2 ^ r -> 0 <= c < 2 ^ r -> 0 <= feed r poly c l < 2 ^ r.
Proof.
  induction l; intros c Hr Hp Hc; cbn; auto. apply IHl; auto. apply stp_range; auto.
Qed.
Lemma feed_app r poly c a b : feed r poly c (a ++ b) = feed r poly (feed r poly c a) b.
Proof. apply fold_left_app. Qed.

Lemma land_lxor1 a b : Z.land (Z.lxor a b) 1 = Z.lxor (Z.land a 1) (Z.land b 1).
Proof. apply Z.bits_inj'. intros. rewrite Z.lxor_spec, !Z.land_spec, Z.lxor_spec. destruct (Z.testbit a n), (Z.testbit b n), (Z.testbit 1 n); reflexivity. Qed.
Lemma shiftl_lxor a b k : Z.shiftl (Z.lxor a b) k = Z.lxor (Z.shiftl a k) (Z.shiftl b k).
Proof. apply Z.shiftl_lxor. Qed.

Lemma feed_lin r poly : 1 <= r -> 0 <= poly < 2 ^ r -> forall a b c d, length a = length b ->
  feed r poly (Z.lxor c d) (xorl a b) = Z.lxor (feed r poly c a) (feed r poly d b).
Proof.
  intros Hr Hp. induction a as [|x a IH]; intros [|y b] c d Hl; try discriminate; auto.
  cbn [xorl feed fold_left]. fold (feed r poly (stp r poly (Z.lxor c d) (Z.land (Z.lxor x y) 1)) (xorl a b)).
  rewrite land_lxor1. unfold stp at 1. rewrite shiftl_lxor.
  replace (Z.lxor (Z.lxor c d) (Z.lxor (Z.shiftl (Z.land x 1) (r - 1)) (Z.shiftl (Z.land y 1) (r - 1))))
    with (Z.lxor (Z.lxor c (Z.shiftl (Z.land x 1) (r - 1))) (Z.lxor d (Z.shiftl (Z.land y 1) (r - 1)))).
  2:{ rewrite !Z.lxor_assoc. f_equal. rewrite <- !Z.lxor_assoc. f_equal. apply Z.lxor_comm. }
  rewrite T_lin by auto. rewrite IH by (simpl in Hl; lia). reflexivity.
Qed.

Lemma feed_zeros r poly n : forall c, feed r poly c (repeat 0 n) = Titer n r poly c.
Proof.
  induction n; intros c; cbn [repeat feed fold_left Titer]; auto.
  fold (feed r poly (stp r poly c (Z.land 0 1)) (repeat 0 n)). rewrite IHn. unfold stp.
  change (Z.land 0 1) with 0. rewrite Z.shiftl_0_l, Z.lxor_0_r. reflexivity.
Qed.

(* the first k <= r bits fed act like xoring them on top of the register *)
Lemma poly_of_app a b : poly_of (a ++ b) = 2 ^ zlen b * poly_of a + poly_of b.
Proof.
  unfold poly_of. rewrite fold_left_app. generalize (fold_left (fun a0 b0 => 2 * a0 + b0) a 0). clear a.
  induction b as [|x b IH] using rev_ind; intros z; [cbn [fold_left]; change (2 ^ zlen (@nil Z)) with 1; lia|].
  rewrite !fold_left_app. cbn [fold_left]. rewrite IH. rewrite zlen_app, zlen_cons. change (zlen (@nil Z)) with 0.
  replace (zlen b + (1 + 0)) with (Z.succ (zlen b)) by lia. rewrite Z.pow_succ_r by apply zlen_nonneg. lia.
Qed.
Lemma poly_of_cons x b : poly_of (x :: b) = 2 ^ zlen b * x + poly_of b.
Proof. change (x :: b) with ([x] ++ b). rewrite poly_of_app. unfold poly_of at 1. cbn. lia. Qed.
Lemma poly_of_bound l : bits l -> 0 <= poly_of l < 2 ^ zlen l.
Proof.
  induction l as [|x l IH]; intros H; [cbn; lia|]. inversion H; subst. rewrite poly_of_cons, zlen_cons.
  replace (1 + zlen l) with (Z.succ (zlen l)) by lia. rewrite Z.pow_succ_r by apply zlen_nonneg. specialize (IH H3).
  pose proof (pow2_pos (zlen l) (zlen_nonneg l)). destruct H2 as [-> | ->]; lia.
Qed.
Lemma poly_of_nz l : bits l -> In 1 l -> poly_of l <> 0.
Proof.
  induction l as [|x l IH]; intros H Hi; [destruct Hi|]. inversion H; subst. rewrite poly_of_cons.
  pose proof (poly_of_bound l H3). pose proof (pow2_pos (zlen l) (zlen_nonneg l)).
  destruct Hi as [->|Hi]; [lia|]. specialize (IH H3 Hi). destruct H2 as [-> | ->]; lia.
Qed.

Lemma T_small r poly c : 1 <= r -> 0 <= c < 2 ^ (r - 1) -> T r poly c = 2 * c.
Proof.
  intros. unfold T. rewrite (testbit_above c (r - 1)) by lia. rewrite Z.lxor_0_r, Z.mod_small; auto.
  assert (2 ^ r = 2 * 2 ^ (r - 1)) by (rewrite <- Z.pow_succ_r by lia; f_equal; lia). lia.
Qed.
Lemma land_bit b : is_bit b -> Z.land b 1 = b.
Proof. intros [-> | ->]; reflexivity. Qed.

Lemma feed_bits r poly : 1 <= r -> 0 <= poly < 2 ^ r -> forall l c, bits l -> zlen l <= r ->
  feed r poly c l = Titer (length l) r poly (Z.lxor c (Z.shiftl (poly_of l) (r - zlen l))).
Proof.
  intros Hr Hp. induction l as [|x l IH]; intros c Hl Hz.
  - cbn [feed fold_left length Titer]. unfold poly_of. cbn [fold_left]. rewrite Z.shiftl_0_l, Z.lxor_0_r. reflexivity.
  - inversion Hl; subst. cbn [feed fold_left length Titer]. fold (feed r poly (stp r poly c (Z.land x 1)) l).
    rewrite zlen_cons in Hz. pose proof (zlen_nonneg l). rewrite IH by (auto; lia). f_equal. rewrite land_bit by auto. unfold stp.
    rewrite poly_of_cons, zlen_cons.
    assert (Ep : Z.shiftl (2 ^ zlen l * x + poly_of l) (r - (1 + zlen l)) =
            Z.lxor (Z.shiftl x (r - 1)) (Z.shiftl (poly_of l) (r - (1 + zlen l)))).
    { replace (2 ^ zlen l * x + poly_of l) with (Z.lxor (Z.shiftl x (zlen l)) (poly_of l)).
      - rewrite Z.shiftl_lxor, Z.shiftl_shiftl by lia. do 2 f_equal. lia.
      - pose proof (poly_of_bound l H2). rewrite Z.add_comm. rewrite (Z.mul_comm (2 ^ zlen l)).
        rewrite <- lor_shiftl_add by lia. rewrite Z.lor_comm. apply Z.bits_inj'. intros k Hk.
        rewrite Z.lxor_spec, Z.lor_spec. destruct (Z_lt_le_dec k (zlen l)).
        + rewrite Z.shiftl_spec_low by lia. destruct (Z.testbit _ _); reflexivity.
        + rewrite (testbit_above (poly_of l) (zlen l)) by lia. destruct (Z.testbit _ _); reflexivity. }
    rewrite Ep, <- Z.lxor_assoc, (T_lin r poly (Z.lxor c (Z.shiftl x (r - 1)))) by auto. f_equal.
    rewrite T_small; [|lia|].
    + replace (r - zlen l) with (r - (1 + zlen l) + 1) by lia.
      rewrite <- Z.shiftl_shiftl by lia. rewrite (Z.shiftl_mul_pow2 _ 1) by lia. change (2 ^ 1) with 2. lia.
    + pose proof (poly_of_bound l H2). rewrite Z.shiftl_mul_pow2 by lia.
      replace (r - 1) with (zlen l + (r - (1 + zlen l))) by lia. rewrite Z.pow_add_r by lia.
      pose proof (pow2_pos (r - (1 + zlen l))). nia.
Qed.

(* ------ model = feed ------ *)
Lemma trunc_small w x : 0 <= x < 2 ^ w -> trunc w x = x.
Proof. intros. apply Z.mod_small; auto. Qed.

Lemma crc_step_ok w code crc b : code_ok w code -> 0 <= crc < 2 ^ cbits code ->
  crc_step w code crc b = Ok (stp (cbits code) (cpoly code) crc (Z.land b 1)).
Proof.
  intros (Hb & Hs & Hp & Hi & Hr) Hc. unfold crc_step.
  assert (Hs1 : shl_ok w (cbits code - 1) = true) by (unfold shl_ok in *; destruct (w <=? 16); lia).
  rewrite Hs, Hs1. cbn [andb negb]. f_equal. unfold stp.
  set (r := cbits code) in *. set (c := Z.lxor crc (Z.shiftl (Z.land b 1) (r - 1))).
  assert (Hw : 2 ^ r <= 2 ^ w) by (apply Z.pow_le_mono_r; lia).
  assert (Hcr : 0 <= c < 2 ^ r). { apply lxor_bound; auto; [lia|]. apply shl_bit_bound; [lia|apply land1_bit]. }
  rewrite (trunc_small w c) by lia.
  rewrite (trunc_small w (Z.shiftl 1 (r - 1))).
  2:{ pose proof (shl_bit_bound 1 r ltac:(lia) ltac:(right; reflexivity)). lia. }
  assert (Et : negb (Z.land c (Z.shiftl 1 (r - 1)) =? 0) = Z.testbit c (r - 1)).
  { destruct (Z.testbit c (r - 1)) eqn:E.
    - apply negb_true_iff, Z.eqb_neq. intros E2. apply (f_equal (fun z => Z.testbit z (r - 1))) in E2.
      rewrite Z.land_spec, E, testbit_shl1, Z.eqb_refl, Z.bits_0 in E2 by lia. discriminate.
    - apply negb_false_iff, Z.eqb_eq. apply Z.bits_inj'. intros k Hk. rewrite Z.land_spec, testbit_shl1, Z.bits_0 by lia.
      destruct (Z.eqb_spec k (r - 1)); [subst; rewrite E; reflexivity|apply andb_false_r]. }
  rewrite Et.
  assert (Em : forall x, 0 <= x -> Z.land x (Z.shiftl 1 r - 1) = x mod 2 ^ r).
  { intros. rewrite <- Z.land_ones by lia. rewrite Z.ones_equiv, Z.shiftl_1_l. reflexivity. }
  unfold T.
  assert (Es : trunc w (Z.shiftl c 1) mod 2 ^ r = (2 * c) mod 2 ^ r).
  { unfold trunc. rewrite Z.shiftl_mul_pow2 by lia. replace (c * 2 ^ 1) with (2 * c) by lia.
    replace (2 ^ w) with (2 ^ r * 2 ^ (w - r)) by (rewrite <- Z.pow_add_r by lia; f_equal; lia).
    rewrite Z.rem_mul_r by (pose proof (pow2_pos r); pose proof (pow2_pos (w - r)); lia).
    rewrite (Z.mul_comm (2 ^ r)), Z.mod_add by (pose proof (pow2_pos r); lia). apply Z.mod_mod. pose proof (pow2_pos r); lia. }
  assert (Hn : 0 <= trunc w (Z.shiftl c 1)) by (apply Z.mod_pos_bound; apply pow2_pos; lia).
  destruct (Z.testbit c (r - 1)).
  - rewrite Em by (apply Z.lxor_nonneg; lia). rewrite <- Es.
    apply Z.bits_inj'. intros k Hk. rewrite Z.lxor_spec. destruct (Z_lt_le_dec k r).
    + rewrite !Z.mod_pow2_bits_low by lia. apply Z.lxor_spec.
    + rewrite !Z.mod_pow2_bits_high by lia. rewrite (testbit_above (cpoly code) r) by lia. reflexivity.
  - rewrite Em by auto. rewrite Z.lxor_0_r. auto.
Qed.

Lemma crc_compute_ok w code inp len : code_ok w code -> 0 <= len <= zlen inp ->
  crc_compute w code inp len =
  Ok (Z.lxor (feed (cbits code) (cpoly code) (cinit code) (firstn (Z.to_nat len) inp)) (crem code)).
Proof.
  intros Hc Hl. pose proof Hc as (Hb & Hs & Hp & Hi & Hr). unfold crc_compute.
  destruct (zfor_inv (fun i crc => crc = feed (cbits code) (cpoly code) (cinit code) (firstn (Z.to_nat i) inp))
     (fun i crc => do b <- rd inp i ;; crc_step w code crc b) (Z.to_nat len) 0 (cinit code)) as (s & E & Hs1).
  - reflexivity.
  - intros i s Hi2 ->. rewrite rd_at0 by lia. cbn [bind]. rewrite crc_step_ok; auto; [|apply feed_range; auto; lia].
    eexists; split; [reflexivity|]. replace (Z.to_nat (i + 1)) with (S (Z.to_nat i)) by lia.
    rewrite (firstn_snoc inp (Z.to_nat i)) by (unfold zlen in *; lia). rewrite feed_app. reflexivity.
  - rewrite E. cbn [bind]. rewrite Hs1. replace (Z.to_nat (0 + Z.of_nat (Z.to_nat len))) with (Z.to_nat len) by lia. reflexivity.
Qed.

(* ------ remainder ------ *)
Lemma gfmul_2 q g : 0 <= q -> gfmul (2 * q) g = Z.shiftl (gfmul q g) 1.
Proof. intros. destruct q; [reflexivity|reflexivity|lia]. Qed.
Lemma gfmul_2_1 q g : 0 <= q -> gfmul (2 * q + 1) g = Z.lxor g (Z.shiftl (gfmul q g) 1).
Proof. intros. destruct q; [cbn; rewrite Z.lxor_0_r; reflexivity|reflexivity|lia]. Qed.

Lemma pow_lxor r poly : 0 <= r -> 0 <= poly < 2 ^ r -> 2 ^ r + poly = Z.lxor (2 ^ r) poly.
Proof.
  intros. apply Z.bits_inj'. intros k Hk. rewrite Z.lxor_spec, testbit_pow2 by lia.
  rewrite <- (Z.mul_1_l (2 ^ r)), Z.add_comm. rewrite <- lor_shiftl_add by lia. rewrite Z.lor_spec, testbit_shl1 by lia.
  destruct (Z.eqb_spec k r); [subst; rewrite (testbit_above poly r) by lia; reflexivity|].
  destruct (Z.testbit poly k); reflexivity.
Qed.

Lemma T_alt r poly c : 1 <= r -> 0 <= poly < 2 ^ r -> 0 <= c < 2 ^ r ->
  T r poly c = Z.lxor (Z.shiftl c 1) (if Z.testbit c (r - 1) then 2 ^ r + poly else 0).
Proof.
  intros. apply Z.bits_inj'. intros k Hk. rewrite T_bit by auto. rewrite Z.lxor_spec, Z.shiftl_spec by lia.
  rewrite pow_lxor by lia.
  replace (Z.testbit (if Z.testbit c (r - 1) then Z.lxor (2 ^ r) poly else 0) k)
    with (Z.testbit c (r - 1) && xorb (k =? r) (Z.testbit poly k)).
  2:{ destruct (Z.testbit c (r - 1)); [rewrite Z.lxor_spec, testbit_pow2 by lia; reflexivity|rewrite Z.bits_0; reflexivity]. }
  destruct (Z_lt_le_dec k r).
  - replace (k =? r) with false by lia. rewrite xorb_false_l. replace (k <? r) with true by lia. rewrite andb_true_r.
    destruct (Z.leb_spec 1 k); [reflexivity|]. rewrite (Z.testbit_neg_r c (k - 1)) by lia. reflexivity.
  - replace (k <? r) with false by lia. rewrite andb_false_r. cbn [andb]. rewrite xorb_false_l.
    rewrite (testbit_above poly r) by lia. rewrite andb_false_r, xorb_false_r.
    destruct (Z.eqb_spec k r); [subst; rewrite andb_true_r, xorb_nilpotent; reflexivity|].
    rewrite (testbit_above c r (k - 1)) by lia. rewrite andb_false_r. reflexivity.
Qed.

Lemma feed_rem r poly init : 1 <= r -> 0 <= poly < 2 ^ r -> 0 <= init < 2 ^ r -> forall l, bits l ->
  gfrem (Z.lxor (Z.shiftl (poly_of l) r) (Z.shiftl init (zlen l))) (2 ^ r + poly) r (feed r poly init l).
Proof.
  intros Hr Hp Hi l. induction l as [|b l IH] using rev_ind; intros Hl.
  - split; [cbn; auto|]. exists 0. split; [lia|]. unfold poly_of. cbn [fold_left feed gfmul]. rewrite Z.shiftl_0_l, !Z.lxor_0_l.
    change (zlen (@nil Z)) with 0. apply Z.shiftl_0_r.
  - apply Forall_app in Hl. destruct Hl as [Hl Hb]. inversion Hb; subst.
    destruct (IH Hl) as (Hrange & q & Hq & Eq). clear IH. split; [apply feed_range; auto|].
    rewrite feed_app. set (c := feed r poly init l) in *. cbn [feed fold_left]. rewrite land_bit by auto.
    set (c1 := Z.lxor c (Z.shiftl b (r - 1))).
    assert (Hc1 : 0 <= c1 < 2 ^ r) by (apply lxor_bound; auto; [lia|apply shl_bit_bound; auto]).
    assert (Ea : Z.lxor (Z.shiftl (poly_of (l ++ [b])) r) (Z.shiftl init (zlen (l ++ [b]))) =
       Z.lxor (Z.shiftl (gfmul q (2 ^ r + poly)) 1) (Z.shiftl c1 1)).
    { unfold c1. rewrite Z.shiftl_lxor, <- Z.lxor_assoc. rewrite <- Z.shiftl_lxor. rewrite <- Eq.
      rewrite Z.shiftl_lxor, !Z.shiftl_shiftl by (pose proof (zlen_nonneg l); lia).
      rewrite zlen_app. change (zlen [b]) with 1. rewrite poly_of_app. change (zlen [b]) with 1.
      replace (poly_of [b]) with b by (unfold poly_of; cbn; lia).
      replace (2 ^ 1 * poly_of l + b) with (Z.lxor (Z.shiftl (poly_of l) 1) b).
      - rewrite Z.shiftl_lxor, Z.shiftl_shiftl by lia. replace (r - 1 + 1) with r by lia. replace (1 + r) with (r + 1) by lia.
        rewrite !Z.lxor_assoc. f_equal. apply Z.lxor_comm.
      - rewrite Z.shiftl_mul_pow2 by lia. destruct H1 as [-> | ->]; [rewrite Z.lxor_0_r; lia|].
        replace (poly_of l * 2 ^ 1) with (2 * poly_of l) by lia. change (2 ^ 1) with 2.
        apply Z.bits_inj'. intros k Hk. rewrite Z.lxor_spec. destruct (Z.eq_dec k 0).
        + subst. rewrite Z.testbit_odd_0, Z.testbit_even_0. reflexivity.
        + replace k with (Z.succ (k - 1)) by lia. rewrite Z.testbit_odd_succ, Z.testbit_even_succ by lia.
          rewrite testbit_1. replace (Z.succ (k - 1) =? 0) with false by lia. apply xorb_false_r. }
    rewrite Ea. unfold stp. fold c1. rewrite T_alt by auto.
    destruct (Z.testbit c1 (r - 1)).
    + exists (2 * q + 1). split; [lia|]. rewrite gfmul_2_1 by auto.
      rewrite (Z.lxor_comm (2 ^ r + poly)). rewrite !Z.lxor_assoc. f_equal.
      rewrite (Z.lxor_comm (Z.shiftl c1 1)). rewrite <- Z.lxor_assoc, Z.lxor_nilpotent, Z.lxor_0_l. reflexivity.
    + exists (2 * q). split; [lia|]. rewrite gfmul_2 by auto. rewrite Z.lxor_0_r. reflexivity.
Qed.

(* the remainder is unique *)
Lemma gfmul_pos_top g d : 0 <= d -> 2 ^ d <= g < 2 ^ (d + 1) -> forall p,
  exists k, d <= k /\ 2 ^ k <= gfmul_pos p g < 2 ^ (k + 1).
Proof.
  intros Hd Hg. induction p as [p (k & Hk & B)|p (k & Hk & B)|]; cbn [gfmul_pos].
  - exists (k + 1). split; [lia|]. rewrite Z.shiftl_mul_pow2 by lia.
    assert (E1 : 2 ^ (k + 1) = 2 * 2 ^ k) by (rewrite Z.pow_add_r by lia; lia).
    assert (E2 : 2 ^ (k + 1 + 1) = 2 * 2 ^ (k + 1)) by (rewrite (Z.pow_add_r 2 (k + 1)) by lia; lia).
    assert (G : g < 2 ^ (k + 1)). { assert (2 ^ (d + 1) <= 2 ^ (k + 1)) by (apply Z.pow_le_mono_r; lia). lia. }
    pose proof (pow2_pos d Hd).
    set (x := gfmul_pos p g * 2 ^ 1). assert (Hx : 2 ^ (k + 1) <= x < 2 ^ (k + 1 + 1)) by (unfold x; lia).
    split.
    + destruct (Z_lt_le_dec (Z.lxor g x) (2 ^ (k + 1))) as [C|]; auto. exfalso.
      assert (0 <= Z.lxor g x) by (apply Z.lxor_nonneg; lia).
      assert (X : 0 <= Z.lxor g (Z.lxor g x) < 2 ^ (k + 1)) by (apply lxor_bound; lia).
      rewrite <- Z.lxor_assoc, Z.lxor_nilpotent, Z.lxor_0_l in X. lia.
    + apply lxor_bound; lia.
  - exists (k + 1). split; [lia|]. rewrite Z.shiftl_mul_pow2 by lia.
    assert (E1 : 2 ^ (k + 1) = 2 * 2 ^ k) by (rewrite Z.pow_add_r by lia; lia).
    assert (E2 : 2 ^ (k + 1 + 1) = 2 * 2 ^ (k + 1)) by (rewrite (Z.pow_add_r 2 (k + 1)) by lia; lia). lia.
  - exists d. split; [lia|auto].
Qed.

Lemma gfmul_lxor_pos g : forall p q, exists z, 0 <= z /\ Z.lxor (gfmul_pos p g) (gfmul_pos q g) = gfmul z g.
Proof.
  assert (S0 : forall a b c d, Z.lxor a b = Z.lxor c d -> True) by auto.
  induction p as [p IH|p IH|]; intros [q|q|]; cbn [gfmul_pos].
  - destruct (IH q) as (z & Hz & E). exists (2 * z). split; [lia|]. rewrite gfmul_2, <- E, Z.shiftl_lxor by auto.
    rewrite (Z.lxor_comm g). rewrite Z.lxor_assoc. f_equal. rewrite <- Z.lxor_assoc, Z.lxor_nilpotent, Z.lxor_0_l. reflexivity.
  - destruct (IH q) as (z & Hz & E). exists (2 * z + 1). split; [lia|]. rewrite gfmul_2_1, <- E, Z.shiftl_lxor by auto.
    rewrite Z.lxor_assoc. reflexivity.
  - exists (2 * Zpos p). split; [lia|]. rewrite gfmul_2 by lia. cbn [gfmul]. rewrite (Z.lxor_comm g), Z.lxor_assoc, Z.lxor_nilpotent, Z.lxor_0_r. reflexivity.
  - destruct (IH q) as (z & Hz & E). exists (2 * z + 1). split; [lia|]. rewrite gfmul_2_1, <- E, Z.shiftl_lxor by auto.
    rewrite <- !Z.lxor_assoc. f_equal. apply Z.lxor_comm.
  - destruct (IH q) as (z & Hz & E). exists (2 * z). split; [lia|]. rewrite gfmul_2, <- E, Z.shiftl_lxor by auto. reflexivity.
  - exists (2 * Zpos p + 1). split; [lia|]. rewrite gfmul_2_1 by lia. cbn [gfmul]. apply Z.lxor_comm.
  - exists (2 * Zpos q). split; [lia|]. rewrite gfmul_2 by lia. cbn [gfmul]. rewrite <- Z.lxor_assoc, Z.lxor_nilpotent, Z.lxor_0_l. reflexivity.
  - exists (2 * Zpos q + 1). split; [lia|]. rewrite gfmul_2_1 by lia. cbn [gfmul]. reflexivity.
  - exists 0. split; [lia|]. cbn. apply Z.lxor_nilpotent.
Qed.
Lemma gfmul_lxor g p q : 0 <= p -> 0 <= q -> exists z, 0 <= z /\ Z.lxor (gfmul p g) (gfmul q g) = gfmul z g.
Proof.
  intros Hp Hq. destruct p as [|p|p]; [exists q; split; auto; apply Z.lxor_0_l| |lia].
  destruct q as [|q|q]; [exists (Zpos p); split; [lia|apply Z.lxor_0_r]| |lia]. apply gfmul_lxor_pos.
Qed.

Lemma gfrem_unique a g d r1 r2 : 0 <= d -> 2 ^ d <= g < 2 ^ (d + 1) -> gfrem a g d r1 -> gfrem a g d r2 -> r1 = r2.
Proof.
  intros Hd Hg (B1 & q1 & Q1 & E1) (B2 & q2 & Q2 & E2).
  destruct (gfmul_lxor g q1 q2 Q1 Q2) as (z & Hz & E).
  assert (X : gfmul z g = Z.lxor r1 r2).
  { rewrite <- E. rewrite E1 in E2. apply Z.bits_inj'. intros k Hk. rewrite !Z.lxor_spec.
    apply (f_equal (fun x => Z.testbit x k)) in E2. rewrite !Z.lxor_spec in E2.
    destruct (Z.testbit (gfmul q1 g) k), (Z.testbit (gfmul q2 g) k), (Z.testbit r1 k), (Z.testbit r2 k); cbn in *; congruence. }
  assert (B : 0 <= Z.lxor r1 r2 < 2 ^ d) by (apply lxor_bound; auto).
  destruct z as [|p|p]; [|exfalso|lia].
  - cbn in X. symmetry in X. apply Z.lxor_eq in X. auto.
  - cbn [gfmul] in X. destruct (gfmul_pos_top g d Hd Hg p) as (k & Hk & Bk). rewrite X in Bk.
    assert (2 ^ d <= 2 ^ k) by (apply Z.pow_le_mono_r; lia). lia.
Qed.

Lemma crc_remainder w code inp len : code_ok w code -> 0 <= len <= zlen inp -> bits inp ->
  exists crc, crc_compute w code inp len = Ok crc /\ 0 <= crc < 2 ^ cbits code /\
    gfrem (Z.lxor (Z.shiftl (poly_of (firstn (Z.to_nat len) inp)) (cbits code)) (Z.shiftl (cinit code) len))
          (2 ^ cbits code + cpoly code) (cbits code) (Z.lxor crc (crem code)).
Proof.
  intros Hc Hl Hb. pose proof Hc as (H1 & H2 & H3 & H4 & H5). rewrite crc_compute_ok by auto.
  eexists; split; [reflexivity|]. split; [apply lxor_bound; auto; [lia|apply feed_range; auto; lia]|].
  rewrite Z.lxor_assoc, Z.lxor_nilpotent, Z.lxor_0_r.
  pose proof (feed_rem (cbits code) (cpoly code) (cinit code) ltac:(lia) H3 H4 (firstn (Z.to_nat len) inp) (Forall_firstn _ _ _ Hb)) as G.
  replace (zlen (firstn (Z.to_nat len) inp)) with len in G; [exact G|]. rewrite zlen_firstn'. lia.
Qed.

(* ------ set / check ------ *)
Definition crc_bit_list (r crc : Z) : list Z := map (fun i => Z.land (Z.shiftr crc (r - i - 1)) 1) (zseq 0 (Z.to_nat r)).

Lemma crc_check_loop_ok n : forall i code crc cb, 0 <= i -> i + Z.of_nat n <= zlen cb ->
  exists v, crc_check_loop n i code crc cb = Ok v /\ (v = 0 \/ v = 1) /\
   (v = 0 <-> forall k, i <= k < i + Z.of_nat n -> at0 cb k = Z.land (Z.shiftr crc (cbits code - k - 1)) 1).
Proof.
  induction n; intros i code crc cb Hi Hl; cbn [crc_check_loop].
  - exists 0. split; auto. split; auto. split; auto. intros _ k Hk. lia.
  - rewrite rd_at0 by lia. cbn [bind].
    destruct (Z.eqb_spec (Z.lxor (at0 cb i) (Z.land (Z.shiftr crc (cbits code - i - 1)) 1)) 0) as [E|E]; cbn [negb].
    + apply Z.lxor_eq in E. destruct (IHn (i + 1) code crc cb) as (v & Ev & Hv & Hiff); try lia.
      exists v. split; auto. split; auto. rewrite Hiff. split; intros H k Hk.
      * destruct (Z.eq_dec k i); [subst; auto|apply H; lia].
      * apply H; lia.
    + exists 1. split; auto. split; auto. split; [lia|]. intros H. exfalso. apply E. rewrite <- (H i) by lia. apply Z.lxor_nilpotent.
Qed.

Lemma crc_set_ok w code inp len cb : code_ok w code -> 0 <= len <= zlen inp -> cbits code <= zlen cb ->
  exists crc o, crc_compute w code inp len = Ok crc /\ crc_set w code inp len cb = Ok o /\ zlen o = zlen cb /\
    (forall k, 0 <= k < cbits code -> at0 o k = b2z (Z.testbit crc (cbits code - 1 - k))) /\
    (forall k, cbits code <= k < zlen cb -> at0 o k = at0 cb k).
Proof.
  intros Hc Hl Hb. pose proof Hc as (H1 & _). unfold crc_set. rewrite crc_compute_ok by auto. cbn [bind].
  set (crc := Z.lxor _ _). exists crc.
  rewrite (wr_loop (fun i => Z.land (Z.shiftr crc (cbits code - i - 1)) 1) cb (cbits code)) by lia.
  eexists; split; [reflexivity|]. split; [reflexivity|].
  assert (ZL : zlen (map (fun i => Z.land (Z.shiftr crc (cbits code - i - 1)) 1) (zseq 0 (Z.to_nat (cbits code)))) = cbits code)
    by (rewrite zlen_map, zlen_zseq; lia).
  split; [rewrite zlen_app, ZL, zlen_skipn'; lia|]. split.
  - intros k Hk. rewrite at0_app, ZL by lia. replace (k <? cbits code) with true by lia. rewrite at0_map_zseq by lia.
    change 1 with (Z.ones 1) at 2. rewrite Z.land_ones by lia. change (2 ^ 1) with 2. rewrite Zmod_odd.
    replace (cbits code - (0 + k) - 1) with (cbits code - 1 - k) by lia.
    rewrite <- Z.bit0_odd, Z.shiftr_spec by lia. cbn [Z.add]. reflexivity.
  - intros k Hk. rewrite at0_app, ZL by lia. replace (k <? cbits code) with false by lia.
    rewrite at0_skipn by lia. f_equal. lia.
Qed.

Lemma land1_testbit crc s : 0 <= s -> Z.land (Z.shiftr crc s) 1 = b2z (Z.testbit crc s).
Proof.
  intros. change 1 with (Z.ones 1) at 1. rewrite Z.land_ones by lia. change (2 ^ 1) with 2. rewrite Zmod_odd.
  rewrite <- Z.bit0_odd, Z.shiftr_spec by lia. cbn [Z.add]. reflexivity.
Qed.

Lemma crc_check_ok w code inp len cb : code_ok w code -> 0 <= len <= zlen inp -> cbits code <= zlen cb ->
  exists crc v, crc_compute w code inp len = Ok crc /\ crc_check w code inp len cb = Ok v /\ (v = 0 \/ v = 1) /\
    (v = 0 <-> forall k, 0 <= k < cbits code -> at0 cb k = b2z (Z.testbit crc (cbits code - 1 - k))).
Proof.
  intros Hc Hl Hb. pose proof Hc as (H1 & _). unfold crc_check. rewrite crc_compute_ok by auto. cbn [bind].
  set (crc := Z.lxor _ _). exists crc.
  destruct (crc_check_loop_ok (Z.to_nat (cbits code)) 0 code crc cb) as (v & Ev & Hv & Hiff); try lia.
  exists v. split; auto. split; auto. split; auto. rewrite Hiff. split; intros H k Hk.
  - rewrite H by lia. rewrite land1_testbit by lia. f_equal. f_equal. lia.
  - rewrite H by lia. rewrite land1_testbit by lia. f_equal. f_equal. lia.
Qed.

Lemma crc_set_check w code inp len cb : code_ok w code -> 0 <= len <= zlen inp -> cbits code <= zlen cb ->
  exists o, crc_set w code inp len cb = Ok o /\ crc_check w code inp len o = Ok 0.
Proof.
  intros Hc Hl Hb. destruct (crc_set_ok w code inp len cb) as (crc & o & E1 & E2 & L & P & _); auto.
  exists o. split; auto. destruct (crc_check_ok w code inp len o) as (crc' & v & E3 & E4 & _ & Hiff); auto; [lia|].
  rewrite E1 in E3. injection E3 as <-. rewrite E4. f_equal. apply Hiff. auto.
Qed.

(* ------ error detection ------ *)
Lemma poly_of_at l : bits l -> forall k, 0 <= k < zlen l -> Z.testbit (poly_of l) (zlen l - 1 - k) = (at0 l k =? 1).
Proof.
  induction l as [|x l IH]; intros Hb k Hk; [change (zlen (@nil Z)) with 0 in Hk; lia|].
  inversion Hb; subst. rewrite zlen_cons in *. rewrite poly_of_cons, at0_cons by lia. pose proof (poly_of_bound l H2).
  rewrite Z.add_comm, Z.mul_comm, <- lor_shiftl_add by lia. rewrite Z.lor_spec, Z.shiftl_spec by lia.
  destruct (Z.eqb_spec k 0).
  - subst. rewrite (testbit_above (poly_of l) (zlen l)) by lia. replace (1 + zlen l - 1 - 0 - zlen l) with 0 by lia. cbn [orb].
    apply testbit_bit0; auto.
  - rewrite (Z.testbit_neg_r x) by lia. rewrite orb_false_r. rewrite <- IH by (auto; lia). f_equal. lia.
Qed.

Lemma accept_iff w code m cb : code_ok w code -> bits m -> bits cb -> zlen cb = cbits code -> Z.odd (cpoly code) = true ->
  (crc_check w code m (zlen m) cb = Ok 0 <->
   feed (cbits code) (cpoly code) (cinit code) (m ++ cb) = feed (cbits code) (cpoly code) (crem code) (repeat 0 (length cb))).
Proof.
  intros Hc Hm Hcb Hl Ho. pose proof Hc as (H1 & H2 & H3 & H4 & H5).
  destruct (crc_check_ok w code m (zlen m) cb) as (crc & v & E1 & E2 & _ & Hiff); auto; try lia.
  { pose proof (zlen_nonneg m); lia. }
  rewrite crc_compute_ok in E1 by (auto; pose proof (zlen_nonneg m); lia). injection E1 as E1.
  replace (firstn (Z.to_nat (zlen m)) m) with m in E1 by (unfold zlen; rewrite Nat2Z.id, firstn_all; reflexivity).
  set (r := cbits code) in *. set (D := feed r (cpoly code) (cinit code) m) in *.
  assert (HD : 0 <= D < 2 ^ r) by (apply feed_range; auto; lia).
  assert (Hcrc : 0 <= crc < 2 ^ r) by (rewrite <- E1; apply lxor_bound; auto; lia).
  rewrite E2. rewrite feed_app. fold D. rewrite feed_bits by (auto; lia). rewrite Hl, Z.sub_diag, Z.shiftl_0_r, feed_zeros.
  assert (HP : 0 <= poly_of cb < 2 ^ r) by (rewrite <- Hl; apply poly_of_bound; auto).
  assert (Eq : (v = 0) <-> poly_of cb = crc).
  { rewrite Hiff. split.
    - intros H. apply Z.bits_inj'. intros k Hk. destruct (Z_lt_le_dec k r).
      + replace k with (zlen cb - 1 - (r - 1 - k)) at 1 by lia. rewrite poly_of_at by (auto; lia).
        rewrite H by lia. replace (r - 1 - (r - 1 - k)) with k by lia. destruct (Z.testbit crc k); reflexivity.
      + rewrite !(testbit_above _ r) by lia. reflexivity.
    - intros <- k Hk. rewrite <- Hl. rewrite poly_of_at by (auto; lia). rewrite <- bit_b2z; auto. apply bits_at0; auto. }
  split.
  - intros H. injection H as H. apply Eq in H. rewrite H, <- E1. rewrite <- Z.lxor_assoc, Z.lxor_nilpotent, Z.lxor_0_l. reflexivity.
  - intros H. f_equal. apply Eq. apply Z.lxor_eq.
    apply (Titer_inj0 (length cb) r (cpoly code)); auto; try lia; [apply lxor_bound; lia|].
    replace (Z.lxor (poly_of cb) crc) with (Z.lxor (Z.lxor D (poly_of cb)) (crem code)).
    + rewrite Titer_lin by (auto; lia). rewrite H. apply Z.lxor_nilpotent.
    + rewrite <- E1. rewrite (Z.lxor_comm D), Z.lxor_assoc. reflexivity.
Qed.

Lemma xorl_app a b c d : length a = length c -> xorl (a ++ b) (c ++ d) = xorl a c ++ xorl b d.
Proof. revert c; induction a; intros [|y c] H; try discriminate; cbn; auto. rewrite IHa; auto. Qed.
Lemma xorl_length a b : length a = length b -> length (xorl a b) = length a.
Proof. revert b; induction a; intros [|y b] H; try discriminate; cbn; auto. Qed.
Lemma xorl_bits a b : bits a -> bits b -> bits (xorl a b).
Proof.
  unfold bits. revert b; induction a; intros [|y b] Ha Hb; cbn; constructor.
  - inversion Ha; inversion Hb; subst. destruct H1 as [-> | ->], H5 as [-> | ->]; unfold is_bit; cbn; auto.
  - inversion Ha; inversion Hb; subst. apply IHa; auto.
Qed.
Lemma bits_repeat0 n : bits (repeat 0 n).
Proof. induction n; constructor; auto. left; reflexivity. Qed.

Lemma burst_detected w code m cb e1 e2 : code_ok w code -> Z.odd (cpoly code) = true ->
  bits m -> bits cb -> zlen cb = cbits code -> length e1 = length m -> length e2 = length cb ->
  burst (cbits code) (e1 ++ e2) ->
  crc_check w code m (zlen m) cb = Ok 0 ->
  crc_check w code (xorl m e1) (zlen m) (xorl cb e2) = Ok 1.
Proof.
  intros Hc Ho Hm Hcb Hl L1 L2 Hbu Hacc. pose proof Hc as (H1 & H2 & H3 & H4 & H5).
  set (r := cbits code) in *. set (p := cpoly code) in *.
  assert (Be : bits (e1 ++ e2)).
  { destruct Hbu as (a & x & b & -> & Hx & _). apply Forall_app. split; [apply bits_repeat0|].
    apply Forall_app. split; [exact Hx|apply bits_repeat0]. }
  apply Forall_app in Be. destruct Be as [Be1 Be2].
  assert (Zm : zlen (xorl m e1) = zlen m) by (unfold zlen; rewrite xorl_length; auto).
  assert (Zc : zlen (xorl cb e2) = zlen cb) by (unfold zlen; rewrite xorl_length; auto).
  destruct (crc_check_ok w code (xorl m e1) (zlen m) (xorl cb e2)) as (crc & v & _ & E2 & Hv & _); auto; try (fold r; lia).
  { pose proof (zlen_nonneg m). lia. }
  rewrite E2. f_equal. destruct Hv as [-> |]; auto. exfalso.
  rewrite <- Zm in E2. apply accept_iff in E2; auto using xorl_bits; [|fold r; lia].
  apply accept_iff in Hacc; auto. fold r p in E2, Hacc.
  rewrite <- xorl_app in E2 by auto. rewrite <- (Z.lxor_0_r (cinit code)) in E2.
  rewrite feed_lin in E2 by (auto; try lia; rewrite !app_length; lia).
  rewrite xorl_length in E2 by auto. rewrite Hacc in E2.
  assert (F0 : feed r p 0 (e1 ++ e2) = 0).
  { apply Z.bits_inj'. intros k Hk. apply (f_equal (fun z => Z.testbit z k)) in E2. rewrite Z.lxor_spec in E2. rewrite Z.bits_0.
    destruct (Z.testbit (feed r p (crem code) (repeat 0 (length cb))) k), (Z.testbit (feed r p 0 (e1 ++ e2)) k); cbn in *; congruence. }
  destruct Hbu as (a & x & b & Ee & Hx & Hin & Hlx). rewrite Ee in F0.
  rewrite !feed_app, !feed_zeros, Titer_0 in F0.
  assert (Hr1 : 1 <= r) by lia.
  apply Titer_inj0 in F0; auto; [|apply feed_range; auto; pose proof (pow2_pos r); lia].
  rewrite feed_bits in F0 by auto. apply Titer_inj0 in F0; auto.
  - rewrite Z.lxor_0_l in F0. apply Z.shiftl_eq_0_iff in F0; [|lia]. apply (poly_of_nz x); auto.
  - rewrite Z.lxor_0_l. pose proof (poly_of_bound x Hx). pose proof (zlen_nonneg x). rewrite Z.shiftl_mul_pow2 by lia.
    assert (E : 2 ^ r = 2 ^ zlen x * 2 ^ (r - zlen x)) by (rewrite <- Z.pow_add_r by lia; f_equal; lia).
    rewrite E. pose proof (pow2_pos (r - zlen x)). nia.
Qed.

Lemma crc_affine w code a b : code_ok w code -> length a = length b ->
  exists ca cb c0 cx, crc_compute w code a (zlen a) = Ok ca /\ crc_compute w code b (zlen b) = Ok cb /\
    crc_compute w code (repeat 0 (length a)) (zlen a) = Ok c0 /\ crc_compute w code (xorl a b) (zlen a) = Ok cx /\
    cx = Z.lxor (Z.lxor ca cb) c0.
Proof.
  intros Hc Hl. pose proof Hc as (H1 & H2 & H3 & H4 & H5).
  assert (F : forall l, length l = length a -> crc_compute w code l (zlen a) = Ok (Z.lxor (feed (cbits code) (cpoly code) (cinit code) l) (crem code))).
  { intros l E. rewrite crc_compute_ok; auto; [|unfold zlen; lia]. unfold zlen. rewrite Nat2Z.id, <- E, firstn_all. reflexivity. }
  do 4 eexists. split; [apply F; auto|]. split; [replace (zlen b) with (zlen a) by (unfold zlen; lia); apply F; auto|].
  split; [apply F; apply repeat_length|]. split; [apply F; apply xorl_length; auto|].
  set (f := feed (cbits code) (cpoly code)) in *.
  assert (E0 : xorl (xorl a b) (repeat 0 (length a)) = xorl a b).
  { clear -Hl. revert b Hl. induction a; intros [|y b] H; try discriminate; auto. cbn. rewrite IHa by auto. rewrite Z.lxor_0_r. reflexivity. }
  rewrite <- E0 at 1. replace (cinit code) with (Z.lxor (Z.lxor (cinit code) (cinit code)) (cinit code)) at 1
    by (rewrite Z.lxor_nilpotent, Z.lxor_0_l; reflexivity).
  unfold f. rewrite !feed_lin by (auto; try lia; rewrite ?xorl_length, ?repeat_length; auto).
  apply Z.bits_inj'. intros k Hk. rewrite !Z.lxor_spec.
  destruct (Z.testbit (feed _ _ _ a) k), (Z.testbit (feed _ _ _ b) k), (Z.testbit (feed _ _ _ (repeat _ _)) k), (Z.testbit (crem code) k); reflexivity.
Qed.
