From Coq Require Import ZArith List Lia Bool.
From Verif Require Import Base Lib S_crc16 M_crc16 P_crc.
Import ListNotations.
Open Scope Z_scope.

(** Eight shifts without input. *)
Definition sh1 (poly x : Z) : Z := Z.lxor (Z.shiftr x 1) (if Z.odd x then poly else 0).
Fixpoint shn (n : nat) (poly x : Z) : Z := match n with O => x | S m => shn m poly (sh1 poly x) end.
Lemma odd_lxor a b : Z.odd (Z.lxor a b) = xorb (Z.odd a) (Z.odd b).
Proof. rewrite <- !Z.bit0_odd. apply Z.lxor_spec. Qed.
Lemma shiftr_lxor' a b n : Z.shiftr (Z.lxor a b) n = Z.lxor (Z.shiftr a n) (Z.shiftr b n).
Proof. apply Z.shiftr_lxor. Qed.
Lemma sh1_lin p a b : sh1 p (Z.lxor a b) = Z.lxor (sh1 p a) (sh1 p b).
Proof.
  unfold sh1. rewrite shiftr_lxor', odd_lxor.
  destruct (Z.odd a), (Z.odd b); cbn [xorb]; apply Z.bits_inj'; intros k Hk; rewrite !Z.lxor_spec, ?Z.bits_0;
    destruct (Z.testbit (Z.shiftr a 1) k), (Z.testbit (Z.shiftr b 1) k), (Z.testbit p k); reflexivity.
Qed.
Lemma shn_lin n p : forall a b, shn n p (Z.lxor a b) = Z.lxor (shn n p a) (shn n p b).
Proof. induction n as [|n IH]; intros a b; cbn [shn]; [reflexivity|]. now rewrite sh1_lin, IH. Qed.
Lemma shn_high n p : forall h, shn n p (Z.shiftl h (Z.of_nat n)) = h.
Proof.
  induction n as [|n IH]; intros h; [apply Z.shiftl_0_r|]. cbn [shn]. rewrite <- (IH h) at 2. f_equal.
  unfold sh1. rewrite <- Z.bit0_odd, Z.shiftl_spec_low by lia. rewrite Z.lxor_0_r. rewrite Z.shiftr_shiftl_l by lia. now replace (Z.of_nat (S n) - 1) with (Z.of_nat n) by lia.
Qed.
Lemma split8 x : x = Z.lxor (Z.land x 255) (Z.shiftl (Z.shiftr x 8) 8).
Proof.
  apply Z.bits_inj'. intros k Hk. rewrite Z.lxor_spec, Z.land_spec. change 255 with (Z.ones 8).
  destruct (Z.lt_ge_cases k 8).
  - rewrite Z.ones_spec_low, Z.shiftl_spec_low by lia. now rewrite andb_true_r, xorb_false_r.
  - rewrite Z.ones_spec_high, Z.shiftl_spec, Z.shiftr_spec by lia. rewrite andb_false_r. rewrite xorb_false_l. now replace (k - 8 + 8) with k by lia.
Qed.
Lemma shn8 p x : shn 8 p x = Z.lxor (Z.shiftr x 8) (shn 8 p (Z.land x 255)).
Proof. rewrite (split8 x) at 1. rewrite shn_lin, Z.lxor_comm. f_equal. exact (shn_high 8 p (Z.shiftr x 8)). Qed.

(** Feeding the bits of an octet = eight shifts of the register xor the octet. *)
Lemma crc_bit_lin p r (k : Z) b : is_bit b -> crc_bit p r b = sh1 p (Z.lxor r b).
Proof.
  intros Hb. unfold crc_bit, sh1. rewrite odd_lxor, shiftr_lxor'. destruct Hb as [-> | ->]; cbn; now rewrite ?Z.lxor_0_r.
Qed.
Lemma feed_shn p : forall n o r, fold_left (crc_bit p) (map (fun k => b2z (Z.testbit o k)) (zseq 0 n)) r =
  shn n p (Z.lxor r (Z.land o (Z.ones (Z.of_nat n)))).
Proof.
  intros n. assert (G : forall n o r, fold_left (crc_bit p) (map (fun k => b2z (Z.testbit o k)) (zseq 0 n)) r =
     shn n p (Z.lxor r (Z.land o (Z.ones (Z.of_nat n))))); [|exact (G n)]. clear n.
  induction n as [|n IH]; intros o r; [change (Z.ones (Z.of_nat 0)) with 0; rewrite Z.land_0_r, Z.lxor_0_r; reflexivity|].
  replace (map (fun k => b2z (Z.testbit o k)) (zseq 0 (S n))) with
    (b2z (Z.testbit o 0) :: map (fun k => b2z (Z.testbit (Z.shiftr o 1) k)) (zseq 0 n)).
  2:{ cbn [zseq map]. f_equal. change (0 + 1) with 1. symmetry.
      assert (H : forall m a, 0 <= a -> map (fun k => b2z (Z.testbit o k)) (zseq (a + 1) m) = map (fun k => b2z (Z.testbit (Z.shiftr o 1) k)) (zseq a m)).
      { induction m as [|m IHm]; intros a Ha; [reflexivity|]. cbn [zseq map]. rewrite Z.shiftr_spec by lia. f_equal. apply IHm. lia. }
      exact (H n 0 ltac:(lia)). }
  cbn [fold_left]. rewrite IH. cbn [shn]. f_equal. rewrite (crc_bit_lin p r 0) by apply b2z_bit.
  replace (Z.land o (Z.ones (Z.of_nat (S n)))) with (Z.lxor (b2z (Z.testbit o 0)) (Z.shiftl (Z.land (Z.shiftr o 1) (Z.ones (Z.of_nat n))) 1)).
  - rewrite <- Z.lxor_assoc. rewrite (sh1_lin p (Z.lxor r (b2z (Z.testbit o 0)))).
    f_equal. symmetry. exact (shn_high 1 p _).
  - apply Z.bits_inj'. intros k Hk. rewrite Z.lxor_spec, Z.land_spec. destruct (Z.eq_dec k 0) as [->|Hk0].
    + rewrite Z.shiftl_spec_low, Z.ones_spec_low by lia. rewrite andb_true_r, xorb_false_r. destruct (Z.testbit o 0); reflexivity.
    + replace (Z.testbit (b2z (Z.testbit o 0)) k) with false
        by (symmetry; destruct (Z.testbit o 0); cbn [b2z]; [|apply Z.bits_0]; change 1 with (2 ^ 0); apply Z.pow2_bits_false; lia).
      rewrite Z.shiftl_spec, Z.land_spec, Z.shiftr_spec by lia. replace (k - 1 + 1) with k by lia. rewrite xorb_false_l. f_equal.
      destruct (Z.lt_ge_cases k (Z.of_nat (S n))).
      * rewrite !Z.ones_spec_low by lia. reflexivity.
      * rewrite !Z.ones_spec_high by lia. reflexivity.
Qed.
Lemma feed_octet p r o : is_byte o -> fold_left (crc_bit p) (octet_bits o) r = shn 8 p (Z.lxor r o).
Proof.
  intros Ho. change (octet_bits o) with (map (fun k => b2z (Z.testbit o k)) (zseq 0 8)). rewrite feed_shn.
  do 2 f_equal. change (Z.of_nat 8) with 8. rewrite Z.land_ones by lia. apply Z.mod_small. exact Ho.
Qed.
Lemma octet_step p tab r o : is_byte o -> 0 <= r -> (forall i, 0 <= i < 256 -> at0 tab i = shn 8 p i) ->
  Z.lxor (Z.shiftr r 8) (at0 tab (Z.land (Z.lxor r o) 255)) = fold_left (crc_bit p) (octet_bits o) r.
Proof.
  intros Ho Hr HT. rewrite feed_octet, shn8 by assumption. rewrite HT.
  2:{ change 255 with (Z.ones 8). rewrite Z.land_ones by lia. apply Z.mod_pos_bound. lia. }
  f_equal. rewrite shiftr_lxor'. rewrite (Z.shiftr_div_pow2 o) by lia. rewrite (Z.div_small o) by exact Ho. now rewrite Z.lxor_0_r.
Qed.
Lemma tab_ok tab p : forallb (fun i => at0 tab i =? shn 8 p i) (zseq 0 256) = true -> forall i, 0 <= i < 256 -> at0 tab i = shn 8 p i.
Proof. intros H i Hi. apply Z.eqb_eq. apply (forall_zseq (fun i => at0 tab i =? shn 8 p i) 0 256%nat H). lia. Qed.
Lemma crc16_tab : forall i, 0 <= i < 256 -> at0 osmo_crc16_table i = shn 8 POLY_8005_REV i.
Proof. apply tab_ok. vm_compute. reflexivity. Qed.
Lemma ccitt_tab : forall i, 0 <= i < 256 -> at0 osmo_crc16_ccitt_table i = shn 8 POLY_CCITT_REV i.
Proof. apply tab_ok. vm_compute. reflexivity. Qed.
Lemma crc16_byte_ok r o : is_byte o -> 0 <= r -> osmo_crc16_byte r o = crc_octets POLY_8005_REV r [o].
Proof. intros. unfold osmo_crc16_byte, crc_octets. cbn [flat_map]. rewrite app_nil_r. apply octet_step; auto using crc16_tab. Qed.
Lemma ccitt_byte_ok r o : is_byte o -> 0 <= r -> osmo_crc16_ccitt_byte r o = crc_octets POLY_CCITT_REV r [o].
Proof. intros. unfold osmo_crc16_ccitt_byte, crc_octets. cbn [flat_map]. rewrite app_nil_r. apply octet_step; auto using ccitt_tab. Qed.

Lemma crc_bit_range p r b : 0 <= p < 65536 -> 0 <= r < 65536 -> 0 <= crc_bit p r b < 65536.
Proof.
  intros Hp Hr. unfold crc_bit. change 65536 with (2 ^ 16) in *. apply lxor_bound; [lia| |destruct (xorb _ _); lia].
  rewrite Z.shiftr_div_pow2 by lia. split; [apply Z.div_pos; lia|]. apply Z.div_lt_upper_bound; lia.
Qed.
Lemma crc_octets_app p r a b : crc_octets p r (a ++ b) = crc_octets p (crc_octets p r a) b.
Proof. unfold crc_octets. now rewrite flat_map_app, fold_left_app. Qed.
Lemma crc_octets_range p r l : 0 <= p < 65536 -> 0 <= r < 65536 -> 0 <= crc_octets p r l < 65536.
Proof.
  intros Hp. unfold crc_octets. generalize (flat_map octet_bits l). intros bs. revert r. induction bs as [|b bs IH]; intros r Hr; [exact Hr|].
  cbn [fold_left]. apply IH. now apply crc_bit_range.
Qed.
Lemma crc16_ok : forall l r len, bytes l -> 0 <= r < 65536 -> (len <= length l)%nat ->
  osmo_crc16 r l len = Ok (crc_octets POLY_8005_REV r (firstn len l)).
Proof.
  induction l as [|o l IH]; intros r len Hl Hr Hn.
  - destruct len; [reflexivity|cbn in Hn; lia].
  - destruct len as [|len]; [reflexivity|]. inversion Hl; subst. cbn [osmo_crc16 firstn]. rewrite crc16_byte_ok by (auto; lia).
    rewrite IH; [|assumption|apply crc_octets_range; [unfold POLY_8005_REV; lia|lia]|cbn in Hn; lia].
    change (o :: firstn len l) with ([o] ++ firstn len l). now rewrite crc_octets_app.
Qed.
Lemma ccitt_ok : forall l r len, bytes l -> 0 <= r < 65536 -> (len <= length l)%nat ->
  osmo_crc16_ccitt r l len = Ok (crc_octets POLY_CCITT_REV r (firstn len l)).
Proof.
  induction l as [|o l IH]; intros r len Hl Hr Hn.
  - destruct len; [reflexivity|cbn in Hn; lia].
  - destruct len as [|len]; [reflexivity|]. inversion Hl; subst. cbn [osmo_crc16_ccitt firstn]. rewrite ccitt_byte_ok by (auto; lia).
    rewrite IH; [|assumption|apply crc_octets_range; [unfold POLY_CCITT_REV; lia|lia]|cbn in Hn; lia].
    change (o :: firstn len l) with ([o] ++ firstn len l). now rewrite crc_octets_app.
Qed.

(** * Residue of a message followed by its FCS, and uniqueness *)
Notation T := (at0 osmo_crc16_ccitt_table).
Definition byte_of (x : Z) : Z := Z.land x 255.
Lemma land255 x : Z.land x 255 = x mod 256.
Proof. change 255 with (Z.ones 8). apply Z.land_ones. lia. Qed.
Lemma T_range i : 0 <= T i < 65536.
Proof.
  assert (H : Forall (fun x => 0 <= x < 65536) osmo_crc16_ccitt_table).
  { apply Forall_forall. intros x Hx.
    assert (K : forallb (fun x => (0 <=? x) && (x <? 65536)) osmo_crc16_ccitt_table = true) by (vm_compute; reflexivity).
    rewrite forallb_forall in K. specialize (K x Hx). lia. }
  unfold at0. destruct (Nat.lt_ge_cases (Z.to_nat i) (length osmo_crc16_ccitt_table)).
  - rewrite Forall_forall in H. apply H. now apply nth_In.
  - rewrite nth_overflow by assumption. lia.
Qed.

Definition step (r o : Z) : Z := osmo_crc16_ccitt_byte r o.
Lemma step_eq r o : step r o = Z.lxor (Z.shiftr r 8) (T (Z.land (Z.lxor r o) 255)).
Proof. reflexivity. Qed.
Lemma step_range r o : 0 <= r < 65536 -> 0 <= step r o < 65536.
Proof.
  intros Hr. unfold step, osmo_crc16_ccitt_byte. change 65536 with (2 ^ 16) in *. apply lxor_bound; [lia| |apply T_range].
  rewrite Z.shiftr_div_pow2 by lia. split; [apply Z.div_pos; lia|]. apply Z.div_lt_upper_bound; lia.
Qed.
Lemma shr16 r : 0 <= r < 65536 -> Z.shiftr (Z.shiftr r 8) 8 = 0.
Proof. intros H. rewrite Z.shiftr_shiftr by lia. rewrite Z.shiftr_div_pow2 by lia. apply Z.div_small. exact H. Qed.
Lemma step_hi r o : 0 <= r < 65536 -> Z.shiftr (step r o) 8 = Z.shiftr (T (Z.land (Z.lxor r o) 255)) 8.
Proof. intros H. unfold step, osmo_crc16_ccitt_byte. rewrite shiftr_lxor', shr16 by exact H. apply Z.lxor_0_l. Qed.
Lemma residue r : 0 <= r < 65536 -> let c := Z.lxor r 65535 in step (step r (c mod 256)) (c / 256) = 61624.
Proof.
  intros H c.
  assert (I1 : Z.land (Z.lxor r (c mod 256)) 255 = 255).
  { rewrite <- land255. unfold c. apply Z.bits_inj'. intros k Hk. rewrite !Z.land_spec, Z.lxor_spec, Z.land_spec, Z.lxor_spec.
    change 255 with (Z.ones 8). change 65535 with (Z.ones 16). destruct (Z.lt_ge_cases k 8).
    - rewrite !Z.ones_spec_low by lia. destruct (Z.testbit r k); reflexivity.
    - rewrite (Z.ones_spec_high 8) by lia. now rewrite !andb_false_r. }
  assert (I2 : Z.land (Z.lxor (step r (c mod 256)) (c / 256)) 255 = Z.land (Z.lxor (T 255) 255) 255).
  { unfold step, osmo_crc16_ccitt_byte. rewrite I1. replace (c / 256) with (Z.shiftr c 8) by (rewrite Z.shiftr_div_pow2 by lia; reflexivity). unfold c.
    apply Z.bits_inj'. intros k Hk. rewrite !Z.land_spec, !Z.lxor_spec, !Z.shiftr_spec, Z.lxor_spec by lia.
    generalize (T 255). intros t. change 255 with (Z.ones 8). change 65535 with (Z.ones 16). destruct (Z.lt_ge_cases k 8).
    - rewrite !Z.ones_spec_low by lia. destruct (Z.testbit r (k + 8)), (Z.testbit t k); reflexivity.
    - rewrite (Z.ones_spec_high 8) by lia. now rewrite !andb_false_r. }
  unfold step at 1, osmo_crc16_ccitt_byte. rewrite I2, step_hi, I1 by exact H. vm_compute. reflexivity.
Qed.
Fixpoint index_of (x : Z) (l : list Z) (i : Z) : Z := match l with [] => -1 | y :: t => if x =? y then i else index_of x t (i + 1) end.
Lemma T_hi_inj i j : 0 <= i < 256 -> 0 <= j < 256 -> Z.shiftr (T i) 8 = Z.shiftr (T j) 8 -> i = j.
Proof.
  assert (K : forallb (fun i => index_of (Z.shiftr (T i) 8) (map (fun x => Z.shiftr x 8) osmo_crc16_ccitt_table) 0 =? i) (zseq 0 256) = true)
    by (vm_compute; reflexivity).
  intros Hi Hj E. pose proof (forall_zseq _ 0 256%nat K i ltac:(lia)) as A. pose proof (forall_zseq _ 0 256%nat K j ltac:(lia)) as B.
  cbv beta in A, B. apply Z.eqb_eq in A, B. rewrite E in A. congruence.
Qed.
Lemma land_lxor_inj r x y : is_byte x -> is_byte y -> Z.land (Z.lxor r x) 255 = Z.land (Z.lxor r y) 255 -> x = y.
Proof.
  intros Hx Hy E. assert (E2 : Z.land x 255 = Z.land y 255).
  { apply Z.bits_inj'. intros k Hk. apply (f_equal (fun z => Z.testbit z k)) in E. rewrite !Z.land_spec, !Z.lxor_spec in *.
    destruct (Z.testbit r k), (Z.testbit x k), (Z.testbit y k), (Z.testbit 255 k); cbn in *; congruence. }
  rewrite !land255, !Z.mod_small in E2 by assumption. exact E2.
Qed.
Lemma land255_range x : 0 <= Z.land x 255 < 256.
Proof. rewrite land255. apply Z.mod_pos_bound. lia. Qed.
Lemma step2_inj r x y x' y' : 0 <= r < 65536 -> is_byte x -> is_byte y -> is_byte x' -> is_byte y' ->
  step (step r x) y = step (step r x') y' -> x = x' /\ y = y'.
Proof.
  intros Hr Hx Hy Hx' Hy' E.
  pose proof (f_equal (fun z => Z.shiftr z 8) E) as E8. cbv beta in E8. rewrite !step_hi in E8 by (now apply step_range).
  apply T_hi_inj in E8; [|apply land255_range|apply land255_range].
  assert (EH : Z.shiftr (step r x) 8 = Z.shiftr (step r x') 8).
  { rewrite (step_eq (step r x)), (step_eq (step r x')) in E.
    rewrite E8 in E. set (t := T _) in E. clearbody t. rewrite <- (Z.lxor_0_r (Z.shiftr (step r x) 8)), <- (Z.lxor_0_r (Z.shiftr (step r x') 8)).
    rewrite <- (Z.lxor_nilpotent t), <- !Z.lxor_assoc. now rewrite E. }
  rewrite !step_hi in EH by assumption. apply T_hi_inj in EH; [|apply land255_range|apply land255_range].
  apply land_lxor_inj in EH; auto. subst x'. split; [reflexivity|]. apply land_lxor_inj in E8; auto.
Qed.
Lemma fcs_bytes l : bytes (fcs l).
Proof.
  unfold fcs. pose proof (crc_octets_range POLY_CCITT_REV 65535 l ltac:(unfold POLY_CCITT_REV; lia) ltac:(lia)) as H.
  set (c := crc_octets _ _ _) in *. clearbody c.
  assert (0 <= Z.lxor c 65535 < 2 ^ 16) by (apply lxor_bound; lia).
  constructor; [unfold is_byte; lia|]. constructor; [|constructor]. unfold is_byte. change (2 ^ 16) with (256 * 256) in *. split; [apply Z.div_pos; lia|apply Z.div_lt_upper_bound; lia].
Qed.
Lemma octets2 r x y : 0 <= r < 65536 -> is_byte x -> is_byte y -> crc_octets POLY_CCITT_REV r [x; y] = step (step r x) y.
Proof.
  intros Hr Hx Hy. change [x; y] with ([x] ++ [y]). rewrite crc_octets_app, <- (ccitt_byte_ok r x) by (auto; lia).
  rewrite <- ccitt_byte_ok; [reflexivity|auto|]. apply (step_range r x Hr).
Qed.
Lemma fcs_good l x : bytes l -> bytes x -> length x = 2%nat ->
  (crc_octets POLY_CCITT_REV 65535 (l ++ x) = 61624 <-> x = fcs l).
Proof.
  intros Hl Hx Lx. destruct x as [|a [|b [|? ?]]]; try discriminate Lx. inversion Hx as [|? ? Ha Hx']; subst. inversion Hx' as [|? ? Hb _]; subst.
  pose proof (crc_octets_range POLY_CCITT_REV 65535 l ltac:(unfold POLY_CCITT_REV; lia) ltac:(lia)) as H.
  pose proof (fcs_bytes l) as FB. unfold fcs in *. rewrite crc_octets_app. set (c := crc_octets POLY_CCITT_REV 65535 l) in *. clearbody c. cbv zeta in *.
  rewrite octets2 by assumption. pose proof (residue c H) as R. cbv zeta in R.
  inversion FB as [|? ? F1 F2]; subst. inversion F2 as [|? ? F3 _]; subst.
  split.
  - intros E. rewrite <- R in E. apply step2_inj in E; auto. destruct E as [-> ->]. reflexivity.
  - intros E. injection E as -> ->. exact R.
Qed.
