From Verif Require Import Base S_bits M_bits P_bits M_bitvec.

Lemma msb_num_bound f s n : 0 <= msb_num f s n < 2 ^ Z.of_nat n.
Proof.
  induction n; [simpl; lia|]. cbn [msb_num]. rewrite Nat2Z.inj_succ, Z.pow_succ_r by lia.
  unfold b2z. destruct (f _); lia.
Qed.

Lemma msb_num_testbit f s n k : 0 <= k < Z.of_nat n ->
  Z.testbit (msb_num f s n) k = f (s + Z.of_nat n - 1 - k).
Proof.
  revert k; induction n; intros k Hk; [lia|]. cbn [msb_num].
  destruct (Z.eq_dec k 0).
  - subst. replace (2 * msb_num f s n + b2z (f (s + Z.of_nat n))) with (2 * msb_num f s n + Z.b2z (f (s + Z.of_nat n))).
    2:{ unfold b2z, Z.b2z. destruct (f _); lia. }
    rewrite Z.testbit_0_r. f_equal. lia.
  - replace k with (Z.succ (k - 1)) at 1 by lia.
    replace (2 * msb_num f s n + b2z (f (s + Z.of_nat n))) with (2 * msb_num f s n + Z.b2z (f (s + Z.of_nat n))).
    2:{ unfold b2z, Z.b2z. destruct (f _); lia. }
    rewrite Z.testbit_succ_r by lia. rewrite IHn by lia. f_equal. lia.
Qed.

Lemma msb_num_ext f g s t n : (forall i, 0 <= i < Z.of_nat n -> f (s + i) = g (t + i)) -> msb_num f s n = msb_num g t n.
Proof. induction n; intros H; cbn [msb_num]; auto. rewrite IHn by (intros; apply H; lia). rewrite H by lia. reflexivity. Qed.

Lemma msb_num_unique f s n x : 0 <= x < 2 ^ Z.of_nat n ->
  (forall k, 0 <= k < Z.of_nat n -> Z.testbit x k = f (s + Z.of_nat n - 1 - k)) -> x = msb_num f s n.
Proof.
  intros Hx H. apply Z.bits_inj'. intros k Hk. destruct (Z_lt_le_dec k (Z.of_nat n)).
  - rewrite H, msb_num_testbit by lia. reflexivity.
  - rewrite !(testbit_above _ (Z.of_nat n)) by (try apply msb_num_bound; lia). reflexivity.
Qed.

(* the digits of v itself *)
Lemma msb_num_self v n s : (forall i, 0 <= i < Z.of_nat n -> True) ->
  msb_num (fun j => Z.testbit v (Z.of_nat n - 1 - (j - s))) s n = v mod 2 ^ Z.of_nat n.
Proof.
  intros _. symmetry. apply msb_num_unique.
  - apply Z.mod_pos_bound. apply pow2_pos; lia.
  - intros k Hk. rewrite Z.mod_pow2_bits_low by lia. f_equal. lia.
Qed.

(* ------------ masks and single bits ------------ *)
Lemma bitval2mask_bit v m i : 0 <= m < 8 -> 0 <= i < 8 ->
  Z.testbit (bitval2mask v m) i = (i =? m) && bitval v (7 - m).
Proof.
  intros Hm Hi. unfold bitval2mask, bitval, lbit, ZERO, ONE, BL, BH.
  replace (7 - (7 - m) mod 8) with m by lia.
  destruct (Z.eqb_spec v 0).
  { subst. cbn [Z.eqb]. rewrite Z.shiftl_0_l. change (u8 0) with 0. rewrite Z.bits_0, andb_false_r. reflexivity. }
  destruct (Z.eqb_spec v 1).
  { rewrite testbit_u8, testbit_shl1 by lia. rewrite andb_true_r. replace (i <? 8) with true by lia. reflexivity. }
  destruct (Z.eqb_spec v 2).
  { rewrite testbit_u8, Z.land_spec, Z.lxor_spec, Z.shiftl_0_l, Z.bits_0, xorb_false_r, testbit_shl1 by lia.
    replace (i <? 8) with true by lia. cbn [andb]. destruct (Z.eqb_spec i m); [subst; rewrite andb_true_r|rewrite andb_false_r]; reflexivity. }
  destruct (Z.eqb_spec v 3).
  { rewrite testbit_u8, Z.land_spec, Z.lxor_spec, testbit_shl1 by lia.
    replace (i <? 8) with true by lia. cbn [andb]. destruct (Z.eqb_spec i m).
    - subst; rewrite andb_true_r, xorb_true_r. reflexivity.
    - rewrite andb_false_r. reflexivity. }
  rewrite Z.bits_0, andb_false_r. reflexivity.
Qed.

Lemma bitval2mask_range v m : is_byte (bitval2mask v m).
Proof.
  unfold bitval2mask. repeat destruct (_ =? _); try apply u8_range. unfold is_byte; lia.
Qed.

Lemma mask_neq0 x m : is_byte x -> 0 <= m < 8 ->
  negb (Z.land x (bitval2mask ONE m) =? 0) = Z.testbit x m.
Proof.
  intros. replace (bitval2mask ONE m) with (Z.shiftl 1 m); [apply land_bit_neq0; lia|].
  apply byte_bits_ext.
  - unfold is_byte. rewrite Z.shiftl_1_l. split; [apply Z.pow_nonneg; lia|]. change 256 with (2 ^ 8).
    apply Z.pow_lt_mono_r; lia.
  - apply bitval2mask_range.
  - intros i Hi. rewrite bitval2mask_bit, testbit_shl1 by lia. unfold bitval, ONE. cbn [Z.eqb Pos.eqb]. rewrite andb_true_r. reflexivity.
Qed.

Definition wf (bv : bitvec) : Prop := bytes (bdata bv) /\ 8 * data_len bv < 2 ^ 32 /\ 0 <= cur_bit bv.

Lemma get_bit_pos_ok bv n : bytes (bdata bv) -> 0 <= n < 8 * data_len bv ->
  bitvec_get_bit_pos bv n = b2z (pbit false (bdata bv) n).
Proof.
  intros Hb Hn. unfold bitvec_get_bit_pos, pbit. replace (data_len bv <=? n / 8) with false by (unfold data_len in *; lia).
  rewrite mask_neq0; try lia; [|apply bytes_at0; auto].
  destruct (Z.testbit _ _); reflexivity.
Qed.
Lemma get_bit_pos_out bv n : 8 * data_len bv <= n -> bitvec_get_bit_pos bv n = - EINVAL.
Proof. intros. unfold bitvec_get_bit_pos. replace (data_len bv <=? n / 8) with true by lia. reflexivity. Qed.

Lemma get_bit_pos_high_ok bv n : bytes (bdata bv) -> 0 <= n < 8 * data_len bv ->
  bitvec_get_bit_pos_high bv n = if Bool.eqb (pbit false (bdata bv) n) (bitval BH n) then BH else BL.
Proof.
  intros Hb Hn. unfold bitvec_get_bit_pos_high. replace (data_len bv <=? n / 8) with false by lia.
  unfold pbit. set (x := at0 (bdata bv) (n / 8)). assert (is_byte x) by (apply bytes_at0; auto).
  set (m := 7 - n mod 8). assert (0 <= m < 8) by (unfold m; lia).
  replace (Z.land x (Z.shiftl 1 m) =? bitval2mask BH m) with (Bool.eqb (Z.testbit x m) (bitval BH n)); auto.
  assert (Em : bitval BH (7 - m) = bitval BH n).
  { unfold bitval, lbit. replace (7 - (7 - m) mod 8) with (7 - n mod 8) by (unfold m; lia). reflexivity. }
  destruct (Bool.eqb _ _) eqn:E.
  - symmetry. apply Z.eqb_eq. apply eqb_prop in E. apply byte_bits_ext.
    + apply byte_of_bits; [apply Z.land_nonneg; unfold is_byte in *; lia|].
      intros k Hk. rewrite Z.land_spec, byte_testbit_above; auto.
    + apply bitval2mask_range.
    + intros i Hi. rewrite bitval2mask_bit, Z.land_spec, testbit_shl1, Em by lia.
      destruct (Z.eqb_spec i m); [subst; rewrite andb_true_r, E; reflexivity|rewrite andb_false_r; reflexivity].
  - symmetry. apply Z.eqb_neq. intros E2. apply eqb_false_iff in E. apply E.
    apply (f_equal (fun z => Z.testbit z m)) in E2. rewrite bitval2mask_bit, Z.land_spec, testbit_shl1, Em, Z.eqb_refl, andb_true_r in E2 by lia.
    exact E2.
Qed.
Lemma get_bit_pos_high_out bv n : 8 * data_len bv <= n -> bitvec_get_bit_pos_high bv n = - EINVAL.
Proof. intros. unfold bitvec_get_bit_pos_high. replace (data_len bv <=? n / 8) with true by lia. reflexivity. Qed.

Lemma set_bit_pos_ok bv n v : bytes (bdata bv) -> 0 <= n < 8 * data_len bv ->
  exists bv', bitvec_set_bit_pos bv n v = (0, bv') /\ cur_bit bv' = cur_bit bv /\
    data_len bv' = data_len bv /\ bytes (bdata bv') /\
    forall j, 0 <= j -> pbit false (bdata bv') j = if j =? n then bitval v n else pbit false (bdata bv) j.
Proof.
  intros Hb Hn. unfold bitvec_set_bit_pos. replace (data_len bv <=? n / 8) with false by lia.
  eexists; split; [reflexivity|]. cbn [cur_bit bdata]. split; auto.
  split; [unfold data_len; cbn; rewrite zlen_upd; auto|].
  split; [apply Forall_upd; auto; apply u8_range|].
  intros j Hj. rewrite pbit_upd by (unfold data_len in *; lia).
  destruct (Z.eqb_spec (j / 8) (n / 8)) as [E|E].
  - rewrite testbit_u8, Z.lor_spec, testbit_u8, Z.land_spec, Z.lnot_spec, !bitval2mask_bit by lia.
    replace (7 - j mod 8 <? 8) with true by lia. cbn [andb].
    replace (7 - j mod 8 =? 7 - n mod 8) with (j =? n) by lia.
    destruct (Z.eqb_spec j n).
    + subst. cbn [andb]. change (bitval ONE _) with true. cbn [negb]. rewrite andb_false_r. cbn [orb].
      unfold bitval, lbit. replace (7 - (7 - (7 - n mod 8)) mod 8) with (7 - n mod 8) by lia. reflexivity.
    + cbn [andb negb]. rewrite andb_true_r, orb_false_r. unfold pbit. rewrite E. reflexivity.
  - destruct (Z.eqb_spec j n); [subst; congruence|]. reflexivity.
Qed.
Lemma set_bit_pos_out bv n v : 8 * data_len bv <= n -> bitvec_set_bit_pos bv n v = (- EINVAL, bv).
Proof. intros. unfold bitvec_set_bit_pos. replace (data_len bv <=? n / 8) with true by lia. reflexivity. Qed.

(* ------------ runs of bits ------------ *)
Definition set_run (bv : bitvec) (bl : list Z) (rc : Z) (bv' : bitvec) : Prop :=
  rc = (if (zlen bl =? 0) || (cur_bit bv + zlen bl <=? 8 * data_len bv) then 0 else - EINVAL) /\
  cur_bit bv' = cur_bit bv + Z.min (zlen bl) (Z.max 0 (8 * data_len bv - cur_bit bv)) /\
  data_len bv' = data_len bv /\ bytes (bdata bv') /\
  forall j, 0 <= j -> pbit false (bdata bv') j =
    if (cur_bit bv <=? j) && (j <? cur_bit bv + zlen bl) && (j <? 8 * data_len bv)
    then bitval (at0 bl (j - cur_bit bv)) j else pbit false (bdata bv) j.

Lemma set_bits_ok bl : forall bv, wf bv ->
  let '(rc, bv') := bitvec_set_bits bv bl in set_run bv bl rc bv'.
Proof.
  induction bl as [|b t IH]; intros bv (Hb & Hl & Hc); cbn [bitvec_set_bits].
  - unfold set_run. change (zlen (@nil Z)) with 0. cbn [Z.eqb orb]. repeat split; auto; try lia.
    intros j Hj. replace ((cur_bit bv <=? j) && (j <? cur_bit bv + 0) && (j <? 8 * data_len bv)) with false by lia. reflexivity.
  - unfold bitvec_set_bit. assert (Hz := zlen_nonneg t). destruct (Z_lt_le_dec (cur_bit bv) (8 * data_len bv)).
    + destruct (set_bit_pos_ok bv (cur_bit bv) b Hb) as (bv1 & E & C1 & L1 & B1 & P1); [lia|].
      rewrite E. cbn [Z.eqb negb]. rewrite u32_small by (unfold is_u32; lia).
      set (bv2 := Bv (cur_bit bv1 + 1) (bdata bv1)).
      assert (W2 : wf bv2).
      { unfold wf, bv2; cbn. unfold data_len in *; cbn. rewrite L1. repeat split; auto; lia. }
      specialize (IH bv2 W2). destruct (bitvec_set_bits bv2 t) as [rc bv'].
      destruct IH as (I1 & I2 & I3 & I4 & I5).
      assert (Ec : cur_bit bv2 = cur_bit bv + 1) by (cbn; lia).
      assert (El : data_len bv2 = data_len bv) by (unfold data_len in *; cbn; auto).
      unfold set_run. rewrite Ec, El, zlen_cons in *.
      split; [|split; [|split; [|split]]]; auto.
      * rewrite I1. replace ((1 + zlen t =? 0) || (cur_bit bv + (1 + zlen t) <=? 8 * data_len bv))
          with ((zlen t =? 0) || (cur_bit bv + 1 + zlen t <=? 8 * data_len bv)) by lia. reflexivity.
      * lia.
      * intros j Hj. rewrite I5 by lia.
        destruct ((cur_bit bv + 1 <=? j) && (j <? cur_bit bv + 1 + zlen t) && (j <? 8 * data_len bv)) eqn:E1.
        -- replace ((cur_bit bv <=? j) && (j <? cur_bit bv + (1 + zlen t)) && (j <? 8 * data_len bv)) with true by lia.
           rewrite at0_cons by lia. destruct (Z.eqb_spec (j - cur_bit bv) 0); [lia|].
           do 2 f_equal. lia.
        -- cbn [bdata bv2]. rewrite P1 by lia. destruct (Z.eqb_spec j (cur_bit bv)).
           ++ subst j. replace ((cur_bit bv <=? cur_bit bv) && (cur_bit bv <? cur_bit bv + (1 + zlen t)) && (cur_bit bv <? 8 * data_len bv)) with true by lia.
              rewrite Z.sub_diag. reflexivity.
           ++ replace ((cur_bit bv <=? j) && (j <? cur_bit bv + (1 + zlen t)) && (j <? 8 * data_len bv)) with false by lia. reflexivity.
    + rewrite set_bit_pos_out by lia. change (- EINVAL =? 0) with false. cbn [negb]. unfold set_run. rewrite zlen_cons.
      replace ((1 + zlen t =? 0) || (cur_bit bv + (1 + zlen t) <=? 8 * data_len bv)) with false by lia.
      repeat split; auto; try lia.
      intros j Hj. replace ((cur_bit bv <=? j) && (j <? cur_bit bv + (1 + zlen t)) && (j <? 8 * data_len bv)) with false by lia. reflexivity.
Qed.

Fixpoint u64_bits (n : nat) (v : Z) (lh : bool) : list Z :=
  match n with
  | O => []
  | S m => (if negb (Z.land v (Z.shiftl 1 (Z.of_nat m)) =? 0)
            then (if lh then BH else 1) else (if lh then BL else 0)) :: u64_bits m v lh
  end.
Lemma set_u64_is_bits n : forall bv v lh, set_u64_loop n bv v lh = bitvec_set_bits bv (u64_bits n v lh).
Proof.
  induction n; intros; cbn [set_u64_loop u64_bits bitvec_set_bits]; auto.
  destruct (bitvec_set_bit _ _) as [rc bv']. destruct (rc =? 0); cbn; auto.
Qed.
Lemma u64_bits_len n v lh : zlen (u64_bits n v lh) = Z.of_nat n.
Proof. induction n; cbn [u64_bits]; auto. rewrite zlen_cons, IHn. lia. Qed.
Lemma u64_bits_at n v lh i : 0 <= i < Z.of_nat n ->
  at0 (u64_bits n v lh) i =
  if Z.testbit v (Z.of_nat n - 1 - i) then (if lh then BH else 1) else (if lh then BL else 0).
Proof.
  revert i; induction n; intros i Hi; [lia|]. cbn [u64_bits]. rewrite at0_cons by lia.
  destruct (Z.eqb_spec i 0).
  - subst. rewrite land_bit_neq0 by lia. replace (Z.of_nat (S n) - 1 - 0) with (Z.of_nat n) by lia. reflexivity.
  - rewrite IHn by lia. replace (Z.of_nat n - 1 - (i - 1)) with (Z.of_nat (S n) - 1 - i) by lia. reflexivity.
Qed.

(* numeric fields *)
Definition set_field (bv : bitvec) (v n : Z) (lh : bool) (rc : Z) (bv' : bitvec) : Prop :=
  rc = (if (n =? 0) || (cur_bit bv + n <=? 8 * data_len bv) then 0 else - EINVAL) /\
  cur_bit bv' = cur_bit bv + Z.min n (Z.max 0 (8 * data_len bv - cur_bit bv)) /\
  data_len bv' = data_len bv /\ bytes (bdata bv') /\
  forall j, 0 <= j -> pbit false (bdata bv') j =
    if (cur_bit bv <=? j) && (j <? cur_bit bv + n) && (j <? 8 * data_len bv)
    then xorb (lh && lbit j) (Z.testbit v (n - 1 - (j - cur_bit bv))) else pbit false (bdata bv) j.

Lemma set_u64_ok bv v n lh : wf bv -> 0 <= n <= 64 ->
  let '(rc, bv') := bitvec_set_u64 bv v n lh in set_field bv v n lh rc bv'.
Proof.
  intros W Hn. unfold bitvec_set_u64. replace (64 <? n) with false by lia.
  rewrite set_u64_is_bits. pose proof (set_bits_ok (u64_bits (Z.to_nat n) v lh) bv W) as G.
  destruct (bitvec_set_bits _ _) as [rc bv']. destruct G as (G1 & G2 & G3 & G4 & G5).
  rewrite u64_bits_len, Z2Nat.id in * by lia. unfold set_field. repeat split; auto.
  intros j Hj. rewrite G5 by lia.
  destruct ((cur_bit bv <=? j) && (j <? cur_bit bv + n) && (j <? 8 * data_len bv)) eqn:E; auto.
  rewrite u64_bits_at by lia. rewrite Z2Nat.id by lia.
  unfold bitval, BH, BL. destruct (Z.testbit v _), lh; cbn; destruct (lbit j); reflexivity.
Qed.

Lemma set_u64_too_big bv v n lh : 64 < n -> bitvec_set_u64 bv v n lh = (- E2BIG, bv).
Proof. intros. unfold bitvec_set_u64. replace (64 <? n) with true by lia. reflexivity. Qed.

Lemma write_field_ok bv w v n : bytes (bdata bv) -> 8 * data_len bv < 2 ^ 32 -> 0 <= w -> 0 <= n <= 64 ->
  w + n <= 8 * data_len bv ->
  exists bv', bitvec_write_field bv w v n = (0, w + n, bv') /\ cur_bit bv' = w + n /\
    data_len bv' = data_len bv /\ bytes (bdata bv') /\
    forall j, 0 <= j -> pbit false (bdata bv') j =
      if (w <=? j) && (j <? w + n) then Z.testbit v (n - 1 - (j - w)) else pbit false (bdata bv) j.
Proof.
  intros Hb Hl Hw Hn Hf. unfold bitvec_write_field. rewrite u8_small by (unfold is_byte; lia).
  pose proof (set_u64_ok (Bv w (bdata bv)) v n false) as G.
  destruct (bitvec_set_u64 _ _ _ _) as [rc bv'].
  destruct G as (G1 & G2 & G3 & G4 & G5); [unfold wf; cbn; auto|lia|].
  unfold data_len in *. cbn [cur_bit bdata] in *.
  replace ((n =? 0) || (w + n <=? 8 * zlen (bdata bv))) with true in G1 by lia. subst rc. cbn [Z.eqb negb].
  exists bv'. rewrite u32_small by (unfold is_u32; lia). repeat split; auto; try lia.
  intros j Hj. rewrite G5 by lia.
  replace ((w <=? j) && (j <? w + n) && (j <? 8 * zlen (bdata bv))) with ((w <=? j) && (j <? w + n)) by lia.
  cbn [andb]. rewrite xorb_false_l. reflexivity.
Qed.

Lemma write_field_out bv w v n : bytes (bdata bv) -> 8 * data_len bv < 2 ^ 32 -> 0 <= w -> 1 <= n <= 64 ->
  8 * data_len bv < w + n ->
  exists bv', bitvec_write_field bv w v n = (- EINVAL, w, bv') /\ data_len bv' = data_len bv /\
    forall j, 0 <= j < w -> pbit false (bdata bv') j = pbit false (bdata bv) j.
Proof.
  intros Hb Hl Hw Hn Hf. unfold bitvec_write_field. rewrite u8_small by (unfold is_byte; lia).
  pose proof (set_u64_ok (Bv w (bdata bv)) v n false) as G.
  destruct (bitvec_set_u64 _ _ _ _) as [rc bv'].
  destruct G as (G1 & G2 & G3 & G4 & G5); [unfold wf; cbn; auto|lia|].
  unfold data_len in *. cbn [cur_bit bdata] in *.
  replace ((n =? 0) || (w + n <=? 8 * zlen (bdata bv))) with false in G1 by lia. subst rc. change (negb (- EINVAL =? 0)) with true. cbv iota.
  exists bv'. repeat split; auto.
  intros j Hj. rewrite G5 by lia.
  replace ((w <=? j) && (j <? w + n) && (j <? 8 * zlen (bdata bv))) with false by lia. reflexivity.
Qed.

(* ------------ reading ------------ *)
Lemma read_field_ok bv r n : bytes (bdata bv) -> 8 * data_len bv < 2 ^ 32 -> 0 <= r -> 0 <= n <= 64 ->
  r + n <= 8 * data_len bv ->
  bitvec_read_field bv r n =
  Ok (0, msb_num (pbit false (bdata bv)) r (Z.to_nat n), r + n, Bv (r + n) (bdata bv)).
Proof.
  intros Hb Hl Hr Hn Hf. unfold bitvec_read_field.
  replace (negb (n =? 0) && (data_len bv <=? u32 (r + n - 1) / 8)) with false.
  2:{ destruct (Z.eqb_spec n 0); [reflexivity|]. rewrite u32_small by (unfold is_u32; lia). cbn [negb andb]. lia. }
  match goal with |- context [zfor _ _ ?f _] =>
  destruct (zfor_inv (fun i s => snd s = r + i /\ 0 <= fst s < 2 ^ n /\
     forall k, 0 <= k < n -> Z.testbit (fst s) k = (n - i <=? k) && pbit false (bdata bv) (r + n - 1 - k))
     f (Z.to_nat n) 0 (0, r)) as ([ui cur] & E & H1 & H2 & H3) end.
  - cbn [fst snd]. split; [lia|]. split; [pose proof (pow2_pos n); lia|].
    intros k Hk. rewrite Z.bits_0. replace (n - 0 <=? k) with false by lia. reflexivity.
  - intros i [ui cur] Hi (Hc & Hu & Hk). cbn [fst snd] in *. subst cur.
    rewrite rd_at0 by (unfold data_len in *; lia). cbn [bind].
    rewrite land_bit_neq0 by lia.
    change (Z.testbit (at0 (bdata bv) ((r + i) / 8)) (7 - (r + i) mod 8)) with (pbit false (bdata bv) (r + i)).
    replace (64 <=? n - i - 1) with false by lia. rewrite andb_false_r.
    eexists; split; [reflexivity|]. cbn [fst snd]. rewrite u32_small by (unfold is_u32; lia).
    split; [lia|].
    assert (G : forall k, 0 <= k -> Z.testbit (if pbit false (bdata bv) (r + i) then Z.lor ui (Z.shiftl 1 (n - i - 1)) else ui) k =
       if k <? n then (n - (i + 1) <=? k) && pbit false (bdata bv) (r + n - 1 - k) else false).
    { intros k Hk0. destruct (Z.ltb_spec k n).
      - destruct (Z.eq_dec k (n - i - 1)).
        + subst k. replace (n - (i + 1) <=? n - i - 1) with true by lia. replace (r + n - 1 - (n - i - 1)) with (r + i) by lia.
          destruct (pbit false (bdata bv) (r + i)) eqn:Ep; cbn [andb].
          * rewrite Z.lor_spec, testbit_shl1, Z.eqb_refl, orb_true_r by lia. reflexivity.
          * rewrite Hk by lia. replace (n - i <=? n - i - 1) with false by lia. reflexivity.
        + replace (n - (i + 1) <=? k) with (n - i <=? k) by lia. rewrite <- Hk by lia.
          destruct (pbit false (bdata bv) (r + i)); auto.
          rewrite Z.lor_spec, testbit_shl1 by lia. replace (k =? n - i - 1) with false by lia. apply orb_false_r.
      - destruct (pbit false (bdata bv) (r + i)).
        + rewrite Z.lor_spec, testbit_shl1 by lia. replace (k =? n - i - 1) with false by lia.
          rewrite (testbit_above ui n k) by lia. reflexivity.
        + apply testbit_above with n; lia. }
    split; [|intros k Hk2; rewrite G by lia; replace (k <? n) with true by lia; reflexivity].
    assert (0 <= (if pbit false (bdata bv) (r + i) then Z.lor ui (Z.shiftl 1 (n - i - 1)) else ui)).
    { destruct (pbit _ _ _); [apply Z.lor_nonneg; split; [lia|apply Z.shiftl_nonneg; lia]|lia]. }
    split; auto. apply bits_bound; auto; [lia|]. intros m Hm. rewrite G by lia. replace (m <? n) with false by lia. reflexivity.
  - rewrite E. cbn [bind]. cbn [fst snd] in *. subst cur. replace (0 + Z.of_nat (Z.to_nat n)) with n in * by lia.
    rewrite u32_small by (unfold is_u32; lia).
    replace ui with (msb_num (pbit false (bdata bv)) r (Z.to_nat n)); [reflexivity|].
    symmetry. apply msb_num_unique; rewrite Z2Nat.id by lia; auto.
    intros k Hk. rewrite H3 by lia. replace (n - n <=? k) with true by lia. reflexivity.
Qed.

Lemma read_field_out bv r n : 0 <= r -> 1 <= n -> r + n <= 2 ^ 32 -> 8 * data_len bv < r + n ->
  bitvec_read_field bv r n = Ok (EOVERFLOW, 0, r, bv).
Proof.
  intros. unfold bitvec_read_field. rewrite u32_small by (unfold is_u32; lia).
  replace (negb (n =? 0) && (data_len bv <=? (r + n - 1) / 8)) with true by lia. reflexivity.
Qed.

Lemma write_read bv w v n : bytes (bdata bv) -> 8 * data_len bv < 2 ^ 32 -> 0 <= w -> 0 <= n <= 64 ->
  w + n <= 8 * data_len bv ->
  exists bv', bitvec_write_field bv w v n = (0, w + n, bv') /\
    bitvec_read_field bv' w n = Ok (0, v mod 2 ^ n, w + n, bv').
Proof.
  intros Hb Hl Hw Hn Hf. destruct (write_field_ok bv w v n) as (bv' & E & C & L & B & P); auto.
  exists bv'; split; auto. rewrite read_field_ok; auto; try lia.
  replace (Bv (w + n) (bdata bv')) with bv' by (destruct bv'; cbn in *; subst; reflexivity).
  replace (msb_num (pbit false (bdata bv')) w (Z.to_nat n)) with (v mod 2 ^ n); auto.
  rewrite <- (Z2Nat.id n) at 1 by lia. rewrite <- (msb_num_self v (Z.to_nat n) w) by auto.
  apply msb_num_ext. intros i Hi. rewrite P by lia. replace ((w <=? w + i) && (w + i <? w + n)) with true by lia.
  rewrite Z2Nat.id by lia. reflexivity.
Qed.

Lemma get_uint_ok n : forall bv acc, bytes (bdata bv) -> 8 * data_len bv < 2 ^ 32 -> 0 <= cur_bit bv ->
  (n <= 32)%nat -> cur_bit bv + Z.of_nat n <= 8 * data_len bv -> acc mod 2 ^ Z.of_nat n = 0 -> 0 <= acc ->
  get_uint_loop n bv acc =
  Ok (s32 (acc + msb_num (pbit false (bdata bv)) (cur_bit bv) n), Bv (cur_bit bv + Z.of_nat n) (bdata bv)).
Proof.
  induction n; intros bv acc Hb Hl Hc Hn Hf Ha Hp.
  - cbn [get_uint_loop msb_num]. rewrite !Z.add_0_r. destruct bv; reflexivity.
  - cbn [get_uint_loop]. rewrite get_bit_pos_ok by (auto; lia).
    set (b := pbit false (bdata bv) (cur_bit bv)).
    replace (b2z b <? 0) with false by (destruct b; reflexivity).
    replace (32 <=? Z.of_nat n) with false by lia. rewrite andb_false_r.
    rewrite u32_small by (unfold is_u32; lia).
    assert (Hd : acc mod 2 ^ Z.of_nat n = 0).
    { rewrite Nat2Z.inj_succ, Z.pow_succ_r in Ha by lia. apply Z.mod_divide; [pose proof (pow2_pos (Z.of_nat n)); lia|].
      apply Z.mod_divide in Ha; [|pose proof (pow2_pos (Z.of_nat n)); lia].
      destruct Ha as [q ->]. exists (2 * q). lia. }
    assert (Eacc : (if negb (b2z b =? 0) then Z.lor acc (Z.shiftl 1 (Z.of_nat n)) else acc) = acc + b2z b * 2 ^ Z.of_nat n).
    { destruct b; cbn [b2z Z.eqb negb]; [|lia].
      rewrite Nat2Z.inj_succ in Ha. apply Z.mod_divide in Ha; [|pose proof (pow2_pos (Z.succ (Z.of_nat n))); lia].
      destruct Ha as [q ->].
      rewrite Z.lor_comm. rewrite <- (Z.shiftl_mul_pow2 q (Z.succ (Z.of_nat n))) by lia.
      rewrite lor_shiftl_add; [rewrite Z.shiftl_mul_pow2, Z.shiftl_mul_pow2 by lia; lia|lia|].
      rewrite Z.shiftl_1_l. split; [pose proof (pow2_pos (Z.of_nat n)); lia|]. apply Z.pow_lt_mono_r; lia. }
    rewrite Eacc. rewrite IHn; cbn [cur_bit bdata]; auto; try lia.
    + replace (cur_bit bv + 1 + Z.of_nat n) with (cur_bit bv + Z.of_nat (S n)) by lia.
      replace (acc + b2z b * 2 ^ Z.of_nat n + msb_num (pbit false (bdata bv)) (cur_bit bv + 1) n)
        with (acc + msb_num (pbit false (bdata bv)) (cur_bit bv) (S n)); auto.
      assert (S1 : forall m f s, msb_num f s (S m) = b2z (f s) * 2 ^ Z.of_nat m + msb_num f (s + 1) m).
      { clear. induction m; intros f s.
        - cbn [msb_num]. change (2 ^ Z.of_nat 0) with 1. rewrite Nat2Z.inj_0, Z.add_0_r. lia.
        - cbn [msb_num] in *. rewrite IHm.
          replace (s + 1 + Z.of_nat m) with (s + Z.of_nat (S m)) by lia.
          replace (2 ^ Z.of_nat (S m)) with (2 * 2 ^ Z.of_nat m) by (rewrite Nat2Z.inj_succ, Z.pow_succ_r by lia; lia). lia. }
      rewrite S1. unfold b. lia.
    + unfold data_len in *; cbn [bdata]; lia.
    + rewrite Z.mod_add; auto. pose proof (pow2_pos (Z.of_nat n)); lia.
    + pose proof (pow2_pos (Z.of_nat n)). destruct b; cbn [b2z]; lia.
Qed.

(* ------------ fill, padding, search ------------ *)
Lemma fill_is_bits n : forall bv v,
  fill_loop n bv v = bitvec_set_bits bv (repeat v n).
Proof.
  induction n; intros; cbn [fill_loop repeat bitvec_set_bits]; auto.
  destruct (bitvec_set_bit bv v) as [rc bv'] eqn:E. unfold bitvec_set_bit, bitvec_set_bit_pos in E.
  destruct (data_len bv <=? cur_bit bv / 8); cbn in E; injection E as <- <-; cbn; auto.
Qed.

Lemma at0_repeat v n i : 0 <= i < Z.of_nat n -> at0 (repeat v n) i = v.
Proof. intros. unfold at0. rewrite nth_indep with (d' := v) by (rewrite repeat_length; lia). apply nth_repeat. Qed.
Lemma zlen_repeat {A} (v : A) n : zlen (repeat v n) = Z.of_nat n.
Proof. unfold zlen. rewrite repeat_length. reflexivity. Qed.

Lemma fill_ok bv n v : wf bv -> 0 <= n -> cur_bit bv + n <= 8 * data_len bv ->
  exists bv', bitvec_fill bv n v = (0, bv') /\ cur_bit bv' = cur_bit bv + n /\ data_len bv' = data_len bv /\
    bytes (bdata bv') /\
    forall j, 0 <= j -> pbit false (bdata bv') j =
      if (cur_bit bv <=? j) && (j <? cur_bit bv + n) then bitval v j else pbit false (bdata bv) j.
Proof.
  intros W Hn Hf. pose proof W as (Hb & Hl & Hc). unfold bitvec_fill. rewrite u32_small by (unfold is_u32; lia).
  replace (cur_bit bv + n - cur_bit bv) with n by lia. rewrite fill_is_bits.
  pose proof (set_bits_ok (repeat v (Z.to_nat n)) bv W) as G.
  destruct (bitvec_set_bits _ _) as [rc bv']. destruct G as (G1 & G2 & G3 & G4 & G5).
  rewrite zlen_repeat, Z2Nat.id in * by lia.
  replace ((n =? 0) || (cur_bit bv + n <=? 8 * data_len bv)) with true in G1 by lia. subst rc.
  exists bv'. repeat split; auto; try lia.
  intros j Hj. rewrite G5 by lia.
  replace ((cur_bit bv <=? j) && (j <? cur_bit bv + n) && (j <? 8 * data_len bv))
    with ((cur_bit bv <=? j) && (j <? cur_bit bv + n)) by lia.
  destruct ((cur_bit bv <=? j) && (j <? cur_bit bv + n)) eqn:E; auto. rewrite at0_repeat by lia. reflexivity.
Qed.

Lemma padding_ok bv u : wf bv -> cur_bit bv <= u < 8 * data_len bv -> 8 * data_len bv < 2 ^ 31 ->
  exists bv', bitvec_spare_padding bv u = (0, bv') /\ cur_bit bv' = u + 1 /\ data_len bv' = data_len bv /\
    bytes (bdata bv') /\
    forall j, 0 <= j -> pbit false (bdata bv') j =
      if (cur_bit bv <=? j) && (j <=? u) then lbit j else pbit false (bdata bv) j.
Proof.
  intros W Hu Hl. pose proof W as (Hb & Hl2 & Hc). unfold bitvec_spare_padding.
  rewrite u32_small by (unfold is_u32; lia). rewrite s32_small by (unfold is_s32; lia).
  replace (u - cur_bit bv + 1 <? 1) with false by lia.
  destruct (fill_ok bv (u - cur_bit bv + 1) BL W) as (bv' & E & C & L & B & P); try lia.
  exists bv'. repeat split; auto; try lia.
  intros j Hj. rewrite P by lia.
  replace (j <? cur_bit bv + (u - cur_bit bv + 1)) with (j <=? u) by lia. reflexivity.
Qed.

Lemma find_loop_ok fuel : forall bv i val, bytes (bdata bv) -> is_bit val -> 0 <= i -> i + Z.of_nat fuel = 8 * data_len bv ->
  let r := find_loop fuel bv i val in
  (r = -1 /\ forall j, i <= j < 8 * data_len bv -> pbit false (bdata bv) j <> (val =? 1)) \/
  (i <= r < 8 * data_len bv /\ pbit false (bdata bv) r = (val =? 1) /\
   forall j, i <= j < r -> pbit false (bdata bv) j <> (val =? 1)).
Proof.
  induction fuel; intros bv i val Hb Hv Hi Hf; cbn [find_loop].
  - left. split; auto. intros; lia.
  - rewrite get_bit_pos_ok by (auto; lia).
    destruct (Z.eqb_spec (b2z (pbit false (bdata bv) i)) val) as [E|E].
    + right. split; [lia|]. split; [subst val; destruct (pbit _ _ _); reflexivity|intros; lia].
    + assert (N : pbit false (bdata bv) i <> (val =? 1)).
      { intros N. apply E. rewrite N. symmetry. apply bit_b2z; auto. }
      destruct (IHfuel bv (i + 1) val Hb Hv) as [[R A]|(R & P & A)]; try lia.
      * left. split; auto. intros j Hj. destruct (Z.eq_dec j i); [subst; auto|apply A; lia].
      * right. split; [lia|]. split; auto. intros j Hj. destruct (Z.eq_dec j i); [subst; auto|apply A; lia].
Qed.

Lemma find_bit_pos_ok bv n val : bytes (bdata bv) -> 8 * data_len bv < 2 ^ 32 -> is_bit val -> 0 <= n ->
  let r := bitvec_find_bit_pos bv n val in
  (r = -1 /\ forall j, n <= j < 8 * data_len bv -> pbit false (bdata bv) j <> (val =? 1)) \/
  (n <= r < 8 * data_len bv /\ pbit false (bdata bv) r = (val =? 1) /\
   forall j, n <= j < r -> pbit false (bdata bv) j <> (val =? 1)).
Proof.
  intros Hb Hl Hv Hn. unfold bitvec_find_bit_pos. rewrite u32_small by (unfold is_u32, data_len in *; pose proof (zlen_nonneg (bdata bv)); lia).
  destruct (Z_le_gt_dec n (8 * data_len bv)).
  - apply find_loop_ok; auto. lia.
  - replace (Z.to_nat (data_len bv * 8 - n)) with 0%nat by lia. left. split; [reflexivity|]. intros; lia.
Qed.

(* ------------ get_bytes / set_bytes ------------ *)
Lemma shl_shr_bit a b s k : 0 < s < 8 -> 0 <= k < 8 -> is_byte b ->
  Z.testbit (u8 (Z.lor (Z.shiftl a s) (Z.shiftr b (8 - s)))) k =
  if s <=? k then Z.testbit a (k - s) else Z.testbit b (k + 8 - s).
Proof.
  intros. rewrite testbit_u8, Z.lor_spec, Z.shiftl_spec, Z.shiftr_spec by lia.
  replace (k <? 8) with true by lia. cbn [andb]. replace (k + (8 - s)) with (k + 8 - s) by lia.
  destruct (Z.leb_spec s k).
  - rewrite (byte_testbit_above b) by (auto; lia). apply orb_false_r.
  - rewrite (Z.testbit_neg_r a) by lia. reflexivity.
Qed.

Lemma get_bytes_ok bv out c : bytes (bdata bv) -> 8 * data_len bv < 2 ^ 31 -> 0 <= cur_bit bv -> 0 <= c -> c <= zlen out ->
  cur_bit bv + 8 * c <= 8 * data_len bv -> (c = 0 -> cur_bit bv < 8 * data_len bv) ->
  exists o, bitvec_get_bytes bv out c = Ok (0, Bv (cur_bit bv + 8 * c) (bdata bv), o) /\
    zlen o = zlen out /\
    (forall j, 0 <= j < 8 * c -> pbit false o j = pbit false (bdata bv) (cur_bit bv + j)) /\
    (forall k, c <= k < zlen out -> at0 o k = at0 out k).
Proof.
  intros Hb Hl Hc Hc0 Ho Hf Hz. unfold bitvec_get_bytes, data_len in *.
  destruct (Z.eqb_spec (cur_bit bv mod 8) 0) as [E0|E0].
  - rewrite u32_small by (unfold is_u32; lia). replace (zlen (bdata bv) <? cur_bit bv / 8 + c + 0) with false by lia.
    destruct (memcpy_ok out 0 (bdata bv) (cur_bit bv / 8) c) as (o & E & L & A); try lia.
    rewrite E. cbn [bind]. rewrite u32_small by (unfold is_u32; lia). exists o.
    replace (cur_bit bv + c * 8) with (cur_bit bv + 8 * c) by lia. split; auto. split; auto. split.
    + intros j Hj. unfold pbit. rewrite A by lia.
      replace ((0 <=? j / 8) && (j / 8 <? 0 + c)) with true by lia.
      replace (cur_bit bv / 8 + (j / 8 - 0)) with ((cur_bit bv + j) / 8) by lia.
      replace ((cur_bit bv + j) mod 8) with (j mod 8) by lia. reflexivity.
    + intros k Hk. rewrite A by lia. replace ((0 <=? k) && (k <? 0 + c)) with false by lia. reflexivity.
  - rewrite u32_small by (unfold is_u32; lia). replace (zlen (bdata bv) <? cur_bit bv / 8 + c + 1) with false by lia.
    rewrite s32_small by (unfold is_s32; lia).
    rewrite rd_at0 by lia. cbn [bind].
    set (bo := cur_bit bv mod 8) in *. set (by0 := cur_bit bv / 8) in *.
    assert (Hbo : 0 < bo < 8) by (unfold bo in *; lia).
    match goal with |- context [zfor _ _ ?f _] =>
    destruct (zfor_inv (fun i s => snd s = at0 (bdata bv) (by0 + i) /\ zlen (fst s) = zlen out /\
       (forall j, 0 <= j < 8 * i -> pbit false (fst s) j = pbit false (bdata bv) (cur_bit bv + j)) /\
       (forall k, i <= k < zlen out -> at0 (fst s) k = at0 out k))
       f (Z.to_nat c) 0 (out, at0 (bdata bv) by0)) as ([o lc] & E & H1 & H2 & H3 & H4) end.
    + cbn [fst snd]. rewrite Z.add_0_r. repeat split; auto. intros; lia.
    + intros i [o lc] Hi (I1 & I2 & I3 & I4). cbn [fst snd] in *. subst lc.
      rewrite rd_at0 by lia. cbn [bind]. rewrite wr_in by lia. cbn [bind].
      eexists; split; [reflexivity|]. cbn [fst snd].
      split; [f_equal; lia|]. split; [rewrite zlen_upd; auto|]. split.
      * intros j Hj. rewrite pbit_upd by lia. destruct (Z.eqb_spec (j / 8) i).
        -- rewrite shl_shr_bit; try lia; [|apply bytes_at0; auto]. unfold pbit.
           assert (Ej : cur_bit bv + j = 8 * by0 + bo + 8 * i + j mod 8) by (unfold bo, by0; lia).
           rewrite Ej. destruct (Z.leb_spec bo (7 - j mod 8)).
           ++ replace ((8 * by0 + bo + 8 * i + j mod 8) / 8) with (by0 + i) by lia.
              replace ((8 * by0 + bo + 8 * i + j mod 8) mod 8) with (bo + j mod 8) by lia. f_equal. lia.
           ++ replace ((8 * by0 + bo + 8 * i + j mod 8) / 8) with (by0 + 1 + i) by lia.
              replace ((8 * by0 + bo + 8 * i + j mod 8) mod 8) with (bo + j mod 8 - 8) by lia. f_equal. lia.
        -- apply I3. lia.
      * intros k Hk. rewrite at0_upd by lia. destruct (Z.eqb_spec k i); [lia|]. apply I4; lia.
    + rewrite E. cbn [bind fst snd] in *. rewrite u32_small by (unfold is_u32; lia).
      replace (0 + Z.of_nat (Z.to_nat c)) with c in * by lia.
      exists o. replace (cur_bit bv + c * 8) with (cur_bit bv + 8 * c) by lia. auto.
Qed.

Lemma set_bytes_ok bv src c : bytes (bdata bv) -> bytes src -> 8 * data_len bv < 2 ^ 31 -> 0 <= cur_bit bv -> 0 <= c -> c <= zlen src ->
  cur_bit bv + 8 * c <= 8 * data_len bv -> (c = 0 -> cur_bit bv < 8 * data_len bv) ->
  exists bv', bitvec_set_bytes bv src c = Ok (0, bv') /\ cur_bit bv' = cur_bit bv + 8 * c /\
    data_len bv' = data_len bv /\ bytes (bdata bv') /\
    forall j, 0 <= j -> pbit false (bdata bv') j =
      if (cur_bit bv <=? j) && (j <? cur_bit bv + 8 * c) then pbit false src (j - cur_bit bv) else pbit false (bdata bv) j.
Proof.
  intros Hb Hsb Hl Hc Hc0 Ho Hf Hz. unfold bitvec_set_bytes, data_len in *.
  destruct (Z.eqb_spec (cur_bit bv mod 8) 0) as [E0|E0].
  - rewrite u32_small by (unfold is_u32; lia). replace (zlen (bdata bv) <? cur_bit bv / 8 + c + 0) with false by lia.
    destruct (memcpy_ok (bdata bv) (cur_bit bv / 8) src 0 c) as (o & E & L & A); try lia.
    rewrite E. cbn [bind]. rewrite u32_small by (unfold is_u32; lia). eexists; split; [reflexivity|].
    cbn [cur_bit bdata]. split; [lia|]. split; auto. split.
    + unfold memcpy in E. destruct (_ && _ && _ && _ && _) in E; [|discriminate]. injection E as <-.
      apply Forall_blit; auto. apply Forall_slice; auto.
    + intros j Hj. unfold pbit. destruct (Z_lt_le_dec j (8 * zlen (bdata bv))).
      * rewrite A by lia.
        replace ((cur_bit bv / 8 <=? j / 8) && (j / 8 <? cur_bit bv / 8 + c)) with ((cur_bit bv <=? j) && (j <? cur_bit bv + 8 * c)) by lia.
        destruct ((cur_bit bv <=? j) && (j <? cur_bit bv + 8 * c)); auto.
        replace (0 + (j / 8 - cur_bit bv / 8)) with ((j - cur_bit bv) / 8) by lia.
        replace ((j - cur_bit bv) mod 8) with (j mod 8) by lia. reflexivity.
      * replace ((cur_bit bv <=? j) && (j <? cur_bit bv + 8 * c)) with false by lia. rewrite !at0_out by lia. reflexivity.
  - rewrite u32_small by (unfold is_u32; lia). replace (zlen (bdata bv) <? cur_bit bv / 8 + c + 1) with false by lia.
    rewrite s32_small by (unfold is_s32; lia).
    set (bo := cur_bit bv mod 8) in *. set (by0 := cur_bit bv / 8) in *.
    assert (Hbo : 0 < bo < 8) by (unfold bo in *; lia).
    assert (Ecur : cur_bit bv = 8 * by0 + bo) by (unfold bo, by0; lia).
    destruct (Z.ltb_spec 0 c).
    2:{ replace c with 0 in * by lia. cbn [bind]. rewrite u32_small by (unfold is_u32; lia).
        eexists; split; [reflexivity|]. cbn [cur_bit bdata]. repeat split; auto; try lia.
        intros j Hj. replace ((cur_bit bv <=? j) && (j <? cur_bit bv + 8 * 0)) with false by lia. reflexivity. }
    rewrite rd_at0 by lia. cbn [bind].
    match goal with |- context [zfor _ _ ?f _] =>
    destruct (zfor_inv (fun i s =>
       (forall k, 0 <= k < bo -> Z.testbit (snd s) k = if i =? 0 then Z.testbit (at0 (bdata bv) by0) (k + 8 - bo) else Z.testbit (at0 src (i - 1)) k) /\
       zlen (fst s) = zlen (bdata bv) /\ bytes (fst s) /\
       (forall j, 0 <= j -> pbit false (fst s) j = if (cur_bit bv <=? j) && (j <? 8 * (by0 + i)) then pbit false src (j - cur_bit bv) else pbit false (bdata bv) j))
       f (Z.to_nat c) 0 (bdata bv, Z.shiftr (at0 (bdata bv) by0) (8 - bo))) as ([d lc] & E & H1 & H2 & H3 & H4) end.
    + cbn [fst snd]. split; [|split; [|split]]; auto.
      * intros k Hk. cbn [Z.eqb]. rewrite Z.shiftr_spec by lia. f_equal. lia.
      * intros j Hj. replace ((cur_bit bv <=? j) && (j <? 8 * (by0 + 0))) with false by lia. reflexivity.
    + intros i [d lc] Hi (I1 & I2 & I3 & I4). cbn [fst snd] in *.
      rewrite rd_at0 by lia. cbn [bind]. rewrite wr_in by lia. cbn [bind].
      eexists; split; [reflexivity|]. cbn [fst snd].
      split; [|split; [|split]].
      * intros k Hk. replace (i + 1 =? 0) with false by lia. replace (i + 1 - 1) with i by lia. reflexivity.
      * rewrite zlen_upd; auto.
      * apply Forall_upd; auto. apply u8_range.
      * intros j Hj. rewrite pbit_upd by lia. destruct (Z.eqb_spec (j / 8) (by0 + i)) as [Ej|Ej].
        -- replace bo with (8 - (8 - bo)) at 2 by lia. rewrite shl_shr_bit; try lia; [|apply bytes_at0; auto].
           destruct (Z.leb_spec (8 - bo) (7 - j mod 8)).
           ++ rewrite I1 by lia. destruct (Z.eqb_spec i 0).
              ** replace ((cur_bit bv <=? j) && (j <? 8 * (by0 + (i + 1)))) with false by lia.
                 unfold pbit. replace (j / 8) with by0 by lia. f_equal. lia.
              ** replace ((cur_bit bv <=? j) && (j <? 8 * (by0 + (i + 1)))) with true by lia.
                 unfold pbit. replace ((j - cur_bit bv) / 8) with (i - 1) by lia. f_equal. lia.
           ++ replace ((cur_bit bv <=? j) && (j <? 8 * (by0 + (i + 1)))) with true by lia.
              unfold pbit. replace ((j - cur_bit bv) / 8) with i by lia. f_equal. lia.
        -- rewrite I4 by lia. replace ((cur_bit bv <=? j) && (j <? 8 * (by0 + (i + 1)))) with ((cur_bit bv <=? j) && (j <? 8 * (by0 + i))) by lia.
           reflexivity.
    + rewrite E. cbn [bind fst snd] in *. replace (0 + Z.of_nat (Z.to_nat c)) with c in * by lia.
      replace (Z.max 0 c) with c by lia.
      rewrite rd_at0 by lia. cbn [bind]. rewrite wr_in by lia. cbn [bind].
      rewrite u32_small by (unfold is_u32; lia).
      eexists; split; [reflexivity|]. cbn [cur_bit bdata].
      split; [lia|]. split; [rewrite zlen_upd; auto|]. split; [apply Forall_upd; auto; apply u8_range|].
      intros j Hj. rewrite pbit_upd by lia. destruct (Z.eqb_spec (j / 8) (by0 + c)) as [Ej|Ej].
      * replace (Z.shiftl 1 (8 - bo) - 1) with (Z.ones (8 - bo)) by (rewrite Z.ones_equiv, Z.shiftl_1_l; lia).
        rewrite testbit_u8, Z.lor_spec, Z.land_spec, testbit_ones, Z.shiftl_spec by lia.
        replace (7 - j mod 8 <? 8) with true by lia. cbn [andb].
        replace (0 <=? 7 - j mod 8) with true by lia. cbn [andb].
        destruct (Z.ltb_spec (7 - j mod 8) (8 - bo)).
        -- rewrite (Z.testbit_neg_r lc) by lia. rewrite andb_true_r, orb_false_r.
           replace ((cur_bit bv <=? j) && (j <? cur_bit bv + 8 * c)) with false by lia.
           specialize (H4 j Hj). replace ((cur_bit bv <=? j) && (j <? 8 * (by0 + c))) with false in H4 by lia.
           rewrite <- H4. unfold pbit. rewrite Ej. reflexivity.
        -- rewrite andb_false_r. cbn [orb]. rewrite H1 by lia. replace (c =? 0) with false by lia.
           replace ((cur_bit bv <=? j) && (j <? cur_bit bv + 8 * c)) with true by lia.
           unfold pbit. replace ((j - cur_bit bv) / 8) with (c - 1) by lia. f_equal. lia.
      * rewrite H4 by lia.
        replace ((cur_bit bv <=? j) && (j <? 8 * (by0 + c))) with ((cur_bit bv <=? j) && (j <? cur_bit bv + 8 * c)) by lia. reflexivity.
Qed.

Lemma pbit_list_ext a b n : bytes a -> bytes b -> 0 <= n <= zlen a -> n <= zlen b ->
  (forall j, 0 <= j < 8 * n -> pbit false a j = pbit false b j) ->
  firstn (Z.to_nat n) a = firstn (Z.to_nat n) b.
Proof.
  intros Ha Hb H1 H2 H. apply at0_ext; [rewrite !zlen_firstn'; lia|].
  intros i Hi. rewrite zlen_firstn' in Hi. rewrite !at0_firstn by lia. replace (i <? n) with true by lia.
  apply byte_bits_ext; try (apply bytes_at0; auto).
  intros k Hk. specialize (H (8 * i + (7 - k)) ltac:(lia)). unfold pbit in H.
  replace ((8 * i + (7 - k)) / 8) with i in H by lia. replace (7 - (8 * i + (7 - k)) mod 8) with k in H by lia. auto.
Qed.

Lemma get_bytes_bytes bv out c rc bv' o : bytes (bdata bv) -> bytes out ->
  bitvec_get_bytes bv out c = Ok (rc, bv', o) -> bytes o.
Proof.
  intros Hb Ho. unfold bitvec_get_bytes.
  destruct (_ <? _); [intros E; injection E as <- <- <-; auto|].
  destruct (_ =? 0).
  - unfold memcpy. destruct (_ && _ && _ && _ && _); [|discriminate]. cbn [bind]. intros E; injection E as <- <- <-.
    apply Forall_blit; auto. apply Forall_slice; auto.
  - destruct (rd _ _); try discriminate. cbn [bind].
    assert (G : forall n i s f, bytes (fst s) ->
       (forall i s s', bytes (fst s) -> f i s = Ok s' -> bytes (fst s')) ->
       forall s' : list Z * Z, zfor n i f s = Ok s' -> bytes (fst s')).
    { induction n; intros i s f Hs Hf s'; cbn [zfor]; [intros E; injection E as <-; auto|].
      destruct (f i s) eqn:Ef; try discriminate. cbn [bind]. intros E. eapply IHn; [|exact Hf|exact E]. eapply Hf; eauto. }
    match goal with |- context [zfor ?n ?i ?f ?s] => pose proof (G n i s f Ho) as G1; destruct (zfor n i f s) as [[o1 l1]| | |]; try discriminate end.
    cbn [bind]. intros E; injection E as <- <- <-. refine (G1 _ (o1, l1) eq_refl).
    clear. intros i [o l] s' Ho. destruct (rd _ _); try discriminate. cbn [bind]. unfold wr.
    destruct (i <? 0); [discriminate|]. destruct (_ <=? i); [discriminate|]. cbn [bind]. intros E; injection E as <-. cbn. apply Forall_upd; auto. apply u8_range.
Qed.

Lemma set_get_bytes bv src out c : bytes (bdata bv) -> bytes src -> bytes out -> 8 * data_len bv < 2 ^ 31 -> 0 <= cur_bit bv -> 1 <= c -> c <= zlen src ->
  c <= zlen out -> cur_bit bv + 8 * c <= 8 * data_len bv ->
  exists bv', bitvec_set_bytes bv src c = Ok (0, bv') /\
  exists o, bitvec_get_bytes (Bv (cur_bit bv) (bdata bv')) out c = Ok (0, bv', o) /\
    firstn (Z.to_nat c) o = firstn (Z.to_nat c) src.
Proof.
  intros Hb Hs Ho Hl Hc H1 H2 H3 H4.
  destruct (set_bytes_ok bv src c) as (bv' & E & C & L & B & P); auto; try lia.
  exists bv'; split; auto.
  destruct (get_bytes_ok (Bv (cur_bit bv) (bdata bv')) out c) as (o & Eg & Lo & Po & Uo); unfold data_len in *; cbn [cur_bit bdata] in *; auto; try lia.
  exists o. split.
  - rewrite Eg. rewrite <- C. destruct bv'; reflexivity.
  - apply pbit_list_ext; auto; try lia.
    + eapply get_bytes_bytes; [| |exact Eg]; auto.
    + intros j Hj. rewrite Po, P by lia. replace ((cur_bit bv <=? cur_bit bv + j) && (cur_bit bv + j <? cur_bit bv + 8 * c)) with true by lia.
      f_equal. lia.
Qed.

Lemma bytes_out_of_range bv src out c : 0 <= cur_bit bv -> 0 <= c -> cur_bit bv / 8 + c + 1 < 2 ^ 32 ->
  8 * data_len bv < cur_bit bv + 8 * c ->
  bitvec_set_bytes bv src c = Ok (- EINVAL, bv) /\ bitvec_get_bytes bv out c = Ok (- EINVAL, bv, out).
Proof.
  intros. unfold bitvec_set_bytes, bitvec_get_bytes. 
  destruct (Z.eqb_spec (cur_bit bv mod 8) 0);
  rewrite u32_small by (unfold is_u32; lia).
  - replace (data_len bv <? cur_bit bv / 8 + c + 0) with true by lia. auto.
  - replace (data_len bv <? cur_bit bv / 8 + c + 1) with true by lia. auto.
Qed.

(* ------------ leading run length ------------ *)
Definition lead_check (b : bool) (x : Z) : bool :=
  (x =? (if b then 255 else 0)) ||
  ((leading_bits x b <? 8) && (0 <=? leading_bits x b) &&
   forallb (fun k => if k <? leading_bits x b then Bool.eqb (Z.testbit x (7 - k)) b else true) (zseq 0 8) &&
   negb (Bool.eqb (Z.testbit x (7 - leading_bits x b)) b)).
Lemma lead_check_ok b x : is_byte x -> lead_check b x = true.
Proof.
  intros Hx. destruct b.
  - exact (forall_byte (lead_check true) ltac:(vm_compute; reflexivity) x Hx).
  - exact (forall_byte (lead_check false) ltac:(vm_compute; reflexivity) x Hx).
Qed.
Lemma leading_bits_ok (b : bool) x : is_byte x -> x <> (if b then 255 else 0) ->
  0 <= leading_bits x b < 8 /\ (forall k, 0 <= k < leading_bits x b -> Z.testbit x (7 - k) = b) /\
  Z.testbit x (7 - leading_bits x b) <> b.
Proof.
  intros Hx Hn. pose proof (lead_check_ok b x Hx) as G. unfold lead_check in G.
  apply orb_true_iff in G. destruct G as [G|G]; [apply Z.eqb_eq in G; contradiction|].
  apply andb_true_iff in G; destruct G as [G G4]. apply andb_true_iff in G; destruct G as [G G3].
  split; [lia|]. split.
  - intros k Hk. rewrite forallb_forall in G3. specialize (G3 k ltac:(apply zseq_In; lia)). cbv beta in G3.
    replace (k <? leading_bits x b) with true in G3 by lia. apply eqb_prop in G3. auto.
  - apply negb_true_iff in G4. apply eqb_false_iff in G4. auto.
Qed.
Lemma full_byte_bits (b : bool) x k : is_byte x -> x = (if b then 255 else 0) -> 0 <= k < 8 -> Z.testbit x k = b.
Proof.
  intros _ -> Hk. destruct b; [|apply Z.bits_0]. change 255 with (Z.ones 8). rewrite testbit_ones by lia. lia.
Qed.

Lemma rl_loop_ok fuel : forall bv i b, bytes (bdata bv) -> 0 <= i -> i + Z.of_nat fuel <= data_len bv ->
  (forall j, 0 <= j < 8 * i -> pbit false (bdata bv) j = b) ->
  exists r, rl_loop fuel bv i b = Ok r /\
  ((r = cur_bit bv /\ forall j, 0 <= j < 8 * (i + Z.of_nat fuel) -> pbit false (bdata bv) j = b) \/
   (0 <= r < 8 * (i + Z.of_nat fuel) /\ (forall j, 0 <= j < r -> pbit false (bdata bv) j = b) /\
    pbit false (bdata bv) r <> b)).
Proof.
  induction fuel; intros bv i b Hb Hi Hf Hp; cbn [rl_loop].
  - eexists; split; [reflexivity|]. left. split; auto. intros; apply Hp; lia.
  - unfold data_len in *. rewrite rd_at0 by lia. cbn [bind]. set (x := at0 (bdata bv) i). assert (Hx : is_byte x) by (apply bytes_at0; auto).
    destruct (Z.eqb_spec (if b then 255 else 0) x) as [E|E]; cbn [negb].
    + destruct (IHfuel bv (i + 1) b Hb) as (r & E1 & [[R A]|(R & A & N)]); try lia.
      { intros j Hj. destruct (Z_lt_le_dec j (8 * i)); [apply Hp; lia|]. unfold pbit.
        replace (j / 8) with i by lia. fold x. apply (full_byte_bits b); auto; lia. }
      * exists r; split; auto. left. split; auto. intros; apply A; lia.
      * exists r; split; auto. right. split; [lia|]. auto.
    + destruct (leading_bits_ok b x Hx) as (R & A & N); [congruence|].
      eexists; split; [reflexivity|]. right. split; [lia|]. split.
      * intros j Hj. destruct (Z_lt_le_dec j (8 * i)); [apply Hp; lia|]. unfold pbit.
        replace (j / 8) with i by lia. fold x. apply A. lia.
      * unfold pbit. replace ((i * 8 + leading_bits x b) / 8) with i by lia. fold x.
        replace ((i * 8 + leading_bits x b) mod 8) with (leading_bits x b) by lia. auto.
Qed.

Lemma rl_ok bv b : bytes (bdata bv) -> 0 <= cur_bit bv <= 8 * data_len bv ->
  exists r, bitvec_rl bv b = Ok r /\
    (forall j, 0 <= j < Z.min r (cur_bit bv) -> pbit false (bdata bv) j = b) /\ 0 <= r /\
    (r < cur_bit bv -> pbit false (bdata bv) r <> b) /\
    (cur_bit bv mod 8 = 0 -> r <= cur_bit bv).
Proof.
  intros Hb Hc. unfold bitvec_rl. set (lim := if negb (cur_bit bv mod 8 =? 0) then cur_bit bv / 8 + 1 else cur_bit bv / 8).
  assert (HL : 0 <= lim /\ lim <= data_len bv /\ cur_bit bv <= 8 * lim /\ (cur_bit bv mod 8 = 0 -> 8 * lim = cur_bit bv)).
  { unfold lim. destruct (Z.eqb_spec (cur_bit bv mod 8) 0); cbn [negb]; lia. }
  destruct (rl_loop_ok (Z.to_nat lim) bv 0 b) as (r & E & [[R A]|(R & A & N)]); auto; try lia.
  - exists r. rewrite E. subst r. split; auto. split; [intros; apply A; lia|]. split; [lia|]. split; lia.
  - exists r. rewrite E. split; auto. split; [intros; apply A; lia|]. split; [lia|]. split; [auto|lia].
Qed.

(* ------------ nth set bit ------------ *)
Lemma count_set_nonneg f n : 0 <= count_set f n.
Proof. induction n; cbn [count_set]; [lia|]. unfold b2z. destruct (f _); lia. Qed.
Lemma count_set_le f n : count_set f n <= Z.of_nat n.
Proof. induction n; cbn [count_set]; [lia|]. unfold b2z. destruct (f _); lia. Qed.

Lemma nth_set_loop_ok fuel : forall bv i n, bytes (bdata bv) -> 8 * data_len bv < 2 ^ 32 -> 0 <= i ->
  i + Z.of_nat fuel = 8 * data_len bv ->
  let f := pbit false (bdata bv) in
  count_set f (Z.to_nat i) < n ->
  let r := nth_set_loop fuel bv i (count_set f (Z.to_nat i)) n in
  (r = 0 /\ count_set f (Z.to_nat (8 * data_len bv)) < n) \/
  (i <= r < 8 * data_len bv /\ f r = true /\ count_set f (Z.to_nat r) = n - 1).
Proof.
  induction fuel; intros bv i n Hb Hl Hi Hf f Hn; cbn [nth_set_loop].
  - left. split; auto. replace (8 * data_len bv) with i by lia. auto.
  - rewrite get_bit_pos_ok by (auto; lia). fold f.
    assert (ES : count_set f (Z.to_nat (i + 1)) = count_set f (Z.to_nat i) + b2z (f i)).
    { replace (Z.to_nat (i + 1)) with (S (Z.to_nat i)) by lia. cbn [count_set]. rewrite Z2Nat.id by lia. reflexivity. }
    pose proof (count_set_nonneg f (Z.to_nat i)). pose proof (count_set_le f (Z.to_nat i)).
    destruct (f i) eqn:Ef; cbn [b2z] in *.
    + change (1 =? ONE) with true. cbv iota. rewrite u32_small by (unfold is_u32; lia). rewrite <- ES.
      destruct (Z.eqb_spec (count_set f (Z.to_nat (i + 1))) n).
      * right. split; [lia|]. split; auto. lia.
      * pose proof (IHfuel bv (i + 1) n Hb Hl ltac:(lia) ltac:(lia)) as I. cbv zeta in I. fold f in I.
        specialize (I ltac:(lia)). destruct I as [[R C]|(R & A & C)]; [left; auto|].
        right. split; [lia|]. auto.
    + change (0 =? ONE) with false. cbv iota.
      rewrite Z.add_0_r in ES. rewrite <- ES.
      pose proof (IHfuel bv (i + 1) n Hb Hl ltac:(lia) ltac:(lia)) as I. cbv zeta in I. fold f in I.
        specialize (I ltac:(lia)). destruct I as [[R C]|(R & A & C)]; [left; auto|].
      right. split; [lia|]. auto.
Qed.

Lemma nth_set_bit_ok bv n : bytes (bdata bv) -> 8 * data_len bv < 2 ^ 32 -> 1 <= n ->
  let f := pbit false (bdata bv) in
  let r := bitvec_get_nth_set_bit bv n in
  (r = 0 /\ count_set f (Z.to_nat (8 * data_len bv)) < n) \/
  (0 <= r < 8 * data_len bv /\ f r = true /\ count_set f (Z.to_nat r) = n - 1).
Proof.
  intros Hb Hl Hn. cbv zeta. unfold bitvec_get_nth_set_bit. pose proof (zlen_nonneg (bdata bv)).
  rewrite u32_small by (unfold is_u32, data_len in *; lia).
  apply (nth_set_loop_ok (Z.to_nat (data_len bv * 8)) bv 0 n); auto; try (unfold data_len in *; lia).
  cbn. lia.
Qed.

(* ------------ shift left ------------ *)
Lemma u16_pair_shift a b s k : is_byte a -> is_byte b -> 0 <= s < 8 -> 0 <= k < 8 ->
  Z.testbit (Z.shiftr (u16 (Z.shiftl (Z.lor (Z.shiftl a 8) b) s)) 8) k =
  if s <=? k then Z.testbit a (k - s) else Z.testbit b (k - s + 8).
Proof.
  intros Ha Hb Hs Hk. rewrite Z.shiftr_spec by lia. unfold u16. change 65536 with (2 ^ 16).
  rewrite Z.mod_pow2_bits_low by lia. rewrite Z.shiftl_spec, Z.lor_spec, Z.shiftl_spec by lia.
  destruct (Z.leb_spec s k).
  - rewrite (byte_testbit_above b) by (auto; lia). rewrite orb_false_r. f_equal. lia.
  - rewrite (Z.testbit_neg_r a) by lia. cbn [orb]. f_equal. lia.
Qed.

Lemma shiftl_ok bv n : bytes (bdata bv) -> 8 * data_len bv < 2 ^ 32 -> 2 <= data_len bv -> cur_bit bv <= 8 * data_len bv ->
  0 <= n < cur_bit bv ->
  exists bv', bitvec_shiftl bv n = Ok bv' /\ cur_bit bv' = cur_bit bv - n /\ data_len bv' = data_len bv /\
    forall j, 0 <= j < 8 * (data_len bv - 2) -> j + n < 8 * data_len bv ->
      pbit false (bdata bv') j = pbit false (bdata bv) (j + n).
Proof.
  intros Hb Hl H2 Hc Hn. unfold bitvec_shiftl.
  destruct (Z.eqb_spec n 0).
  { subst. exists bv. split; auto. split; [lia|]. split; auto. intros j Hj _. rewrite Z.add_0_r; reflexivity. }
  replace (cur_bit bv <=? n) with false by lia. unfold data_len in *.
  destruct (memcpy_ok (bdata bv) 0 (bdata bv) (n / 8) (zlen (bdata bv) - n / 8)) as (d1 & E1 & L1 & A1); try lia.
  assert (B1 : bytes d1).
  { unfold memcpy in E1. destruct (_ && _ && _ && _ && _) in E1; [|discriminate]. injection E1 as <-.
    apply Forall_blit; auto. apply Forall_slice; auto. }
  rewrite E1. cbn [bind]. rewrite u32_small by (unfold is_u32; lia).
  match goal with |- context [zfor _ _ ?f _] =>
  destruct (zfor_inv (fun i d => zlen d = zlen (bdata bv) /\ (forall k, i <= k < zlen (bdata bv) -> at0 d k = at0 d1 k) /\
      forall k m, 0 <= k < i -> 0 <= m < 8 -> Z.testbit (at0 d k) m =
        if n mod 8 <=? m then Z.testbit (at0 d1 k) (m - n mod 8) else Z.testbit (at0 d1 (k + 1)) (m - n mod 8 + 8))
      f (Z.to_nat (zlen (bdata bv) - 2)) 0 d1) as (d2 & E2 & L2 & U2 & P2) end.
  { split; auto. split; auto. intros; lia. }
  { intros i d Hi (Ld & Ud & Pd). rewrite !rd_at0 by lia. cbn [bind]. rewrite wr_in by lia.
    eexists; split; [reflexivity|]. split; [rewrite zlen_upd; auto|]. split.
    - intros k Hk. rewrite at0_upd by lia. destruct (Z.eqb_spec k i); [lia|]. apply Ud; lia.
    - intros k m Hk Hm. rewrite at0_upd by lia. destruct (Z.eqb_spec k i).
      + subst k. rewrite !Ud by lia. apply u16_pair_shift; try apply bytes_at0; auto; lia.
      + apply Pd; lia. }
  rewrite E2. cbn [bind]. replace (0 + Z.of_nat (Z.to_nat (zlen (bdata bv) - 2))) with (zlen (bdata bv) - 2) in * by lia.
  rewrite rd_at0 by lia. cbn [bind]. rewrite wr_in by lia. cbn [bind].
  eexists; split; [reflexivity|]. cbn [cur_bit bdata]. rewrite u32_small by (unfold is_u32; lia).
  split; [lia|]. split; [rewrite zlen_upd; lia|].
  intros j Hj Hjn. rewrite pbit_upd by lia. replace (j / 8 =? zlen (bdata bv) - 1) with false by lia.
  unfold pbit at 1. rewrite P2 by lia. unfold pbit.
  destruct (Z.leb_spec (n mod 8) (7 - j mod 8)).
  - rewrite A1 by lia. replace ((0 <=? j / 8) && (j / 8 <? 0 + (zlen (bdata bv) - n / 8))) with true by lia.
    replace (n / 8 + (j / 8 - 0)) with ((j + n) / 8) by lia. f_equal. lia.
  - rewrite A1 by lia. replace ((0 <=? j / 8 + 1) && (j / 8 + 1 <? 0 + (zlen (bdata bv) - n / 8))) with true by lia.
    replace (n / 8 + (j / 8 + 1 - 0)) with ((j + n) / 8) by lia. f_equal. lia.
Qed.

(* exact result: where byte k of the result comes from; the memmove leaves the last n/8 bytes in place,
   the last-but-one byte is not shifted by the remaining n mod 8 bits *)
Lemma shiftl_exact bv n : bytes (bdata bv) -> 8 * data_len bv < 2 ^ 32 -> 2 <= data_len bv -> cur_bit bv <= 8 * data_len bv ->
  0 < n < cur_bit bv ->
  let src k := if k <? data_len bv - n / 8 then k + n / 8 else k in
  exists bv', bitvec_shiftl bv n = Ok bv' /\ cur_bit bv' = cur_bit bv - n /\ data_len bv' = data_len bv /\
    (forall k m, 0 <= k < data_len bv - 2 -> 0 <= m < 8 -> Z.testbit (at0 (bdata bv') k) m =
        if n mod 8 <=? m then Z.testbit (at0 (bdata bv) (src k)) (m - n mod 8) else Z.testbit (at0 (bdata bv) (src (k + 1))) (m - n mod 8 + 8)) /\
    at0 (bdata bv') (data_len bv - 2) = at0 (bdata bv) (src (data_len bv - 2)) /\
    at0 (bdata bv') (data_len bv - 1) = (at0 (bdata bv) (src (data_len bv - 1)) * 2 ^ (n mod 8)) mod 256.
Proof.
  intros Hb Hl H2 Hc Hn src. unfold bitvec_shiftl.
  destruct (Z.eqb_spec n 0); [lia|].
  replace (cur_bit bv <=? n) with false by lia. unfold data_len in *.
  destruct (memcpy_ok (bdata bv) 0 (bdata bv) (n / 8) (zlen (bdata bv) - n / 8)) as (d1 & E1 & L1 & A1); try lia.
  assert (B1 : bytes d1).
  { unfold memcpy in E1. destruct (_ && _ && _ && _ && _) in E1; [|discriminate]. injection E1 as <-.
    apply Forall_blit; auto. apply Forall_slice; auto. }
  assert (As : forall k, 0 <= k < zlen (bdata bv) -> at0 d1 k = at0 (bdata bv) (src k)).
  { intros k Hk. rewrite A1 by lia. unfold src. replace (0 <=? k) with true by lia. cbn [andb].
    replace (0 + (zlen (bdata bv) - n / 8)) with (zlen (bdata bv) - n / 8) by lia.
    destruct (k <? _); f_equal; lia. }
  rewrite E1. cbn [bind]. rewrite u32_small by (unfold is_u32; lia).
  match goal with |- context [zfor _ _ ?f _] =>
  destruct (zfor_inv (fun i d => zlen d = zlen (bdata bv) /\ (forall k, i <= k < zlen (bdata bv) -> at0 d k = at0 d1 k) /\
      forall k m, 0 <= k < i -> 0 <= m < 8 -> Z.testbit (at0 d k) m =
        if n mod 8 <=? m then Z.testbit (at0 d1 k) (m - n mod 8) else Z.testbit (at0 d1 (k + 1)) (m - n mod 8 + 8))
      f (Z.to_nat (zlen (bdata bv) - 2)) 0 d1) as (d2 & E2 & L2 & U2 & P2) end.
  { split; auto. split; auto. intros; lia. }
  { intros i d Hi (Ld & Ud & Pd). rewrite !rd_at0 by lia. cbn [bind]. rewrite wr_in by lia.
    eexists; split; [reflexivity|]. split; [rewrite zlen_upd; auto|]. split.
    - intros k Hk. rewrite at0_upd by lia. destruct (Z.eqb_spec k i); [lia|]. apply Ud; lia.
    - intros k m Hk Hm. rewrite at0_upd by lia. destruct (Z.eqb_spec k i).
      + subst k. rewrite !Ud by lia. apply u16_pair_shift; try apply bytes_at0; auto; lia.
      + apply Pd; lia. }
  rewrite E2. cbn [bind]. replace (0 + Z.of_nat (Z.to_nat (zlen (bdata bv) - 2))) with (zlen (bdata bv) - 2) in * by lia.
  rewrite rd_at0 by lia. cbn [bind]. rewrite wr_in by lia. cbn [bind].
  eexists; split; [reflexivity|]. cbn [cur_bit bdata]. rewrite u32_small by (unfold is_u32; lia).
  split; [lia|]. split; [rewrite zlen_upd; lia|]. split; [|split].
  - intros k m Hk Hm. rewrite at0_upd by lia. replace (k =? zlen (bdata bv) - 1) with false by lia.
    rewrite P2 by lia. rewrite !As by lia. reflexivity.
  - rewrite at0_upd by lia. replace (zlen (bdata bv) - 2 =? zlen (bdata bv) - 1) with false by lia. rewrite U2 by lia. apply As. lia.
  - rewrite at0_upd by lia. rewrite Z.eqb_refl. rewrite U2, As by lia. unfold u8. rewrite Z.shiftl_mul_pow2 by lia. reflexivity.
Qed.

Lemma shiftl_all bv n : 0 < n -> cur_bit bv <= n ->
  exists bv', bitvec_shiftl bv n = Ok bv' /\ cur_bit bv' = 0 /\ data_len bv' = data_len bv /\ forall i, at0 (bdata bv') i = 0.
Proof.
  intros H0 H. exists (bitvec_zero bv). unfold bitvec_shiftl. replace (n =? 0) with false by lia. replace (cur_bit bv <=? n) with true by lia.
  split; auto. split; [reflexivity|]. split. { unfold data_len, bitvec_zero, zlen. cbn [bdata]. rewrite map_length. auto. }
  intros i. unfold bitvec_zero, at0. cbn [bdata]. set (k := Z.to_nat i). clearbody k. generalize (bdata bv). intros l. revert k.
  induction l; intros [|k]; cbn; auto.
Qed.

Lemma get_int16_msb_ok bv n : bytes (bdata bv) -> 1 <= n -> cur_bit bv <= 8 * data_len bv ->
  (15 < n \/ cur_bit bv < n -> bitvec_get_int16_msb bv n = Ok (- EINVAL)) /\
  (n <= 15 -> n <= cur_bit bv -> bitvec_get_int16_msb bv n = Ok (msb_num (pbit false (bdata bv)) 0 (Z.to_nat n))).
Proof.
  intros Hb Hn Hc. unfold bitvec_get_int16_msb. split.
  - intros H. replace ((15 <? n) || (cur_bit bv <? n)) with true by lia. reflexivity.
  - intros H1 H2. replace ((15 <? n) || (cur_bit bv <? n)) with false by lia. unfold data_len in *.
    assert (B0 : is_byte (at0 (bdata bv) 0)) by (apply bytes_at0; auto). unfold is_byte in B0.
    destruct (Z.ltb_spec n 9).
    + rewrite rd_at0 by lia. cbn [bind]. f_equal. symmetry. symmetry. apply msb_num_unique.
      { rewrite Z2Nat.id by lia. rewrite Z.shiftr_div_pow2 by lia. assert (2 ^ n * 2 ^ (8 - n) = 256) by (rewrite <- Z.pow_add_r by lia; replace (n + (8 - n)) with 8 by lia; reflexivity).
        assert (0 < 2 ^ (8 - n)) by lia. split; [apply Z.div_pos; lia|]. apply Z.div_lt_upper_bound; lia. }
      intros i Hi. rewrite Z2Nat.id in * by lia. rewrite Z.shiftr_spec by lia. unfold pbit. replace ((0 + n - 1 - i) / 8) with 0 by lia. f_equal. lia.
    + rewrite !rd_at0 by lia. cbn [bind]. f_equal. apply msb_num_unique.
      { assert (B1 : is_byte (at0 (bdata bv) 1)) by (apply bytes_at0; auto). unfold is_byte in B1.
        rewrite Z2Nat.id by lia. rewrite Z.shiftr_div_pow2 by lia.
        assert (E : Z.lor (Z.shiftl (at0 (bdata bv) 0) 8) (at0 (bdata bv) 1) = at0 (bdata bv) 0 * 256 + at0 (bdata bv) 1).
        { rewrite Z.lor_comm, lor_shiftl_add by lia. change (2 ^ 8) with 256. lia. }
        rewrite E. assert (2 ^ n * 2 ^ (16 - n) = 65536) by (rewrite <- Z.pow_add_r by lia; replace (n + (16 - n)) with 16 by lia; reflexivity).
        assert (0 < 2 ^ (16 - n)) by lia. split; [apply Z.div_pos; lia|]. apply Z.div_lt_upper_bound; lia. }
      intros i Hi. rewrite Z2Nat.id in * by lia. rewrite Z.shiftr_spec by lia. rewrite Z.lor_spec, Z.shiftl_spec by lia. unfold pbit.
      destruct (Z.ltb_spec (n - 1 - i) 8).
      * replace ((0 + n - 1 - i) / 8) with 0 by lia. rewrite (byte_testbit_above (at0 (bdata bv) 1)) by (try apply bytes_at0; auto; lia). rewrite orb_false_r. f_equal. lia.
      * replace ((0 + n - 1 - i) / 8) with 1 by lia. rewrite Z.testbit_neg_r by lia. cbn [orb]. f_equal. lia.
Qed.

Lemma get_bit_high_ok bv : bytes (bdata bv) -> 8 * data_len bv < 2 ^ 32 -> 0 <= cur_bit bv ->
  (cur_bit bv < 8 * data_len bv ->
   bitvec_get_bit_high bv = (if Bool.eqb (pbit false (bdata bv) (cur_bit bv)) (bitval BH (cur_bit bv)) then BH else BL, Bv (cur_bit bv + 1) (bdata bv))) /\
  (8 * data_len bv <= cur_bit bv -> bitvec_get_bit_high bv = (- EINVAL, bv)).
Proof.
  intros Hb Hl Hc. unfold bitvec_get_bit_high. split; intros H.
  - rewrite get_bit_pos_high_ok by lia || auto. rewrite u32_small by (unfold is_u32; lia). destruct (Bool.eqb _ _); reflexivity.
  - rewrite get_bit_pos_high_out by auto. reflexivity.
Qed.

(* ------------ CSN.1 repeated arrays ------------ *)
Lemma set_bits_app a : forall b bv,
  bitvec_set_bits bv (a ++ b) =
  let '(rc, bv') := bitvec_set_bits bv a in if rc =? 0 then bitvec_set_bits bv' b else (rc, bv').
Proof.
  induction a as [|x a IH]; intros b bv; cbn [app bitvec_set_bits]; auto.
  destruct (bitvec_set_bit bv x) as [rc bv']. destruct (Z.eqb_spec rc 0); cbn [negb]; [apply IH|].
  destruct (Z.eqb_spec rc 0); [contradiction|reflexivity].
Qed.

Definition arr_bits (array : list Z) (nb : Z) : list Z :=
  flat_map (fun a => 1 :: u64_bits (Z.to_nat nb) a false) array.
Lemma arr_bits_len array nb : 0 <= nb -> zlen (arr_bits array nb) = zlen array * (1 + nb).
Proof.
  intros. induction array; unfold arr_bits in *; cbn [flat_map]; [reflexivity|].
  rewrite zlen_app, zlen_cons, IHarray, zlen_cons, u64_bits_len. lia.
Qed.
Lemma arr_bits_at array nb i k : 0 <= nb -> 0 <= i < zlen array -> 0 <= k <= nb ->
  at0 (arr_bits array nb) (i * (1 + nb) + k) =
  if k =? 0 then 1 else b2z (Z.testbit (at0 array i) (nb - k)).
Proof.
  intros Hnb. revert i. induction array as [|a t IH]; intros i Hi Hk; [change (zlen (@nil Z)) with 0 in Hi; lia|].
  unfold arr_bits in *; cbn [flat_map]. rewrite zlen_cons in Hi.
  assert (0 <= i * (1 + nb)) by nia.
  rewrite at0_app by nia. rewrite zlen_cons, u64_bits_len, Z2Nat.id by lia.
  destruct (Z.eq_dec i 0).
  - subst. replace (0 * (1 + nb) + k) with k by lia. replace (k <? 1 + nb) with true by lia.
    rewrite !at0_cons by lia. cbn [Z.eqb].
    destruct (Z.eqb_spec k 0); auto. rewrite u64_bits_at by lia. rewrite Z2Nat.id by lia.
    replace (nb - 1 - (k - 1)) with (nb - k) by lia. destruct (Z.testbit _ _); reflexivity.
  - replace (i * (1 + nb) + k <? 1 + nb) with false by nia.
    replace (i * (1 + nb) + k - (1 + nb)) with ((i - 1) * (1 + nb) + k) by lia.
    rewrite IH by lia. rewrite at0_cons by lia. replace (i =? 0) with false by lia. reflexivity.
Qed.

Lemma set_bits_fit bv bl : wf bv -> cur_bit bv + zlen bl <= 8 * data_len bv ->
  exists bv', bitvec_set_bits bv bl = (0, bv') /\ wf bv' /\ cur_bit bv' = cur_bit bv + zlen bl /\ data_len bv' = data_len bv.
Proof.
  intros W Hf. pose proof (set_bits_ok bl bv W) as G. destruct (bitvec_set_bits bv bl) as [rc bv'].
  destruct G as (G1 & G2 & G3 & G4 & _). pose proof (zlen_nonneg bl). destruct W as (W1 & W2 & W3).
  replace ((zlen bl =? 0) || (cur_bit bv + zlen bl <=? 8 * data_len bv)) with true in G1 by lia. subst rc.
  exists bv'. split; auto. split; [|lia]. unfold wf. rewrite G3, G2. repeat split; auto; lia.
Qed.

Lemma add_array_is_bits array nb : 0 <= nb <= 64 -> forall bv, wf bv ->
  cur_bit bv + zlen array * (1 + nb) <= 8 * data_len bv ->
  exists bv', add_array_loop bv array nb = bv' /\ bitvec_set_bits bv (arr_bits array nb) = (0, bv') .
Proof.
  intros Hnb. induction array as [|a t IH]; intros bv W Hf.
  - eexists; split; reflexivity.
  - rewrite zlen_cons in Hf. pose proof (zlen_nonneg t).
    unfold arr_bits. cbn [flat_map add_array_loop]. rewrite set_bits_app.
    destruct (set_bits_fit bv (1 :: u64_bits (Z.to_nat nb) a false) W) as (bv1 & E1 & W1 & C1 & L1).
    { rewrite zlen_cons, u64_bits_len, Z2Nat.id by lia. nia. }
    rewrite zlen_cons, u64_bits_len, Z2Nat.id in C1 by lia.
    rewrite E1. cbn [Z.eqb].
    destruct (IH bv1 W1) as (bv' & E2 & E3). { rewrite C1, L1. nia. }
    exists bv'. split; [|exact E3]. rewrite <- E2. f_equal.
    cbn [bitvec_set_bits] in E1. destruct (bitvec_set_bit bv 1) as [rc b1].
    destruct (Z.eqb_spec rc 0); cbn [negb] in E1; [|injection E1 as -> ->; contradiction].
    cbn [snd]. unfold bitvec_set_uint, bitvec_set_u64. rewrite u8_small by (unfold is_byte; lia).
    replace (64 <? nb) with false by lia. rewrite set_u64_is_bits, E1. reflexivity.
Qed.

Lemma add_array_ok bv array nb : wf bv -> 0 <= nb <= 64 ->
  let total := 1 + zlen array * (1 + nb) in
  cur_bit bv + total <= 8 * data_len bv ->
  bitvec_add_array bv array true nb = (total, bv) /\
  exists bv', bitvec_add_array bv array false nb = (0, bv') /\ cur_bit bv' = cur_bit bv + total /\
    data_len bv' = data_len bv /\
    (forall i, 0 <= i < zlen array -> pbit false (bdata bv') (cur_bit bv + i * (1 + nb)) = true /\
       forall k, 1 <= k <= nb -> pbit false (bdata bv') (cur_bit bv + i * (1 + nb) + k) = Z.testbit (at0 array i) (nb - k)) /\
    pbit false (bdata bv') (cur_bit bv + total - 1) = false /\
    (forall j, 0 <= j -> j < cur_bit bv \/ cur_bit bv + total <= j -> pbit false (bdata bv') j = pbit false (bdata bv) j).
Proof.
  intros W Hnb total Hf. pose proof W as (Wb & Wl & Wc). pose proof (zlen_nonneg array). assert (0 <= zlen array * (1 + nb)) by nia.
  unfold bitvec_add_array. split; [rewrite u32_small by (unfold is_u32; lia); reflexivity|].
  destruct (add_array_is_bits array nb Hnb bv W) as (bv1 & E1 & E2); [lia|].
  set (bl := arr_bits array nb ++ [0]).
  assert (EB : bitvec_set_bits bv bl = (0, snd (bitvec_set_bit bv1 0))).
  { unfold bl. rewrite set_bits_app, E2. cbn [Z.eqb]. cbn [bitvec_set_bits].
    destruct (set_bits_fit bv bl W) as (bv' & E3 & _).
    { unfold bl. rewrite zlen_app, arr_bits_len, zlen_cons by lia. change (zlen (@nil Z)) with 0. lia. }
    unfold bl in E3. rewrite set_bits_app, E2 in E3. cbn [Z.eqb bitvec_set_bits] in E3.
    destruct (bitvec_set_bit bv1 0) as [rc b2]. destruct (Z.eqb_spec rc 0); cbn [negb snd] in *; auto. injection E3 as -> ->. contradiction. }
  rewrite E1. eexists; split; [reflexivity|].
  pose proof (set_bits_ok bl bv W) as G. rewrite EB in G. destruct G as (G1 & G2 & G3 & G4 & G5).
  set (bv' := snd (bitvec_set_bit bv1 0)) in *.
  assert (LB : zlen bl = total).
  { unfold bl, total. rewrite zlen_app, arr_bits_len, zlen_cons by lia. change (zlen (@nil Z)) with 0. lia. }
  rewrite LB in *. split; [lia|]. split; auto. split; [|split].
  - intros i Hi. assert (i * (1 + nb) + (1 + nb) <= zlen array * (1 + nb)) by nia. assert (0 <= i * (1 + nb)) by nia.
    assert (Q : forall k, 0 <= k <= nb -> pbit false (bdata bv') (cur_bit bv + i * (1 + nb) + k) =
       bitval (if k =? 0 then 1 else b2z (Z.testbit (at0 array i) (nb - k))) (cur_bit bv + i * (1 + nb) + k)).
    { intros k Hk. rewrite G5 by lia. match goal with |- (if ?c then _ else _) = _ => replace c with true by lia end.
      f_equal. unfold bl. rewrite at0_app by lia. rewrite arr_bits_len by lia.
      replace (cur_bit bv + i * (1 + nb) + k - cur_bit bv) with (i * (1 + nb) + k) by lia.
      replace (i * (1 + nb) + k <? zlen array * (1 + nb)) with true by lia.
      apply arr_bits_at; lia. }
    split.
    + specialize (Q 0 ltac:(lia)). rewrite Z.add_0_r in Q. rewrite Q. reflexivity.
    + intros k Hk. rewrite Q by lia. replace (k =? 0) with false by lia. destruct (Z.testbit _ _); reflexivity.
  - rewrite G5 by lia. match goal with |- (if ?c then _ else _) = _ => replace c with true by lia end.
    unfold bl. rewrite at0_app by lia. rewrite arr_bits_len by lia.
    replace (cur_bit bv + total - 1 - cur_bit bv) with (zlen array * (1 + nb)) by lia.
    rewrite Z.ltb_irrefl, Z.sub_diag. reflexivity.
  - intros j Hj Ho. rewrite G5 by lia. match goal with |- (if ?c then _ else _) = _ => replace c with false by lia end. reflexivity.
Qed.
