(** Range encoding, part C: the bit packing. *)
From Coq Require Import ZArith List Lia Bool.
From Verif Require Import Base S_range M_range.
Import ListNotations.
Open Scope Z_scope.

Lemma mask_ones c : 0 <= c -> Z.shiftl 1 c - 1 = Z.ones c.
Proof. intros. rewrite Z.ones_equiv. rewrite Z.shiftl_mul_pow2 by lia. lia. Qed.

Lemma u8_testbit x j : 0 <= j < 8 -> Z.testbit (u8 x) j = Z.testbit x j.
Proof. intros. unfold u8. change 256 with (2 ^ 8). apply Z.mod_pow2_bits_low. lia. Qed.

Lemma put_byte c w s cur lf j : 0 <= s -> 0 <= cur -> 0 <= lf -> 0 <= j < 8 ->
  Z.testbit (u8 (Z.lor (u8 (Z.land c (Z.lnot (Z.shiftl (Z.shiftl 1 cur - 1) s))))
                  (Z.shiftl (Z.land (Z.shiftr w lf) (Z.shiftl 1 cur - 1)) s))) j =
  if (s <=? j) && (j <? s + cur) then Z.testbit w (lf + j - s) else Z.testbit c j.
Proof.
  intros Hs Hc Hl Hj. rewrite u8_testbit by lia. rewrite Z.lor_spec, u8_testbit by lia.
  rewrite Z.land_spec, Z.lnot_spec by lia. rewrite mask_ones by lia.
  rewrite !Z.shiftl_spec by lia. rewrite Z.land_spec.
  destruct (Z.leb_spec s j); cbn [andb].
  - rewrite Z.shiftr_spec by lia. rewrite testbit_ones by lia.
    destruct (Z.leb_spec 0 (j - s)); [|lia]. cbn [andb].
    destruct (Z.ltb_spec (j - s) cur), (Z.ltb_spec j (s + cur)); try lia; cbn [negb].
    + rewrite andb_false_r, andb_true_r. cbn [orb]. f_equal. lia.
    + rewrite andb_true_r, andb_false_r, orb_false_r. reflexivity.
  - rewrite !(Z.testbit_neg_r _ (j - s)) by lia. cbn. rewrite andb_true_r, orb_false_r. reflexivity.
Qed.

Lemma sbit_upd cl o v p : 0 <= o < zlen cl -> 0 <= p ->
  sbit (upd cl (Z.to_nat o) v) p = if p / 8 =? o then Z.testbit v (7 - p mod 8) else sbit cl p.
Proof.
  intros Ho Hp. unfold sbit. pose proof (Z.div_pos p 8 Hp ltac:(lia)).
  rewrite at0_upd by lia. destruct (p / 8 =? o); reflexivity.
Qed.

Lemma put_wn_ok fuel : forall cl o bo lf w, 0 <= o -> 0 <= bo < 8 -> 0 <= lf < Z.of_nat fuel ->
  bytes cl -> 8 * o + bo + lf <= 8 * zlen cl ->
  exists cl', put_wn fuel cl o bo lf w = Ok (cl', (8 * o + bo + lf) / 8, (8 * o + bo + lf) mod 8) /\
    bytes cl' /\ zlen cl' = zlen cl /\
    forall p, 0 <= p -> sbit cl' p =
      if (8 * o + bo <=? p) && (p <? 8 * o + bo + lf) then Z.testbit w (8 * o + bo + lf - 1 - p) else sbit cl p.
Proof.
  induction fuel as [|fu IH]; intros cl o bo lf w Ho Hbo Hlf Hb Hlen; [lia|].
  cbn [put_wn]. destruct (Z.leb_spec lf 0).
  { assert (lf = 0) by lia. subst lf. exists cl. rewrite Z.add_0_r.
    split; [|split; [exact Hb|split; [reflexivity|]]].
    - rewrite Z.mul_comm, (Z.add_comm (o * 8)), Z.div_add, Z.mod_add by lia.
      rewrite Z.div_small, Z.mod_small by lia. reflexivity.
    - intros p Hp. destruct (Z.leb_spec (8 * o + bo) p), (Z.ltb_spec p (8 * o + bo)); try lia; reflexivity. }
  set (cur := if 8 - bo >? lf then lf else 8 - bo).
  assert (Hc : 1 <= cur /\ cur <= lf /\ bo + cur <= 8 /\ (bo + cur < 8 -> cur = lf)).
  { unfold cur. destruct (Z.gtb_spec (8 - bo) lf); lia. }
  assert (Hoz : o < zlen cl) by lia.
  rewrite rd_at0 by lia. cbn [bind]. rewrite wr_in by lia. cbn [bind].
  set (v := u8 _).
  assert (Hbv : is_byte v) by apply u8_range.
  assert (Hb1 : bytes (upd cl (Z.to_nat o) v)) by (apply Forall_upd; assumption).
  assert (Hv : forall j, 0 <= j < 8 -> Z.testbit v j =
     if (8 - (bo + cur) <=? j) && (j <? 8 - (bo + cur) + cur) then Z.testbit w (lf - cur + j - (8 - (bo + cur))) else Z.testbit (at0 cl o) j).
  { intros j Hj. unfold v. apply put_byte; lia. }
  clearbody v. set (cl1 := upd cl (Z.to_nat o) v) in *.
  assert (Hbits : forall p, 0 <= p -> sbit cl1 p =
      if (8 * o + bo <=? p) && (p <? 8 * o + bo + cur) then Z.testbit w (8 * o + bo + lf - 1 - p) else sbit cl p).
  { intros p Hp. unfold cl1. rewrite sbit_upd by lia.
    pose proof (Z.div_mod p 8 ltac:(lia)). pose proof (Z.mod_pos_bound p 8 ltac:(lia)).
    destruct (Z.eqb_spec (p / 8) o) as [E | E].
    - rewrite Hv by lia.
      destruct (Z.leb_spec (8 - (bo + cur)) (7 - p mod 8)), (Z.ltb_spec (7 - p mod 8) (8 - (bo + cur) + cur)),
        (Z.leb_spec (8 * o + bo) p), (Z.ltb_spec p (8 * o + bo + cur)); try lia; cbn [andb];
        try (unfold sbit; rewrite E; reflexivity). f_equal. lia.
    - destruct (Z.leb_spec (8 * o + bo) p), (Z.ltb_spec p (8 * o + bo + cur)); try reflexivity. exfalso. lia. }
  assert (Zl : zlen cl1 = zlen cl) by apply zlen_upd.
  destruct (Z.eqb_spec (bo + cur) 8) as [E8 | E8].
  - destruct (IH cl1 (o + 1) 0 (lf - cur) w) as [cl' [E [B [Z' S']]]]; try lia; try assumption.
    exists cl'. rewrite E. replace (8 * (o + 1) + 0 + (lf - cur)) with (8 * o + bo + lf) by lia.
    split; [reflexivity|]. split; [exact B|]. split; [lia|].
    intros p Hp. rewrite S' by exact Hp. rewrite Hbits by exact Hp.
    replace (8 * (o + 1) + 0 + (lf - cur)) with (8 * o + bo + lf) by lia.
    destruct (Z.leb_spec (8 * (o + 1) + 0) p), (Z.ltb_spec p (8 * o + bo + lf)), (Z.leb_spec (8 * o + bo) p),
      (Z.ltb_spec p (8 * o + bo + cur)); try lia; reflexivity.
  - assert (cur = lf) by lia.
    destruct (IH cl1 o (bo + cur) (lf - cur) w) as [cl' [E [B [Z' S']]]]; try lia; try assumption.
    exists cl'. rewrite E. replace (8 * o + (bo + cur) + (lf - cur)) with (8 * o + bo + lf) by lia.
    split; [reflexivity|]. split; [exact B|]. split; [lia|].
    intros p Hp. rewrite S' by exact Hp. rewrite Hbits by exact Hp.
    replace (8 * o + (bo + cur) + (lf - cur)) with (8 * o + bo + lf) by lia.
    destruct (Z.leb_spec (8 * o + (bo + cur)) p), (Z.ltb_spec p (8 * o + bo + lf)), (Z.leb_spec (8 * o + bo) p),
      (Z.ltb_spec p (8 * o + bo + cur)); try lia; reflexivity.
Qed.

Lemma bfield_ext cd cd' p n : (forall q, p <= q < p + Z.of_nat n -> sbit cd q = sbit cd' q) ->
  bfield cd p n = bfield cd' p n.
Proof.
  revert p. induction n as [|n IH]; intros p H; cbn [bfield]; [reflexivity|].
  rewrite (H p) by lia. rewrite (IH (p + 1)) by (intros; apply H; lia). reflexivity.
Qed.
Lemma bfield_bound cd p n : 0 <= bfield cd p n < 2 ^ Z.of_nat n.
Proof.
  revert p. induction n as [|n IH]; intros p; [cbn; lia|]. cbn [bfield]. specialize (IH (p + 1)).
  rewrite Nat2Z.inj_succ, Z.pow_succ_r by lia. destruct (sbit cd p); cbn [b2z]; lia.
Qed.
(** a field holding the bits of w *)
Lemma bfield_val cd p n w : (forall q, p <= q < p + Z.of_nat n -> sbit cd q = Z.testbit w (p + Z.of_nat n - 1 - q)) ->
  bfield cd p n = w mod 2 ^ Z.of_nat n.
Proof.
  revert p. induction n as [|n IH]; intros p H; cbn [bfield]; [cbn; rewrite Z.mod_1_r; reflexivity|].
  rewrite (IH (p + 1)).
  2: { intros q Hq. rewrite H by lia. f_equal. lia. }
  rewrite H by lia. replace (p + Z.of_nat (S n) - 1 - p) with (Z.of_nat n) by lia.
  rewrite Nat2Z.inj_succ. unfold Z.succ. rewrite Z.add_comm with (n := Z.of_nat n).
  rewrite Z.pow_add_r by lia. change (2 ^ 1) with 2.
  rewrite (Z.mul_comm 2). rewrite Z.rem_mul_r by (pose proof (pow2_pos (Z.of_nat n) ltac:(lia)); lia).
  rewrite Z.add_comm. f_equal. f_equal.
  rewrite <- Z.shiftr_div_pow2 by lia. rewrite <- Z.bit0_mod, Z.shiftr_spec, Z.add_0_l by lia.
  destruct (Z.testbit w (Z.of_nat n)); reflexivity.
Qed.

Lemma wstart_succ base top k : 1 <= k -> wstart base top (k + 1) = wstart base top k + wwidth top k.
Proof.
  intros Hk. unfold wstart. replace (Z.to_nat (k + 1 - 1)) with (S (Z.to_nat (k - 1))) by lia.
  cbn [wsum]. replace (Z.of_nat (Z.to_nat (k - 1)) + 1) with k by lia. lia.
Qed.
Lemma wstart_1 base top : wstart base top 1 = base.
Proof. unfold wstart. cbn. lia. Qed.
Lemma log2_next k : 1 <= k -> Z.log2 (k + 1) = if k + 1 =? 2 ^ (Z.log2 k + 1) then Z.log2 k + 1 else Z.log2 k.
Proof.
  intros Hk. pose proof (Z.log2_spec k ltac:(lia)) as [H1 H2]. unfold Z.succ in H2.
  pose proof (Z.log2_nonneg k). destruct (Z.eqb_spec (k + 1) (2 ^ (Z.log2 k + 1))) as [E | E].
  - rewrite E. apply Z.log2_pow2. lia.
  - apply Z.log2_unique; [lia|]. unfold Z.succ. lia.
Qed.
Lemma wwidth_le top k k' : 1 <= k <= k' -> wwidth top k' <= wwidth top k.
Proof. intros H. unfold wwidth. pose proof (Z.log2_le_mono k k' ltac:(lia)). lia. Qed.
Lemma wstart_mono base top k k' : 1 <= k <= k' -> (forall j, k <= j < k' -> 0 <= wwidth top j) ->
  wstart base top k <= wstart base top k'.
Proof.
  intros H Hw. replace k' with (k + Z.of_nat (Z.to_nat (k' - k))) by lia.
  assert (Hb : Z.of_nat (Z.to_nat (k' - k)) <= k' - k) by lia. revert Hb.
  induction (Z.to_nat (k' - k)) as [|n IH]; intros Hb; [replace (k + Z.of_nat 0) with k by lia; lia|].
  replace (k + Z.of_nat (S n)) with (k + Z.of_nat n + 1) by lia. rewrite wstart_succ by lia.
  specialize (IH ltac:(lia)). specialize (Hw (k + Z.of_nat n) ltac:(lia)). lia.
Qed.

(** write_all_wn: every field holds its w (reduced to the width), nothing else changes. *)
Lemma write_all_ok cl base bo w n top : 0 <= base -> 0 <= bo < 8 -> bytes cl -> 0 <= n <= zlen w ->
  0 <= wwidth top n -> wstart (8 * base + bo) top (n + 1) <= 8 * zlen cl -> 1 <= n ->
  exists cl', write_all_wn cl base bo w n top = Ok cl' /\ bytes cl' /\ zlen cl' = zlen cl /\
    (forall p, 0 <= p < 8 * base + bo -> sbit cl' p = sbit cl p) /\
    forall k, 1 <= k <= n ->
      bfield cl' (wstart (8 * base + bo) top k) (Z.to_nat (wwidth top k)) = at0 w (k - 1) mod 2 ^ wwidth top k.
Proof.
  intros Hbase Hbo Hb Hn Htop Hlen Hn1. unfold write_all_wn. set (B := 8 * base + bo) in *.
  assert (Hw : forall j, 1 <= j <= n -> 0 <= wwidth top j).
  { intros j Hj. pose proof (wwidth_le top j n ltac:(lia)). lia. }
  pose (Inv := fun (k : Z) (s : list Z * Z * Z * Z * Z * Z) =>
    let '(c, o, b, wl, lv, ll) := s in
    1 <= k /\ 0 <= o /\ 0 <= b < 8 /\ 8 * o + b = wstart B top k /\ wl = wwidth top k /\ lv = Z.log2 k /\
    ll = 2 ^ (Z.log2 k + 1) - k /\ bytes c /\ zlen c = zlen cl /\
    (forall p, 0 <= p < B -> sbit c p = sbit cl p) /\
    (forall j, 1 <= j < k -> bfield c (wstart B top j) (Z.to_nat (wwidth top j)) = at0 w (j - 1) mod 2 ^ wwidth top j)).
  match goal with |- context[zfor ?nn ?i ?f ?s0] => destruct (zfor_inv Inv f nn i s0) as [s [Es Hs]] end.
  - unfold Inv. rewrite wstart_1. change (Z.log2 1) with 0. unfold wwidth. change (Z.log2 1) with 0.
    change (2 ^ (0 + 1) - 1) with 1. unfold B. repeat (split; [lia || assumption || reflexivity|]).
    intros; lia.
  - intros k [[[[[c o] b] wl] lv] ll] Hk (I1 & I2 & I3 & I4 & I5 & I6 & I7 & I8 & I9 & I10 & I11).
    assert (Hkn : 1 <= k <= n) by lia.
    rewrite rd_at0 by lia. cbn [bind]. pose proof (Hw k Hkn) as Hwk.
    assert (Hst : wstart B top k + wwidth top k <= 8 * zlen cl).
    { rewrite <- wstart_succ by lia. pose proof (wstart_mono B top (k + 1) (n + 1) ltac:(lia)) as Hmono.
      specialize (Hmono ltac:(intros; apply Hw; lia)). lia. }
    assert (Hsp : B <= wstart B top k).
    { rewrite <- (wstart_1 B top) at 1. apply wstart_mono; [lia|]. intros; apply Hw; lia. }
    destruct (put_wn_ok (S (Z.to_nat wl)) c o b wl (at0 w (k - 1))) as [c' [E [Bc [Zc Sc]]]]; try lia; try assumption.
    rewrite E. cbn [bind]. rewrite I4 in Sc. rewrite I4 in *. subst wl.
    assert (Hpos : 8 * ((wstart B top k + wwidth top k) / 8) + (wstart B top k + wwidth top k) mod 8 = wstart B top (k + 1)).
    { rewrite wstart_succ by lia. symmetry. apply Z.div_mod. lia. }
    pose proof (Z.mod_pos_bound (wstart B top k + wwidth top k) 8 ltac:(lia)) as Hmb.
    assert (Hdp : 0 <= (wstart B top k + wwidth top k) / 8) by (apply Z.div_pos; lia).
    assert (Hpre : forall p, 0 <= p < B -> sbit c' p = sbit cl p).
    { intros p Hp. rewrite Sc by lia. destruct (Z.leb_spec (wstart B top k) p); [lia|]. cbn [andb]. apply I10, Hp. }
    assert (Hfl : forall j, 1 <= j < k + 1 -> bfield c' (wstart B top j) (Z.to_nat (wwidth top j)) = at0 w (j - 1) mod 2 ^ wwidth top j).
    { intros j Hj. destruct (Z.eq_dec j k) as [-> | Hne].
      - rewrite (bfield_val _ _ _ (at0 w (k - 1))).
        + rewrite Z2Nat.id by lia. reflexivity.
        + rewrite Z2Nat.id by lia. intros q Hq. rewrite Sc by lia.
          destruct (Z.leb_spec (wstart B top k) q), (Z.ltb_spec q (wstart B top k + wwidth top k)); try lia. reflexivity.
      - rewrite <- I11 by lia. apply bfield_ext. pose proof (Hw j ltac:(lia)) as Hwj. rewrite Z2Nat.id by lia.
        assert (B <= wstart B top j).
        { rewrite <- (wstart_1 B top) at 1. apply wstart_mono; [lia|]. intros; apply Hw; lia. }
        assert (wstart B top (j + 1) <= wstart B top k) by (apply wstart_mono; [lia|]; intros; apply Hw; lia).
        rewrite wstart_succ in * by lia.
        intros q Hq. rewrite Sc by lia. destruct (Z.leb_spec (wstart B top k) q); [lia|]. reflexivity. }
    pose proof (log2_next k ltac:(lia)) as Hlg. pose proof (Z.log2_nonneg k) as Hl0.
    destruct (Z.eqb_spec (ll - 1) 0) as [El | El].
    + eexists. split; [reflexivity|]. unfold Inv.
      destruct (Z.eqb_spec (k + 1) (2 ^ (Z.log2 k + 1))) as [E2 | E2]; [|lia].
      rewrite Hlg.
      split; [lia|]. split; [exact Hdp|]. split; [exact Hmb|]. split; [exact Hpos|].
      split; [unfold wwidth; rewrite ?Hlg; lia|]. split; [lia|].
      split. { rewrite I6, Z.shiftl_mul_pow2 by lia. rewrite (Z.pow_add_r 2 (Z.log2 k + 1) 1) by lia. change (2 ^ 1) with 2. lia. }
      split; [exact Bc|]. split; [lia|]. split; [exact Hpre | exact Hfl].
    + eexists. split; [reflexivity|]. unfold Inv.
      destruct (Z.eqb_spec (k + 1) (2 ^ (Z.log2 k + 1))) as [E2 | E2]; [lia|].
      rewrite Hlg. split; [lia|]. split; [exact Hdp|]. split; [exact Hmb|]. split; [exact Hpos|].
      split; [unfold wwidth; rewrite Hlg; lia|]. split; [lia|]. split; [lia|].
      split; [exact Bc|]. split; [lia|]. split; [exact Hpre | exact Hfl].
  - rewrite Es. destruct s as [[[[[c o] b] wl] lv] ll]. cbn [bind].
    destruct Hs as (I1 & I2 & I3 & I4 & I5 & I6 & I7 & I8 & I9 & I10 & I11).
    exists c. split; [reflexivity|]. split; [exact I8|]. split; [exact I9|]. split; [exact I10|].
    intros k Hk. apply I11. lia.
Qed.
