(* T_arfcn.v - property theorems C25 (ARFCN and frequency), C45 (TLLI / P-TMSI), C46 (power and signal levels). *)
From Verif Require Import Base S_arfcn M_arfcn P_arfcn.

(* C25: the frequency of every 16-bit ARFCN is the one of TS 45.005, 0xffff for ARFCNs that name no channel *)
Theorem C25_arfcn2freq : forall a up, 0 <= a < 65536 ->
  arfcn2freq10 a up = match arfcn_channel a with Some c => freq up c | None => 65535 end.
Proof. exact freq_spec. Qed.
Print Assumptions C25_arfcn2freq.

(* C25: converting to a frequency and back returns the ARFCN (with the uplink flag 0x4000 added for uplink) *)
Theorem C25_roundtrip : forall a up, 0 <= a < 65536 -> arfcn_channel a <> None ->
  freq102arfcn (arfcn2freq10 a up) up = a + (if up then 16384 else 0).
Proof.
  intros a up Ha Hc. rewrite C25_arfcn2freq by assumption. destruct (arfcn_channel a) as [c|] eqn:E; [|congruence].
  apply round_spec; assumption.
Qed.
Print Assumptions C25_roundtrip.

(* C25: every 16-bit frequency is mapped to 0xffff or to the channel having that frequency (rounded down to the
   200 kHz raster); it is 0xffff only if no channel has the frequency *)
Theorem C25_freq2arfcn : forall f up, 0 <= f < 65536 ->
  (freq102arfcn f up = 65535 /\ (forall a c, 0 <= a < 65536 -> arfcn_channel a = Some c -> freq up c <> f))
  \/ exists a c, freq102arfcn f up = a + (if up then 16384 else 0) /\ 0 <= a < 65536 /\ arfcn_channel a = Some c
       /\ (freq up c = f \/ freq up c = f - 1).
Proof.
  intros f up Hf. pose proof (inv_spec f up Hf) as G. unfold chk_inv in G. cbv zeta in G.
  destruct (freq102arfcn f up =? 65535) eqn:E.
  - left. split; [lia|]. intros a c Ha Hc Hfc. pose proof (round_spec a up c Ha Hc) as R. rewrite Hfc in R.
    assert (a < 49152 /\ a mod 4096 < 1024).
    { unfold arfcn_channel in Hc. destruct (a / 4096 =? 0) eqn:Q1; [|destruct (a / 4096 =? 8) eqn:Q2; [|discriminate]];
      (destruct (Z.lt_ge_cases (a mod 4096) 1024) as [|Q]; [split; lia|]); unfold channel in Hc;
      repeat match type of Hc with context [(?x <=? ?m) && (?n <=? ?y)] => replace ((x <=? m) && (n <=? y)) with false in Hc by lia end; discriminate. }
    destruct up; lia.
  - right. cbn [orb] in G. rewrite !andb_true_iff in G. destruct G as [[G1 G2] G3].
    destruct (arfcn_channel (freq102arfcn f up - (if up then 16384 else 0))) as [c|] eqn:Q; [|discriminate].
    eexists _, c. split; [|split; [|split; [exact Q|]]]; lia.
Qed.
Print Assumptions C25_freq2arfcn.

(* C25: the uplink flag the reverse direction adds is not understood by the forward direction *)
Theorem C25_uplink_flag_refuted : forall f a c, 0 <= a < 65536 -> arfcn_channel a = Some c -> f = freq true c ->
  arfcn2freq10 (freq102arfcn f true) true = 65535.
Proof.
  intros f a c Ha Hc ->. rewrite (round_spec a true c Ha Hc).
  assert (B : a / 4096 = 0 \/ a / 4096 = 8).
  { unfold arfcn_channel in Hc. destruct (a / 4096 =? 0) eqn:Q1; [left; lia|]. destruct (a / 4096 =? 8) eqn:Q2; [right; lia|discriminate]. }
  rewrite C25_arfcn2freq by lia. unfold arfcn_channel.
  replace ((a + 16384) / 4096 =? 0) with false by lia. replace ((a + 16384) / 4096 =? 8) with false by lia. reflexivity.
Qed.
Print Assumptions C25_uplink_flag_refuted.

(* C25: band classification: without the PCS flag exactly the channels of the table are classified, in their band
   (other flags are ignored); with it everything is PCS 1900 *)
Theorem C25_band : forall a, 0 <= a < 65536 ->
  arfcn2band_rc a = if 32768 <=? a then Ok 8
                    else match channel false (a mod 4096) with Some (g, _, _) => Ok (band_code g) | None => Err (-1) end.
Proof.
  intros a Ha. pose proof (band_spec a Ha) as G. unfold chk_band, is_pcs_flag in G.
  destruct (arfcn2band_rc a) as [b|c| |]; try discriminate; destruct (32768 <=? a).
  - f_equal; lia.
  - destruct (channel false (a mod 4096)) as [[[g ?] ?]|]; [f_equal; lia|discriminate].
  - cbn [negb] in G. rewrite andb_false_r in G. discriminate.
  - destruct (channel false (a mod 4096)) as [[[g ?] ?]|]; [rewrite andb_false_r in G; discriminate|]. f_equal; lia.
Qed.
Print Assumptions C25_band.

(* C25: whenever the ARFCN has a frequency, the band is the channel's band, and gsm_arfcn2band does not panic *)
Theorem C25_band_consistent : forall a g ul d, 0 <= a < 65536 -> arfcn_channel a = Some (g, ul, d) ->
  arfcn2band_rc a = Ok (band_code g) /\ arfcn2band a = Ok (band_code g).
Proof.
  intros a g ul d Ha Hc. assert (E : arfcn2band_rc a = Ok (band_code g)).
  { rewrite C25_band by assumption. unfold arfcn_channel in Hc.
    destruct (a / 4096 =? 0) eqn:Q1.
    - replace (32768 <=? a) with false by lia. rewrite Hc. reflexivity.
    - destruct (a / 4096 =? 8) eqn:Q2; [|discriminate]. replace (32768 <=? a) with true by lia.
      unfold channel in Hc. destruct ((512 <=? a mod 4096) && (a mod 4096 <=? 810)); [|discriminate]. injection Hc as <- _ _. reflexivity. }
  unfold arfcn2band. rewrite E. split; reflexivity.
Qed.
Print Assumptions C25_band_consistent.

(* C25: the converse fails: an ARFCN may have a band but no frequency *)
Theorem C25_band_refuted : exists a, 0 <= a < 65536 /\ arfcn2band_rc a = Ok 8 /\ arfcn2freq10 a true = 65535.
Proof. exists 32768. split; [lia|]. split; reflexivity. Qed.
Print Assumptions C25_band_refuted.

Example C25_nonvacuous :
  arfcn_channel 871 = Some (B1800, 17820, 950) /\ arfcn2freq10 871 false = 18770 /\ freq102arfcn 18770 false = 871
  /\ arfcn_channel (32768 + 810) <> None /\ freq102arfcn 18501 true = 65535 /\ freq102arfcn 8901 true = 16384.
Proof. repeat split; try reflexivity. discriminate. Qed.

(* C45: the TLLI type is given by the ranges of TS 23.003 *)
Theorem C45_tlli_type : forall t, 0 <= t < 4294967296 ->
  tlli_type t = match tlli_kind_of t with TLocal => TLLI_LOCAL | TForeign => TLLI_FOREIGN | TRandom => TLLI_RANDOM
    | TAux => TLLI_AUXILIARY | TReserved => TLLI_RESERVED | TGRnti => TLLI_G_RNTI | TRandGRnti => TLLI_RAND_G_RNTI end.
Proof. intros t Ht. rewrite tlli_type_spec by assumption. destruct (tlli_kind_of t); reflexivity. Qed.
Print Assumptions C45_tlli_type.

(* C45: a TLLI derived from a P-TMSI has the requested type and gives the P-TMSI back (its two top bits set) *)
Theorem C45_tmsi_tlli_tmsi : forall p ty, 0 <= p < 4294967296 -> ty = TLLI_LOCAL \/ ty = TLLI_FOREIGN ->
  0 <= tmsi2tlli p ty < 4294967296 /\ tlli_type (tmsi2tlli p ty) = ty /\
  tlli2tmsi (tmsi2tlli p ty) = 3221225472 + p mod 1073741824.
Proof.
  intros p ty Hp Hty. destruct (tmsi2tlli_spec p Hp) as [EL EF].
  pose proof (Z.mod_pos_bound p 1073741824 ltac:(lia)) as B. revert B EL EF. generalize (p mod 1073741824). intros m B EL EF.
  assert (G : forall base, base = 3221225472 \/ base = 2147483648 -> tlli_type (base + m) = (if base =? 3221225472 then TLLI_LOCAL else TLLI_FOREIGN)
     /\ tlli2tmsi (base + m) = 3221225472 + m).
  { intros base Hb. assert (T : tlli_type (base + m) = (if base =? 3221225472 then TLLI_LOCAL else TLLI_FOREIGN)).
    { rewrite C45_tlli_type by lia. unfold tlli_kind_of. destruct Hb as [-> | ->].
      - replace (3221225472 <=? 3221225472 + m) with true by lia. reflexivity.
      - replace (3221225472 <=? 2147483648 + m) with false by lia. replace (2147483648 <=? 2147483648 + m) with true by lia. reflexivity. }
    split; [exact T|]. unfold tlli2tmsi. cbv zeta. rewrite T.
    assert (Q : ((if base =? 3221225472 then TLLI_LOCAL else TLLI_FOREIGN) =? TLLI_LOCAL) || ((if base =? 3221225472 then TLLI_LOCAL else TLLI_FOREIGN) =? TLLI_FOREIGN) = true)
      by (destruct (base =? 3221225472); reflexivity).
    rewrite Q. rewrite lor_top by (unfold is_u32; lia). destruct Hb as [-> | ->]; lia. }
  destruct Hty as [-> | ->]; [rewrite EL|rewrite EF].
  - destruct (G 3221225472 ltac:(lia)) as [G1 G2]. split; [lia|]. split; [exact G1|exact G2].
  - destruct (G 2147483648 ltac:(lia)) as [G1 G2]. split; [lia|]. split; [exact G1|exact G2].
Qed.
Print Assumptions C45_tmsi_tlli_tmsi.

(* C45: in particular a P-TMSI with both top bits set is recovered unchanged; other TLLI types are refused *)
Theorem C45_ptmsi_identity : forall p ty, 3221225472 <= p < 4294967296 -> ty = TLLI_LOCAL \/ ty = TLLI_FOREIGN -> tlli2tmsi (tmsi2tlli p ty) = p.
Proof. intros p ty Hp Hty. destruct (C45_tmsi_tlli_tmsi p ty ltac:(lia) Hty) as [_ [_ ->]]. lia. Qed.
Print Assumptions C45_ptmsi_identity.
Theorem C45_tlli2tmsi_other : forall t, 0 <= t < 2147483648 -> tlli2tmsi t = 4294967295.
Proof.
  intros t Ht. unfold tlli2tmsi. cbv zeta. rewrite C45_tlli_type by lia. unfold tlli_kind_of.
  replace (3221225472 <=? t) with false by lia. replace (2147483648 <=? t) with false by lia.
  destruct (2013265920 <=? t); [reflexivity|]. destruct (1879048192 <=? t); [reflexivity|].
  destruct (536870912 <=? t); [reflexivity|]. destruct (268435456 <=? t); reflexivity.
Qed.
Print Assumptions C45_tlli2tmsi_other.
Example C45_nonvacuous : tlli_type 2147487231 = TLLI_FOREIGN /\ tlli2tmsi (tmsi2tlli 3735928559 TLLI_FOREIGN) = 3735928559
  /\ tmsi2tlli 3735928559 TLLI_FOREIGN = 2662186735 /\ tlli_type 1879048193 = TLLI_AUXILIARY.
Proof. repeat split. Qed.

(* C46: for every requested power the chosen level is within 1 dB of it, once limited to the band's range *)
Theorem C46_power_level : forall b d, 0 <= d < 4294967296 ->
  let p := ms_pwr_dbm (band_code b) (ms_pwr_ctl_lvl (band_code b) d) in
  let (lo, hi) := ms_power_range b in Z.abs (p - clamp lo hi d) <= 1 /\ lo <= p <= hi.
Proof. intros b d Hd. pose proof (power_round b d Hd) as G. destruct (ms_power_range b) as [lo hi]. exact G. Qed.
Print Assumptions C46_power_level.

(* C46: the power of every level is reached again through the level chosen for it *)
Theorem C46_level_power : forall b l, 0 <= l < 256 -> 0 <= ms_pwr_dbm (band_code b) l ->
  ms_pwr_dbm (band_code b) (ms_pwr_ctl_lvl (band_code b) (ms_pwr_dbm (band_code b) l)) = ms_pwr_dbm (band_code b) l.
Proof. exact level_round. Qed.
Print Assumptions C46_level_power.

(* C46: RxLev and dBm are inverse on 0..63 / -110..-47 and saturate outside *)
Theorem C46_rxlev : forall r, 0 <= r < 256 -> dbm2rxlev (rxlev2dbm r) = Ok (Z.min r 63).
Proof.
  intros r Hr. unfold rxlev2dbm, dbm2rxlev. destruct (r >? 63) eqn:E.
  - cbn. f_equal. lia.
  - cbv zeta. replace (-110 + r + 110) with r by lia. replace (r >? 2147483647) with false by lia.
    rewrite E. replace (r <? 0) with false by lia. rewrite u8_small by (unfold is_byte; lia). f_equal; lia.
Qed.
Print Assumptions C46_rxlev.
Theorem C46_dbm : forall d, -2147483648 <= d <= 2147483647 - 110 ->
  exists r, dbm2rxlev d = Ok r /\ 0 <= r <= 63 /\ rxlev2dbm r = clamp (-110) (-47) d.
Proof.
  intros d Hd. unfold dbm2rxlev. cbv zeta. replace (d + 110 >? 2147483647) with false by lia. unfold clamp.
  destruct (d + 110 >? 63) eqn:E; [|destruct (d + 110 <? 0) eqn:E2];
    (eexists; split; [reflexivity|]); rewrite u8_small by (unfold is_byte; lia); unfold rxlev2dbm; (split; [lia|]).
  - cbn. lia.
  - cbn. lia.
  - rewrite E. lia.
Qed.
Print Assumptions C46_dbm.
Theorem C46_dbm_overflow_refuted : dbm2rxlev 2147483647 = UB.
Proof. reflexivity. Qed.
Print Assumptions C46_dbm_overflow_refuted.
Example C46_nonvacuous : ms_pwr_ctl_lvl (band_code B1800) 33 = 31 /\ ms_pwr_dbm (band_code B1800) 31 = 32 /\ ms_pwr_dbm (band_code B900) 5 = 33
  /\ dbm2rxlev (-85) = Ok 25.
Proof. repeat split. Qed.
