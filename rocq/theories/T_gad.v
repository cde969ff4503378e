(** C66: geographical area descriptions (gad.c, TS 23.032). *)
From Verif Require Import Base M_bitgen M_gad S_gad P_bitgen P_gad.

(** Latitude: 24 bits, the top bit the sign. The number is the largest whose value is not above the latitude, and the number of
    TS 23.032 for it or for one micro degree more. Partial: without the poles, see C66_lat_pole_refuted. *)
Theorem C66_lat_partial : forall d, -90000000 < d < 90000000 ->
  let n := osmo_gad_enc_lat d in
  0 <= n < 2 ^ 24 /\ (2 ^ 23 <= n <-> d < 0) /\
  (lat_number (Z.abs d) (magnitude n) \/ lat_number (Z.abs d + 1) (magnitude n)) /\
  magnitude n * 90000000 < (Z.abs d + 1) * 2 ^ 23 <= (magnitude n + 1) * 90000000.
Proof.
  intros d H. cbv zeta. unfold lat_number, magnitude. destruct (Z.lt_ge_cases d 0) as [N|N].
  - replace d with (- (- d)) by lia. rewrite enc_lat_neg by lia. rewrite Z.opp_involutive.
    pose proof (nlat_div (- d)). assert (0 <= nlat (- d) < 2 ^ 23) by lia.
    destruct (Z.ltb_spec (2 ^ 23 + nlat (- d)) (2 ^ 23)); [lia|]. replace (2 ^ 23 + nlat (- d) - 2 ^ 23) with (nlat (- d)) by lia.
    replace (Z.abs d) with (- d) by lia. lia.
  - destruct (enc_lat_pos d ltac:(lia)) as [-> B]. pose proof (nlat_div d).
    destruct (Z.ltb_spec (nlat d) (2 ^ 23)); [|lia]. replace (Z.abs d) with d by lia. lia.
Qed.
Print Assumptions C66_lat_partial.
Example C66_lat_nonvacuous : osmo_gad_enc_lat 23000000 = 2143755 /\ osmo_gad_enc_lat (-23000000) = 2 ^ 23 + 2143755 /\ osmo_gad_dec_lat 2143755 = 22999995.
Proof. vm_compute. auto. Qed.
(** It is not always the number of TS 23.032 for the latitude itself: *)
Theorem C66_lat_number_refuted : exists d, -90000000 < d < 90000000 /\ ~ lat_number (Z.abs d) (magnitude (osmo_gad_enc_lat d)).
Proof. exists 10. split; [lia|]. unfold lat_number. vm_compute. intros [H _]. apply H. reflexivity. Qed.
Print Assumptions C66_lat_number_refuted.

(** Every number is decoded to its value, rounded towards the equator to whole micro degrees; *)
Theorem C66_lat_dec : forall n, 0 <= n < 2 ^ 24 ->
  let x := osmo_gad_dec_lat n in
  Z.abs x * 2 ^ 23 <= magnitude n * 90000000 < (Z.abs x + 1) * 2 ^ 23 /\ (x < 0 -> 2 ^ 23 < n) /\ (0 < x -> n < 2 ^ 23).
Proof.
  intros n H. cbv zeta. unfold magnitude. destruct (Z.ltb_spec n (2 ^ 23)).
  - destruct (dec_lat_pos n ltac:(lia)) as [-> B]. pose proof (dlat_div n). replace (Z.abs (dlat n)) with (dlat n) by lia. lia.
  - pose proof (dec_lat_neg (n - 2 ^ 23) ltac:(lia)) as E. replace (2 ^ 23 + (n - 2 ^ 23)) with n in E by lia. rewrite E. destruct (dec_lat_pos (n - 2 ^ 23) ltac:(lia)) as [_ B].
    pose proof (dlat_div (n - 2 ^ 23)). replace (Z.abs (- dlat (n - 2 ^ 23))) with (dlat (n - 2 ^ 23)) by lia. lia.
Qed.
Print Assumptions C66_lat_dec.
(** encoding undoes decoding, but for the second zero; decoding undoes encoding up to 10 micro degrees; the order is kept. *)
Theorem C66_lat_exact : forall n, 0 <= n < 2 ^ 24 -> (osmo_gad_enc_lat (osmo_gad_dec_lat n) = n <-> n <> 2 ^ 23).
Proof. intros n H. split; [intros E ->; vm_compute in E; discriminate|apply lat_exact; exact H]. Qed.
Print Assumptions C66_lat_exact.
Lemma lat_rt d : -90000000 < d < 90000000 -> osmo_gad_dec_lat (osmo_gad_enc_lat d) = if d <? 0 then - dlat (nlat (- d)) else dlat (nlat d).
Proof.
  intros H. destruct (Z.ltb_spec d 0).
  - replace d with (- (- d)) at 1 by lia. rewrite enc_lat_neg by lia. apply dec_lat_neg. pose proof (nlat_div (- d)). lia.
  - destruct (enc_lat_pos d ltac:(lia)) as [-> B]. apply dec_lat_pos. exact B.
Qed.
Theorem C66_lat_roundtrip_partial : forall d, -90000000 < d < 90000000 ->
  let x := osmo_gad_dec_lat (osmo_gad_enc_lat d) in
  Z.abs d - 10 <= Z.abs x <= Z.abs d /\ 0 <= x * d /\ osmo_gad_dec_lat (osmo_gad_enc_lat x) = x.
Proof.
  intros d H. cbv zeta. pose proof (dlat_nlat d) as A. pose proof (dlat_nlat (- d)) as B. rewrite (lat_rt d H).
  destruct (Z.ltb_spec d 0).
  - assert (P : 0 <= dlat (nlat (- d))) by (pose proof (nlat_div (- d)); pose proof (dlat_div (nlat (- d))); lia).
    split; [lia|]. split; [nia|]. rewrite lat_rt by lia. destruct (Z.ltb_spec (- dlat (nlat (- d))) 0).
    + rewrite Z.opp_involutive, nlat_dlat. reflexivity.
    + assert (E : dlat (nlat (- d)) = 0) by lia. rewrite E. reflexivity.
  - assert (P : 0 <= dlat (nlat d)) by (pose proof (nlat_div d); pose proof (dlat_div (nlat d)); lia).
    split; [lia|]. split; [nia|]. rewrite lat_rt by lia. destruct (Z.ltb_spec (dlat (nlat d)) 0); [lia|]. rewrite nlat_dlat. reflexivity.
Qed.
Print Assumptions C66_lat_roundtrip_partial.
Theorem C66_lat_mono_partial : forall a b, -90000000 < a -> a <= b -> b < 90000000 ->
  osmo_gad_dec_lat (osmo_gad_enc_lat a) <= osmo_gad_dec_lat (osmo_gad_enc_lat b).
Proof.
  intros a b A L B. rewrite !lat_rt by lia.
  assert (P : forall d, 0 <= d -> 0 <= dlat (nlat d)) by (intros d D; pose proof (nlat_div d); pose proof (dlat_div (nlat d)); lia).
  destruct (Z.ltb_spec a 0), (Z.ltb_spec b 0); try lia.
  - pose proof (dlat_mono _ _ (nlat_mono (- b) (- a) ltac:(lia))). lia.
  - pose proof (P (- a) ltac:(lia)). pose proof (P b ltac:(lia)). lia.
  - apply dlat_mono, nlat_mono. exact L.
Qed.
Print Assumptions C66_lat_mono_partial.
(** Latitudes out of range are taken as the pole, and the poles come out at the equator: *)
Theorem C66_lat_pole_refuted : forall d, 90000000 <= d ->
  osmo_gad_enc_lat d = 0 /\ osmo_gad_dec_lat (osmo_gad_enc_lat d) = 0 /\
  osmo_gad_enc_lat (- d) = 2 ^ 23 /\ osmo_gad_dec_lat (osmo_gad_enc_lat (- d)) = 0.
Proof.
  intros d H. assert (A : osmo_gad_enc_lat d = 0).
  { unfold osmo_gad_enc_lat. replace (Z.max (-90000000) (Z.min 90000000 d)) with 90000000 by lia. reflexivity. }
  assert (B : osmo_gad_enc_lat (- d) = 2 ^ 23).
  { unfold osmo_gad_enc_lat. replace (Z.max (-90000000) (Z.min 90000000 (- d))) with (-90000000) by lia. reflexivity. }
  rewrite A, B. auto.
Qed.
Print Assumptions C66_lat_pole_refuted.

(** Longitude: 24 bits, two's complement, rounded towards Greenwich. *)
Theorem C66_lon : forall d, -180000000 <= d <= 180000000 ->
  let n := osmo_gad_enc_lon d in let m := Z.abs (signed n) in
  0 <= n < 2 ^ 24 /\ (signed n < 0 -> d < 0 \/ d = 180000000) /\ (0 < signed n -> 0 < d) /\
  (lon_number (Z.abs d) m \/ lon_number (Z.abs d + 1) m) /\ m * 360000000 < (Z.abs d + 1) * 2 ^ 24 <= (m + 1) * 360000000.
Proof.
  intros d H. cbv zeta. split; [apply enc_lon_range|]. unfold lon_number, signed. destruct (Z.lt_ge_cases d 0) as [N|N].
  - replace d with (- (- d)) by lia. destruct (enc_lon_neg (- d) ltac:(lia)) as [-> B]. rewrite Z.opp_involutive.
    pose proof (nlon_div (- d)). assert (E : (if (- nlon (- d)) mod 2 ^ 24 <? 2 ^ 23 then (- nlon (- d)) mod 2 ^ 24 else (- nlon (- d)) mod 2 ^ 24 - 2 ^ 24) = - nlon (- d)).
    { destruct (Z.eq_dec (nlon (- d)) 0) as [Q|Q]; [rewrite Q; reflexivity|].
      replace ((- nlon (- d)) mod 2 ^ 24) with (2 ^ 24 - nlon (- d)) by (apply (Z.mod_unique _ _ (-1)); lia).
      destruct (Z.ltb_spec (2 ^ 24 - nlon (- d)) (2 ^ 23)); lia. }
    rewrite E. replace (Z.abs d) with (- d) by lia. replace (Z.abs (- nlon (- d))) with (nlon (- d)) by lia. lia.
  - destruct (enc_lon_pos d ltac:(lia)) as (-> & B & C). pose proof (nlon_div d). replace (Z.abs d) with d by lia.
    destruct (Z.ltb_spec (nlon d) (2 ^ 23)).
    + replace (Z.abs (nlon d)) with (nlon d) by lia. lia.
    + assert (nlon d = 2 ^ 23) by lia. assert (d = 180000000) by lia. replace (Z.abs (nlon d - 2 ^ 24)) with (nlon d) by lia. lia.
Qed.
Print Assumptions C66_lon.
Example C66_lon_nonvacuous : osmo_gad_enc_lon (-5000000) = 2 ^ 24 - 233016 /\ osmo_gad_enc_lon 5000000 = 233016 /\ osmo_gad_dec_lon 233016 = 4999980.
Proof. vm_compute. auto. Qed.
Theorem C66_lon_dec : forall n, 0 <= n < 2 ^ 24 ->
  let x := osmo_gad_dec_lon n in
  Z.abs x * 2 ^ 24 <= Z.abs (signed n) * 360000000 < (Z.abs x + 1) * 2 ^ 24 /\ 0 <= x * signed n.
Proof.
  intros n H. cbv zeta. unfold signed. destruct (Z.ltb_spec n (2 ^ 23)).
  - destruct (dec_lon_pos n ltac:(lia)) as [-> B]. pose proof (dlon_div n). replace (Z.abs (dlon n)) with (dlon n) by lia. split; nia.
  - pose proof (dec_lon_neg (2 ^ 24 - n) ltac:(lia)) as E. replace (2 ^ 24 - (2 ^ 24 - n)) with n in E by lia. rewrite E. pose proof (dlon_div (2 ^ 24 - n)).
    assert (0 <= dlon (2 ^ 24 - n)) by lia. replace (Z.abs (- dlon (2 ^ 24 - n))) with (dlon (2 ^ 24 - n)) by lia.
    replace (Z.abs (n - 2 ^ 24)) with (2 ^ 24 - n) by lia. split; nia.
Qed.
Print Assumptions C66_lon_dec.
Theorem C66_lon_exact : forall n, 0 <= n < 2 ^ 24 -> osmo_gad_enc_lon (osmo_gad_dec_lon n) = n.
Proof. exact lon_exact. Qed.
Print Assumptions C66_lon_exact.
Lemma lon_rt d : -180000000 <= d < 180000000 -> osmo_gad_dec_lon (osmo_gad_enc_lon d) = if d <? 0 then - dlon (nlon (- d)) else dlon (nlon d).
Proof.
  intros H. destruct (Z.ltb_spec d 0).
  - replace d with (- (- d)) at 1 by lia. destruct (enc_lon_neg (- d) ltac:(lia)) as [-> B].
    destruct (Z.eq_dec (nlon (- d)) 0) as [Q|Q]; [rewrite Q; reflexivity|].
    replace ((- nlon (- d)) mod 2 ^ 24) with (2 ^ 24 - nlon (- d)) by (apply (Z.mod_unique _ _ (-1)); lia). apply dec_lon_neg. lia.
  - destruct (enc_lon_pos d ltac:(lia)) as (-> & B & C). apply dec_lon_pos. lia.
Qed.
(** Decoding undoes encoding up to 21 micro degrees, 180 degrees East coming out as 180 degrees West; the order is kept. *)
Theorem C66_lon_roundtrip : forall d, -180000000 <= d < 180000000 ->
  let x := osmo_gad_dec_lon (osmo_gad_enc_lon d) in
  Z.abs d - 21 <= Z.abs x <= Z.abs d /\ 0 <= x * d /\ osmo_gad_dec_lon (osmo_gad_enc_lon x) = x.
Proof.
  intros d H. cbv zeta. split; [|split; [|rewrite lon_exact by apply enc_lon_range; reflexivity]].
  all: pose proof (dlon_nlon d) as A; pose proof (dlon_nlon (- d)) as B; rewrite (lon_rt d H); destruct (Z.ltb_spec d 0).
  1,3: assert (P : 0 <= dlon (nlon (- d))) by (pose proof (nlon_div (- d)); pose proof (dlon_div (nlon (- d))); lia); nia.
  all: assert (P : 0 <= dlon (nlon d)) by (pose proof (nlon_div d); pose proof (dlon_div (nlon d)); lia); nia.
Qed.
Print Assumptions C66_lon_roundtrip.
Theorem C66_lon_mono : forall a b, -180000000 <= a -> a <= b -> b < 180000000 ->
  osmo_gad_dec_lon (osmo_gad_enc_lon a) <= osmo_gad_dec_lon (osmo_gad_enc_lon b).
Proof.
  intros a b A L B. rewrite !lon_rt by lia.
  assert (P : forall d, 0 <= d -> 0 <= dlon (nlon d)) by (intros d D; pose proof (nlon_div d); pose proof (dlon_div (nlon d)); lia).
  destruct (Z.ltb_spec a 0), (Z.ltb_spec b 0); try lia.
  - pose proof (dlon_mono _ _ (nlon_mono (- b) (- a) ltac:(lia))). lia.
  - pose proof (P (- a) ltac:(lia)). pose proof (P b ltac:(lia)). lia.
  - apply dlon_mono, nlon_mono. exact L.
Qed.
Print Assumptions C66_lon_mono.
(** Longitudes out of range, and 180 degrees on either side, are one number: the date line. *)
Theorem C66_lon_clamp : forall d, 180000000 <= Z.abs d -> osmo_gad_enc_lon d = 2 ^ 23 /\ osmo_gad_dec_lon (osmo_gad_enc_lon d) = -180000000.
Proof.
  intros d H. assert (E : osmo_gad_enc_lon d = 2 ^ 23); [|rewrite E; auto].
  unfold osmo_gad_enc_lon. destruct (Z.lt_ge_cases d 0).
  - replace (Z.max (-180000000) (Z.min 180000000 d)) with (-180000000) by lia. reflexivity.
  - replace (Z.max (-180000000) (Z.min 180000000 d)) with 180000000 by lia. reflexivity.
Qed.
Print Assumptions C66_lon_clamp.

(** Uncertainty: the table is the formula of TS 23.032 in whole millimetres; encoding takes the largest code whose radius is not
    above the given one, and undoes decoding. The top bit is ignored. *)
Theorem C66_unc : forall k, 0 <= k < 128 -> radius k (osmo_gad_dec_unc k) /\ osmo_gad_enc_unc (osmo_gad_dec_unc k) = k /\
  osmo_gad_dec_unc (k + 128) = osmo_gad_dec_unc k.
Proof.
  intros k H. split; [apply unc_table; exact H|]. split; [apply unc_exact; exact H|]. unfold osmo_gad_dec_unc. f_equal.
  change 127 with (Z.ones 7). rewrite !Z.land_ones by lia. replace (k + 128) with (k + 1 * 2 ^ 7) by lia. apply Z_mod_plus_full.
Qed.
Print Assumptions C66_unc.
Theorem C66_unc_floor : forall mm, 0 <= mm -> let k := osmo_gad_enc_unc mm in
  0 <= k < 128 /\ osmo_gad_dec_unc k <= mm /\ (k < 127 -> mm < osmo_gad_dec_unc (k + 1)).
Proof. exact unc_ok. Qed.
Print Assumptions C66_unc_floor.

(** PDUs: an ellipsoid point with uncertainty circle is 8 octets; nothing behind them is touched; what is out of range is refused. *)
Theorem C66_enc : forall ptr raw v, -90000000 <= g_lat v <= 90000000 -> -180000000 <= g_lon v <= 180000000 -> 0 <= g_unc v -> zlen raw = 91 ->
  exists out, osmo_gad_enc ptr raw 1 v = Ok (ptr, out) /\ zlen out = 91 /\ at0 out 0 = 16 /\
    be_val (zslice out 1 3) = osmo_gad_enc_lat (g_lat v) /\ be_val (zslice out 4 3) = osmo_gad_enc_lon (g_lon v) /\
    at0 out 7 = osmo_gad_enc_unc (g_unc v) /\ skipn 8 out = skipn 8 raw.
Proof.
  intros ptr raw v A B C L. unfold osmo_gad_enc. cbn [Z.eqb Pos.eqb GAD_TYPE_ELL_POINT_UNC_CIRCLE]. rewrite enc_circle_ok by auto. eexists. split; [reflexivity|].
  pose proof (be_bytes_length 3 (osmo_gad_enc_lat (g_lat v))) as LA. pose proof (be_bytes_length 3 (osmo_gad_enc_lon (g_lon v))) as LO.
  assert (VA : be_val (be_bytes 3 (osmo_gad_enc_lat (g_lat v))) = osmo_gad_enc_lat (g_lat v)).
  { rewrite be_val_be_bytes. apply Z.mod_small. apply enc_lat_range. }
  assert (VO : be_val (be_bytes 3 (osmo_gad_enc_lon (g_lon v))) = osmo_gad_enc_lon (g_lon v)).
  { rewrite be_val_be_bytes. apply Z.mod_small. apply enc_lon_range. }
  destruct (be_bytes 3 (osmo_gad_enc_lat (g_lat v))) as [|a1 [|a2 [|a3 [|]]]]; try discriminate LA.
  destruct (be_bytes 3 (osmo_gad_enc_lon (g_lon v))) as [|o1 [|o2 [|o3 [|]]]]; try discriminate LO.
  split; [|split; [reflexivity|split; [exact VA|split; [exact VO|split; reflexivity]]]].
  cbn [app]. rewrite !zlen_cons. unfold zlen in *. rewrite skipn_length. lia.
Qed.
Print Assumptions C66_enc.
Theorem C66_enc_refuse : forall ptr raw type v,
  (type <> 1 -> osmo_gad_enc ptr raw type v = Err (- ENOTSUP)) /\
  (g_lat v < -90000000 \/ 90000000 < g_lat v \/ g_lon v < -180000000 \/ 180000000 < g_lon v -> osmo_gad_enc ptr raw 1 v = Err (- EINVAL)).
Proof.
  intros ptr raw type v. split.
  - intros N. unfold osmo_gad_enc. apply Z.eqb_neq in N. change GAD_TYPE_ELL_POINT_UNC_CIRCLE with 1. rewrite N. reflexivity.
  - intros H. unfold osmo_gad_enc. cbn [Z.eqb Pos.eqb GAD_TYPE_ELL_POINT_UNC_CIRCLE]. unfold enc_circle.
    destruct (Z.ltb_spec (g_lat v) (-90000000)); [reflexivity|]. destruct (Z.ltb_spec 90000000 (g_lat v)); [reflexivity|]. cbn [orb].
    destruct (Z.ltb_spec (g_lon v) (-180000000)); [reflexivity|]. destruct (Z.ltb_spec 180000000 (g_lon v)); [reflexivity|]. lia.
Qed.
Print Assumptions C66_enc_refuse.
(** The value returned is the size of a pointer, not the number of octets written: the two agree only where pointers have 8. *)
Theorem C66_enc_length_refuted : forall ptr raw v, -90000000 <= g_lat v <= 90000000 -> -180000000 <= g_lon v <= 180000000 -> 0 <= g_unc v -> zlen raw = 91 ->
  exists rc out n, osmo_gad_enc ptr raw 1 v = Ok (rc, out) /\ osmo_gad_raw_write out = Ok n /\ (rc = zlen n <-> ptr = 8).
Proof.
  intros ptr raw v A B C L. destruct (C66_enc ptr raw v A B C L) as (out & E & LO & O0 & _). exists ptr, out, (firstn 8 out).
  split; [exact E|]. pose proof (raw_len_ok out ltac:(lia)) as R. rewrite O0 in R. destruct (R ltac:(unfold is_byte; lia)) as [Q _].
  unfold osmo_gad_raw_write. rewrite Q. cbn [bind]. rewrite LO. cbn [Z.ltb Z.compare Pos.compare Pos.compare_cont].
  split; [reflexivity|]. unfold zlen in *. rewrite firstn_length. lia.
Qed.
Print Assumptions C66_enc_length_refuted.
(** Decoding gives the value of each field; a set top bit of the last octet and every other type are refused. *)
Theorem C66_dec : forall raw, bytes raw -> 8 <= zlen raw ->
  osmo_gad_dec raw =
  if negb (at0 raw 0 / 16 =? 1) then Err (- ENOTSUP) else
  if 128 <=? at0 raw 7 then Err (- EINVAL) else
  Ok (1, Circle (osmo_gad_dec_lat (be_val (zslice raw 1 3))) (osmo_gad_dec_lon (be_val (zslice raw 4 3))) (osmo_gad_dec_unc (at0 raw 7))).
Proof.
  intros raw B L. destruct raw as [|o [|a1 [|a2 [|a3 [|o1 [|o2 [|o3 [|u r]]]]]]]]; try (unfold zlen in L; cbn in L; lia). clear L.
  unfold osmo_gad_dec. change (rd (o :: a1 :: a2 :: a3 :: o1 :: o2 :: o3 :: u :: r) 0) with (Ok o). cbn [bind].
  change (at0 (o :: a1 :: a2 :: a3 :: o1 :: o2 :: o3 :: u :: r) 0) with o. change (at0 (o :: a1 :: a2 :: a3 :: o1 :: o2 :: o3 :: u :: r) 7) with u.
  change (zslice (o :: a1 :: a2 :: a3 :: o1 :: o2 :: o3 :: u :: r) 1 3) with [a1; a2; a3]. change (zslice (o :: a1 :: a2 :: a3 :: o1 :: o2 :: o3 :: u :: r) 4 3) with [o1; o2; o3].
  rewrite Z.shiftr_div_pow2 by lia. change (2 ^ 4) with 16. change GAD_TYPE_ELL_POINT_UNC_CIRCLE with 1.
  destruct (Z.eqb_spec (o / 16) 1) as [E|N]; [|reflexivity]. cbn [negb]. rewrite E.
  unfold bytes in B. repeat (apply Forall_cons_iff in B; destruct B as [? B]).
  pose proof (dec_circle_ok o [a1; a2; a3] [o1; o2; o3] u r) as D. cbn [app] in D. rewrite D by (unfold bytes; auto).
  destruct (Z.ltb_spec u 128), (Z.leb_spec 128 u); try lia; reflexivity.
Qed.
Print Assumptions C66_dec.
(** Together: every point between the poles survives up to the resolution. *)
Theorem C66_roundtrip_partial : forall ptr raw v, -90000000 < g_lat v < 90000000 -> -180000000 <= g_lon v < 180000000 -> 0 <= g_unc v -> bytes raw -> zlen raw = 91 ->
  exists out w, osmo_gad_enc ptr raw 1 v = Ok (ptr, out) /\ osmo_gad_dec out = Ok (1, w) /\
    Z.abs (g_lat v) - 10 <= Z.abs (g_lat w) <= Z.abs (g_lat v) /\ 0 <= g_lat w * g_lat v /\
    Z.abs (g_lon v) - 21 <= Z.abs (g_lon w) <= Z.abs (g_lon v) /\ 0 <= g_lon w * g_lon v /\
    g_unc w = osmo_gad_dec_unc (osmo_gad_enc_unc (g_unc v)) /\ g_unc w <= g_unc v.
Proof.
  intros ptr raw v A B C BR L. unfold osmo_gad_enc. cbn [Z.eqb Pos.eqb GAD_TYPE_ELL_POINT_UNC_CIRCLE]. rewrite enc_circle_ok by (auto; lia).
  destruct (unc_ok (g_unc v) C) as (K & K1 & _).
  eexists. exists (Circle (osmo_gad_dec_lat (osmo_gad_enc_lat (g_lat v))) (osmo_gad_dec_lon (osmo_gad_enc_lon (g_lon v))) (osmo_gad_dec_unc (osmo_gad_enc_unc (g_unc v)))).
  split; [reflexivity|]. split.
  - unfold osmo_gad_dec. match goal with |- context [rd ?l 0] => change (rd l 0) with (Ok 16) end. cbn [bind].
    change (Z.shiftr 16 4 =? GAD_TYPE_ELL_POINT_UNC_CIRCLE) with true. cbn iota. cbn [app].
    rewrite dec_circle_ok; try apply be_bytes_bytes; try apply be_bytes_length; [|unfold is_byte; lia].
    destruct (Z.ltb_spec (osmo_gad_enc_unc (g_unc v)) 128); [|lia]. cbn [bind]. rewrite !be_val_be_bytes.
    change (2 ^ (8 * Z.of_nat 3)) with (2 ^ 24). rewrite !Z.mod_small by (apply enc_lat_range || apply enc_lon_range). reflexivity.
  - cbn [g_lat g_lon g_unc]. destruct (C66_lat_roundtrip_partial _ A) as (P1 & P2 & _). destruct (C66_lon_roundtrip _ B) as (Q1 & Q2 & _). auto 10.
Qed.
Print Assumptions C66_roundtrip_partial.
Example C66_roundtrip_nonvacuous : exists out, osmo_gad_enc 8 (repeat 7 91) 1 (Circle 23000000 (-5000000) 450000) = Ok (8, out) /\
  firstn 8 out = [16; 32; 182; 11; 252; 113; 200; 40] /\ osmo_gad_dec out = Ok (1, Circle 22999995 (-4999980) 442592).
Proof. eexists. split; [vm_compute; reflexivity|]. vm_compute. auto. Qed.

(** Raw PDUs of any shape: accepted exactly if the length is the one the first octet asks for; then copied, and nothing else
    changes; written back they are the same octets. *)
Theorem C66_read : forall raw data, zlen raw = 91 -> bytes data -> zlen data < 256 ->
  (forall out, osmo_gad_raw_read raw data = Ok out <-> data <> [] /\ shape_len (at0 data 0) = Some (zlen data) /\ out = data ++ skipn (length data) raw) /\
  (data = [] \/ shape_len (at0 data 0) <> Some (zlen data) -> osmo_gad_raw_read raw data = Err (- EINVAL)).
Proof.
  intros raw data L B U. unfold osmo_gad_raw_read. cbv zeta. replace (u8 (zlen data)) with (zlen data) by (unfold u8; rewrite Z.mod_small; pose proof (zlen_nonneg data); lia).
  destruct data as [|o r]; [cbn; split; [intros; split; [discriminate|intros (N & _); congruence]|reflexivity]|].
  assert (Z1 : 1 <= zlen (o :: r)) by (rewrite zlen_cons; pose proof (zlen_nonneg r); lia).
  destruct (Z.ltb_spec (zlen (o :: r)) 1); [lia|].
  assert (O : is_byte (at0 (o :: r) 0)) by (apply Forall_cons_iff in B; apply B).
  pose proof (raw_len_ok (o :: r) Z1 O) as R. destruct (shape_len (at0 (o :: r) 0)) as [n|] eqn:E.
  - destruct R as [-> R]. destruct (Z.eqb_spec n (zlen (o :: r))) as [->|N]; cbn [negb].
    + assert (M : memcpy raw 0 (o :: r) 0 (zlen (o :: r)) = Ok ((o :: r) ++ skipn (length (o :: r)) raw)).
      { unfold memcpy. replace ((0 <=? zlen (o :: r)) && (0 <=? 0) && (0 + zlen (o :: r) <=? zlen raw) && (0 <=? 0) && (0 + zlen (o :: r) <=? zlen (o :: r))) with true.
        - unfold blit, slice. change (Z.to_nat 0) with 0%nat. cbn [skipn firstn app]. unfold zlen. rewrite Nat2Z.id, firstn_all. reflexivity.
        - symmetry. rewrite !andb_true_iff, !Z.leb_le. lia. }
      rewrite M. split; [|intros [K|K]; [discriminate|congruence]]. intros out. split; [intros K; inversion K; subst; repeat split; auto; discriminate|intros (_ & _ & ->); reflexivity].
    + split; [|reflexivity]. intros out. split; [discriminate|intros (_ & K & _); congruence].
  - destruct R as [-> | ->]; (split; [|reflexivity]; intros out; split; [discriminate|intros (_ & K & _); congruence]).
Qed.
Print Assumptions C66_read.
Theorem C66_write : forall raw, bytes raw -> zlen raw = 91 ->
  match shape_len (at0 raw 0) with
  | Some n => osmo_gad_raw_write raw = Ok (firstn (Z.to_nat n) raw) /\ 7 <= n <= 91
  | None => osmo_gad_raw_write raw = Err (- EINVAL) \/ osmo_gad_raw_write raw = Err (- ENOTSUP)
  end.
Proof.
  intros raw B L. assert (O : is_byte (at0 raw 0)).
  { destruct raw; [unfold zlen in L; cbn in L; lia|]. apply Forall_cons_iff in B. apply B. }
  pose proof (raw_len_ok raw ltac:(lia) O) as R. unfold osmo_gad_raw_write. destruct (shape_len (at0 raw 0)) as [n|].
  - destruct R as [-> R]. cbn [bind]. rewrite L. destruct (Z.ltb_spec 91 n); [lia|]. auto.
  - destruct R as [-> | ->]; auto.
Qed.
Print Assumptions C66_write.
Theorem C66_read_write : forall raw data out, zlen raw = 91 -> bytes raw -> bytes data -> zlen data < 256 ->
  osmo_gad_raw_read raw data = Ok out -> osmo_gad_raw_write out = Ok data.
Proof.
  intros raw data out L BR B U E. pose proof (proj1 (proj1 (C66_read raw data L B U) out) E) as (N & S & ->).
  assert (A : at0 (data ++ skipn (length data) raw) 0 = at0 data 0) by (destruct data; [congruence|reflexivity]).
  assert (Z1 : 1 <= zlen data) by (destruct data; [congruence|]; rewrite zlen_cons; pose proof (zlen_nonneg data); lia).
  assert (O : is_byte (at0 data 0)) by (destruct data; [congruence|]; apply Forall_cons_iff in B; apply B).
  pose proof (raw_len_ok data Z1 O) as R. rewrite S in R. destruct R as [_ R].
  assert (LO : zlen (data ++ skipn (length data) raw) = 91) by (rewrite zlen_app; unfold zlen in *; rewrite skipn_length; lia).
  assert (BO : bytes (data ++ skipn (length data) raw)) by (apply Forall_app; split; [exact B|apply Forall_skipn; exact BR]).
  pose proof (C66_write _ BO LO) as W. rewrite A, S in W. destruct W as [-> _]. f_equal.
  unfold zlen. rewrite Nat2Z.id, firstn_app, Nat.sub_diag, firstn_all. cbn [firstn]. apply app_nil_r.
Qed.
Print Assumptions C66_read_write.
Example C66_read_nonvacuous : exists out, osmo_gad_raw_read (repeat 0 91) (5 * 16 + 3 :: repeat 9 18) = Ok out /\ osmo_gad_raw_write out = Ok (83 :: repeat 9 18) /\
  osmo_gad_raw_read (repeat 0 91) (5 * 16 + 2 :: repeat 9 12) = Err (- EINVAL).
Proof. eexists. split; [vm_compute; reflexivity|]. vm_compute. auto. Qed.
