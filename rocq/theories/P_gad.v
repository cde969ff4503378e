(** Proofs about geographical area coding. *)
From Verif Require Import Base M_bitgen M_gad S_gad P_bitgen.

Lemma land23 x : Z.land x 8388607 = x mod 2 ^ 23.
Proof. change 8388607 with (Z.ones 23). apply Z.land_ones. lia. Qed.
Lemma land24 x : Z.land x 16777215 = x mod 2 ^ 24.
Proof. change 16777215 with (Z.ones 24). apply Z.land_ones. lia. Qed.
Lemma bit23 x : 0 <= x < 2 ^ 24 -> negb (Z.land x 8388608 =? 0) = negb (x <? 2 ^ 23).
Proof.
  intros H. assert (E : Z.land x 8388608 = if Z.testbit x 23 then 2 ^ 23 else 0).
  { change 8388608 with (2 ^ 23). apply Z.bits_inj'. intros i Hi. rewrite Z.land_spec, Z.pow2_bits_eqb by lia.
    destruct (Z.eqb_spec 23 i) as [<-|N].
    - rewrite andb_true_r. destruct (Z.testbit x 23); reflexivity.
    - rewrite andb_false_r. destruct (Z.testbit x 23); [rewrite Z.pow2_bits_false by lia; reflexivity|now rewrite Z.bits_0]. }
  rewrite E. destruct (Z.ltb_spec x (2 ^ 23)).
  - replace (Z.testbit x 23) with false; [reflexivity|]. symmetry. apply Z.testbit_false; [lia|]. rewrite Z.div_small by lia. reflexivity.
  - rewrite (proj2 (Z.testbit_true x 23 ltac:(lia))); [reflexivity|].
    replace (x / 2 ^ 23) with 1; [reflexivity|]. apply (Z.div_unique x (2 ^ 23) 1 (x - 2 ^ 23)); lia.
Qed.
Lemma lor23 x : 0 <= x < 2 ^ 23 -> Z.lor (2 ^ 23) x = 2 ^ 23 + x.
Proof.
  intros H. assert (N : Z.land (2 ^ 23) x = 0).
  { apply Z.bits_inj'. intros i Hi. rewrite Z.land_spec, Z.pow2_bits_eqb, Z.bits_0 by lia.
    destruct (Z.eqb_spec 23 i) as [<-|N]; cbn [andb]; auto. apply Z.testbit_false; [lia|]. rewrite Z.div_small by lia. reflexivity. }
  rewrite <- Z.lxor_lor, <- Z.add_nocarry_lxor by exact N. reflexivity.
Qed.

(** The two number conversions without sign. *)
Definition nlat (d : Z) : Z := (d * 2 ^ 23 + (2 ^ 23 - 1)) / 90000000.
Definition nlon (d : Z) : Z := (d * 2 ^ 24 + (2 ^ 24 - 1)) / 360000000.

Lemma nlat_div d : nlat d * 90000000 <= d * 2 ^ 23 + (2 ^ 23 - 1) < (nlat d + 1) * 90000000.
Proof. unfold nlat. pose proof (Z.div_mod (d * 2 ^ 23 + (2 ^ 23 - 1)) 90000000 ltac:(lia)). pose proof (Z.mod_pos_bound (d * 2 ^ 23 + (2 ^ 23 - 1)) 90000000 ltac:(lia)). lia. Qed.
Lemma nlon_div d : nlon d * 360000000 <= d * 2 ^ 24 + (2 ^ 24 - 1) < (nlon d + 1) * 360000000.
Proof. unfold nlon. pose proof (Z.div_mod (d * 2 ^ 24 + (2 ^ 24 - 1)) 360000000 ltac:(lia)). pose proof (Z.mod_pos_bound (d * 2 ^ 24 + (2 ^ 24 - 1)) 360000000 ltac:(lia)). lia. Qed.

Lemma enc_lat_pos d : 0 <= d < 90000000 -> osmo_gad_enc_lat d = nlat d /\ 0 <= nlat d < 2 ^ 23.
Proof.
  intros H. pose proof (nlat_div d) as N. assert (B : 0 <= nlat d < 2 ^ 23) by lia. split; [|exact B].
  unfold osmo_gad_enc_lat. cbv zeta. replace (Z.max (-90000000) (Z.min 90000000 d)) with d by lia.
  destruct (Z.ltb_spec d 0); [lia|]. rewrite Z.shiftl_mul_pow2 by lia. change (90 * 1000000) with 90000000.
  rewrite Z.quot_div_nonneg by lia. fold (nlat d). rewrite land23, Z.mod_small by exact B. reflexivity.
Qed.
Lemma enc_lat_neg d : 0 < d < 90000000 -> osmo_gad_enc_lat (- d) = 2 ^ 23 + nlat d.
Proof.
  intros H. pose proof (nlat_div d) as N. assert (B : 0 <= nlat d < 2 ^ 23) by lia.
  unfold osmo_gad_enc_lat. cbv zeta. replace (Z.max (-90000000) (Z.min 90000000 (- d))) with (- d) by lia.
  destruct (Z.ltb_spec (- d) 0); [|lia]. rewrite Z.opp_involutive, Z.shiftl_mul_pow2 by lia. change (90 * 1000000) with 90000000.
  rewrite Z.quot_div_nonneg by lia. fold (nlat d). rewrite land23, Z.mod_small by exact B. apply lor23. exact B.
Qed.
Definition dlat (n : Z) : Z := n * 90000000 / 2 ^ 23.
Lemma dlat_div n : dlat n * 2 ^ 23 <= n * 90000000 < (dlat n + 1) * 2 ^ 23.
Proof. unfold dlat. pose proof (Z.div_mod (n * 90000000) (2 ^ 23) ltac:(lia)). pose proof (Z.mod_pos_bound (n * 90000000) (2 ^ 23) ltac:(lia)). lia. Qed.
Lemma dec_lat_pos n : 0 <= n < 2 ^ 23 -> osmo_gad_dec_lat n = dlat n /\ 0 <= dlat n < 90000000.
Proof.
  intros H. pose proof (dlat_div n). assert (0 <= dlat n < 90000000) by lia. split; [|auto].
  unfold osmo_gad_dec_lat. cbv zeta. rewrite bit23 by lia. destruct (Z.ltb_spec n (2 ^ 23)); [|lia]. cbn [negb].
  rewrite Z.shiftr_div_pow2 by lia. change (90 * 1000000) with 90000000. fold (dlat n). rewrite Z.mul_1_r.
  apply s32_small. unfold is_s32. lia.
Qed.
Lemma dec_lat_neg n : 0 <= n < 2 ^ 23 -> osmo_gad_dec_lat (2 ^ 23 + n) = - dlat n.
Proof.
  intros H. pose proof (dlat_div n). assert (0 <= dlat n < 90000000) by lia.
  unfold osmo_gad_dec_lat. cbv zeta. rewrite bit23 by lia. destruct (Z.ltb_spec (2 ^ 23 + n) (2 ^ 23)); [lia|]. cbn [negb].
  rewrite land23. replace ((2 ^ 23 + n) mod 2 ^ 23) with n.
  2:{ apply (Z.mod_unique _ _ 1); lia. }
  rewrite Z.shiftr_div_pow2 by lia. change (90 * 1000000) with 90000000. fold (dlat n).
  replace (dlat n * -1) with (- dlat n) by lia. apply s32_small. unfold is_s32. lia.
Qed.
Lemma dlat_nlat d : d - 10 <= dlat (nlat d) <= d.
Proof. pose proof (nlat_div d). pose proof (dlat_div (nlat d)). lia. Qed.
Lemma nlat_dlat n : nlat (dlat n) = n.
Proof. pose proof (nlat_div (dlat n)). pose proof (dlat_div n). lia. Qed.
Lemma nlat_mono a b : a <= b -> nlat a <= nlat b.
Proof. pose proof (nlat_div a). pose proof (nlat_div b). lia. Qed.
Lemma dlat_mono a b : a <= b -> dlat a <= dlat b.
Proof. pose proof (dlat_div a). pose proof (dlat_div b). lia. Qed.

(** Longitude. *)
Definition dlon (n : Z) : Z := n * 360000000 / 2 ^ 24.
Lemma dlon_div n : dlon n * 2 ^ 24 <= n * 360000000 < (dlon n + 1) * 2 ^ 24.
Proof. unfold dlon. pose proof (Z.div_mod (n * 360000000) (2 ^ 24) ltac:(lia)). pose proof (Z.mod_pos_bound (n * 360000000) (2 ^ 24) ltac:(lia)). lia. Qed.
Lemma enc_lon_pos d : 0 <= d <= 180000000 -> osmo_gad_enc_lon d = nlon d /\ 0 <= nlon d <= 2 ^ 23 /\ (d < 180000000 -> nlon d < 2 ^ 23).
Proof.
  intros H. pose proof (nlon_div d) as N. assert (B : 0 <= nlon d <= 2 ^ 23 /\ (d < 180000000 -> nlon d < 2 ^ 23)) by lia. split; [|exact B].
  unfold osmo_gad_enc_lon. cbv zeta. replace (Z.max (-180000000) (Z.min 180000000 d)) with d by lia.
  destruct (Z.leb_spec 0 d); [|lia]. change (360 * 1000000) with 360000000.
  rewrite Z.quot_div_nonneg by lia. fold (nlon d). rewrite land24, Z.mod_small by lia. reflexivity.
Qed.
Lemma enc_lon_neg d : 0 < d <= 180000000 -> osmo_gad_enc_lon (- d) = (- nlon d) mod 2 ^ 24 /\ 0 <= nlon d <= 2 ^ 23.
Proof.
  intros H. pose proof (nlon_div d) as N. assert (B : 0 <= nlon d <= 2 ^ 23) by lia. split; [|exact B].
  unfold osmo_gad_enc_lon. cbv zeta. replace (Z.max (-180000000) (Z.min 180000000 (- d))) with (- d) by lia.
  destruct (Z.leb_spec 0 (- d)); [lia|]. change (360 * 1000000) with 360000000.
  replace (- d * 2 ^ 24 - (2 ^ 24 - 1)) with (- (d * 2 ^ 24 + (2 ^ 24 - 1))) by lia.
  rewrite Z.quot_opp_l, Z.quot_div_nonneg by lia. fold (nlon d). apply land24.
Qed.
Lemma lorff n : 2 ^ 23 <= n < 2 ^ 24 -> Z.lor n 4278190080 = n + 4278190080.
Proof.
  intros H. assert (N : Z.land n 4278190080 = 0).
  { change 4278190080 with (Z.shiftl 255 24). apply Z.bits_inj'. intros i Hi. rewrite Z.land_spec, Z.shiftl_spec, Z.bits_0 by lia.
    destruct (Z.lt_ge_cases i 24) as [L|L]; [rewrite (Z.testbit_neg_r 255) by lia; apply andb_false_r|].
    replace (Z.testbit n i) with false; auto. symmetry. apply Z.testbit_false; [lia|]. rewrite Z.div_small; [reflexivity|].
    split; [lia|]. apply Z.lt_le_trans with (2 ^ 24); [lia|apply Z.pow_le_mono_r; lia]. }
  rewrite <- Z.lxor_lor, <- Z.add_nocarry_lxor by exact N. reflexivity.
Qed.
Lemma dec_lon_pos n : 0 <= n < 2 ^ 23 -> osmo_gad_dec_lon n = dlon n /\ 0 <= dlon n < 180000000.
Proof.
  intros H. pose proof (dlon_div n). assert (0 <= dlon n < 180000000) by lia. split; [|auto].
  unfold osmo_gad_dec_lon. cbv zeta. rewrite bit23 by lia. destruct (Z.ltb_spec n (2 ^ 23)); [|lia]. cbn [negb].
  rewrite (s32_small n) by (unfold is_s32; lia). change (360 * 1000000) with 360000000. rewrite Z.quot_div_nonneg by lia.
  fold (dlon n). apply s32_small. unfold is_s32. lia.
Qed.
Lemma dec_lon_neg n : 0 < n <= 2 ^ 23 -> osmo_gad_dec_lon (2 ^ 24 - n) = - dlon n.
Proof.
  intros H. pose proof (dlon_div n). assert (0 <= dlon n <= 180000000) by lia.
  unfold osmo_gad_dec_lon. cbv zeta. rewrite bit23 by lia. destruct (Z.ltb_spec (2 ^ 24 - n) (2 ^ 23)); [lia|]. cbn [negb].
  rewrite lorff by lia.
  replace (s32 (2 ^ 24 - n + 4278190080)) with (- n).
  2:{ unfold s32, u32. cbv zeta. change (2 ^ 32) with 4294967296. rewrite Z.mod_small by lia.
      destruct (Z.ltb_spec (2 ^ 24 - n + 4278190080) 2147483648); lia. }
  change (360 * 1000000) with 360000000.
  replace (- n * 360000000) with (- (n * 360000000)) by lia. rewrite Z.quot_opp_l, Z.quot_div_nonneg by lia.
  fold (dlon n). apply s32_small. unfold is_s32. lia.
Qed.
Lemma dlon_nlon d : d - 21 <= dlon (nlon d) <= d.
Proof. pose proof (nlon_div d). pose proof (dlon_div (nlon d)). lia. Qed.
Lemma nlon_dlon n : nlon (dlon n) = n.
Proof. pose proof (nlon_div (dlon n)). pose proof (dlon_div n). lia. Qed.
Lemma nlon_mono a b : a <= b -> nlon a <= nlon b.
Proof. pose proof (nlon_div a). pose proof (nlon_div b). lia. Qed.
Lemma dlon_mono a b : a <= b -> dlon a <= dlon b.
Proof. pose proof (dlon_div a). pose proof (dlon_div b). lia. Qed.

(** Uncertainty. *)
Lemma unc_loop_ok t : forall k mm, 0 <= k -> k + zlen t <= 256 ->
  (exists j, 0 <= j < zlen t /\ (forall i, 0 <= i < j -> at0 t i <= mm) /\ mm < at0 t j /\ unc_loop t k mm = u8 (k + j - 1)) \/
  ((forall i, 0 <= i < zlen t -> at0 t i <= mm) /\ unc_loop t k mm = 127).
Proof.
  induction t as [|v r IH]; intros k mm K L; [right; split; [intros i H; unfold zlen in H; cbn in H; lia|reflexivity]|].
  rewrite zlen_cons in *. pose proof (zlen_nonneg r) as R. cbn [unc_loop]. destruct (Z.ltb_spec mm v).
  - left. exists 0. split; [lia|]. split; [intros; lia|]. split; [exact H|]. f_equal. lia.
  - destruct (Z.eq_dec (zlen r) 0) as [Z0|NZ].
    + right. assert (r = []) by (destruct r; [reflexivity|rewrite zlen_cons in Z0; pose proof (zlen_nonneg r); lia]). subst r. split; [|reflexivity].
      intros i Hi. replace i with 0 by lia. exact H.
    + replace (u8 (k + 1)) with (k + 1) by (unfold u8; rewrite Z.mod_small; lia).
      assert (A : forall i, 0 < i -> at0 (v :: r) i = at0 r (i - 1)).
      { intros i Hi. unfold at0. replace (Z.to_nat i) with (S (Z.to_nat (i - 1))) by lia. reflexivity. }
      destruct (IH (k + 1) mm ltac:(lia) ltac:(lia)) as [(j & J & P & Q & E)|[P E]].
      * left. exists (j + 1). split; [lia|]. split.
        -- intros i Hi. destruct (Z.eq_dec i 0) as [->|N]; [exact H|]. rewrite A by lia. apply P. lia.
        -- rewrite A by lia. replace (j + 1 - 1) with j by lia. split; [exact Q|]. rewrite E. f_equal. lia.
      * right. split; [|exact E]. intros i Hi. destruct (Z.eq_dec i 0) as [->|N]; [exact H|]. rewrite A by lia. apply P. lia.
Qed.
Lemma land127 x : 0 <= x < 128 -> Z.land x 127 = x.
Proof. intros H. change 127 with (Z.ones 7). rewrite Z.land_ones by lia. apply Z.mod_small. exact H. Qed.
Lemma dec_unc_eq k : 0 <= k < 128 -> osmo_gad_dec_unc k = at0 table_uncertainty_1e3 k.
Proof. intros H. unfold osmo_gad_dec_unc. rewrite land127 by exact H. reflexivity. Qed.
Lemma unc_ok mm : 0 <= mm -> let k := osmo_gad_enc_unc mm in 0 <= k < 128 /\ osmo_gad_dec_unc k <= mm /\ (k < 127 -> mm < osmo_gad_dec_unc (k + 1)).
Proof.
  intros M. cbv zeta. unfold osmo_gad_enc_unc.
  destruct (unc_loop_ok table_uncertainty_1e3 0 mm ltac:(lia) ltac:(vm_compute; discriminate)) as [(j & J & P & Q & E)|[P E]]; rewrite E.
  - change (zlen table_uncertainty_1e3) with 128 in J.
    assert (j <> 0) by (intros ->; change (at0 table_uncertainty_1e3 0) with 0 in Q; lia).
    replace (u8 (0 + j - 1)) with (j - 1) by (unfold u8; rewrite Z.mod_small; lia).
    split; [lia|]. split; [rewrite dec_unc_eq by lia; apply P; lia|]. intros _. rewrite dec_unc_eq by lia. replace (j - 1 + 1) with j by lia. exact Q.
  - split; [lia|]. split; [|lia]. rewrite dec_unc_eq by lia. apply P. change (zlen table_uncertainty_1e3) with 128. lia.
Qed.
Lemma unc_exact k : 0 <= k < 128 -> osmo_gad_enc_unc (osmo_gad_dec_unc k) = k.
Proof.
  intros H. apply Z.eqb_eq. revert k H. apply (forall_zseq (fun k => osmo_gad_enc_unc (osmo_gad_dec_unc k) =? k) 0 128). vm_compute. reflexivity.
Qed.
Lemma unc_table k : 0 <= k < 128 -> radius k (osmo_gad_dec_unc k) /\ 0 <= osmo_gad_dec_unc k < 2 ^ 32.
Proof.
  intros H. unfold radius. set (P := fun k => (osmo_gad_dec_unc k * 10 ^ k <=? 10000 * (11 ^ k - 10 ^ k)) && (10000 * (11 ^ k - 10 ^ k) <? (osmo_gad_dec_unc k + 1) * 10 ^ k)
    && (0 <=? osmo_gad_dec_unc k) && (osmo_gad_dec_unc k <? 2 ^ 32)).
  assert (Q : P k = true) by (apply (forall_zseq P 0 128); [vm_compute; reflexivity|exact H]).
  unfold P in Q. rewrite !andb_true_iff, !Z.leb_le, !Z.ltb_lt in Q. tauto.
Qed.

(** PDUs. *)
Lemma enc_lat_range d : 0 <= osmo_gad_enc_lat d < 2 ^ 24.
Proof.
  unfold osmo_gad_enc_lat. cbv zeta. set (q := Z.quot _ _). rewrite land23. pose proof (Z.mod_pos_bound q (2 ^ 23) ltac:(lia)).
  destruct (_ <? 0); [rewrite lor23 by lia; lia|]. rewrite Z.lor_0_l. lia.
Qed.
Lemma enc_lon_range d : 0 <= osmo_gad_enc_lon d < 2 ^ 24.
Proof. unfold osmo_gad_enc_lon. cbv zeta. rewrite land24. apply Z.mod_pos_bound. lia. Qed.

Lemma dec_lat_range n : 0 <= n < 2 ^ 24 -> -90000000 < osmo_gad_dec_lat n < 90000000.
Proof.
  intros H. destruct (Z.lt_ge_cases n (2 ^ 23)).
  - destruct (dec_lat_pos n ltac:(lia)) as [-> ?]. lia.
  - replace n with (2 ^ 23 + (n - 2 ^ 23)) by lia. rewrite dec_lat_neg by lia. destruct (dec_lat_pos (n - 2 ^ 23) ltac:(lia)). lia.
Qed.
Lemma dec_lon_range n : 0 <= n < 2 ^ 24 -> -180000000 <= osmo_gad_dec_lon n < 180000000.
Proof.
  intros H. destruct (Z.lt_ge_cases n (2 ^ 23)).
  - destruct (dec_lon_pos n ltac:(lia)) as [-> ?]. lia.
  - replace n with (2 ^ 24 - (2 ^ 24 - n)) by lia. rewrite dec_lon_neg by lia. pose proof (dlon_div (2 ^ 24 - n)). lia.
Qed.
Lemma lat_exact n : 0 <= n < 2 ^ 24 -> n <> 2 ^ 23 -> osmo_gad_enc_lat (osmo_gad_dec_lat n) = n.
Proof.
  intros H N. destruct (Z.lt_ge_cases n (2 ^ 23)).
  - destruct (dec_lat_pos n ltac:(lia)) as [-> ?]. destruct (enc_lat_pos (dlat n) ltac:(lia)) as [-> _]. apply nlat_dlat.
  - replace n with (2 ^ 23 + (n - 2 ^ 23)) at 1 by lia. rewrite dec_lat_neg by lia. destruct (dec_lat_pos (n - 2 ^ 23) ltac:(lia)).
    pose proof (dlat_div (n - 2 ^ 23)). rewrite enc_lat_neg by lia. rewrite nlat_dlat. lia.
Qed.
Lemma lon_exact n : 0 <= n < 2 ^ 24 -> osmo_gad_enc_lon (osmo_gad_dec_lon n) = n.
Proof.
  intros H. destruct (Z.lt_ge_cases n (2 ^ 23)).
  - destruct (dec_lon_pos n ltac:(lia)) as [-> ?]. destruct (enc_lon_pos (dlon n) ltac:(lia)) as [-> _]. apply nlon_dlon.
  - replace n with (2 ^ 24 - (2 ^ 24 - n)) at 1 by lia. rewrite dec_lon_neg by lia. pose proof (dlon_div (2 ^ 24 - n)).
    destruct (enc_lon_neg (dlon (2 ^ 24 - n)) ltac:(lia)) as [-> _]. rewrite nlon_dlon. replace (- (2 ^ 24 - n)) with (n + (-1) * 2 ^ 24) by lia.
    rewrite Z_mod_plus_full. apply Z.mod_small. exact H.
Qed.

Lemma enc_circle_ok ptr raw v : -90000000 <= g_lat v <= 90000000 -> -180000000 <= g_lon v <= 180000000 -> 0 <= g_unc v ->
  enc_circle ptr raw v = Ok (ptr, [16] ++ be_bytes 3 (osmo_gad_enc_lat (g_lat v)) ++ be_bytes 3 (osmo_gad_enc_lon (g_lon v)) ++ [osmo_gad_enc_unc (g_unc v)] ++ skipn 8 raw).
Proof.
  intros A B C. unfold enc_circle.
  destruct (Z.ltb_spec (g_lat v) (-90000000)); [lia|]. destruct (Z.ltb_spec 90000000 (g_lat v)); [lia|].
  destruct (Z.ltb_spec (g_lon v) (-180000000)); [lia|]. destruct (Z.ltb_spec 180000000 (g_lon v)); [lia|]. cbn [orb]. cbv zeta.
  rewrite !store_be_ext_ok by (unfold zlen; cbn; lia). cbn [bind]. change (Z.to_nat 3) with 3%nat. cbn [skipn]. rewrite !app_nil_r.
  destruct (unc_ok (g_unc v) C) as [K _]. rewrite land127 by exact K. reflexivity.
Qed.
Lemma dec_circle_ok a la lo u rest : bytes la -> bytes lo -> length la = 3%nat -> length lo = 3%nat -> is_byte u ->
  dec_circle (a :: la ++ lo ++ u :: rest) =
  if u <? 128 then Ok (Circle (osmo_gad_dec_lat (be_val la)) (osmo_gad_dec_lon (be_val lo)) (osmo_gad_dec_unc u)) else Err (- EINVAL).
Proof.
  intros BA BO LA LO U. destruct la as [|a1 [|a2 [|a3 [|]]]]; try discriminate LA. destruct lo as [|o1 [|o2 [|o3 [|]]]]; try discriminate LO.
  unfold dec_circle. change (zslice (a :: [a1; a2; a3] ++ [o1; o2; o3] ++ u :: rest) 1 3) with [a1; a2; a3].
  change (zslice (a :: [a1; a2; a3] ++ [o1; o2; o3] ++ u :: rest) 4 3) with [o1; o2; o3].
  rewrite !load_be_ext_2_ok by (auto; unfold zlen; cbn; lia). cbn [bind]. change (Z.to_nat 3) with 3%nat. cbn [firstn].
  change (rd (a :: [a1; a2; a3] ++ [o1; o2; o3] ++ u :: rest) 7) with (Ok u). cbn [bind].
  rewrite Z.shiftr_div_pow2 by lia. change (2 ^ 7) with 128. unfold is_byte in U. destruct (Z.ltb_spec u 128).
  - rewrite Z.div_small by lia. cbn [Z.eqb negb]. rewrite land127 by lia. reflexivity.
  - replace (u / 128) with 1; [reflexivity|]. apply (Z.div_unique u 128 1 (u - 128)); lia.
Qed.

Lemma raw_len_ok raw : 1 <= zlen raw -> is_byte (at0 raw 0) ->
  match shape_len (at0 raw 0) with
  | Some n => osmo_gad_raw_len raw = Ok n /\ 7 <= n <= 91
  | None => osmo_gad_raw_len raw = Err (- EINVAL) \/ osmo_gad_raw_len raw = Err (- ENOTSUP)
  end.
Proof.
  intros L B. unfold osmo_gad_raw_len. destruct raw as [|o r]; [unfold zlen in L; cbn in L; lia|]. change (at0 (o :: r) 0) with o in *.
  change (rd (o :: r) 0) with (Ok o). cbn [bind].
  set (P := fun o => match shape_len o with
    | Some n => (match (if Z.shiftr o 4 =? GAD_TYPE_ELL_POINT then Ok 7 else
  if Z.shiftr o 4 =? GAD_TYPE_ELL_POINT_UNC_CIRCLE then Ok 8 else
  if Z.shiftr o 4 =? GAD_TYPE_ELL_POINT_UNC_ELLIPSE then Ok 11 else
  if Z.shiftr o 4 =? GAD_TYPE_POLYGON then (if Z.land o 15 <? 3 then Err (- EINVAL) else Ok (1 + Z.land o 15 * 6)) else
  if Z.shiftr o 4 =? GAD_TYPE_ELL_POINT_ALT then Ok 9 else
  if Z.shiftr o 4 =? GAD_TYPE_ELL_POINT_ALT_UNC_ELL then Ok 14 else
  if Z.shiftr o 4 =? GAD_TYPE_ELL_ARC then Ok 13 else
  if Z.shiftr o 4 =? GAD_TYPE_HA_ELL_POINT_UNC_ELLIPSE then Ok 16 else
  if Z.shiftr o 4 =? GAD_TYPE_HA_ELL_POINT_ALT_UNC_ELL then Ok 18 else Err (- ENOTSUP)) with Ok m => (m =? n) && (7 <=? n) && (n <=? 91) | _ => false end)
    | None => (match (if Z.shiftr o 4 =? GAD_TYPE_ELL_POINT then Ok 7 else
  if Z.shiftr o 4 =? GAD_TYPE_ELL_POINT_UNC_CIRCLE then Ok 8 else
  if Z.shiftr o 4 =? GAD_TYPE_ELL_POINT_UNC_ELLIPSE then Ok 11 else
  if Z.shiftr o 4 =? GAD_TYPE_POLYGON then (if Z.land o 15 <? 3 then Err (- EINVAL) else Ok (1 + Z.land o 15 * 6)) else
  if Z.shiftr o 4 =? GAD_TYPE_ELL_POINT_ALT then Ok 9 else
  if Z.shiftr o 4 =? GAD_TYPE_ELL_POINT_ALT_UNC_ELL then Ok 14 else
  if Z.shiftr o 4 =? GAD_TYPE_ELL_ARC then Ok 13 else
  if Z.shiftr o 4 =? GAD_TYPE_HA_ELL_POINT_UNC_ELLIPSE then Ok 16 else
  if Z.shiftr o 4 =? GAD_TYPE_HA_ELL_POINT_ALT_UNC_ELL then Ok 18 else Err (- ENOTSUP)) with Err e => (e =? - EINVAL) || (e =? - ENOTSUP) | _ => false end) end).
  assert (Q : P o = true) by (apply (forall_byte P); [vm_compute; reflexivity|exact B]).
  unfold P in Q. cbv zeta. destruct (shape_len o).
  - match type of Q with match ?X with _ => _ end = true => destruct X; try discriminate Q end.
    rewrite !andb_true_iff, !Z.leb_le, Z.eqb_eq in Q. destruct Q as [[-> ?] ?]. auto.
  - match type of Q with match ?X with _ => _ end = true => destruct X as [|e| |]; try discriminate Q end.
    rewrite orb_true_iff, !Z.eqb_eq in Q. destruct Q as [-> | ->]; auto.
Qed.
