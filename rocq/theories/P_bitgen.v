From Verif Require Import Base M_bitgen.




Lemma load_le_ext_ok w p n :
  0 <= n <= w -> n <= zlen p -> bytes p ->
  load_le_ext w p n = Ok (le_val (firstn (Z.to_nat n) p)).
Proof.
  intros Hn Hl Hb. unfold load_le_ext.
  destruct (Z.ltb_spec w n); [lia|].
  destruct (zfor_inv (fun i r => r = le_val (firstn (Z.to_nat i) p))
    (fun i r => do q <- rd p i ;; Ok (Z.lor r (Z.shiftl q (8 * i)) mod 2 ^ (8 * w)))
    (Z.to_nat n) 0 0) as (s & E & Hs).
  - reflexivity.
  - intros j s Hj ->. rewrite rd_at0 by lia. cbn [bind].
    eexists; split; [reflexivity|].
    assert (Hz: (Z.to_nat j < length p)%nat) by (unfold zlen in Hl; lia).
    pose proof (le_val_bound _ (Forall_firstn _ (Z.to_nat j) p Hb)) as B1.
    rewrite zlen_firstn in B1 by lia. rewrite Z2Nat.id in B1 by lia.
    rewrite lor_shiftl_add by lia.
    replace (Z.to_nat (j + 1)) with (S (Z.to_nat j)) by lia.
    rewrite firstn_snoc by lia. rewrite le_val_app, zlen_firstn by lia.
    rewrite Z2Nat.id by lia. cbn [le_val]. unfold at0.
    pose proof (bytes_at0 p j Hb) as Hbj. unfold at0, is_byte in Hbj.
    rewrite Z.mod_small; [lia|].
    assert (2 ^ (8 * w) = 2 ^ (8 * j) * (256 * 2 ^ (8 * (w - 1 - j)))) as Hp.
    { change 256 with (2 ^ 8). rewrite <- !Z.pow_add_r by lia. f_equal; lia. }
    pose proof (pow2_pos (8 * (w - 1 - j))). rewrite Hp.
    split; [nia|]. nia.
  - rewrite E. rewrite Hs. f_equal. f_equal. f_equal. lia.
Qed.

Lemma load_be_gen w p n s0 :
  0 <= n <= w -> n <= zlen p -> bytes p -> 0 <= s0 <= w - n ->
  zfor (Z.to_nat n) 0 (fun i r => do q <- rd p i ;;
     Ok (Z.lor r (Z.shiftl q (8 * w - 8 * (1 + i + s0))) mod 2 ^ (8 * w))) 0
  = Ok (be_val (firstn (Z.to_nat n) p) * 2 ^ (8 * (w - s0 - n))).
Proof.
  intros Hn Hl Hb Hs0.
  destruct (zfor_inv (fun i r => r = be_val (firstn (Z.to_nat i) p) * 2 ^ (8 * (w - s0 - i)))
    (fun i r => do q <- rd p i ;; Ok (Z.lor r (Z.shiftl q (8 * w - 8 * (1 + i + s0))) mod 2 ^ (8 * w)))
    (Z.to_nat n) 0 0) as (s & E & Hs).
  - reflexivity.
  - intros j s Hj ->. rewrite rd_at0 by lia. cbn [bind].
    eexists; split; [reflexivity|].
    assert (Hz: (Z.to_nat j < length p)%nat) by (unfold zlen in Hl; lia).
    pose proof (be_val_bound _ (Forall_firstn _ (Z.to_nat j) p Hb)) as B1.
    rewrite zlen_firstn in B1 by lia. rewrite Z2Nat.id in B1 by lia.
    pose proof (bytes_at0 p j Hb) as Hbj. unfold is_byte in Hbj.
    rewrite Z.lor_comm. rewrite <- Z.shiftl_mul_pow2 by lia.
    set (k := 8 * (w - s0 - j)). set (B := be_val (firstn (Z.to_nat j) p)) in *.
    set (q := at0 p j) in *.
    replace (8 * w - 8 * (1 + j + s0)) with (k - 8) by lia.
    assert (Hk: 8 <= k) by lia.
    assert (Hpk: 2 ^ k = 256 * 2 ^ (k - 8)).
    { change 256 with (2 ^ 8). rewrite <- Z.pow_add_r by lia. f_equal; lia. }
    pose proof (pow2_pos (k - 8) ltac:(lia)) as Hp8.
    rewrite lor_shiftl_add; [| lia | rewrite Z.shiftl_mul_pow2 by lia; nia].
    rewrite Z.shiftl_mul_pow2 by lia.
    replace (Z.to_nat (j + 1)) with (S (Z.to_nat j)) by lia.
    rewrite firstn_snoc by lia. rewrite be_val_snoc. fold B.
    change (nth (Z.to_nat j) p 0) with q.
    replace (8 * (w - s0 - (j + 1))) with (k - 8) by lia.
    rewrite Hpk.
    rewrite Z.mod_small; [lia|].
    assert (2 ^ (8 * w) = 2 ^ (8 * j) * (2 ^ (8 * s0) * 2 ^ k)) as Hp.
    { rewrite <- !Z.pow_add_r by lia. f_equal; lia. }
    pose proof (pow2_pos (8 * s0) ltac:(lia)).
    split; [nia|]. rewrite Hp, Hpk.
    assert (B + 1 <= 2 ^ (8 * j)) by lia.
    assert (q * 2 ^ (k - 8) + B * (256 * 2 ^ (k - 8)) < (B + 1) * (256 * 2 ^ (k-8))) by nia.
    eapply Z.lt_le_trans; [eassumption|].
    apply Z.mul_le_mono_nonneg; try nia.
  - rewrite E. rewrite Hs. f_equal. rewrite !Z2Nat.id by lia. f_equal.
Qed.


Lemma load_be_ext_ok w p n :
  0 <= n <= w -> n <= zlen p -> bytes p ->
  load_be_ext w p n = Ok (be_val (firstn (Z.to_nat n) p) * 2 ^ (8 * (w - n))).
Proof.
  intros. unfold load_be_ext. destruct (Z.ltb_spec w n); [lia|].
  pose proof (load_be_gen w p n 0 ltac:(lia) ltac:(lia) H1 ltac:(lia)) as G.
  rewrite Z.sub_0_r in G. rewrite <- G.
  apply zfor_ext. intros. rewrite Z.add_0_r. reflexivity.
Qed.

Lemma load_be_ext_2_ok w p n :
  0 <= n <= w -> n <= zlen p -> bytes p ->
  load_be_ext_2 w p n = Ok (be_val (firstn (Z.to_nat n) p)).
Proof.
  intros. unfold load_be_ext_2. destruct (Z.ltb_spec w n); [lia|].
  pose proof (load_be_gen w p n (w - n) ltac:(lia) ltac:(lia) H1 ltac:(lia)) as G.
  replace (8 * (w - (w - n) - n)) with 0 in G by lia. rewrite Z.mul_1_r in G. exact G.
Qed.





Lemma store_le_ext_ok w x p n :
  0 <= n <= w -> n <= zlen p ->
  store_le_ext w x p n = Ok (le_bytes (Z.to_nat n) x ++ skipn (Z.to_nat n) p).
Proof.
  intros. unfold store_le_ext. destruct (Z.ltb_spec w n); [lia|].
  rewrite (wr_loop (fun i => Z.land (Z.shiftr x (i * 8)) 255)) by lia.
  f_equal. f_equal. apply (list_ext _ _ 0).
  - rewrite map_length, zseq_length, le_bytes_length; auto.
  - intros i Hi. rewrite map_length, zseq_length in Hi.
    rewrite nth_le_bytes by auto.
    rewrite nth_map_zseq by auto. cbv beta. rewrite land_255, Z.shiftr_div_pow2 by lia.
    f_equal. f_equal. f_equal. lia.
Qed.

Lemma store_be_ext_ok w x p n :
  0 <= n <= w -> n <= zlen p ->
  store_be_ext w x p n = Ok (be_bytes (Z.to_nat n) x ++ skipn (Z.to_nat n) p).
Proof.
  intros. unfold store_be_ext. destruct (Z.ltb_spec w n); [lia|].
  rewrite (wr_loop (fun i => Z.land (Z.shiftr x ((n - 1 - i) * 8)) 255)) by lia.
  f_equal. f_equal. apply (list_ext _ _ 0).
  - rewrite map_length, zseq_length, be_bytes_length; auto.
  - intros i Hi. rewrite map_length, zseq_length in Hi.
    unfold be_bytes. rewrite rev_nth by (rewrite le_bytes_length; auto). rewrite le_bytes_length.
    rewrite nth_le_bytes by lia.
    rewrite nth_map_zseq by auto. cbv beta. rewrite land_255, Z.shiftr_div_pow2 by lia.
    f_equal. f_equal. f_equal. lia.
Qed.

Lemma roundtrip_le w x p n : 0 <= n <= w -> n <= zlen p -> bytes p ->
  exists p', store_le_ext w x p n = Ok p' /\ zlen p' = zlen p /\
    skipn (Z.to_nat n) p' = skipn (Z.to_nat n) p /\ load_le_ext w p' n = Ok (x mod 2 ^ (8 * n)).
Proof.
  intros. rewrite store_le_ext_ok by auto. eexists; split; [reflexivity|].
  assert (L : zlen (le_bytes (Z.to_nat n) x ++ skipn (Z.to_nat n) p) = zlen p).
  { rewrite zlen_app. unfold zlen in *. rewrite le_bytes_length, skipn_length. lia. }
  split; auto. split; [apply skipn_app_exact; rewrite le_bytes_length; auto|].
  rewrite load_le_ext_ok; auto; [|lia|].
  - rewrite firstn_app_exact by (rewrite le_bytes_length; auto). rewrite le_val_le_bytes, Z2Nat.id by lia. reflexivity.
  - apply Forall_app; split; [apply le_bytes_bytes|apply Forall_skipn; auto].
Qed.

Lemma roundtrip_be w x p n : 0 <= n <= w -> n <= zlen p -> bytes p ->
  exists p', store_be_ext w x p n = Ok p' /\ zlen p' = zlen p /\
    skipn (Z.to_nat n) p' = skipn (Z.to_nat n) p /\ load_be_ext_2 w p' n = Ok (x mod 2 ^ (8 * n)).
Proof.
  intros. rewrite store_be_ext_ok by auto. eexists; split; [reflexivity|].
  assert (L : zlen (be_bytes (Z.to_nat n) x ++ skipn (Z.to_nat n) p) = zlen p).
  { rewrite zlen_app. unfold zlen in *. rewrite be_bytes_length, skipn_length. lia. }
  split; auto. split; [apply skipn_app_exact; rewrite be_bytes_length; auto|].
  rewrite load_be_ext_2_ok; auto; [|lia|].
  - rewrite firstn_app_exact by (rewrite be_bytes_length; auto). rewrite be_val_be_bytes, Z2Nat.id by lia. reflexivity.
  - apply Forall_app; split; [apply be_bytes_bytes|apply Forall_skipn; auto].
Qed.

Lemma too_wide w x p n : w < n ->
  load_le_ext w p n = Abort /\ load_be_ext w p n = Abort /\ load_be_ext_2 w p n = Abort /\
  store_le_ext w x p n = Abort /\ store_be_ext w x p n = Abort.
Proof.
  intros. unfold load_le_ext, load_be_ext, load_be_ext_2, store_le_ext, store_be_ext.
  destruct (Z.ltb_spec w n); [auto|lia].
Qed.
