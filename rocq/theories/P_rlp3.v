(** Proofs about RLP: decoding, round trips, error detection. *)
From Verif Require Import Base S_crc M_crc P_crc S_rlp M_rlp P_rlp P_rlp2.

Definition d_ns (d0 d1 : Z) : Z := d0 / 8 + 32 * (d1 mod 2).
Definition d_nr (d1 : Z) : Z := d1 / 4.
Definition d_s (d0 : Z) : Z := (d0 / 2) mod 4.
Definition d_cr (d0 : Z) : bool := Z.odd d0.
Definition d_pf (d1 : Z) : bool := Z.odd (d1 / 2).
Definition pad67 (l : list Z) : list Z := l ++ repeat 0 (67 - length l)%nat.
(** closed form of the decoder *)
Definition dec (version size : Z) (d0 d1 : Z) (info : list Z) (fcs : Z) : rlp :=
  if d_ns d0 d1 =? 63 then
    if d_nr d1 mod 32 =? U_FT_XID then Rlp version FT_U (d_nr d1 mod 32) 0 (d_cr d0) (d_pf d1) 0 0 0 fcs (pad67 info) (size - 5)
    else Rlp version FT_U (d_nr d1 mod 32) 0 (d_cr d0) (d_pf d1) 0 0 0 fcs (repeat 0 67) 0
  else if d_ns d0 d1 =? 62 then Rlp version FT_S 0 (d_s d0) (d_cr d0) (d_pf d1) 0 0 (d_nr d1) fcs (repeat 0 67) 0
  else Rlp version FT_IS 0 (d_s d0) (d_cr d0) (d_pf d1) 0 (d_ns d0 d1) (d_nr d1) fcs (pad67 info) (size - 5).

Lemma land1_odd x : negb (Z.land x 1 =? 0) = Z.odd x.
Proof. change (Z.land x 1) with (Z.land x (Z.ones 1)). rewrite (Z.land_ones x 1) by lia. change (2 ^ 1) with 2. rewrite Zmod_odd. destruct (Z.odd x); reflexivity. Qed.
Lemma ns_eq d0 d1 : is_byte d0 -> is_byte d1 -> u8 (Z.lor (Z.shiftr d0 3) (Z.shiftl (Z.land d1 1) 5)) = d_ns d0 d1.
Proof.
  intros H0 H1. unfold d_ns. rewrite Z.shiftr_div_pow2 by lia. change (2 ^ 3) with 8. change 1 with (Z.ones 1). rewrite Z.land_ones by lia. change (2 ^ 1) with 2.
  unfold is_byte in *. rewrite lor_shiftl_add by lia. rewrite u8_small by (unfold is_byte; lia). lia.
Qed.
Lemma fcs_eq f0 f1 f2 : is_byte f0 -> is_byte f1 -> is_byte f2 ->
  Z.lor (Z.lor (Z.shiftl f2 16) (Z.shiftl f1 8)) (Z.shiftl f0 0) = f0 + 256 * f1 + 65536 * f2.
Proof.
  intros H0 H1 H2. unfold is_byte in *. rewrite (Z.lor_comm (Z.shiftl f2 16)). rewrite Z.shiftl_0_r.
  rewrite (Z.shiftl_mul_pow2 f1) by lia. rewrite lor_shiftl_add by lia. rewrite Z.lor_comm.
  replace (f1 * 2 ^ 8 + f2 * 2 ^ 16) with ((f1 + f2 * 256) * 2 ^ 8) by lia. rewrite <- Z.shiftl_mul_pow2 by lia. rewrite lor_shiftl_add by lia. lia.
Qed.
Lemma put_zero_info info : (length info <= 67)%nat -> put_bytes ZERO_INFO 0 info = Ok (pad67 info).
Proof.
  intros H. unfold put_bytes, ZERO_INFO. rewrite (proj2 (Z.leb_le _ _)) by (unfold zlen; rewrite repeat_length; lia).
  unfold blit. change (Z.to_nat 0) with 0%nat. cbn [firstn app Nat.add]. unfold pad67. do 2 f_equal.
  replace 67%nat with (length info + (67 - length info))%nat at 1 by lia. rewrite repeat_app'. rewrite skipn_app_exact by now rewrite repeat_length. reflexivity.
Qed.
Lemma dec_ok version data size : bytes data -> (size = 30 \/ size = 72) -> size <= zlen data -> version < 2 ->
  rlp_decode version data size = Ok (dec version size (at0 data 0) (at0 data 1) (zslice data 2 (size - 5))
    (at0 data (size - 3) + 256 * at0 data (size - 2) + 65536 * at0 data (size - 1))).
Proof.
  intros Hb Hs Hl Hv. unfold rlp_decode. replace (negb (size =? 30) && negb (size =? 72)) with false by lia.
  rewrite (proj2 (Z.leb_gt _ _)) by lia.
  rewrite !rd_at0 by lia. cbn [bind]. cbv zeta. rewrite ns_eq, fcs_eq by now apply bytes_at0.
  set (d0 := at0 data 0). set (d1 := at0 data 1). set (fcs := at0 data (size - 3) + _ + _).
  assert (B0 : is_byte d0) by now apply bytes_at0. assert (B1 : is_byte d1) by now apply bytes_at0.
  assert (GI : get_bytes data 2 (size - 5) = Ok (zslice data 2 (size - 5))).
  { unfold get_bytes. replace ((0 <=? size - 5) && (2 + (size - 5) <=? zlen data)) with true by lia. reflexivity. }
  assert (LI : length (zslice data 2 (size - 5)) = Z.to_nat (size - 5)) by (unfold zslice; apply slice_length; unfold zlen in Hl; lia).
  rewrite GI. cbn [bind]. rewrite put_zero_info by (rewrite LI; lia). cbn [bind].
  rewrite !land1_odd. rewrite !Z.shiftr_div_pow2 by lia. change 3 with (Z.ones 2). change 31 with (Z.ones 5). rewrite !Z.land_ones by lia.
  change (2 ^ 2) with 4. change (2 ^ 1) with 2. change (2 ^ 5) with 32. unfold dec, d_nr, d_s, d_cr, d_pf, ZERO_INFO.
  destruct (_ =? 63); [destruct (_ =? U_FT_XID); reflexivity|]. destruct (_ =? 62); reflexivity.
Qed.

(** every pair of octets is a header *)
Lemma oct0 d0 d1 : is_byte d0 -> d0 = hd0 (d_cr d0) (d_s d0) (d_ns d0 d1).
Proof. intros H. unfold is_byte, hd0, d_cr, d_s, d_ns, b2z in *. rewrite <- Zmod_odd. Z.div_mod_to_equations; lia. Qed.
Lemma oct1 d0 d1 : is_byte d0 -> is_byte d1 -> d1 = hd1 (d_ns d0 d1) (d_pf d1) (d_nr d1).
Proof. intros H0 H1. unfold is_byte, hd1, d_pf, d_nr, d_ns, b2z in *. rewrite <- Zmod_odd. Z.div_mod_to_equations; lia. Qed.
Lemma ns_hd cr s ns pf nr : d_ns (hd0 cr s ns) (hd1 ns pf nr) = ns mod 64.
Proof. unfold d_ns, hd0, hd1. destruct cr, pf; cbn [b2z]; Z.div_mod_to_equations; lia. Qed.
Lemma nr_hd ns pf nr : d_nr (hd1 ns pf nr) = nr mod 64.
Proof. unfold d_nr, hd1. destruct pf; cbn [b2z]; Z.div_mod_to_equations; lia. Qed.
Lemma s_hd cr s ns : d_s (hd0 cr s ns) = s mod 4.
Proof. unfold d_s, hd0. destruct cr; cbn [b2z]; Z.div_mod_to_equations; lia. Qed.
Lemma cr_hd cr s ns : d_cr (hd0 cr s ns) = cr.
Proof. unfold d_cr, hd0. replace (b2z cr + 2 * (s mod 4) + 8 * (ns mod 32)) with (b2z cr + 2 * (s mod 4 + 4 * (ns mod 32))) by lia. rewrite Z.odd_add_mul_2. now destruct cr. Qed.
Lemma pf_hd ns pf nr : d_pf (hd1 ns pf nr) = pf.
Proof.
  unfold d_pf, hd1. replace (((ns / 32) mod 2 + 2 * b2z pf + 4 * (nr mod 64)) / 2) with (b2z pf + 2 * (nr mod 64)) by (destruct pf; cbn [b2z]; Z.div_mod_to_equations; lia).
  rewrite Z.odd_add_mul_2. now destruct pf.
Qed.
Lemma split3 f : 0 <= f < 2 ^ 24 -> at0 (fcs_octets f) 0 + 256 * at0 (fcs_octets f) 1 + 65536 * at0 (fcs_octets f) 2 = f.
Proof.
  intros H. change (at0 (fcs_octets f) 0) with (Z.land (Z.shiftr f 0) 255). change (at0 (fcs_octets f) 1) with (Z.land (Z.shiftr f 8) 255).
  change (at0 (fcs_octets f) 2) with (Z.land (Z.shiftr f 16) 255).
  rewrite !land_255, !Z.shiftr_div_pow2 by lia. change (2 ^ 0) with 1. change (2 ^ 8) with 256. change (2 ^ 16) with (256 * 256). change (2 ^ 24) with (256 * 256 * 256) in H.
  rewrite Z.div_1_r, <- (Z.div_div f 256 256) by lia. set (q := f / 256). pose proof (Z.div_mod f 256). fold q in H0.
  rewrite (Z.mod_small (q / 256)) by (Z.div_mod_to_equations; lia). pose proof (Z.div_mod q 256). lia.
Qed.

Lemma at0_app_r (a b : list Z) i : 0 <= i - zlen a -> at0 (a ++ b) i = at0 b (i - zlen a).
Proof. intros H. unfold at0. rewrite app_nth2 by (unfold zlen in *; lia). f_equal. unfold zlen in *. lia. Qed.
Lemma at0_app_l (a b : list Z) i : 0 <= i < zlen a -> at0 (a ++ b) i = at0 a i.
Proof. intros H. unfold at0. apply app_nth1. unfold zlen in *; lia. Qed.

(** decoding an encoded frame *)
Lemma dec_enc size version f c rest : rlp_typed f -> bytes rest -> (size = 30 \/ size = 72) -> version < 2 -> bytes (body_of size f) -> zlen (body_of size f) = size - 3 ->
  0 <= c < 2 ^ 24 -> zlen (payload f) <= size - 5 ->
  rlp_decode version (body_of size f ++ fcs_octets c ++ rest) size =
  Ok (dec version size (hd0 (r_cr f) (hdr_s f) (hdr_ns f)) (hd1 (hdr_ns f) (r_pf f) (hdr_nr f)) (payload f ++ repeat 0 (Z.to_nat (size - 5 - zlen (payload f)))) c).
Proof.
  intros Ht Hr Hs Hv HB HL Hc HP. pose proof (zlen_nonneg rest). pose proof (zlen_nonneg (payload f)).
  assert (L3 : zlen (fcs_octets c) = 3) by reflexivity.
  rewrite dec_ok; [|apply Forall_app; split; [exact HB|apply Forall_app; split; [apply fcs_octets_bytes|exact Hr]]|exact Hs|rewrite !zlen_app, L3; lia|exact Hv].
  f_equal. f_equal.
  - unfold zslice, slice, body_of, frame_body. change (Z.to_nat 2) with 2%nat. cbn [app skipn]. apply firstn_app_exact.
    rewrite app_length, repeat_length. unfold zlen in *. lia.
  - rewrite (at0_app_r (body_of size f) _ (size - 3)), (at0_app_r (body_of size f) _ (size - 2)), (at0_app_r (body_of size f) _ (size - 1)) by (rewrite HL; lia). rewrite HL. replace (size - 3 - (size - 3)) with 0 by lia.
    replace (size - 2 - (size - 3)) with 1 by lia. replace (size - 1 - (size - 3)) with 2 by lia.
    rewrite !at0_app_l by (rewrite L3; lia). now apply split3.
Qed.

Lemma Ok_inj {A} (x y : A) : Ok x = Ok y -> x = y.
Proof. congruence. Qed.
