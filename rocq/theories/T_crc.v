(* Property theorems for the generic CRC code: C10.  Model: M_crc.v (w = 8, 16, 32, 64 is the word
   size of the generated variant).  Specification: S_crc.v (polynomials over GF(2)). *)
From Verif Require Import Base S_crc M_crc P_crc.

(* the CRC is the remainder of message*x^r + init*x^len modulo x^r + poly, xored with the final mask *)
Theorem C10_remainder : forall w code inp len, code_ok w code -> 0 <= len <= zlen inp -> bits inp ->
  exists crc, crc_compute w code inp len = Ok crc /\ 0 <= crc < 2 ^ cbits code /\
    gfrem (Z.lxor (Z.shiftl (poly_of (firstn (Z.to_nat len) inp)) (cbits code)) (Z.shiftl (cinit code) len))
          (2 ^ cbits code + cpoly code) (cbits code) (Z.lxor crc (crem code)).
Proof. exact crc_remainder. Qed.
Print Assumptions C10_remainder.

(* the specification determines the CRC: remainders are unique *)
Theorem C10_remainder_unique : forall a g d r1 r2, 0 <= d -> 2 ^ d <= g < 2 ^ (d + 1) ->
  gfrem a g d r1 -> gfrem a g d r2 -> r1 = r2.
Proof. exact gfrem_unique. Qed.
Print Assumptions C10_remainder_unique.

Theorem C10_affine : forall w code a b, code_ok w code -> length a = length b ->
  exists ca cb c0 cx, crc_compute w code a (zlen a) = Ok ca /\ crc_compute w code b (zlen b) = Ok cb /\
    crc_compute w code (repeat 0 (length a)) (zlen a) = Ok c0 /\ crc_compute w code (xorl a b) (zlen a) = Ok cx /\
    cx = Z.lxor (Z.lxor ca cb) c0.
Proof. exact crc_affine. Qed.
Print Assumptions C10_affine.

(* set_bits writes the CRC most significant bit first into exactly cbits positions *)
Theorem C10_set_bits : forall w code inp len cb, code_ok w code -> 0 <= len <= zlen inp -> cbits code <= zlen cb ->
  exists crc o, crc_compute w code inp len = Ok crc /\ crc_set w code inp len cb = Ok o /\ zlen o = zlen cb /\
    (forall k, 0 <= k < cbits code -> at0 o k = b2z (Z.testbit crc (cbits code - 1 - k))) /\
    (forall k, cbits code <= k < zlen cb -> at0 o k = at0 cb k).
Proof. exact crc_set_ok. Qed.
Print Assumptions C10_set_bits.

(* check_bits accepts (0) exactly those bits *)
Theorem C10_check_bits : forall w code inp len cb, code_ok w code -> 0 <= len <= zlen inp -> cbits code <= zlen cb ->
  exists crc v, crc_compute w code inp len = Ok crc /\ crc_check w code inp len cb = Ok v /\ (v = 0 \/ v = 1) /\
    (v = 0 <-> forall k, 0 <= k < cbits code -> at0 cb k = b2z (Z.testbit crc (cbits code - 1 - k))).
Proof. exact crc_check_ok. Qed.
Print Assumptions C10_check_bits.

Theorem C10_set_check : forall w code inp len cb, code_ok w code -> 0 <= len <= zlen inp -> cbits code <= zlen cb ->
  exists o, crc_set w code inp len cb = Ok o /\ crc_check w code inp len o = Ok 0.
Proof. exact crc_set_check. Qed.
Print Assumptions C10_set_check.

(* every error burst of at most r bits (in particular every single-bit error), anywhere in message
   and CRC, is detected when the generator has a constant term *)
Theorem C10_burst_detected : forall w code m cb e1 e2, code_ok w code -> Z.odd (cpoly code) = true ->
  bits m -> bits cb -> zlen cb = cbits code -> length e1 = length m -> length e2 = length cb ->
  burst (cbits code) (e1 ++ e2) ->
  crc_check w code m (zlen m) cb = Ok 0 ->
  crc_check w code (xorl m e1) (zlen m) (xorl cb e2) = Ok 1.
Proof. exact burst_detected. Qed.
Print Assumptions C10_burst_detected.

(* a 32 or 64 bit variant cannot be used with a code as wide as its word: the mask shift is undefined *)
Theorem C10_full_width_refuted : forall code inp, cbits code = 32 -> 1 <= zlen inp -> crc_compute 32 code inp 1 = UB.
Proof.
  intros code inp Hb Hl. unfold crc_compute. change (Z.to_nat 1) with 1%nat. cbn [zfor].
  rewrite rd_at0 by lia. cbn [bind]. unfold crc_step. rewrite Hb. reflexivity.
Qed.
Print Assumptions C10_full_width_refuted.

(* the parity codes of the GSM channel coding meet the hypotheses *)
Theorem C10_gsm_codes : Forall (fun p => code_ok (fst p) (snd p) /\ Z.odd (cpoly (snd p)) = true)
  [(64, gsm0503_fire_crc40); (16, gsm0503_cs234_crc16); (8, gsm0503_mcs_crc8_hdr); (16, gsm0503_mcs_crc12);
   (8, gsm0503_rach_crc6); (16, gsm0503_sch_crc10); (8, gsm0503_tch_fr_crc3); (8, gsm0503_tch_efr_crc8);
   (8, gsm0503_amr_crc6); (16, gsm0503_amr_crc14)].
Proof.
  repeat constructor; cbn [fst snd cbits cpoly cinit crem gsm0503_fire_crc40 gsm0503_cs234_crc16 gsm0503_mcs_crc8_hdr
   gsm0503_mcs_crc12 gsm0503_rach_crc6 gsm0503_sch_crc10 gsm0503_tch_fr_crc3 gsm0503_tch_efr_crc8 gsm0503_amr_crc6 gsm0503_amr_crc14];
  try lia; vm_compute; congruence.
Qed.
Print Assumptions C10_gsm_codes.

Example C10_nonvacuous :
  let m := [1;0;1;1;0;0;1;0;1;1] in
  crc_compute 16 gsm0503_cs234_crc16 m 10 = Ok 61882 /\
  crc_set 8 gsm0503_tch_fr_crc3 m 10 [0;0;0;1] = Ok [1;1;1;1] /\
  crc_check 8 gsm0503_tch_fr_crc3 m 10 [1;1;1] = Ok 0 /\
  burst 3 ([0;0;0;0;0;0;0;0;1;0] ++ [1;0;0]) /\
  crc_check 8 gsm0503_tch_fr_crc3 [1;0;1;1;0;0;1;0;0;1] 10 [0;1;1] = Ok 1.
Proof.
  cbv zeta. split; [vm_compute; reflexivity|]. split; [vm_compute; reflexivity|]. split; [vm_compute; reflexivity|].
  split; [|vm_compute; reflexivity].
  exists 8%nat, [1;0;1], 2%nat. split; [reflexivity|]. split; [repeat (constructor; [unfold is_bit; auto|]); constructor|].
  split; [left; reflexivity|]. vm_compute; congruence.
Qed.
