(* Property theorems for base64: C11.  Model: M_base64.v, specification: S_base64.v (RFC 4648). *)
From Verif Require Import Base Lib S_base64 M_base64 P_base64.

(* the encoder's complete behaviour for every non-empty input: needs room for the text and a NUL, announces
   that size when refusing, otherwise stores exactly the RFC 4648 text and a NUL and touches nothing else *)
Theorem C11_encode : forall dst src, bytes src -> zlen src < 2 ^ 61 ->
  osmo_base64_encode dst (zlen dst) src (zlen src) =
  Ok (if zlen src =? 0 then (0, 0, dst)
      else if zlen dst <? zlen (b64 src) + 1 then (- ENOBUFS, zlen (b64 src) + 1, dst)
      else (0, zlen (b64 src), blit dst 0 (b64 src ++ [0]))).
Proof. exact encode_ok. Qed.
Print Assumptions C11_encode.

Theorem C11_encoded_length : forall l, zlen (b64 l) = 4 * ((zlen l + 2) / 3).
Proof. exact b64_len. Qed.
Print Assumptions C11_encoded_length.

(* decoding the encoding, with line ends inserted anywhere, gives the input back; -ENOBUFS with the
   needed size exactly when the destination is too small; nothing outside the result is written *)
Theorem C11_roundtrip : forall dst olen src text, bytes src -> src <> [] -> zlen src < 2 ^ 60 -> broken (b64 src) text ->
  osmo_base64_decode (Some dst) (zlen dst) olen text =
  Ok (if zlen dst <? zlen src then (- ENOBUFS, zlen src, Some dst) else (0, zlen src, Some (blit dst 0 src))).
Proof. exact roundtrip. Qed.
Print Assumptions C11_roundtrip.

(* for every input whatsoever the decoder stays inside the destination and inside what it announces *)
Theorem C11_decode_safe : forall dst olen src, bytes src -> zlen src < 2 ^ 61 ->
  exists rc ol dst', osmo_base64_decode (Some dst) (zlen dst) olen src = Ok (rc, ol, Some dst') /\
    zlen dst' = zlen dst /\
    ((rc = - EINVAL /\ ol = olen /\ dst' = dst) \/
     (rc = 0 /\ filter significant src = [] /\ ol = olen /\ dst' = dst) \/
     (rc = - ENOBUFS /\ zlen dst < ol /\ dst' = dst /\
      osmo_base64_decode None 0 olen src = Ok (- ENOBUFS, ol, None)) \/
     (rc = 0 /\ 0 <= ol <= zlen dst /\ (forall i, ol <= i -> at0 dst' i = at0 dst i) /\
      exists n, ol <= n <= zlen dst /\ osmo_base64_decode None 0 olen src = Ok (- ENOBUFS, n, None))).
Proof. exact decode_safe. Qed.
Print Assumptions C11_decode_safe.

(* "the output length is always reported" is false: success on an empty text leaves *olen as it was *)
Theorem C11_empty_olen_refuted : forall olen dst, osmo_base64_decode (Some dst) (zlen dst) olen [] = Ok (0, olen, Some dst).
Proof. reflexivity. Qed.
Print Assumptions C11_empty_olen_refuted.

(* a space inside a line, a character outside the alphabet, more than two pads and data after a pad are refused *)
Theorem C11_decode_refuses : forall dst dlen olen c,
  osmo_base64_decode dst dlen olen [65; 32; 65] = Ok (- EINVAL, olen, dst) /\
  osmo_base64_decode dst dlen olen [65; 61; 61; 61] = Ok (- EINVAL, olen, dst) /\
  osmo_base64_decode dst dlen olen [65; 61; 65] = Ok (- EINVAL, olen, dst) /\
  (is_byte c -> (forall d, 0 <= d < 64 -> c <> c64 d) -> c <> PAD -> c <> LF -> c <> SP ->
   osmo_base64_decode dst dlen olen [c] = Ok (- EINVAL, olen, dst)).
Proof.
  intros. repeat split. intros Hc Hd Hp Hl Hs. unfold osmo_base64_decode. cbn [dec_scan]. unfold PAD, LF, SP, is_byte in *.
  replace (c =? 32) with false by lia. rewrite andb_false_r. replace (c =? 10) with false by lia. replace (c =? 61) with false by lia.
  change (negb (0 =? 0)) with false. cbn [andb]. destruct (Z.ltb_spec 127 c); [reflexivity|].
  destruct (rd_dec c) as [E _]; [lia|]. rewrite E. cbn [bind].
  destruct (Z.eqb_spec (sext c) 127); [reflexivity|]. exfalso.
  assert (K : (if (sext c <? 64) then c =? c64 (sext c) else (c =? 61) || (sext c =? 127)) = true).
  { apply (forall_zseq (fun c => if (sext c <? 64) then c =? c64 (sext c) else (c =? 61) || (sext c =? 127)) 0 128); [vm_compute; reflexivity|lia]. }
  destruct (rd_dec c) as [_ R]; [lia|]. destruct (Z.ltb_spec (sext c) 64); [|lia]. apply (Hd (sext c)); lia.
Qed.
Print Assumptions C11_decode_refuses.

Example C11_nonvacuous :
  let src := [0x4d; 0x61; 0x6e; 0xff] in
  b64 src = [84; 87; 70; 117; 47; 119; 61; 61] /\
  osmo_base64_encode (repeat 170 10) 10 src 4 = Ok (0, 8, [84; 87; 70; 117; 47; 119; 61; 61; 0; 170]) /\
  osmo_base64_encode (repeat 170 8) 8 src 4 = Ok (- ENOBUFS, 9, repeat 170 8) /\
  broken (b64 src) [84; 87; 32; 13; 10; 70; 117; 47; 119; 61; 10; 61; 32] /\
  osmo_base64_decode (Some (repeat 170 5)) 5 99 [84; 87; 32; 13; 10; 70; 117; 47; 119; 61; 10; 61; 32] = Ok (0, 4, Some [0x4d; 0x61; 0x6e; 0xff; 170]).
Proof.
  cbv zeta. split; [vm_compute; reflexivity|]. split; [vm_compute; reflexivity|]. split; [vm_compute; reflexivity|].
  split; [|vm_compute; reflexivity].
  change (b64 [0x4d; 0x61; 0x6e; 0xff]) with [84; 87; 70; 117; 47; 119; 61; 61].
  do 2 apply br_char. apply (br_crlf 1). do 5 apply br_char. apply (br_lf 0). apply br_char. apply (br_end 1).
Qed.
