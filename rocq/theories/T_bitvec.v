(* Property theorems for bit vectors: C08, C09.
   Model: M_bitvec.v.  Vocabulary (S_bits.v): pbit false l j is bit j (most significant first) of the
   byte string l; msb_num reads a run of bits as a number; bitval is the bit a bit_value stands for. *)
From Verif Require Import Base S_bits M_bits P_bits M_bitvec P_bitvec P_bitvec2.

(* one bit: set changes exactly that bit; outside the vector nothing changes and -EINVAL is returned *)
Theorem C08_set_bit_pos : forall bv n v, bytes (bdata bv) -> 0 <= n ->
  if n <? 8 * data_len bv then
    exists bv', bitvec_set_bit_pos bv n v = (0, bv') /\ cur_bit bv' = cur_bit bv /\
      data_len bv' = data_len bv /\ bytes (bdata bv') /\
      forall j, 0 <= j -> pbit false (bdata bv') j = if j =? n then bitval v n else pbit false (bdata bv) j
  else bitvec_set_bit_pos bv n v = (- EINVAL, bv).
Proof.
  intros bv n v Hb Hn. destruct (Z.ltb_spec n (8 * data_len bv)).
  - apply set_bit_pos_ok; auto.
  - apply set_bit_pos_out; auto.
Qed.
Print Assumptions C08_set_bit_pos.

Theorem C08_get_bit_pos : forall bv n, bytes (bdata bv) -> 0 <= n ->
  bitvec_get_bit_pos bv n = (if n <? 8 * data_len bv then b2z (pbit false (bdata bv) n) else - EINVAL) /\
  bitvec_get_bit_pos_high bv n =
    (if n <? 8 * data_len bv then (if Bool.eqb (pbit false (bdata bv) n) (bitval BH n) then BH else BL) else - EINVAL).
Proof.
  intros bv n Hb Hn. destruct (Z.ltb_spec n (8 * data_len bv)).
  - split; [apply get_bit_pos_ok|apply get_bit_pos_high_ok]; auto.
  - split; [apply get_bit_pos_out|apply get_bit_pos_high_out]; auto.
Qed.
Print Assumptions C08_get_bit_pos.

(* fields: write stores the value's low n bits at the write index, changes nothing else, advances
   the index by n *)
Theorem C08_write_field : forall bv w v n, bytes (bdata bv) -> 8 * data_len bv < 2 ^ 32 -> 0 <= w -> 0 <= n <= 64 ->
  w + n <= 8 * data_len bv ->
  exists bv', bitvec_write_field bv w v n = (0, w + n, bv') /\ cur_bit bv' = w + n /\
    data_len bv' = data_len bv /\ bytes (bdata bv') /\
    forall j, 0 <= j -> pbit false (bdata bv') j =
      if (w <=? j) && (j <? w + n) then Z.testbit v (n - 1 - (j - w)) else pbit false (bdata bv) j.
Proof. exact write_field_ok. Qed.
Print Assumptions C08_write_field.

Theorem C08_read_field : forall bv r n, bytes (bdata bv) -> 8 * data_len bv < 2 ^ 32 -> 0 <= r -> 0 <= n <= 64 ->
  r + n <= 8 * data_len bv ->
  bitvec_read_field bv r n =
  Ok (0, msb_num (pbit false (bdata bv)) r (Z.to_nat n), r + n, Bv (r + n) (bdata bv)).
Proof. exact read_field_ok. Qed.
Print Assumptions C08_read_field.

Theorem C08_write_read : forall bv w v n, bytes (bdata bv) -> 8 * data_len bv < 2 ^ 32 -> 0 <= w -> 0 <= n <= 64 ->
  w + n <= 8 * data_len bv ->
  exists bv', bitvec_write_field bv w v n = (0, w + n, bv') /\
    bitvec_read_field bv' w n = Ok (0, v mod 2 ^ n, w + n, bv').
Proof. exact write_read. Qed.
Print Assumptions C08_write_read.

(* a field that does not fit is refused: index unchanged, bits before it unchanged *)
Theorem C08_write_field_refused : forall bv w v n, bytes (bdata bv) -> 8 * data_len bv < 2 ^ 32 -> 0 <= w -> 1 <= n <= 64 ->
  8 * data_len bv < w + n ->
  exists bv', bitvec_write_field bv w v n = (- EINVAL, w, bv') /\ data_len bv' = data_len bv /\
    forall j, 0 <= j < w -> pbit false (bdata bv') j = pbit false (bdata bv) j.
Proof. exact write_field_out. Qed.
Print Assumptions C08_write_field_refused.

Theorem C08_read_field_refused : forall bv r n, 0 <= r -> 1 <= n -> r + n <= 2 ^ 32 -> 8 * data_len bv < r + n ->
  bitvec_read_field bv r n = Ok (EOVERFLOW, 0, r, bv).
Proof. exact read_field_out. Qed.
Print Assumptions C08_read_field_refused.

(* not for every length: 256 is truncated to 0, so nothing is written although the call reports
   success and moves the index 256 bits on, past the end of the vector *)
Theorem C08_write_field_256_refuted : forall bv w v, 0 <= w -> w + 256 < 2 ^ 32 ->
  bitvec_write_field bv w v 256 = (0, w + 256, Bv w (bdata bv)).
Proof.
  intros. unfold bitvec_write_field. change (u8 256) with 0. cbn. rewrite u32_small by (unfold is_u32; lia). reflexivity.
Qed.
Print Assumptions C08_write_field_256_refuted.

(* not for every index: index + length may wrap, the check passes and memory outside is read *)
Theorem C08_read_field_wrap_refuted : exists bv r n, 0 <= r < 2 ^ 32 /\ 1 <= n <= 64 /\
  8 * data_len bv < r + n /\ bitvec_read_field bv r n = UB.
Proof.
  exists (Bv 0 [170]), (2 ^ 32 - 1), 2. repeat split; try lia; try reflexivity.
Qed.
Print Assumptions C08_read_field_wrap_refuted.

(* sequential access *)
Theorem C08_set_u64 : forall bv v n lh, wf bv -> 0 <= n <= 64 ->
  let '(rc, bv') := bitvec_set_u64 bv v n lh in
  rc = (if (n =? 0) || (cur_bit bv + n <=? 8 * data_len bv) then 0 else - EINVAL) /\
  cur_bit bv' = cur_bit bv + Z.min n (Z.max 0 (8 * data_len bv - cur_bit bv)) /\
  data_len bv' = data_len bv /\ bytes (bdata bv') /\
  forall j, 0 <= j -> pbit false (bdata bv') j =
    if (cur_bit bv <=? j) && (j <? cur_bit bv + n) && (j <? 8 * data_len bv)
    then xorb (lh && lbit j) (Z.testbit v (n - 1 - (j - cur_bit bv))) else pbit false (bdata bv) j.
Proof. exact set_u64_ok. Qed.
Print Assumptions C08_set_u64.

(* a list of bit values: each is written at the next position; the bits that do not fit are refused *)
Theorem C08_set_bits : forall bv bl, wf bv ->
  let '(rc, bv') := bitvec_set_bits bv bl in
  rc = (if (zlen bl =? 0) || (cur_bit bv + zlen bl <=? 8 * data_len bv) then 0 else - EINVAL) /\
  cur_bit bv' = cur_bit bv + Z.min (zlen bl) (Z.max 0 (8 * data_len bv - cur_bit bv)) /\
  data_len bv' = data_len bv /\ bytes (bdata bv') /\
  forall j, 0 <= j -> pbit false (bdata bv') j =
    if (cur_bit bv <=? j) && (j <? cur_bit bv + zlen bl) && (j <? 8 * data_len bv)
    then bitval (at0 bl (j - cur_bit bv)) j else pbit false (bdata bv) j.
Proof. intros bv bl. exact (set_bits_ok bl bv). Qed.
Print Assumptions C08_set_bits.

Theorem C08_get_uint : forall bv n, bytes (bdata bv) -> 8 * data_len bv < 2 ^ 32 -> 0 <= cur_bit bv ->
  0 <= n <= 32 -> cur_bit bv + n <= 8 * data_len bv ->
  bitvec_get_uint bv n =
  Ok (s32 (msb_num (pbit false (bdata bv)) (cur_bit bv) (Z.to_nat n)), Bv (cur_bit bv + n) (bdata bv)).
Proof.
  intros bv n Hb Hl Hc Hn Hf. unfold bitvec_get_uint. rewrite get_uint_ok; auto; try lia.
  - rewrite Z2Nat.id by lia. reflexivity.
Qed.
Print Assumptions C08_get_uint.

(* more than 32 bits cannot be read with get_uint: the shift is undefined *)
Theorem C08_get_uint_33_refuted : exists bv, cur_bit bv + 33 <= 8 * data_len bv /\ bitvec_get_uint bv 33 = UB.
Proof. exists (Bv 0 [128;0;0;0;0]). split; [cbn; lia|reflexivity]. Qed.
Print Assumptions C08_get_uint_33_refuted.

Theorem C08_fill : forall bv n v, wf bv -> 0 <= n -> cur_bit bv + n <= 8 * data_len bv ->
  exists bv', bitvec_fill bv n v = (0, bv') /\ cur_bit bv' = cur_bit bv + n /\ data_len bv' = data_len bv /\
    bytes (bdata bv') /\
    forall j, 0 <= j -> pbit false (bdata bv') j =
      if (cur_bit bv <=? j) && (j <? cur_bit bv + n) then bitval v j else pbit false (bdata bv) j.
Proof. exact fill_ok. Qed.
Print Assumptions C08_fill.

Theorem C08_spare_padding : forall bv u, wf bv -> cur_bit bv <= u < 8 * data_len bv -> 8 * data_len bv < 2 ^ 31 ->
  exists bv', bitvec_spare_padding bv u = (0, bv') /\ cur_bit bv' = u + 1 /\ data_len bv' = data_len bv /\
    bytes (bdata bv') /\
    forall j, 0 <= j -> pbit false (bdata bv') j =
      if (cur_bit bv <=? j) && (j <=? u) then lbit j else pbit false (bdata bv) j.
Proof. exact padding_ok. Qed.
Print Assumptions C08_spare_padding.

(* the first bit at or after n with the given value, or -1 if there is none *)
Theorem C08_find_bit_pos : forall bv n val, bytes (bdata bv) -> 8 * data_len bv < 2 ^ 32 -> is_bit val -> 0 <= n ->
  let r := bitvec_find_bit_pos bv n val in
  (r = -1 /\ forall j, n <= j < 8 * data_len bv -> pbit false (bdata bv) j <> (val =? 1)) \/
  (n <= r < 8 * data_len bv /\ pbit false (bdata bv) r = (val =? 1) /\
   forall j, n <= j < r -> pbit false (bdata bv) j <> (val =? 1)).
Proof. exact find_bit_pos_ok. Qed.
Print Assumptions C08_find_bit_pos.

(* the position of the n-th set bit, or 0 if fewer than n bits are set *)
Theorem C08_nth_set_bit : forall bv n, bytes (bdata bv) -> 8 * data_len bv < 2 ^ 32 -> 1 <= n ->
  let f := pbit false (bdata bv) in
  let r := bitvec_get_nth_set_bit bv n in
  (r = 0 /\ count_set f (Z.to_nat (8 * data_len bv)) < n) \/
  (0 <= r < 8 * data_len bv /\ f r = true /\ count_set f (Z.to_nat r) = n - 1).
Proof. exact nth_set_bit_ok. Qed.
Print Assumptions C08_nth_set_bit.

(* the leading run of bits equal to b: min(r, cur_bit) is its length *)
Theorem C08_run_length : forall bv b, bytes (bdata bv) -> 0 <= cur_bit bv <= 8 * data_len bv ->
  exists r, bitvec_rl bv b = Ok r /\
    (forall j, 0 <= j < Z.min r (cur_bit bv) -> pbit false (bdata bv) j = b) /\ 0 <= r /\
    (r < cur_bit bv -> pbit false (bdata bv) r <> b) /\
    (cur_bit bv mod 8 = 0 -> r <= cur_bit bv).
Proof. exact rl_ok. Qed.
Print Assumptions C08_run_length.

(* the returned length may exceed the number of bits in the vector *)
Theorem C08_run_length_refuted : exists bv b r, bytes (bdata bv) /\ 0 <= cur_bit bv <= 8 * data_len bv /\
  bitvec_rl bv b = Ok r /\ cur_bit bv < r.
Proof.
  exists (Bv 3 [248]), true, 5. repeat split; cbn; try lia. repeat constructor; unfold is_byte; lia.
Qed.
Print Assumptions C08_run_length_refuted.

(* the run of bits equal to b that starts at the current bit and stays below mx: min(r, mx - cur_bit) is its length, and
   the current bit moves to its end - except when the bits run out at mx inside the octet in which the run started:
   then it stays one short of the end *)
Theorem C08_run_length_curbit : forall bv b mx, bytes (bdata bv) -> 8 * data_len bv < 2 ^ 31 -> 0 <= cur_bit bv <= mx ->
  mx <= 8 * data_len bv ->
  exists r bv', bitvec_rl_curbit bv b mx = Ok (r, bv') /\ bdata bv' = bdata bv /\ 0 <= r /\
    (forall j, cur_bit bv <= j < Z.min (cur_bit bv + r) mx -> pbit false (bdata bv) j = b) /\
    (cur_bit bv + r < mx -> pbit false (bdata bv) (cur_bit bv + r) <> b) /\
    (mx mod 8 = 0 -> cur_bit bv + r <= mx) /\
    cur_bit bv' = cur_bit bv + r -
      (if negb (cur_bit bv mod 8 =? 0) && (cur_bit bv / 8 =? mx / 8) && (cur_bit bv + r =? mx) then 1 else 0).
Proof. exact rl_curbit_ok. Qed.
Print Assumptions C08_run_length_curbit.

(* the documented "cur_bit will go to cur_bit + number of consecutive bits" and the limit mx do not hold in general *)
Theorem C08_run_length_curbit_refuted :
  (exists bv bv', bitvec_rl_curbit bv false 7 = Ok (4, bv') /\ cur_bit bv = 3 /\ cur_bit bv' = 6) /\
  (exists bv bv', bitvec_rl_curbit bv true 3 = Ok (5, bv') /\ cur_bit bv = 0 /\ cur_bit bv' = 5).
Proof.
  split; [exists (Bv 3 [0]), (Bv 6 [0])|exists (Bv 0 [248]), (Bv 5 [248])]; repeat split; reflexivity.
Qed.
Print Assumptions C08_run_length_curbit_refuted.

Example C08_run_length_curbit_nonvacuous :
  bytes [7; 255; 224] /\ 0 <= 5 <= 22 /\ bitvec_rl_curbit (Bv 5 [7; 255; 224]) true 22 = Ok (14, Bv 19 [7; 255; 224]).
Proof. split; [repeat constructor; unfold is_byte; lia|]. split; [lia|reflexivity]. Qed.

(* shifting left by n: full claim is  forall j < cur_bit - n, bit j of the result = bit j+n.
   Proved for the bits below 8*(data_len-2); false for byte data_len-2 (next theorem). *)
Theorem C08_shiftl_partial : forall bv n, bytes (bdata bv) -> 8 * data_len bv < 2 ^ 32 -> 2 <= data_len bv ->
  cur_bit bv <= 8 * data_len bv -> 0 <= n < cur_bit bv ->
  exists bv', bitvec_shiftl bv n = Ok bv' /\ cur_bit bv' = cur_bit bv - n /\ data_len bv' = data_len bv /\
    forall j, 0 <= j < 8 * (data_len bv - 2) -> j + n < 8 * data_len bv ->
      pbit false (bdata bv') j = pbit false (bdata bv) (j + n).
Proof. exact shiftl_ok. Qed.
Print Assumptions C08_shiftl_partial.

Theorem C08_shiftl_refuted : exists bv n j bv', bytes (bdata bv) /\ cur_bit bv <= 8 * data_len bv /\
  0 <= n < cur_bit bv /\ 0 <= j < cur_bit bv - n /\ bitvec_shiftl bv n = Ok bv' /\
  pbit false (bdata bv') j <> pbit false (bdata bv) (j + n).
Proof.
  exists (Bv 16 [0;128]), 1, 7. eexists. split; [repeat constructor; unfold is_byte; lia|].
  split; [cbn; lia|]. split; [cbn; lia|]. split; [cbn; lia|]. split; [reflexivity|]. vm_compute. discriminate.
Qed.
Print Assumptions C08_shiftl_refuted.

(* what the function computes for every byte, including the unshifted last-but-one byte *)
Theorem C08_shiftl_exact : forall bv n, bytes (bdata bv) -> 8 * data_len bv < 2 ^ 32 -> 2 <= data_len bv -> cur_bit bv <= 8 * data_len bv ->
  0 < n < cur_bit bv ->
  let src k := if k <? data_len bv - n / 8 then k + n / 8 else k in
  exists bv', bitvec_shiftl bv n = Ok bv' /\ cur_bit bv' = cur_bit bv - n /\ data_len bv' = data_len bv /\
    (forall k m, 0 <= k < data_len bv - 2 -> 0 <= m < 8 -> Z.testbit (at0 (bdata bv') k) m =
        if n mod 8 <=? m then Z.testbit (at0 (bdata bv) (src k)) (m - n mod 8) else Z.testbit (at0 (bdata bv) (src (k + 1))) (m - n mod 8 + 8)) /\
    at0 (bdata bv') (data_len bv - 2) = at0 (bdata bv) (src (data_len bv - 2)) /\
    at0 (bdata bv') (data_len bv - 1) = (at0 (bdata bv) (src (data_len bv - 1)) * 2 ^ (n mod 8)) mod 256.
Proof. exact shiftl_exact. Qed.
Print Assumptions C08_shiftl_exact.

Theorem C08_shiftl_all : forall bv n, 0 < n -> cur_bit bv <= n ->
  exists bv', bitvec_shiftl bv n = Ok bv' /\ cur_bit bv' = 0 /\ data_len bv' = data_len bv /\ forall i, at0 (bdata bv') i = 0.
Proof. exact shiftl_all. Qed.
Print Assumptions C08_shiftl_all.

Theorem C08_get_int16_msb : forall bv n, bytes (bdata bv) -> 1 <= n -> cur_bit bv <= 8 * data_len bv ->
  (15 < n \/ cur_bit bv < n -> bitvec_get_int16_msb bv n = Ok (- EINVAL)) /\
  (n <= 15 -> n <= cur_bit bv -> bitvec_get_int16_msb bv n = Ok (msb_num (pbit false (bdata bv)) 0 (Z.to_nat n))).
Proof. exact get_int16_msb_ok. Qed.
Print Assumptions C08_get_int16_msb.

Theorem C08_get_bit_high : forall bv, bytes (bdata bv) -> 8 * data_len bv < 2 ^ 32 -> 0 <= cur_bit bv ->
  (cur_bit bv < 8 * data_len bv ->
   bitvec_get_bit_high bv = (if Bool.eqb (pbit false (bdata bv) (cur_bit bv)) (bitval BH (cur_bit bv)) then BH else BL, Bv (cur_bit bv + 1) (bdata bv))) /\
  (8 * data_len bv <= cur_bit bv -> bitvec_get_bit_high bv = (- EINVAL, bv)).
Proof. exact get_bit_high_ok. Qed.
Print Assumptions C08_get_bit_high.

(* CSN.1 repeated array { 1 <elem> } ** 0; dry run predicts exactly the number of bits used *)
Theorem C08_add_array : forall bv array nb, wf bv -> 0 <= nb <= 64 ->
  let total := 1 + zlen array * (1 + nb) in
  cur_bit bv + total <= 8 * data_len bv ->
  bitvec_add_array bv array true nb = (total, bv) /\
  exists bv', bitvec_add_array bv array false nb = (0, bv') /\ cur_bit bv' = cur_bit bv + total /\
    data_len bv' = data_len bv /\
    (forall i, 0 <= i < zlen array -> pbit false (bdata bv') (cur_bit bv + i * (1 + nb)) = true /\
       forall k, 1 <= k <= nb -> pbit false (bdata bv') (cur_bit bv + i * (1 + nb) + k) = Z.testbit (at0 array i) (nb - k)) /\
    pbit false (bdata bv') (cur_bit bv + total - 1) = false /\
    (forall j, 0 <= j -> j < cur_bit bv \/ cur_bit bv + total <= j -> pbit false (bdata bv') j = pbit false (bdata bv) j).
Proof. exact add_array_ok. Qed.
Print Assumptions C08_add_array.

Example C08_nonvacuous :
  let bv := Bv 0 [0;255;0;255] in
  bytes (bdata bv) /\ 8 * data_len bv < 2 ^ 32 /\ 5 + 13 <= 8 * data_len bv /\ wf (Bv 3 [1;2;3]) /\
  (exists bv', bitvec_write_field bv 5 0x1abc 13 = (0, 18, bv') /\ bdata bv' = [6;175;0;255] /\
     bitvec_read_field bv' 5 13 = Ok (0, 0x1abc, 18, bv')) /\
  snd (bitvec_add_array (Bv 3 [0;0;0]) [5;6] false 3) = Bv 12 [27;192;0].
Proof.
  cbv zeta. split; [cbn [bdata]; repeat constructor; unfold is_byte; lia|].
  split; [unfold data_len, zlen; cbn [bdata length]; lia|].
  split; [unfold data_len, zlen; cbn [bdata length]; lia|].
  split; [split; [cbn [bdata]; repeat constructor; unfold is_byte; lia|unfold data_len, zlen; cbn [bdata length cur_bit]; lia]|].
  split; [|vm_compute; reflexivity]. exists (Bv 18 [6;175;0;255]).
  split; [vm_compute; reflexivity|]. split; [reflexivity|vm_compute; reflexivity].
Qed.

(* ------------ C09: byte blocks at any bit offset ------------ *)
Theorem C09_set_bytes : forall bv src c, bytes (bdata bv) -> bytes src -> 8 * data_len bv < 2 ^ 31 ->
  0 <= cur_bit bv -> 0 <= c -> c <= zlen src ->
  cur_bit bv + 8 * c <= 8 * data_len bv -> (c = 0 -> cur_bit bv < 8 * data_len bv) ->
  exists bv', bitvec_set_bytes bv src c = Ok (0, bv') /\ cur_bit bv' = cur_bit bv + 8 * c /\
    data_len bv' = data_len bv /\ bytes (bdata bv') /\
    forall j, 0 <= j -> pbit false (bdata bv') j =
      if (cur_bit bv <=? j) && (j <? cur_bit bv + 8 * c) then pbit false src (j - cur_bit bv) else pbit false (bdata bv) j.
Proof. exact set_bytes_ok. Qed.
Print Assumptions C09_set_bytes.

Theorem C09_get_bytes : forall bv out c, bytes (bdata bv) -> 8 * data_len bv < 2 ^ 31 -> 0 <= cur_bit bv -> 0 <= c ->
  c <= zlen out -> cur_bit bv + 8 * c <= 8 * data_len bv -> (c = 0 -> cur_bit bv < 8 * data_len bv) ->
  exists o, bitvec_get_bytes bv out c = Ok (0, Bv (cur_bit bv + 8 * c) (bdata bv), o) /\
    zlen o = zlen out /\
    (forall j, 0 <= j < 8 * c -> pbit false o j = pbit false (bdata bv) (cur_bit bv + j)) /\
    (forall k, c <= k < zlen out -> at0 o k = at0 out k).
Proof. exact get_bytes_ok. Qed.
Print Assumptions C09_get_bytes.

Theorem C09_roundtrip : forall bv src out c, bytes (bdata bv) -> bytes src -> bytes out -> 8 * data_len bv < 2 ^ 31 ->
  0 <= cur_bit bv -> 1 <= c -> c <= zlen src -> c <= zlen out -> cur_bit bv + 8 * c <= 8 * data_len bv ->
  exists bv', bitvec_set_bytes bv src c = Ok (0, bv') /\
  exists o, bitvec_get_bytes (Bv (cur_bit bv) (bdata bv')) out c = Ok (0, bv', o) /\
    firstn (Z.to_nat c) o = firstn (Z.to_nat c) src.
Proof. exact set_get_bytes. Qed.
Print Assumptions C09_roundtrip.

Theorem C09_refused : forall bv src out c, 0 <= cur_bit bv -> 0 <= c -> cur_bit bv / 8 + c + 1 < 2 ^ 32 ->
  8 * data_len bv < cur_bit bv + 8 * c ->
  bitvec_set_bytes bv src c = Ok (- EINVAL, bv) /\ bitvec_get_bytes bv out c = Ok (- EINVAL, bv, out).
Proof. exact bytes_out_of_range. Qed.
Print Assumptions C09_refused.

(* the size check is done in 32 bits: a count close to 2^32 passes it and the copy runs outside *)
Theorem C09_wrap_refuted : exists bv src c, 0 <= c < 2 ^ 32 /\ 8 * data_len bv < cur_bit bv + 8 * c /\
  bitvec_set_bytes bv src c = UB.
Proof.
  exists (Bv 8 [1;2;3]), [9], (2 ^ 32 - 1). split; [lia|]. split; [unfold data_len; cbn [cur_bit bdata]; unfold zlen; cbn [length]; lia|].
  unfold bitvec_set_bytes. cbn [cur_bit bdata].
  replace (data_len _ <? _) with false by reflexivity. replace (8 mod 8 =? 0) with true by reflexivity.
  rewrite memcpy_UB; [reflexivity|]. change (zlen [1;2;3]) with 3. change (zlen [9]) with 1. lia.
Qed.
Print Assumptions C09_wrap_refuted.

Example C09_nonvacuous :
  let bv := Bv 3 [255;0;255;0] in
  bitvec_set_bytes bv [0xAB;0xCD] 2 = Ok (0, Bv 19 [245;121;191;0]) /\
  bitvec_get_bytes (Bv 3 [245;121;191;0]) [1;2;3] 2 = Ok (0, Bv 19 [245;121;191;0], [0xAB;0xCD;3]).
Proof. split; vm_compute; reflexivity. Qed.
