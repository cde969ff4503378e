(* Property theorems for packed/unpacked/soft bits and bit reversal: C06, C07.
   Model: M_bits.v.  Specification vocabulary: S_bits.v. *)
From Verif Require Import Base S_bits M_bits P_bits.

(* C06: packing.  Bit j of the result is bit j of the input, pad bits are 0, the length is
   ceil(n/8), and no byte beyond it is touched. *)
Theorem C06_ubit2pbit : forall out inp n,
  bits inp -> 0 <= n <= zlen inp -> nbytes n <= zlen out ->
  exists o, osmo_ubit2pbit out inp n = Ok (o, nbytes n) /\ zlen o = zlen out /\
    (forall j, 0 <= j < 8 * nbytes n -> pbit false o j = (j <? n) && (at0 inp j =? 1)) /\
    (forall k, nbytes n <= k < zlen out -> at0 o k = at0 out k).
Proof. exact ubit2pbit_ok. Qed.
Print Assumptions C06_ubit2pbit.

Theorem C06_pbit2ubit : forall out inp n,
  1 <= n -> n <= zlen out -> nbytes n <= zlen inp ->
  exists o, osmo_pbit2ubit out inp n = Ok (o, n) /\ zlen o = zlen out /\
    (forall j, 0 <= j < n -> at0 o j = b2z (pbit false inp j)) /\
    (forall j, n <= j < zlen out -> at0 o j = at0 out j).
Proof. exact pbit2ubit_ok. Qed.
Print Assumptions C06_pbit2ubit.

(* the statement above cannot be extended to n = 0: one element is written and 1 returned *)
Theorem C06_pbit2ubit_zero_refuted : forall b t inp i,
  osmo_pbit2ubit (b :: t) (i :: inp) 0 = Ok (b2z (Z.testbit i 7) :: t, 1).
Proof. exact pbit2ubit_zero. Qed.
Print Assumptions C06_pbit2ubit_zero_refuted.

Theorem C06_roundtrip : forall out1 out2 inp n,
  bits inp -> 1 <= n <= zlen inp -> nbytes n <= zlen out1 -> n <= zlen out2 ->
  exists p, osmo_ubit2pbit out1 inp n = Ok (p, nbytes n) /\
  exists o, osmo_pbit2ubit out2 p n = Ok (o, n) /\
    firstn (Z.to_nat n) o = firstn (Z.to_nat n) inp /\
    skipn (Z.to_nat n) o = skipn (Z.to_nat n) out2.
Proof. exact roundtrip. Qed.
Print Assumptions C06_roundtrip.

(* extended variants, both bit orders: exactly the addressed bits change *)
Theorem C06_ubit2pbit_ext : forall out oo inp io n lsb,
  bytes out -> 0 <= oo -> 0 <= io -> 0 <= n -> oo + n < 2 ^ 32 -> io + n <= zlen inp -> io + n < 2 ^ 32 ->
  oo + n <= 8 * zlen out ->
  exists o, osmo_ubit2pbit_ext out oo inp io n lsb = Ok (o, s32 (Z.shiftr (u32 (oo + n - 1)) 3 + 1)) /\
    zlen o = zlen out /\ bytes o /\
    (forall j, 0 <= j < 8 * zlen out -> pbit lsb o j =
       if (oo <=? j) && (j <? oo + n) then negb (at0 inp (io + (j - oo)) =? 0) else pbit lsb out j).
Proof. exact ubit2pbit_ext_ok. Qed.
Print Assumptions C06_ubit2pbit_ext.

Theorem C06_pbit2ubit_ext : forall out oo inp io n lsb,
  0 <= oo -> 0 <= io -> 0 <= n -> oo + n < 2 ^ 31 -> io + n < 2 ^ 32 -> io + n <= 8 * zlen inp ->
  oo + n <= zlen out ->
  exists o, osmo_pbit2ubit_ext out oo inp io n lsb = Ok (o, oo + n) /\
    zlen o = zlen out /\
    (forall j, 0 <= j < zlen out -> at0 o j =
       if (oo <=? j) && (j <? oo + n) then b2z (pbit lsb inp (io + (j - oo))) else at0 out j).
Proof. exact pbit2ubit_ext_ok. Qed.
Print Assumptions C06_pbit2ubit_ext.

Theorem C06_soft_roundtrip : forall out1 out2 inp n,
  bits inp -> 0 <= n <= zlen inp -> n <= zlen out1 -> n <= zlen out2 ->
  exists s, osmo_ubit2sbit out1 inp n = Ok s /\
  osmo_sbit2ubit out2 s n = Ok (firstn (Z.to_nat n) inp ++ skipn (Z.to_nat n) out2).
Proof. exact soft_roundtrip. Qed.
Print Assumptions C06_soft_roundtrip.

Theorem C06_nibble_shift_right : forall out inp n,
  bytes inp -> 2 <= n -> n <= 2 * zlen inp -> n / 2 + 1 <= zlen out ->
  exists o, osmo_nibble_shift_right out inp n = Ok o /\ zlen o = zlen out /\
    nib o 0 = 0 /\ (forall j, 0 <= j < n -> nib o (j + 1) = nib inp j) /\
    (n mod 2 = 0 -> nib o (n + 1) = 0) /\
    (forall k, n / 2 + 1 <= k < zlen out -> at0 o k = at0 out k).
Proof. exact nibble_right_ok. Qed.
Print Assumptions C06_nibble_shift_right.

Theorem C06_nibble_shift_left : forall out inp n,
  bytes inp -> 2 <= n -> n + 1 <= 2 * zlen inp -> nbytes (4 * n) <= zlen out ->
  exists o, osmo_nibble_shift_left_unal out inp n = Ok o /\ zlen o = zlen out /\
    (forall j, 0 <= j < n -> nib o j = nib inp (j + 1)) /\
    (n mod 2 = 1 -> nib o n = 0) /\
    (forall k, nbytes (4 * n) <= k < zlen out -> at0 o k = at0 out k).
Proof. exact nibble_left_ok. Qed.
Print Assumptions C06_nibble_shift_left.

(* a single nibble is not shifted at all *)
Theorem C06_nibble_single_refuted : forall out inp,
  osmo_nibble_shift_right out inp 1 = Ok out /\ osmo_nibble_shift_left_unal out inp 1 = Ok out.
Proof. exact (fun out inp => conj eq_refl eq_refl). Qed.
Print Assumptions C06_nibble_single_refuted.

Example C06_nonvacuous :
  osmo_ubit2pbit [9;9;9] [1;0;1;1;0;0;0;1;1;1] 10 = Ok ([177;192;9], 2) /\
  osmo_pbit2ubit [7;7;7;7;7;7;7;7;7;7;7] [177;192] 10 = Ok ([1;0;1;1;0;0;0;1;1;1;7], 10) /\
  osmo_ubit2pbit_ext [255;0] 6 [1;0;0;1;1] 1 4 false = Ok ([252;192], 2) /\
  osmo_pbit2ubit_ext [7;7;7;7;7;7] 1 [252;192] 6 4 true = Ok ([7;1;1;0;0;7], 5) /\
  osmo_ubit2sbit [0;0] [1;0] 2 = Ok [-127;127] /\
  osmo_nibble_shift_right [0;0;0] [18;48] 3 = Ok [1;35;0] /\
  osmo_nibble_shift_left_unal [0;0;0] [1;35] 3 = Ok [18;48;0].
Proof. vm_compute. repeat split. Qed.

(* C07 *)
Theorem C07_bit_reversal : forall x k i, 0 <= k < 32 -> 0 <= i < 32 ->
  Z.testbit (osmo_bit_reversal x k) i = Z.testbit x (Z.lxor i k).
Proof. exact bit_reversal_bits. Qed.
Print Assumptions C07_bit_reversal.

Theorem C07_bit_reversal_range : forall x k, is_u32 x -> is_u32 (osmo_bit_reversal x k).
Proof. exact bit_reversal_range. Qed.
Print Assumptions C07_bit_reversal_range.

Theorem C07_bit_reversal_involution : forall x k, is_u32 x -> 0 <= k < 32 ->
  osmo_bit_reversal (osmo_bit_reversal x k) k = x.
Proof. exact bit_reversal_invol. Qed.
Print Assumptions C07_bit_reversal_involution.

Theorem C07_revbytebits_32 : forall x i, 0 <= i < 32 ->
  Z.testbit (osmo_revbytebits_32 x) i = Z.testbit x (8 * (i / 8) + (7 - i mod 8)).
Proof. exact revbytebits_32_bits. Qed.
Print Assumptions C07_revbytebits_32.

Theorem C07_revbytebits_8 : forall x i, is_byte x -> 0 <= i < 8 ->
  Z.testbit (osmo_revbytebits_8 x) i = Z.testbit x (7 - i).
Proof. exact revbytebits_8_bits. Qed.
Print Assumptions C07_revbytebits_8.

Theorem C07_revbytebits_8_involution : forall x, is_byte x ->
  is_byte (osmo_revbytebits_8 x) /\ osmo_revbytebits_8 (osmo_revbytebits_8 x) = x.
Proof. exact (fun x H => conj (revbytebits_8_range x H) (revbytebits_8_invol x H)). Qed.
Print Assumptions C07_revbytebits_8_involution.

Theorem C07_revbytebits_buf : forall buf n, bytes buf -> 0 <= n <= zlen buf ->
  osmo_revbytebits_buf buf n = Ok (map osmo_revbytebits_8 (firstn (Z.to_nat n) buf) ++ skipn (Z.to_nat n) buf).
Proof. exact revbytebits_buf_ok. Qed.
Print Assumptions C07_revbytebits_buf.

Example C07_nonvacuous :
  osmo_bit_reversal 0x12345678 31 = 0x1E6A2C48 /\ osmo_bit_reversal 0x12345678 24 = 0x78563412 /\
  osmo_revbytebits_32 0x12345678 = 0x482C6A1E /\ osmo_revbytebits_8 0x12 = 0x48 /\
  osmo_revbytebits_buf [18;52;86] 2 = Ok [72;44;86].
Proof. vm_compute. repeat split. Qed.
