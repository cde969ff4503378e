(** Model of src/codec/hr_sid_class.c and src/codec/gsm620.c (half rate codec: detection of SID frames) and of the bit ordering of half rate
    frames in src/coding/gsm0503_coding.c. ubit_t is an octet; unsigned int wraps at 2^32 (u32). *)
From Verif Require Import Base.

(** hr_sid_class.c:31-32 ones_in_nibble *)
Definition ones_in_nibble := [0; 1; 1; 2; 1; 2; 2; 3; 1; 2; 2; 3; 2; 3; 3; 4].

(** hr_sid_class.c:39-51 count_ones_under_mask; [off] is what the caller adds to the pointer to the data *)
Definition count_ones_under_mask (data : list Z) (off : Z) (mask : list Z) (nbytes : nat) : res Z :=
  zfor nbytes 0 (fun n accum =>
    do d <- rd data (off + n) ;;
    do m <- rd mask n ;;
    let a := Z.land d m in
    do hi <- rd ones_in_nibble (Z.shiftr a 4) ;;
    do lo <- rd ones_in_nibble (Z.land a 0xF) ;;
    Ok (u32 (accum + (hi + lo)))) 0.

(** hr_sid_class.c:59-61 sid_field_last10_mask *)
Definition sid_field_last10_mask := [0x7F; 0xFF; 0xFF; 0xFF; 0xFF; 0xFF; 0xFF; 0xFF; 0xFF; 0xFF].
(** hr_sid_class.c:71-74 sid_field_misordered *)
Definition sid_field_misordered := [0x08; 0xEF; 0x1F; 0x3F; 0xF3; 0xFC; 0xA4; 0xFF; 0xFA; 0x3F; 0xFF; 0x47; 0xFF; 0xEC].
(** hr_sid_class.c:84-85 class2_mask_voiced, class2_mask_unvoiced *)
Definition class2_mask_voiced := [0x7F; 0x80; 0x3F; 0xE0].
Definition class2_mask_unvoiced := [0x07; 0x07; 0xFF; 0xE0].

(** include/osmocom/codec/codec.h:91-95 enum osmo_gsm631_sid_class *)
Definition SPEECH := 0. Definition INVALID := 1. Definition VALID := 2.

(** hr_sid_class.c:115-176 osmo_hr_sid_classify: the class, and whether *bfi_from_bci (a pointer to a variable) is set *)
Definition osmo_hr_sid_classify (p : list Z) (bci_flag : bool) : res (Z * bool) :=
  do o4 <- rd p 4 ;;
  let mode_bits := Z.land o4 0x30 in
  do '(sid_field_ones, class2_ones) <-
    (if negb (mode_bits =? 0) then
       do s <- count_ones_under_mask p 4 sid_field_last10_mask 10 ;;
       do c <- count_ones_under_mask p 10 class2_mask_voiced 4 ;; Ok (s, c)
     else
       do s <- count_ones_under_mask p 0 sid_field_misordered 14 ;;
       do c <- count_ones_under_mask p 10 class2_mask_unvoiced 4 ;; Ok (s, c)) ;;
  let class1_ones := u32 (sid_field_ones - class2_ones) in
  let sid_field_zeros := u32 (79 - sid_field_ones) in
  let class1_zeros := u32 (62 - class1_ones) in
  let invalid_sid_threshold := if bci_flag then 16 else 11 in
  let sidc := if class1_zeros <? 3 then VALID else if sid_field_zeros <? invalid_sid_threshold then INVALID else SPEECH in
  let sidc := if (mode_bits =? 0) && (sidc =? VALID) then INVALID else sidc in
  Ok (sidc, bci_flag && (16 <=? sid_field_zeros) && (sid_field_zeros <=? 25)).

(** gsm620.c:32-145 gsm620_unvoiced_bitorder *)
Definition gsm620_unvoiced_bitorder := [
  3; 25; 52; 71; 90; 109; 15; 19; 20; 21; 22; 23; 26; 27; 28; 29; 30; 31; 61; 62; 63; 64; 65; 66; 67; 68; 74; 75;
  76; 77; 78; 79; 80; 81; 82; 83; 84; 32; 4; 33; 60; 59; 58; 57; 56; 55; 49; 48; 47; 46; 45; 44; 43; 42; 41; 40;
  39; 38; 37; 36; 111; 92; 73; 54; 24; 110; 91; 72; 53; 14; 13; 12; 11; 10; 108; 89; 70; 51; 16; 17; 18; 107; 88; 69;
  50; 9; 8; 7; 6; 2; 5; 1; 0; 35; 34; 106; 105; 104; 103; 102; 101; 100; 99; 98; 97; 96; 95; 94; 93; 87; 86; 85].
(** gsm620.c:151-264 gsm620_voiced_bitorder *)
Definition gsm620_voiced_bitorder := [
  13; 14; 18; 19; 20; 53; 71; 89; 107; 54; 72; 90; 108; 55; 73; 91; 109; 44; 45; 46; 47; 48; 49; 50; 51; 52; 62; 63;
  64; 65; 68; 69; 70; 80; 66; 67; 56; 74; 92; 110; 57; 75; 93; 111; 33; 24; 32; 97; 31; 23; 96; 79; 61; 43; 95; 78;
  60; 42; 30; 29; 28; 22; 27; 26; 21; 4; 25; 15; 94; 77; 59; 41; 3; 76; 58; 40; 39; 17; 16; 12; 11; 10; 9; 2;
  38; 37; 36; 8; 7; 6; 5; 1; 0; 35; 34; 106; 105; 104; 103; 102; 101; 100; 99; 98; 88; 87; 86; 85; 84; 83; 82; 81].

(** gsm620.c:278-297 osmo_hr_check_sid (payload_len is the length of the list) *)
Definition osmo_hr_check_sid (p : list Z) : res bool :=
  if zlen p <? 14 then Ok false else
  do o4 <- rd p 4 ;;
  if negb (Z.land o4 0x7F =? 0x7F) then Ok false else
  if list_eq_dec Z.eq_dec (zslice p 5 9) (repeat 0xFF 9) then Ok true else Ok false.

(** gsm620.c:320-325 osmo_hr_sid_reset *)
Definition osmo_hr_sid_reset (p : list Z) : res (list Z) :=
  do o4 <- rd p 4 ;;
  do p <- wr p 4 (Z.lor o4 0x7F) ;;
  zfor 9 5 (fun i q => wr q i 0xFF) p.

(** gsm0503_coding.c:1599-1606 tch_hr_reassemble *)
Definition tch_hr_reassemble (b : list Z) : res (list Z) :=
  zfor 112 0 (fun i t =>
    do x <- rd b i ;; do o <- rd t (Z.shiftr i 3) ;;
    wr t (Z.shiftr i 3) (u8 (Z.lor o (Z.shiftl x (7 - Z.land i 7))))) (repeat 0 14).
(** gsm0503_coding.c:1608-1614 tch_hr_disassemble; [b] is what the buffer held *)
Definition tch_hr_disassemble (b : list Z) (t : list Z) : res (list Z) :=
  zfor 112 0 (fun i b => do o <- rd t (Z.shiftr i 3) ;; wr b i (Z.land (Z.shiftr o (7 - Z.land i 7)) 1)) b.
(** gsm0503_coding.c:1707-1720 tch_hr_d_to_b; [b] is what the buffer held *)
Definition tch_hr_d_to_b (b d : list Z) : res (list Z) :=
  do d93 <- rd d 93 ;; do d94 <- rd d 94 ;;
  let map := if (d93 =? 0) && (d94 =? 0) then gsm620_unvoiced_bitorder else gsm620_voiced_bitorder in
  zfor 112 0 (fun i b => do m <- rd map i ;; do x <- rd d i ;; wr b m x) b.
(** gsm0503_coding.c:1723-1735 tch_hr_b_to_d; [d] is what the buffer held *)
Definition tch_hr_b_to_d (d b : list Z) : res (list Z) :=
  do b34 <- rd b 34 ;; do b35 <- rd b 35 ;;
  let map := if (b34 =? 0) && (b35 =? 0) then gsm620_unvoiced_bitorder else gsm620_voiced_bitorder in
  zfor 112 0 (fun i d => do m <- rd map i ;; do x <- rd b m ;; wr d i x) d.
