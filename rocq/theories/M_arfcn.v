(* M_arfcn.v - model of the channel number, power level and TLLI helpers of src/gsm/gsm_utils.c. *)
From Verif Require Import Base.

(* include/osmocom/gsm/gsm_utils.h:49-58: enum gsm_band *)
Definition GSM_BAND_850 := 1. Definition GSM_BAND_900 := 2. Definition GSM_BAND_1800 := 4. Definition GSM_BAND_1900 := 8.
Definition GSM_BAND_450 := 16. Definition GSM_BAND_480 := 32. Definition GSM_BAND_750 := 64. Definition GSM_BAND_810 := 128.
(* include/osmocom/gsm/gsm_utils.h:164-166 *)
Definition ARFCN_PCS := 32768. Definition ARFCN_UPLINK := 16384. Definition ARFCN_FLAG_MASK := 61440.

(* src/gsm/gsm_utils.c:730-765: gsm_arfcn2band_rc; Ok band for return value 0, Err (-1) otherwise *)
Definition arfcn2band_rc (arfcn : Z) : res Z :=
  let is_pcs := Z.land arfcn ARFCN_PCS in
  let arfcn := Z.land arfcn (u16 (Z.lnot ARFCN_FLAG_MASK)) in
  if negb (is_pcs =? 0) then Ok GSM_BAND_1900
  else if arfcn <=? 124 then Ok GSM_BAND_900
  else if (arfcn >=? 955) && (arfcn <=? 1023) then Ok GSM_BAND_900
  else if (arfcn >=? 128) && (arfcn <=? 251) then Ok GSM_BAND_850
  else if (arfcn >=? 512) && (arfcn <=? 885) then Ok GSM_BAND_1800
  else if (arfcn >=? 259) && (arfcn <=? 293) then Ok GSM_BAND_450
  else if (arfcn >=? 306) && (arfcn <=? 340) then Ok GSM_BAND_480
  else if (arfcn >=? 350) && (arfcn <=? 425) then Ok GSM_BAND_810
  else if (arfcn >=? 438) && (arfcn <=? 511) then Ok GSM_BAND_750
  else Err (-1).

(* src/gsm/gsm_utils.c:772-780: gsm_arfcn2band: osmo_panic on an invalid ARFCN *)
Definition arfcn2band (arfcn : Z) : res Z := match arfcn2band_rc arfcn with Ok b => Ok b | _ => Abort end.

(* src/gsm/gsm_utils.c:782-801: struct gsm_freq_range, gsm_ranges (the guard entry ends the list) *)
Record freq_range : Type := FR { fr_first : Z; fr_last : Z; fr_ul : Z; fr_dl : Z; fr_flags : Z }.
Definition gsm_ranges : list freq_range :=
  [ FR 512 810 18502 800 ARFCN_PCS;
    FR 0 124 8900 450 0;
    FR 955 1023 8762 450 0;
    FR 128 251 8242 450 0;
    FR 512 885 17102 950 0;
    FR 259 293 4506 100 0;
    FR 306 340 4790 100 0;
    FR 350 425 8060 450 0;
    FR 438 511 7472 300 0 ].

(* src/gsm/gsm_utils.c:816-826: the search loop of gsm_arfcn2freq10; (freq10_ul, freq10_dl) *)
Fixpoint arfcn2freq10_loop (r : list freq_range) (flags arfcn : Z) : Z * Z :=
  match r with
  | [] => (65535, 65535)
  | x :: r' =>
    if (flags =? fr_flags x) && (arfcn >=? fr_first x) && (arfcn <=? fr_last x) then
      let ul := u16 (fr_ul x + 2 * (arfcn - fr_first x)) in (ul, u16 (ul + fr_dl x))
    else arfcn2freq10_loop r' flags arfcn
  end.
(* src/gsm/gsm_utils.c:807-829: gsm_arfcn2freq10 *)
Definition arfcn2freq10 (arfcn : Z) (uplink : bool) : Z :=
  let flags := Z.land arfcn ARFCN_FLAG_MASK in
  let '(ul, dl) := arfcn2freq10_loop gsm_ranges flags (Z.land arfcn (u16 (Z.lnot ARFCN_FLAG_MASK))) in
  if uplink then ul else dl.

(* src/gsm/gsm_utils.c:834-861: gsm_freq102arfcn *)
Fixpoint freq102arfcn_loop (r : list freq_range) (freq10 : Z) (uplink : bool) : Z :=
  match r with
  | [] => 65535
  | x :: r' =>
    let lo := fr_ul x in
    let hi := u16 (lo + 2 * (fr_last x - fr_first x)) in
    let '(lo, hi) := if negb uplink then (u16 (lo + fr_dl x), u16 (hi + fr_dl x)) else (lo, hi) in
    if (freq10 >=? lo) && (freq10 <=? hi) then Z.lor (u16 (fr_first x + Z.shiftr (freq10 - lo) 1)) (fr_flags x)
    else freq102arfcn_loop r' freq10 uplink
  end.
Definition freq102arfcn (freq10 : Z) (uplink : bool) : Z :=
  let arfcn := freq102arfcn_loop gsm_ranges freq10 uplink in
  if uplink then Z.lor arfcn ARFCN_UPLINK else arfcn.

(* src/gsm/gsm_utils.c:554-597: ms_pwr_ctl_lvl (dbm unsigned int) *)
Definition low_band (band : Z) : bool :=
  (band =? GSM_BAND_450) || (band =? GSM_BAND_480) || (band =? GSM_BAND_750) || (band =? GSM_BAND_900)
  || (band =? GSM_BAND_810) || (band =? GSM_BAND_850).
Definition ms_pwr_ctl_lvl (band dbm : Z) : Z :=
  if low_band band then
    if dbm >=? 39 then 0 else if dbm <? 5 then 19 else 2 + (39 - dbm) / 2
  else if band =? GSM_BAND_1800 then
    if dbm >=? 36 then 29 else if dbm >=? 34 then 30 else if dbm >=? 32 then 31
    else if dbm =? 31 then 0 else (30 - dbm) / 2
  else if band =? GSM_BAND_1900 then
    if dbm >=? 33 then 30 else if dbm >=? 32 then 31 else if dbm =? 31 then 0 else (30 - dbm) / 2
  else - EINVAL.

(* src/gsm/gsm_utils.c:606-642: ms_pwr_dbm (lvl uint8_t) *)
Definition ms_pwr_dbm (band lvl : Z) : Z :=
  let lvl := Z.land lvl 31 in
  if low_band band then
    if lvl <? 2 then 39 else if lvl <? 20 then 39 - (lvl - 2) * 2 else 5
  else if band =? GSM_BAND_1800 then
    if lvl <? 16 then 30 - lvl * 2 else if lvl <? 29 then 0 else 36 - (lvl - 29) * 2
  else if band =? GSM_BAND_1900 then
    if lvl <? 16 then 30 - lvl * 2 else if lvl <? 30 then - EINVAL else 33 - (lvl - 30)
  else - EINVAL.

(* src/gsm/gsm_utils.c:647-653: rxlev2dbm *)
Definition rxlev2dbm (rxlev : Z) : Z := let rxlev := if rxlev >? 63 then 63 else rxlev in -110 + rxlev.
(* src/gsm/gsm_utils.c:658-668: dbm2rxlev; the int addition overflows (UB) for dbm > INT_MAX - 110 *)
Definition dbm2rxlev (dbm : Z) : res Z :=
  let rxlev := dbm + 110 in
  if rxlev >? 2147483647 then UB else
  let rxlev := if rxlev >? 63 then 63 else if rxlev <? 0 then 0 else rxlev in Ok (u8 rxlev).

(* include/osmocom/gsm/gsm_utils.h:200-208: enum gprs_tlli_type *)
Definition TLLI_LOCAL := 0. Definition TLLI_FOREIGN := 1. Definition TLLI_RANDOM := 2. Definition TLLI_AUXILIARY := 3.
Definition TLLI_RESERVED := 4. Definition TLLI_G_RNTI := 5. Definition TLLI_RAND_G_RNTI := 6.

(* src/gsm/gsm_utils.c:1004-1020: gprs_tlli_type *)
Definition tlli_type (tlli : Z) : Z :=
  if Z.land tlli 3221225472 =? 3221225472 then TLLI_LOCAL
  else if Z.land tlli 3221225472 =? 2147483648 then TLLI_FOREIGN
  else if Z.land tlli 4160749568 =? 2013265920 then TLLI_RANDOM
  else if Z.land tlli 4160749568 =? 1879048192 then TLLI_AUXILIARY
  else if Z.land tlli 4026531840 =? 0 then TLLI_G_RNTI
  else if Z.land tlli 4026531840 =? 268435456 then TLLI_RAND_G_RNTI
  else TLLI_RESERVED.

(* src/gsm/gsm_utils.c:1027-1041: gprs_tlli2tmsi *)
Definition tlli2tmsi (tlli : Z) : Z :=
  let t := tlli_type tlli in
  if (t =? TLLI_LOCAL) || (t =? TLLI_FOREIGN) then Z.lor 3221225472 tlli else 4294967295.

(* src/gsm/gsm_utils.c:1047-1062: gprs_tmsi2tlli *)
Definition tmsi2tlli (p_tmsi type : Z) : Z :=
  if type =? TLLI_LOCAL then Z.lor p_tmsi 3221225472
  else if type =? TLLI_FOREIGN then Z.lor (Z.land p_tmsi 1073741823) 2147483648
  else 0.
