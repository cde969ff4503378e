(** Model of src/gsm/gsm0411_utils.c: time stamps, validity periods and alphabet of short messages.
    Simplifications: localtime and mktime are arguments (local time depends on the host's zone); log output is left out;
    gsm340_gen_oa and the header functions are not modelled here. *)
From Verif Require Import Base.

(** the members of struct tm that are used; tm_gmtoff is not read by mktime *)
Record tm := Tm { tm_year : Z; tm_mon : Z; tm_mday : Z; tm_hour : Z; tm_min : Z; tm_sec : Z }.

(** src/gsm/gsm0411_utils.c:61-69 gsm411_bcdify *)
Definition gsm411_bcdify (value : Z) : Z :=
  let value := u8 value in
  let ret := u8 (Z.quot value 10) in
  u8 (Z.lor ret (Z.shiftl (Z.rem value 10) 4)).

(** src/gsm/gsm0411_utils.c:74-86 gsm411_unbcdify *)
Definition gsm411_unbcdify (value : Z) : Z :=
  let ret := u8 (Z.land value 15 * 10) in
  u8 (ret + Z.shiftr value 4).

(** src/gsm/gsm0411_utils.c:91-107 gsm340_gen_scts; [gmtoff]: tm_gmtoff of the host's zone, None where struct tm has none
    (HAVE_TM_GMTOFF_IN_TM not defined); [scts]: the caller's buffer *)
Definition gsm340_gen_scts (scts : list Z) (t : tm) (gmtoff : option Z) : res (list Z) :=
  do s <- wr scts 0 (gsm411_bcdify (Z.rem (tm_year t) 100)) ;;
  do s <- wr s 1 (gsm411_bcdify (tm_mon t + 1)) ;;
  do s <- wr s 2 (gsm411_bcdify (tm_mday t)) ;;
  do s <- wr s 3 (gsm411_bcdify (tm_hour t)) ;;
  do s <- wr s 4 (gsm411_bcdify (tm_min t)) ;;
  do s <- wr s 5 (gsm411_bcdify (tm_sec t)) ;;
  wr s 6 (match gmtoff with Some o => gsm411_bcdify (Z.quot o (60 * 15)) | None => 0 end).

(** src/gsm/gsm0411_utils.c:112-138 gsm340_scts; [has_gmtoff]: HAVE_TM_GMTOFF_IN_TM *)
Definition gsm340_scts (has_gmtoff : bool) (mktime : tm -> Z) (scts : list Z) : res Z :=
  do y <- rd scts 0 ;;
  let yr := gsm411_unbcdify y in
  let year := if yr <=? 80 then 100 + yr else yr in
  do mo <- rd scts 1 ;;
  do d <- rd scts 2 ;;
  do h <- rd scts 3 ;;
  do mi <- rd scts 4 ;;
  do s <- rd scts 5 ;;
  do next <- (if has_gmtoff then do _ <- rd scts 6 ;; Ok 7 else Ok 6) ;;
  do o <- rd scts next ;;
  let ofs := gsm411_unbcdify o * 15 * 60 in
  Ok (mktime (Tm year (gsm411_unbcdify mo - 1) (gsm411_unbcdify d) (gsm411_unbcdify h) (gsm411_unbcdify mi) (gsm411_unbcdify s)) - ofs).

(** src/gsm/gsm0411_utils.c:141-147 gsm340_vp_default *)
Definition gsm340_vp_default : Z := 24 * 60 * 2.
(** src/gsm/gsm0411_utils.c:150-166 gsm340_vp_relative *)
Definition gsm340_vp_relative (sms_vp : list Z) : res Z :=
  do vp <- rd sms_vp 0 ;;
  Ok (if vp <=? 143 then (vp + 1) * 5 else
      if vp <=? 167 then 12 * 60 + (vp - 143) * 30 else
      if vp <=? 196 then (vp - 166) * 60 * 24 else
      (vp - 192) * 60 * 24 * 7).
(** src/gsm/gsm0411_utils.c:169-182 gsm340_vp_absolute; [now]: time(NULL) *)
Definition gsm340_vp_absolute (g : bool) (mktime : tm -> Z) (now : Z) (sms_vp : list Z) : res Z :=
  do expires <- gsm340_scts g mktime sms_vp ;;
  Ok (if expires <=? now then 0 else Z.quot (expires - now) 60).
(** src/gsm/gsm0411_utils.c:185-197 gsm340_vp_relative_integer *)
Definition gsm340_vp_relative_integer (sms_vp : list Z) : res Z :=
  do vp <- rd sms_vp 0 ;; Ok (if vp =? 0 then gsm340_vp_default else Z.quot vp 60).
(** src/gsm/gsm0411_utils.c:200-207 gsm340_vp_relative_semioctet *)
Definition gsm340_vp_relative_semioctet (sms_vp : list Z) : res Z :=
  do h <- rd sms_vp 0 ;;
  do m <- rd sms_vp 1 ;;
  do s <- rd sms_vp 2 ;;
  Ok (gsm411_unbcdify h * 60 + gsm411_unbcdify m + Z.quot (gsm411_unbcdify s) 60).
(** src/gsm/gsm0411_utils.c:213-248 gsm340_validity_period *)
Definition gsm340_validity_period (g : bool) (mktime : tm -> Z) (now sms_vpf : Z) (sms_vp : list Z) : res Z :=
  if sms_vpf =? 2 then gsm340_vp_relative sms_vp else
  if sms_vpf =? 3 then gsm340_vp_absolute g mktime now sms_vp else
  if sms_vpf =? 1 then
    do fi <- rd sms_vp 0 ;;
    let sms_vp := skipn 1 sms_vp in
    let sms_vp := if negb (Z.land fi 128 =? 0) then skipn 1 sms_vp else sms_vp in
    let f := Z.land fi 7 in
    if f =? 0 then Ok gsm340_vp_default else
    if f =? 1 then gsm340_vp_relative sms_vp else
    if f =? 2 then gsm340_vp_relative_integer sms_vp else
    if f =? 3 then gsm340_vp_relative_semioctet sms_vp else
    Ok gsm340_vp_default
  else Ok gsm340_vp_default.

(** include/osmocom/gsm/protocol/gsm_04_11.h:122-127 enum sms_alphabet *)
Definition DCS_NONE := 0. Definition DCS_7BIT_DEFAULT := 1. Definition DCS_UCS2 := 2. Definition DCS_8BIT_DATA := 3.
(** src/gsm/gsm0411_utils.c:253-288 gsm338_get_sms_alphabet *)
Definition gsm338_get_sms_alphabet (dcs : Z) : Z :=
  let cgbits := Z.shiftr dcs 4 in
  if Z.land cgbits 12 =? 0 then
    if negb (Z.land cgbits 2 =? 0) then -1 else
    let a := Z.land (Z.shiftr dcs 2) 3 in
    if a =? 0 then DCS_7BIT_DEFAULT else if a =? 1 then DCS_8BIT_DATA else if a =? 2 then DCS_UCS2 else DCS_NONE
  else if (cgbits =? 12) || (cgbits =? 13) then DCS_7BIT_DEFAULT
  else if cgbits =? 14 then DCS_UCS2
  else if cgbits =? 15 then (if negb (Z.land dcs 4 =? 0) then DCS_8BIT_DATA else DCS_7BIT_DEFAULT)
  else DCS_NONE.
