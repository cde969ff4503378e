(** Model of src/gsm/gad.c: coding of geographical areas, 3GPP TS 23.032.
    Simplifications: a raw PDU is its octets (bit fields as their octet: type in the upper, spare or num_points in the lower half of
    the first, spare2 the top bit of the last); error texts (struct osmo_gad_err) are left out; the int64_t intermediate
    values are integers (none reaches 2^63). *)
From Verif Require Import Base M_bitgen.

(** include/osmocom/gsm/protocol/gsm_23_032.h:32-52 enum gad_type *)
Definition GAD_TYPE_ELL_POINT := 0.
Definition GAD_TYPE_ELL_POINT_UNC_CIRCLE := 1.
Definition GAD_TYPE_ELL_POINT_UNC_ELLIPSE := 3.
Definition GAD_TYPE_POLYGON := 5.
Definition GAD_TYPE_ELL_POINT_ALT := 8.
Definition GAD_TYPE_ELL_POINT_ALT_UNC_ELL := 9.
Definition GAD_TYPE_ELL_ARC := 10.
Definition GAD_TYPE_HA_ELL_POINT_UNC_ELLIPSE := 11.
Definition GAD_TYPE_HA_ELL_POINT_ALT_UNC_ELL := 12.

(** src/gsm/gad.c:55-73 osmo_gad_enc_lat *)
Definition osmo_gad_enc_lat (deg_1e6 : Z) : Z :=
  let d := Z.max (-90000000) (Z.min 90000000 deg_1e6) in
  let sign := if d <? 0 then 2 ^ 23 else 0 in
  let d := if d <? 0 then - d else d in
  let x := Z.shiftl d 23 in
  let x := x + (2 ^ 23 - 1) in
  let x := Z.quot x (90 * 1000000) in
  Z.lor sign (Z.land x 8388607).

(** src/gsm/gad.c:81-94 osmo_gad_dec_lat *)
Definition osmo_gad_dec_lat (lat : Z) : Z :=
  let neg := negb (Z.land lat 8388608 =? 0) in
  let sign := if neg then -1 else 1 in
  let lat := if neg then Z.land lat 8388607 else lat in
  let x := lat * (90 * 1000000) in
  let x := Z.shiftr x 23 in
  s32 (x * sign).

(** src/gsm/gad.c:102-119 osmo_gad_enc_lon *)
Definition osmo_gad_enc_lon (deg_1e6 : Z) : Z :=
  let d := Z.max (-180000000) (Z.min 180000000 deg_1e6) in
  let x := d * 2 ^ 24 in
  let x := if 0 <=? d then x + (2 ^ 24 - 1) else x - (2 ^ 24 - 1) in
  let x := Z.quot x (360 * 1000000) in
  Z.land x 16777215.

(** src/gsm/gad.c:128-147 osmo_gad_dec_lon *)
Definition osmo_gad_dec_lon (lon : Z) : Z :=
  let slon := s32 (if negb (Z.land lon 8388608 =? 0) then Z.lor lon 4278190080 else lon) in
  let x := slon * (360 * 1000000) in
  let x := Z.quot x (2 ^ 24) in
  s32 x.

(** src/gsm/gad.c:158-170 table_uncertainty_1e3 *)
Definition table_uncertainty_1e3 : list Z := [
   0; 1000; 2100; 3310; 4641; 6105; 7715; 9487; 11435; 13579; 15937; 18531;
   21384; 24522; 27974; 31772; 35949; 40544; 45599; 51159; 57274; 64002; 71402; 79543;
   88497; 98347; 109181; 121099; 134209; 148630; 164494; 181943; 201137; 222251; 245476; 271024;
   299126; 330039; 364043; 401447; 442592; 487851; 537636; 592400; 652640; 718904; 791795; 871974;
   960172; 1057189; 1163908; 1281299; 1410429; 1552472; 1708719; 1880591; 2069650; 2277615; 2506377; 2758014;
   3034816; 3339298; 3674227; 4042650; 4447915; 4893707; 5384077; 5923485; 6516834; 7169517; 7887469; 8677216;
   9545938; 10501531; 11552685; 12708953; 13980849; 15379933; 16918927; 18611820; 20474002; 22522402; 24775642; 27254206;
   29980627; 32979690; 36278659; 39907525; 43899277; 48290205; 53120226; 58433248; 64277573; 70706330; 77777964; 85556760;
   94113436; 103525780; 113879358; 125268293; 137796123; 151576735; 166735409; 183409950; 201751945; 221928139; 244121953; 268535149;
   295389664; 324929630; 357423593; 393166952; 432484648; 475734112; 523308524; 575640376; 633205414; 696526955; 766180651; 842799716;
   927080688; 1019789756; 1121769732; 1233947705; 1357343476; 1493078824; 1642387706; 1806627477].

(** src/gsm/gad.c:178-181 osmo_gad_dec_unc *)
Definition osmo_gad_dec_unc (unc : Z) : Z := at0 table_uncertainty_1e3 (Z.land unc 127).

(** src/gsm/gad.c:190-198 osmo_gad_enc_unc: the loop from [unc] on, over the rest of the table *)
Fixpoint unc_loop (t : list Z) (unc mm : Z) : Z :=
  match t with
  | [] => 127
  | v :: r => if mm <? v then u8 (unc - 1) else unc_loop r (u8 (unc + 1)) mm
  end.
Definition osmo_gad_enc_unc (mm : Z) : Z := unc_loop table_uncertainty_1e3 0 mm.

(** include/osmocom/gsm/gad.h:42-49 struct osmo_gad_ell_point_unc_circle *)
Record circle := Circle { g_lat : Z; g_lon : Z; g_unc : Z }.

(** src/gsm/gad.c:262-275 osmo_gad_enc_ell_point_unc_circle. [ptr]: the size of a pointer, which it returns (sizeof(raw)).
    The octets of the union behind the structure stay. *)
Definition enc_circle (ptr : Z) (raw : list Z) (v : circle) : res (Z * list Z) :=
  if (g_lat v <? -90000000) || (90000000 <? g_lat v) then Err (- EINVAL) else
  if (g_lon v <? -180000000) || (180000000 <? g_lon v) then Err (- EINVAL) else
  let unc := Z.land (osmo_gad_enc_unc (g_unc v)) 127 in
  do la <- store_be_ext 4 (osmo_gad_enc_lat (g_lat v)) [0; 0; 0] 3 ;;
  do lo <- store_be_ext 4 (osmo_gad_enc_lon (g_lon v)) [0; 0; 0] 3 ;;
  Ok (ptr, [16 * GAD_TYPE_ELL_POINT_UNC_CIRCLE] ++ la ++ lo ++ [unc] ++ skipn 8 raw).

(** src/gsm/gad.c:277-290 osmo_gad_dec_ell_point_unc_circle *)
Definition dec_circle (raw : list Z) : res circle :=
  do la <- load_be_ext_2 4 (zslice raw 1 3) 3 ;;
  do lo <- load_be_ext_2 4 (zslice raw 4 3) 3 ;;
  do o <- rd raw 7 ;;
  if negb (Z.shiftr o 7 =? 0) then Err (- EINVAL) else
  Ok (Circle (osmo_gad_dec_lat la) (osmo_gad_dec_lon lo) (osmo_gad_dec_unc (Z.land o 127))).

(** src/gsm/gad.c:292-319 osmo_gad_raw_len; the sizes are those of the packed structures gsm_23_032.h:54-227 *)
Definition osmo_gad_raw_len (raw : list Z) : res Z :=
  do o <- rd raw 0 ;;
  let type := Z.shiftr o 4 in
  let num_points := Z.land o 15 in
  if type =? GAD_TYPE_ELL_POINT then Ok 7 else
  if type =? GAD_TYPE_ELL_POINT_UNC_CIRCLE then Ok 8 else
  if type =? GAD_TYPE_ELL_POINT_UNC_ELLIPSE then Ok 11 else
  if type =? GAD_TYPE_POLYGON then (if num_points <? 3 then Err (- EINVAL) else Ok (1 + num_points * 6)) else
  if type =? GAD_TYPE_ELL_POINT_ALT then Ok 9 else
  if type =? GAD_TYPE_ELL_POINT_ALT_UNC_ELL then Ok 14 else
  if type =? GAD_TYPE_ELL_ARC then Ok 13 else
  if type =? GAD_TYPE_HA_ELL_POINT_UNC_ELLIPSE then Ok 16 else
  if type =? GAD_TYPE_HA_ELL_POINT_ALT_UNC_ELL then Ok 18 else
  Err (- ENOTSUP).

(** src/gsm/gad.c:327-337 osmo_gad_raw_write: the octets appended to the message (msgb_put is C01) *)
Definition osmo_gad_raw_write (raw : list Z) : res (list Z) :=
  do len <- osmo_gad_raw_len raw ;;
  if zlen raw <? len then UB else Ok (firstn (Z.to_nat len) raw).

(** src/gsm/gad.c:350-369 osmo_gad_raw_read; [data]: exactly the octets the caller may read, len = its length (uint8_t) *)
Definition osmo_gad_raw_read (raw data : list Z) : res (list Z) :=
  let len := u8 (zlen data) in
  if len <? 1 then Err (- EINVAL) else
  match osmo_gad_raw_len data with
  | Err _ => Err (- EINVAL)
  | Ok gad_len => if negb (gad_len =? len) then Err (- EINVAL) else memcpy raw 0 data 0 gad_len
  | UB => UB | Abort => Abort
  end.

(** src/gsm/gad.c:376-384 osmo_gad_enc; type and values of struct osmo_gad *)
Definition osmo_gad_enc (ptr : Z) (raw : list Z) (type : Z) (v : circle) : res (Z * list Z) :=
  if type =? GAD_TYPE_ELL_POINT_UNC_CIRCLE then enc_circle ptr raw v else Err (- ENOTSUP).

(** src/gsm/gad.c:394-406 osmo_gad_dec *)
Definition osmo_gad_dec (raw : list Z) : res (Z * circle) :=
  do o <- rd raw 0 ;;
  if Z.shiftr o 4 =? GAD_TYPE_ELL_POINT_UNC_CIRCLE then do v <- dec_circle raw ;; Ok (Z.shiftr o 4, v) else Err (- ENOTSUP).
