(* M_sept.v - model of the GSM 7-bit default alphabet functions of src/gsm/gsm_utils.c.
   Texts are NUL-terminated C strings: a list of non-zero octets stands for the characters before the NUL. *)
From Verif Require Import Base.

(* src/gsm/gsm_utils.c:154-172: gsm_7bit_alphabet (255 entries; index 255 is outside the array) *)
Definition alphabet : list Z :=
  [ 255; 255; 255; 255; 255; 255; 255; 255; 255; 255; 10; 255; 255; 13; 255;
    255; 255; 255; 255; 255; 255; 255; 255; 255; 255; 255; 255; 255; 255; 255;
    255; 255; 32; 33; 34; 35; 2; 37; 38; 39; 40; 41; 42; 43; 44;
    45; 46; 47; 48; 49; 50; 51; 52; 53; 54; 55; 56; 57; 58; 59;
    60; 61; 62; 63; 0; 65; 66; 67; 68; 69; 70; 71; 72; 73; 74;
    75; 76; 77; 78; 79; 80; 81; 82; 83; 84; 85; 86; 87; 88; 89;
    90; 60; 47; 62; 20; 17; 255; 97; 98; 99; 100; 101; 102; 103; 104;
    105; 106; 107; 108; 109; 110; 111; 112; 113; 114; 115; 116; 117; 118; 119;
    120; 121; 122; 40; 64; 41; 61; 255; 255; 255; 255; 255; 255; 255; 255;
    255; 255; 12; 255; 255; 255; 255; 255; 255; 255; 255; 255; 94; 255; 255;
    255; 255; 255; 255; 255; 255; 255; 255; 255; 255; 255; 64; 255; 1; 255;
    3; 255; 123; 125; 255; 255; 255; 255; 255; 92; 255; 255; 255; 255; 255;
    255; 255; 255; 255; 255; 255; 255; 91; 126; 93; 255; 124; 255; 255; 255;
    255; 91; 14; 28; 9; 255; 31; 255; 255; 255; 255; 255; 255; 255; 93;
    255; 255; 255; 255; 92; 255; 11; 255; 255; 255; 94; 255; 255; 30; 127;
    255; 255; 255; 123; 15; 29; 255; 4; 5; 255; 255; 7; 255; 255; 255;
    255; 125; 8; 255; 255; 255; 124; 255; 12; 6; 255; 255; 126; 255; 255 ].

(* src/gsm/gsm_utils.c:175-183: gsm_septet_lookup: first index holding ch, -1 if none *)
Fixpoint lookup_loop (t : list Z) (i ch : Z) : Z :=
  match t with
  | [] => -1
  | x :: r => if x =? ch then i else lookup_loop r (i + 1) ch
  end.
Definition septet_lookup (ch : Z) : Z := lookup_loop alphabet 0 ch.

(* src/gsm/gsm_utils.c:189-195: gsm_get_octet_len *)
Definition get_octet_len (sept_len : Z) : Z :=
  let octet_len := sept_len * 7 / 8 in
  u8 (if negb (sept_len * 7 mod 8 =? 0) then octet_len + 1 else octet_len).

(* src/gsm/gsm_utils.c:224-254: the loop of gsm_7bit_decode_n_hdr; pos = text - text_buf_begin *)
Fixpoint decode_loop (fuel : nat) (i septet_l shift maxlen : Z) (user_data : list Z) (next_is_ext : bool)
    (text : list Z) (pos n : Z) : res (list Z * Z) :=
  match fuel with
  | O => UB
  | S fuel' =>
    if negb ((i <? septet_l) && negb (pos =? n - 1)) then Ok (text, pos) else
    let l := Z.shiftr ((i + shift) * 7 + 7) 3 in
    let r := Z.shiftr ((i + shift) * 7) 3 in
    do lu <- (if l >=? maxlen then Ok 0
              else do b <- rd user_data l ;; Ok (u8 (Z.shiftl b (7 - Z.land ((i + shift) * 7 + 7) 7)))) ;;
    do br <- rd user_data r ;;
    let ru := Z.shiftr br (Z.land ((i + shift) * 7) 7) in
    let c7 := Z.land (Z.lor lu ru) 127 in
    if next_is_ext then
      do c8 <- rd alphabet (127 + c7) ;;
      do text' <- wr text pos c8 ;;
      decode_loop fuel' (i + 1) septet_l shift maxlen user_data false text' (pos + 1) n
    else if (c7 =? 27) && (i + 1 <? septet_l) then
      decode_loop fuel' (i + 1) septet_l shift maxlen user_data true text pos n
    else
      do text' <- wr text pos (u8 (septet_lookup c7)) ;;
      decode_loop fuel' (i + 1) septet_l shift maxlen user_data false text' (pos + 1) n
  end.

(* src/gsm/gsm_utils.c:204-259: gsm_7bit_decode_n_hdr; returns (text buffer, number of characters).
   septet_l is a uint8_t: the subtraction of the header wraps. *)
Definition decode_n_hdr (text : list Z) (n : Z) (user_data : list Z) (septet_l ud_hdr_ind : Z) : res (list Z * Z) :=
  let maxlen := get_octet_len septet_l in
  if negb (n >? 0) then Abort else
  do ' (shift, septet_l) <-
    (if negb (ud_hdr_ind =? 0) then
       do h <- rd user_data 0 ;;
       let shift := (h + 1) * 8 / 7 in
       let shift := if negb ((h + 1) * 8 mod 7 =? 0) then shift + 1 else shift in
       Ok (shift, u8 (septet_l - shift))
     else Ok (0, septet_l)) ;;
  do ' (text, pos) <- decode_loop (S (Z.to_nat septet_l)) 0 septet_l shift maxlen user_data false text 0 n ;;
  do text <- wr text pos 0 ;;
  Ok (text, pos).

(* src/gsm/gsm_utils.c:262-265: gsm_7bit_decode_n *)
Definition decode_n (text : list Z) (n : Z) (user_data : list Z) (septet_l : Z) : res (list Z * Z) :=
  decode_n_hdr text n user_data septet_l 0.

(* src/gsm/gsm_utils.c:268-279: gsm_7bit_decode_n_ussd *)
Definition decode_n_ussd (text : list Z) (n : Z) (user_data : list Z) (length : Z) : res (list Z * Z) :=
  do ' (text, nchars) <- decode_n_hdr text n user_data length 0 ;;
  if nchars =? 0 then Ok (text, nchars) else
  do b <- rd user_data (get_octet_len length - 1) ;;
  if Z.shiftr b 1 =? 13 then do text <- wr text (nchars - 1) 0 ;; Ok (text, nchars - 1)
  else Ok (text, nchars).

(* src/gsm/gsm_utils.c:297-305: the case labels of gsm_septet_encode *)
Definition is_ext (ch : Z) : bool :=
  (ch =? 12) || (ch =? 94) || (ch =? 123) || (ch =? 125) || (ch =? 92) || (ch =? 91) || (ch =? 126) || (ch =? 93) || (ch =? 124).

(* src/gsm/gsm_utils.c:289-316: gsm_septet_encode; returns the result buffer and the number of octets used *)
Fixpoint septet_encode_loop (result : list Z) (y : Z) (data : list Z) : res (list Z * Z) :=
  match data with
  | [] => Ok (result, y)
  | ch :: data' =>
    do ' (result, y) <- (if is_ext ch then do m <- wr result y 27 ;; Ok (m, y + 1) else Ok (result, y)) ;;
    do v <- rd alphabet ch ;;
    do result <- wr result y v ;;
    septet_encode_loop result (y + 1) data'
  end.
Definition septet_encode (result data : list Z) : res (list Z * Z) := septet_encode_loop result 0 data.

(* src/gsm/gsm_utils.c:340-364: the loop of gsm_septet_pack; the list is data[i..septet_len-1].
   A shift count outside 0..31 is UB (reached when padding > 7). *)
Fixpoint pack_loop (data : list Z) (shift z : Z) (result : list Z) : res (list Z * Z) :=
  match data with
  | [] => Ok (result, z)
  | d :: rest =>
    if shift =? 7 then
      match rest with
      | _ :: _ => pack_loop rest 0 z result
      | [] => Ok (result, z)
      end
    else
    if shift <? 0 then UB else
    let cb := Z.shiftr (Z.land d 127) shift in
    let cb := match rest with
              | d1 :: _ => Z.lor cb (u8 (Z.shiftl (Z.land d1 127) (7 - shift)))
              | [] => cb
              end in
    do result <- wr result z cb ;;
    pack_loop rest (shift + 1) (z + 1) result
  end.

(* src/gsm/gsm_utils.c:324-369: gsm_septet_pack (malloc succeeds; lengths below 2^31) *)
Definition septet_pack (result rdata : list Z) (septet_len padding : Z) : res (list Z * Z) :=
  if zlen rdata <? septet_len then UB else
  let data := firstn (Z.to_nat septet_len) rdata in
  if negb (padding =? 0) then pack_loop (0 :: data) (7 - padding) 0 result
  else pack_loop data 0 0 result.

(* src/gsm/gsm_utils.c:372-374: gsm_septets2octets (uint8_t septet_len) *)
Definition septets2octets (result rdata : list Z) (septet_len padding : Z) : res (list Z * Z) :=
  septet_pack result rdata septet_len padding.

(* src/gsm/gsm_utils.c:382-418: gsm_7bit_encode_n; rdata0 is the uninitialised memory malloc returns
   (2 * strlen(data) octets).  Returns (result buffer, septets, octets). *)
Definition encode_n (result : list Z) (n : Z) (data rdata0 : list Z) : res (list Z * Z * Z) :=
  let max_septets := u64 (n * 8) / 7 in
  do ' (rdata, y) <- septet_encode rdata0 data ;;
  let y := if y >? max_septets then max_septets else y in
  do ' (result, o) <- septet_pack result rdata y 0 ;;
  Ok (result, y, o).

(* src/gsm/gsm_utils.c:426-442: gsm_7bit_encode_n_ussd (octets is not NULL) *)
Definition encode_n_ussd (result : list Z) (n : Z) (data rdata0 : list Z) : res (list Z * Z * Z) :=
  do ' ((result, y), o) <- encode_n result n data rdata0 ;;
  do result <-
    (if Z.land (y * 7) 7 =? 1 then do b <- rd result (o - 1) ;; wr result (o - 1) (Z.lor b 26) else Ok result) ;;
  do last_cr <-
    (if negb (y =? 0) && (Z.land (y * 7) 7 =? 0) then do b <- rd result (o - 1) ;; Ok ((Z.shiftr b 1 =? 13) && (o <? u64 (n - 1)))
     else Ok false) ;;
  if (last_cr : bool) then do result <- wr result o 13 ;; Ok (result, y + 1, o + 1)
  else Ok (result, y, o).
