(* M_apn.v - src/gsm/apn.c.  Strings are given without their NUL; size_t/int lengths below 2^31. *)
From Verif Require Import Base Lib Str M_num.

(* memmove source: n octets of m at o; m is exactly the memory that may be read *)
Definition take (m : list Z) (o n : Z) : res (list Z) :=
  if (o <? 0) || (n <? 0) || (zlen m <? o + n) then UB else Ok (zslice m o n).

(* src/gsm/apn.c:98-122: osmo_apn_to_str; None is a NULL return.  e and str are offsets into apn_enc and out_str.  The buffers do not
   overlap (apn_enc == NULL is not modelled). *)
Fixpoint to_str_loop (fuel : nat) (out enc : list Z) (rest_chars e str : Z) : res (option (list Z)) :=
  match fuel with
  | O => UB
  | S f =>
    if 0 <? rest_chars then
      do label_size <- rd enc e ;;
      if label_size =? 0 then do out <- wr out str 0 ;; Ok (Some out) else
      if label_size + 1 >? rest_chars then Ok None else
      do l <- take enc (e + 1) label_size ;;
      do ' (out, str) <- puts out str l ;;
      let rest_chars := rest_chars - (label_size + 1) in
      let e := e + (label_size + 1) in
      if negb (rest_chars =? 0) then do out <- wr out str 46 ;; to_str_loop f out enc rest_chars e (str + 1)
      else to_str_loop f out enc rest_chars e str
    else do out <- wr out str 0 ;; Ok (Some out)
  end.
Definition osmo_apn_to_str (out enc : list Z) : res (option (list Z)) := to_str_loop (S (length enc)) out enc (zlen enc) 0 0.

(* src/gsm/apn.c:133-165: osmo_apn_from_str; (return value, buffer).  last_len_field and apn_enc are offsets; apn_enc == len *)
Fixpoint from_str_loop (m : list Z) (max last_len_field len : Z) (s : list Z) : res (Z * list Z) :=
  match s with
  | [] => do m <- wr m last_len_field (u8 (len - last_len_field - 1)) ;; Ok (len, m)
  | c :: s' =>
    if len >=? max then Ok (-1, m) else
    if c =? 46 then do m <- wr m last_len_field (u8 (len - last_len_field - 1)) ;; from_str_loop m max len (len + 1) s'
    else do m <- wr m len (u8 c) ;; from_str_loop m max last_len_field (len + 1) s'
  end.
Definition osmo_apn_from_str (m : list Z) (max : Z) (s : list Z) : res (Z * list Z) :=
  if max =? 0 then Ok (-1, m) else from_str_loop m max 0 1 s.

(* snprintf(buf, size, ...) of a text: at most size - 1 characters and a NUL, nothing for size 0 *)
Definition snprintf (buf : list Z) (size : Z) (text : list Z) : res (list Z) :=
  if size =? 0 then Ok buf else do ' (m, _) <- puts buf 0 (firstn (Z.to_nat (size - 1)) text ++ [0]) ;; Ok m.
(* src/gsm/apn.c:31-32, 36-42: APN_GPRS_FMT, osmo_apn_qualify_buf *)
Definition apn_gprs (ni : list Z) (mnc mcc : Z) : list Z := ni ++ bs ".mnc" ++ pad0 3 (dec mnc) ++ bs ".mcc" ++ pad0 3 (dec mcc) ++ bs ".gprs".
Definition osmo_apn_qualify_buf (buf : list Z) (buf_len mcc mnc : Z) (ni : list Z) : res (list Z) :=
  if buf_len =? 0 then UB else     (* buf_len - 1 wraps to SIZE_MAX and buf[SIZE_MAX] is written *)
  do m <- snprintf buf (buf_len - 1) (apn_gprs ni mnc mcc) ;;
  wr m (buf_len - 1) 0.
(* atoi of a short string *)
Definition atoi (s : list Z) : Z := let '(v, _, _) := strtoll s 10 in s32 v.
(* src/gsm/apn.c:57-73: strncpy stops at the NUL and pads with NULs; imsi + 3 must lie in the string or on its NUL *)
Definition osmo_apn_qualify_from_imsi_buf (buf : list Z) (buf_len : Z) (imsi ni : list Z) (have_3dig_mnc : bool) : res (list Z) :=
  if zlen imsi <? 3 then UB else
  let cbuf := firstn 3 imsi in
  let nbuf := firstn (if have_3dig_mnc then 3 else 2) (skipn 3 imsi) in
  osmo_apn_qualify_buf buf buf_len (u32 (atoi cbuf)) (u32 (atoi nbuf)) ni.
