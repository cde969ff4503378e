(* M_mi.v - src/gsm/gsm48.c: struct osmo_mobile_identity. The members of the union are kept apart: mi_str holds the cells of
   the character array selected by the type, mi_tmsi the number; an unused one is 0. *)
From Verif Require Import Base M_hex.

Record mid := mkmid { mi_type : Z; mi_str : list Z; mi_tmsi : Z }.
Definition EBADMSG := 74.
(* gsm48.c:760-764: the identity after an error *)
Definition mi_none : mid := mkmid 0 (repeat 0 17) 0.

(* include/osmocom/core/bit32gen.h osmo_load32be *)
Definition load32be (l : list Z) (i : Z) : res Z :=
  do a <- rd l i ;; do b <- rd l (i + 1) ;; do c <- rd l (i + 2) ;; do d <- rd l (i + 3) ;;
  Ok (Z.lor (Z.lor (Z.shiftl a 24) (Z.shiftl b 16)) (Z.lor (Z.shiftl c 8) d)).
(* include/osmocom/core/bit32gen.h osmo_store32be *)
Definition store32be (v : Z) (l : list Z) (i : Z) : res (list Z) :=
  do l <- wr l i (u8 (Z.shiftr v 24)) ;; do l <- wr l (i + 1) (u8 (Z.shiftr v 16)) ;; do l <- wr l (i + 2) (u8 (Z.shiftr v 8)) ;; wr l (i + 3) (u8 v).

(* gsm48.c:734-752: the digits into the string of the given size *)
Definition mi_digits (data : list Z) (mi_len nibbles_len b0 ty size : Z) (allow_hex : bool) : res (Z * mid) :=
  do l <- (if Z.land b0 8 =? 0 then rd data (mi_len - 1) else Ok 240) ;;
  if negb (Z.land l 240 =? 240) then Ok (- EBADMSG, mi_none) else
  do ' (s, rc) <- bcd2str (repeat 0 (Z.to_nat size)) data 1 (1 + nibbles_len) allow_hex ;;
  if (rc <? 1) || (size <=? rc) then Ok (- EBADMSG, mi_none) else Ok (0, mkmid ty s 0).

(* gsm48.c:664-765 osmo_mobile_identity_decode; data: the memory from mi_data on (not NULL) *)
Definition osmo_mobile_identity_decode (data : list Z) (mi_len : Z) (allow_hex : bool) : res (Z * mid) :=
  if mi_len <? 1 then Ok (- EBADMSG, mi_none) else
  do b0 <- rd data 0 ;;
  let nibbles_len := (mi_len - 1) * 2 + (if Z.land b0 8 =? 0 then 0 else 1) in
  let ty := Z.land b0 7 in
  if ty =? 4 then
    if negb (nibbles_len =? 8) then Ok (- EBADMSG, mi_none)
    else if negb (Z.land b0 240 =? 240) then Ok (- EBADMSG, mi_none)
    else do t <- load32be data 1 ;; Ok (0, mkmid ty (repeat 0 17) t)
  else if ty =? 1 then
    if (nibbles_len <? 6) || (15 <? nibbles_len) then Ok (- EBADMSG, mi_none)
    else mi_digits data mi_len nibbles_len b0 ty 16 allow_hex
  else if ty =? 2 then
    if negb (nibbles_len =? 15) && negb (nibbles_len =? 14) then Ok (- EBADMSG, mi_none)
    else mi_digits data mi_len nibbles_len b0 ty 16 allow_hex
  else if ty =? 3 then
    if negb (nibbles_len =? 16) then Ok (- EBADMSG, mi_none)
    else mi_digits data mi_len nibbles_len b0 ty 17 allow_hex
  else Ok (- EINVAL, mi_none).

(* the string in the cells (strlen(), pointer passed on); UB if there is no NUL *)
Fixpoint cstr (l : list Z) : res (list Z) :=
  match l with [] => UB | c :: t => if c =? 0 then Ok [] else do s <- cstr t ;; Ok (c :: s) end.

(* gsm48.c:773-810 osmo_mobile_identity_encoded_len; returns (octets, *mi_digits) *)
Definition osmo_mobile_identity_encoded_len (mi : option mid) : res (Z * Z) :=
  match mi with
  | None => Err (- EINVAL)
  | Some mi =>
    do n <- (if mi_type mi =? 4 then Ok 8
             else if mi_type mi =? 1 then do s <- cstr (mi_str mi) ;; if (zlen s <? 6) || (15 <? zlen s) then Err (- EINVAL) else Ok (zlen s)
             else if mi_type mi =? 2 then do s <- cstr (mi_str mi) ;; if (zlen s <? 14) || (15 <? zlen s) then Err (- EINVAL) else Ok (zlen s)
             else if mi_type mi =? 3 then do s <- cstr (mi_str mi) ;; if negb (zlen s =? 16) then Err (- EINVAL) else Ok (zlen s)
             else Err (- ENOTSUP)) ;;
    Ok (Z.quot (n + 2) 2, n)
  end.

(* gsm48.c:820-860 osmo_mobile_identity_encode_buf; returns (buffer, octets); the buffer after an error is not reported *)
Definition osmo_mobile_identity_encode_buf (buf : list Z) (mi : mid) (allow_hex : bool) : res (list Z * Z) :=
  if zlen buf =? 0 then Err (- EIO) else
  do ' (octets, n) <- osmo_mobile_identity_encoded_len (Some mi) ;;
  if zlen buf <? octets then Err (- ENOSPC) else
  let b0 := Z.lor (Z.land (mi_type mi) 7) (if Z.land n 1 =? 0 then 0 else 8) in
  if mi_type mi =? 4 then
    do buf <- wr buf 0 (Z.lor b0 240) ;; do buf <- store32be (mi_tmsi mi) buf 1 ;; Ok (buf, octets)
  else
    do buf <- wr buf 0 b0 ;;
    do s <- cstr (mi_str mi) ;;
    do ' (buf, rc) <- str2bcd buf s 1 (-1) allow_hex ;;
    if negb (rc =? octets) then Err (- EINVAL) else Ok (buf, octets).

(* gsm48.c:902-1024 osmo_mobile_identity_decode_from_l3_buf. Pointers are offsets into l3. *)
Definition got_mi (l3 : list Z) (mi_off mi_len : Z) (allow_hex : bool) : res (Z * mid) :=
  if zlen l3 <? mi_off + mi_len then Ok (- EBADMSG, mkmid 0 (repeat 0 17) 4294967295)
  else osmo_mobile_identity_decode (skipn (Z.to_nat mi_off) l3) mi_len allow_hex.
Definition got_cm2 (l3 : list Z) (cm2_off cm2_len : Z) (allow_hex : bool) : res (Z * mid) :=
  if zlen l3 <? cm2_off + cm2_len + 1 then Ok (- EBADMSG, mkmid 0 (repeat 0 17) 4294967295) else
  do mi_len <- rd l3 (cm2_off + cm2_len) ;; got_mi l3 (cm2_off + cm2_len + 1) mi_len allow_hex.
Definition osmo_mobile_identity_decode_from_l3_buf (l3 : list Z) (allow_hex : bool) : res (Z * mid) :=
  let none := mkmid 0 (repeat 0 17) 4294967295 in
  if zlen l3 <? 2 then Ok (- EBADMSG, none) else
  do h <- rd l3 0 ;; do h2 <- rd l3 1 ;;
  (* gsm_04_08.h:1460-1470 gsm48_hdr_pdisc *)
  let pdisc := let p := Z.land h 15 in if p =? 14 then h else p in
  (* gsm_04_08.h:1523-1542 gsm48_hdr_msg_type_r99 *)
  let mtype := if (pdisc =? 5) || (pdisc =? 3) || (pdisc =? 11) || (pdisc =? 0) || (pdisc =? 1) || (pdisc =? 12) then Z.land h2 63 else h2 in
  if pdisc =? 5 then
    if mtype =? 8 then
      if zlen l3 <? 2 + 8 then Ok (- EBADMSG, none) else
      do mi_len <- rd l3 9 ;;
      if zlen l3 <? 2 + 8 + mi_len then Ok (- EBADMSG, none) else got_mi l3 10 mi_len allow_hex
    else if (mtype =? 36) || (mtype =? 40) then
      if zlen l3 <? 2 + 2 then Ok (- EBADMSG, none) else
      do cm2_len <- rd l3 3 ;; got_cm2 l3 4 cm2_len allow_hex
    else if mtype =? 1 then
      if zlen l3 <? 2 + 2 then Ok (- EBADMSG, none) else
      do mi_len <- rd l3 3 ;; got_mi l3 4 mi_len allow_hex
    else if mtype =? 25 then
      if zlen l3 <? 2 + 2 then Ok (- EBADMSG, none) else
      do mi_len <- rd l3 2 ;; got_mi l3 3 mi_len allow_hex
    else Ok (- ENOTSUP, none)
  else if pdisc =? 6 then
    if mtype =? 39 then
      if zlen l3 <? 2 + 6 then Ok (- EBADMSG, none) else
      do cm2_len <- rd l3 3 ;; got_cm2 l3 4 cm2_len allow_hex
    else if mtype =? 17 then
      if zlen l3 <? 2 + 4 + 2 then Ok (- EBADMSG, none) else
      do cm2_len <- rd l3 2 ;;
      if negb (cm2_len =? 3) then Ok (- EBADMSG, none) else got_cm2 l3 3 cm2_len allow_hex
    else Ok (- ENOTSUP, none)
  else Ok (- ENOTSUP, none).

(* strncmp(): the sign of the first difference of unsigned characters, up to n or the end of the string *)
Fixpoint strncmp (n : nat) (a b : list Z) : res Z :=
  match n with
  | O => Ok 0
  | S n =>
    match a, b with
    | x :: a, y :: b => if x <? y then Ok (-1) else if y <? x then Ok 1 else if x =? 0 then Ok 0 else strncmp n a b
    | _, _ => UB
    end
  end.
Definition osmo_cmp (a b : Z) : Z := if a <? b then -1 else if b <? a then 1 else 0.
(* gsm48.c:1088-1113 osmo_mobile_identity_cmp; equal pointers are those with equal contents here (same result 0) *)
Definition osmo_mobile_identity_cmp (a b : option mid) : res Z :=
  match a, b with
  | None, None => Ok 0
  | None, Some _ => Ok (-1)
  | Some _, None => Ok 1
  | Some a, Some b =>
    let c := osmo_cmp (mi_type a) (mi_type b) in
    if negb (c =? 0) then Ok c else
    if mi_type a =? 4 then Ok (osmo_cmp (mi_tmsi a) (mi_tmsi b))
    else if (mi_type a =? 1) || (mi_type a =? 2) then strncmp 16 (mi_str a) (mi_str b)
    else if mi_type a =? 3 then strncmp 17 (mi_str a) (mi_str b)
    else Ok 0
  end.
