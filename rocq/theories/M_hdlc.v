(** Model of src/core/isdnhdlc.c.  The state STOPPED, which no function ever enters, is left out. *)
From Coq Require Import ZArith List Lia Bool.
From Verif Require Import Base M_bits M_crc16.
Import ListNotations.
Open Scope Z_scope.

(** isdnhdlc.h:30-57 struct osmo_isdnhdlc_vars: the configuration bits *)
Record hcfg := HCfg { h_dchannel : bool; h_adapt56 : bool; h_brev : bool }.

(** * Decoder *)
(** isdnhdlc.c:29-32 *)
Inductive dstate := FAST_IDLE | GET_FLAG_B0 | GETFLAG_B1A6 | GETFLAG_B7 | GET_DATA | FAST_FLAG.
(** isdnhdlc.h:30-57: the fields the decoder uses.  hdlc_bits1 (int) does not wrap in the model. *)
Record dec := D { d_bs : Z; d_b1 : Z; d_db : Z; d_ffs : Z; d_st : dstate; d_dp : Z; d_crc : Z;
                  d_cb : Z; d_sr : Z; d_ff : Z; d_rcv : bool }.

(** isdnhdlc.c:43-51 osmo_isdnhdlc_rcv_init *)
Definition rcv_init : dec := D 0 0 0 0 GET_DATA 0 0 0 0 0 false.

(** isdnhdlc.c:121-131 *)
Definition fast_flag := [0; 0; 0; 32; 48; 56; 60; 62; 63].
Definition fast_flag_value := [0; 126; 252; 249; 243; 231; 207; 159; 63].
Definition fast_abort := [0; 0; 128; 192; 224; 240; 248; 252; 254; 255].

(** isdnhdlc.c:74-91 check_frame: (status, dstpos) *)
Definition check_frame (dp crc : Z) : Z * Z :=
  if dp <? 2 then (-1, dp) else if negb (crc =? 61624) then (-2, dp) else (dp - 2, dp - 2).

(** isdnhdlc.c:172-320: one pass through the switch.
    Result: (state, destination buffer, status, does the function return now?) *)
Definition dec_step (cfg : hcfg) (dsize : Z) (h : dec) (dst : list Z) (status : Z)
  : res (dec * list Z * Z * bool) :=
  let '(D bs b1 db ffs st dp crc cb sr ff rcv) := h in
  let top := Z.testbit cb 7 in
  let cb2 := u8 (Z.shiftl cb 1) in
  match st with
  | FAST_IDLE =>
    if cb =? 255 then Ok (D 0 b1 db ffs FAST_IDLE dp crc cb sr ff rcv, dst, status, false)
    else Ok (D 8 0 db ffs GET_FLAG_B0 dp crc cb sr ff rcv, dst, status, false)
  | GET_FLAG_B0 =>
    if negb top then Ok (D (bs - 1) 0 db ffs GETFLAG_B1A6 dp crc cb2 sr ff rcv, dst, status, false)
    else
      let b1' := if h_adapt56 cfg then b1 else b1 + 1 in
      let st' := if negb (h_adapt56 cfg) && (8 <=? b1') && (bs =? 1) then FAST_IDLE else GET_FLAG_B0 in
      Ok (D (bs - 1) b1' db ffs st' dp crc cb2 sr ff rcv, dst, status, false)
  | GETFLAG_B1A6 =>
    if top then Ok (D (bs - 1) (b1 + 1) db ffs (if b1 + 1 =? 6 then GETFLAG_B7 else GETFLAG_B1A6) dp crc cb2 sr ff rcv, dst, status, false)
    else Ok (D (bs - 1) 0 db ffs GETFLAG_B1A6 dp crc cb2 sr ff rcv, dst, status, false)
  | GETFLAG_B7 =>
    if top then Ok (D (bs - 1) b1 db ffs GET_FLAG_B0 dp crc cb2 sr ff rcv, dst, status, false)
    else Ok (D (bs - 1) 0 0 ffs GET_DATA dp 65535 cb2 0 ff false, dst, status, false)
  | GET_DATA =>
    do ' (bs, b1, db, ffs, st, dp, crc, sr, ff, rcv, status) <-
      (if top then
         let b1 := b1 + 1 in
         if b1 =? 6 then Ok (bs, b1, db, ffs, GET_DATA, dp, crc, sr, ff, rcv, status)
         else if b1 =? 7 then
           let status := if rcv then -1 else status in
           if negb (h_adapt56 cfg) then
             do fa <- rd fast_abort (bs + 1) ;;
             if cb =? fa then Ok (1, b1, db, ffs, FAST_IDLE, dp, crc, sr, ff, rcv, status)
             else Ok (bs, b1, db, ffs, GET_DATA, dp, crc, sr, ff, rcv, status)
           else Ok (bs, b1, db, ffs, GET_FLAG_B0, dp, crc, sr, ff, rcv, status)
         else Ok (bs, b1, db + 1, ffs, GET_DATA, dp, crc, Z.lor (Z.shiftr sr 1) 128, ff, rcv, status)
       else
         if b1 =? 5 then Ok (bs, 0, db, ffs, GET_DATA, dp, crc, sr, ff, rcv, status)
         else if b1 =? 6 then
           let (status, dp) := if rcv then check_frame dp crc else (status, dp) in
           if negb (h_adapt56 cfg) then
             do f <- rd fast_flag bs ;;
             if cb =? f then
               do fv <- rd fast_flag_value bs ;;
               Ok (1, 0, 0, bs, FAST_FLAG, dp, 65535, 0, fv, rcv, status)
             else Ok (bs, 0, 0, ffs, GET_DATA, dp, 65535, 0, ff, false, status)
           else Ok (bs, 0, 0, ffs, GET_DATA, dp, 65535, 0, ff, false, status)
         else Ok (bs, 0, db + 1, ffs, GET_DATA, dp, crc, Z.shiftr sr 1, ff, rcv, status)) ;;
    if negb (status =? 0) then Ok (D (bs - 1) b1 db ffs st 0 crc cb2 sr ff rcv, dst, status, true)
    else if db =? 8 then
      let crc := osmo_crc16_ccitt_byte crc sr in
      if dp <? dsize then
        do dst <- wr dst dp sr ;;
        Ok (D (bs - 1) b1 0 ffs st (dp + 1) crc cb2 sr ff true, dst, status, false)
      else Ok (D (bs - 1) b1 0 ffs st 0 crc cb2 sr ff true, dst, -3, false)
    else Ok (D (bs - 1) b1 db ffs st dp crc cb2 sr ff rcv, dst, status, false)
  | FAST_FLAG =>
    if cb =? ff then Ok (D 0 b1 db ffs FAST_FLAG dp crc cb sr ff rcv, dst, status, false)
    else if cb =? 255 then Ok (D 0 b1 db ffs FAST_IDLE dp crc cb sr ff rcv, dst, status, false)
    else if ffs =? 8 then Ok (D bs b1 db ffs GETFLAG_B7 dp crc cb sr ff rcv, dst, status, false)
    else
      do sr <- rd fast_abort (ffs - 1) ;;
      Ok (D bs (Z.max (ffs - 2) 0) (ffs - 1) ffs GET_DATA dp crc cb sr ff false, dst, status, false)
  end.
(** isdnhdlc.c:160-170 loading the next octet *)
Definition dec_load (cfg : hcfg) (h : dec) (o : Z) : dec :=
  let '(D bs b1 db ffs st dp crc cb sr ff rcv) := h in
  D (if h_adapt56 cfg then 7 else 8) b1 db ffs st dp crc (if h_brev cfg then o else osmo_revbytebits_8 o) sr ff rcv.
(** isdnhdlc.c:159-324 the loop; result (return value, state, octets not consumed, buffer).
    [fuel] bounds the passes; running out of it is UB. *)
Fixpoint dec_loop (fuel : nat) (cfg : hcfg) (dsize : Z) (h : dec) (src dst : list Z) (status : Z)
  : res (Z * dec * list Z * list Z) :=
  match fuel with
  | O => UB
  | S n =>
    match src with
    | [] => Ok (0, h, [], dst)
    | o :: t =>
      let (h1, src1) := if d_bs h =? 0 then (dec_load cfg h o, t) else (h, src) in
      do ' (h2, dst2, status2, ret) <- dec_step cfg dsize h1 dst status ;;
      if ret then Ok (status2, h2, src1, dst2) else dec_loop n cfg dsize h2 src1 dst2 status2
    end
  end.
(** isdnhdlc.c:116-318 osmo_isdnhdlc_decode; *count is the length of [src] less what is left *)
Definition hdlc_decode (cfg : hcfg) (dsize : Z) (h : dec) (src dst : list Z) : res (Z * dec * list Z * list Z) :=
  dec_loop (20 * (length src + 1)) cfg dsize h src dst 0.

(** * Encoder *)
(** isdnhdlc.c:34-39 *)
Inductive estate := SEND_DATA | SEND_CRC1 | SEND_FAST_FLAG | SEND_FIRST_FLAG | SEND_CRC2 | SEND_CLOSING_FLAG
                  | SEND_IDLE1 | SEND_FAST_IDLE | SENDFLAG_B0 | SENDFLAG_B1A6 | SENDFLAG_B7 | SENDFLAG_ONE.
Record enc := E { e_bs : Z; e_b1 : Z; e_db : Z; e_st : estate; e_crc : Z; e_cb : Z; e_sr : Z; e_ff : Z;
                  e_rcv : bool; e_clo : bool }.
(** isdnhdlc.c:53-72 osmo_isdnhdlc_out_init *)
Definition out_init (cfg : hcfg) : enc :=
  E 0 0 (if h_adapt56 cfg then 0 else 8)
    (if h_adapt56 cfg then SENDFLAG_B0 else if h_dchannel cfg then SEND_FIRST_FLAG else SEND_FAST_FLAG)
    0 126 0 (if h_dchannel cfg then 0 else 126) false false.

(** isdnhdlc.c:340-342 *)
Definition xfast_flag_value := [126; 63; 159; 207; 231; 243; 249; 252; 126].

(** *dst++ = octet; the destination has room for [cap] octets *)
Definition emit (cfg : hcfg) (cap : Z) (out : list Z) (o : Z) : res (list Z) :=
  if zlen out <? cap then Ok (out ++ [if h_brev cfg then o else osmo_revbytebits_8 o]) else UB.

(** isdnhdlc.c:352-377 loading the next octet of the frame, or starting the CRC *)
Definition enc_load (cfg : hcfg) (h : enc) (src : list Z) : enc * list Z :=
  let '(E bs b1 db st crc cb sr ff rcv clo) := h in
  if bs =? 0 then
    match src, clo with
    | o :: t, false => (E 8 b1 db st crc cb o ff rcv (if zlen t =? 0 then true else false), t)
    | _, _ =>
      match st with
      | SEND_DATA =>
        if rcv then let crc := Z.lxor crc 65535 in (E 8 b1 db SEND_CRC1 crc cb (Z.land crc 255) ff rcv clo, src)
        else (E bs b1 db (if h_adapt56 cfg then SENDFLAG_B0 else SEND_FAST_FLAG) crc cb sr ff rcv clo, src)
      | _ => (h, src)
      end
    end
  else (h, src).
(** isdnhdlc.c:398-404 *)
Definition enc_one (h : enc) : enc :=
  let '(E bs b1 db st crc cb sr ff rcv clo) := h in
  if bs =? 8 then E bs 0 db SEND_DATA 65535 (Z.shiftr ff (8 - db)) sr ff true clo else h.
(** isdnhdlc.c:379-588 the switch: (state, remaining dsize, output) *)
Definition enc_switch (cfg : hcfg) (cap : Z) (h : enc) (src : list Z) (ds : Z) (out : list Z) : res (enc * Z * list Z) :=
  let '(E bs b1 db st crc cb sr ff rcv clo) := h in
  let shl := u8 (Z.shiftl cb 1) in
  match st with
  | SEND_FAST_FLAG =>
    if zlen src =? 0 then do out <- emit cfg cap out ff ;; Ok (E bs b1 db st crc cb sr ff rcv false, ds - 1, out)
    else Ok (enc_one (E bs b1 db st crc cb sr ff rcv false), ds, out)
  | SENDFLAG_ONE => Ok (enc_one h, ds, out)
  | SENDFLAG_B0 => Ok (E bs 0 (db + 1) SENDFLAG_B1A6 crc shl sr ff rcv false, ds, out)
  | SENDFLAG_B1A6 =>
    Ok (E bs (b1 + 1) (db + 1) (if b1 + 1 =? 6 then SENDFLAG_B7 else st) crc (u8 (shl + 1)) sr ff rcv clo, ds, out)
  | SENDFLAG_B7 =>
    if zlen src =? 0 then Ok (E bs b1 (db + 1) SENDFLAG_B0 crc shl sr ff rcv clo, ds, out)
    else if bs =? 8 then Ok (E bs 0 (db + 1) SEND_DATA 65535 shl sr ff true clo, ds, out)
    else Ok (E bs b1 (db + 1) st crc shl sr ff rcv clo, ds, out)
  | SEND_FIRST_FLAG =>
    if db =? 8 then Ok (E bs 0 db SEND_DATA 65535 cb sr ff true clo, ds, out)
    else
      let cb := if Z.testbit sr 0 then u8 (shl + 1) else shl in
      if bs - 1 =? 0 then Ok (E (bs - 1) 0 (db + 1) SEND_DATA 65535 cb (Z.shiftr sr 1) ff true clo, ds, out)
      else Ok (E (bs - 1) b1 (db + 1) st crc cb (Z.shiftr sr 1) ff true clo, ds, out)
  | SEND_DATA =>
    if b1 =? 5 then Ok (E bs 0 (db + 1) st crc shl sr ff rcv clo, ds, out)
    else
      let crc := if bs =? 8 then osmo_crc16_ccitt_byte crc sr else crc in
      if Z.testbit sr 0 then Ok (E (bs - 1) (b1 + 1) (db + 1) st crc (u8 (shl + 1)) (Z.shiftr sr 1) ff rcv clo, ds, out)
      else Ok (E (bs - 1) 0 (db + 1) st crc shl (Z.shiftr sr 1) ff rcv clo, ds, out)
  | SEND_CRC1 =>
    if b1 =? 5 then Ok (E bs 0 (db + 1) st crc shl sr ff rcv clo, ds, out)
    else
      let cb := if Z.testbit sr 0 then u8 (shl + 1) else shl in
      let b1 := if Z.testbit sr 0 then b1 + 1 else 0 in
      if bs - 1 =? 0 then Ok (E 8 b1 (db + 1) SEND_CRC2 crc cb (Z.shiftr crc 8) ff rcv clo, ds, out)
      else Ok (E (bs - 1) b1 (db + 1) st crc cb (Z.shiftr sr 1) ff rcv clo, ds, out)
  | SEND_CRC2 =>
    if b1 =? 5 then Ok (E bs 0 (db + 1) st crc shl sr ff rcv clo, ds, out)
    else
      let cb := if Z.testbit sr 0 then u8 (shl + 1) else shl in
      let b1 := if Z.testbit sr 0 then b1 + 1 else 0 in
      if bs - 1 =? 0 then Ok (E 8 b1 (db + 1) SEND_CLOSING_FLAG crc cb 126 ff rcv clo, ds, out)
      else Ok (E (bs - 1) b1 (db + 1) st crc cb (Z.shiftr sr 1) ff rcv clo, ds, out)
  | SEND_CLOSING_FLAG =>
    if b1 =? 5 then Ok (E bs 0 (db + 1) st crc shl sr ff rcv clo, ds, out)
    else
      let cb := if Z.testbit sr 0 then u8 (shl + 1) else shl in
      let db := db + 1 in
      if bs - 1 =? 0 then
        do fv <- rd xfast_flag_value db ;;
        if h_dchannel cfg then
          Ok (E (8 - db) b1 db (if 8 - db =? 0 then SEND_FAST_IDLE else SEND_IDLE1) crc cb (Z.shiftr sr 1) 126 rcv clo, ds, out)
        else
          Ok (E 0 b1 db (if h_adapt56 cfg then SENDFLAG_B0 else SEND_FAST_FLAG) crc cb (Z.shiftr sr 1) fv false clo, Z.min ds 1, out)
      else Ok (E (bs - 1) b1 db st crc cb (Z.shiftr sr 1) ff rcv clo, ds, out)
  | SEND_IDLE1 =>
    Ok (E (bs - 1) b1 (db + 1) (if bs - 1 =? 0 then SEND_FAST_IDLE else st) crc (u8 (shl + 1)) sr ff rcv false, ds, out)
  | SEND_FAST_IDLE =>
    if bs =? 8 then Ok (E bs b1 8 SEND_FIRST_FLAG crc 126 sr ff rcv false, ds, out)
    else do out <- emit cfg cap out 255 ;; Ok (E 0 b1 0 st crc 255 sr ff rcv false, 0, out)
  end.
(** isdnhdlc.c:589-606 56 kbit/s adaptation and output of a complete octet *)
Definition enc_tail (cfg : hcfg) (cap : Z) (h : enc) (ds : Z) (out : list Z) : res (enc * Z * list Z) :=
  let '(E bs b1 db st crc cb sr ff rcv clo) := h in
  let pad := h_adapt56 cfg && (db =? 7) in
  let cb := if pad then u8 (u8 (Z.shiftl cb 1) + 1) else cb in
  let db := if pad then db + 1 else db in
  if db =? 8 then do out <- emit cfg cap out cb ;; Ok (E bs b1 0 st crc cb sr ff rcv clo, ds - 1, out)
  else Ok (E bs b1 db st crc cb sr ff rcv clo, ds, out).
(** isdnhdlc.c:351-607 the loop; running out of [fuel] is UB *)
Fixpoint enc_loop (fuel : nat) (cfg : hcfg) (cap : Z) (h : enc) (src : list Z) (ds : Z) (out : list Z) : res (enc * list Z * list Z) :=
  match fuel with
  | O => UB
  | S n =>
    if ds <=? 0 then Ok (h, src, out)
    else
      let (h1, src1) := enc_load cfg h src in
      do ' (h2, ds2, out2) <- enc_switch cfg cap h1 src1 ds out ;;
      do ' (h3, ds3, out3) <- enc_tail cfg cap h2 ds2 out2 ;;
      enc_loop n cfg cap h3 src1 ds3 out3
  end.
(** isdnhdlc.c:337-611 osmo_isdnhdlc_encode: (octets written, state, octets of the frame not yet
    taken); the return value is the number of octets written, *count the number taken *)
Definition hdlc_encode (cfg : hcfg) (h : enc) (src : list Z) (dsize : Z) : res (list Z * enc * list Z) :=
  let h := match e_st h with
           | SEND_FAST_FLAG =>
             if zlen src =? 1 then
               let '(E bs b1 db st crc cb sr ff rcv clo) := h in E bs b1 db SENDFLAG_ONE crc cb sr ff rcv clo
             else h
           | _ => h
           end in
  do ' (h, rest, out) <- enc_loop (Z.to_nat (30 * dsize + 30)) cfg dsize h src dsize [] ;;
  Ok (out, h, rest).

(** * Drivers (not C code) *)
(** The caller of the encoder: [Put f] hands over the next frame once the previous one is taken;
    [Call d] calls the encoder with room for [d] octets and what is left of the frame.
    Result: all octets written, state, what is left of the last frame, the frames handed over. *)
Inductive eop := Put (f : list Z) | Call (d : Z).
Fixpoint enc_hist (cfg : hcfg) (h : enc) (cur : list Z) (ops : list eop) : res (list Z * enc * list Z * list (list Z)) :=
  match ops with
  | [] => Ok ([], h, cur, [])
  | Put f :: t =>
    match cur with
    | [] => do ' (out, h1, cur1, acc) <- enc_hist cfg h f t ;; Ok (out, h1, cur1, f :: acc)
    | _ => enc_hist cfg h cur t
    end
  | Call d :: t =>
    do ' (out, h1, cur1) <- hdlc_encode cfg h cur d ;;
    do ' (out2, h2, cur2, acc) <- enc_hist cfg h1 cur1 t ;;
    Ok (out ++ out2, h2, cur2, acc)
  end.
(** The caller of the decoder: each call offers the next octets not consumed yet, as many as the
    list says; what the call returns, if not 0, is recorded with the frame in the buffer. *)
Fixpoint dec_hist (cfg : hcfg) (dsize : Z) (h : dec) (stream dst : list Z) (lens : list nat) : res (list (Z * list Z) * dec * list Z) :=
  match lens with
  | [] => Ok ([], h, stream)
  | n :: t =>
    do ' (r, h1, lft, dst1) <- hdlc_decode cfg dsize h (firstn n stream) dst ;;
    do ' (ev, h2, rest) <- dec_hist cfg dsize h1 (lft ++ skipn n stream) dst1 t ;;
    Ok ((if r =? 0 then [] else [(r, firstn (Z.to_nat r) dst1)]) ++ ev, h2, rest)
  end.
