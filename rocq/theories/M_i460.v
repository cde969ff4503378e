(* M_i460.v - model of the ITU-T I.460 sub-channel multiplexer and demultiplexer (src/isdn/i460_mux.c). *)
From Verif Require Import Base M_bits.

(* enum osmo_i460_rate, include/osmocom/isdn/i460_mux.h:28-34 *)
Inductive i460_rate := R_NONE | R_64k | R_32k | R_16k | R_8k.

Definition rate_none (r : i460_rate) : bool := match r with R_NONE => true | _ => false end.
Definition rate_64k (r : i460_rate) : bool := match r with R_64k => true | _ => false end.

(* what a call-back of the demultiplexer is given: out_cb_bits or out_cb_bytes *)
Inductive i460_out := OBits (l : list Z) | OBytes (l : list Z).

(* struct osmo_i460_subchan with its demux and mux parts, i460_mux.h:43-71.  s_buf: the s_idx first entries of
   out_bitbuf; s_size: out_bitbuf_size; s_bitbuf: out_bitbuf is not NULL; s_cbits, s_cbytes, s_empty: the
   call-backs are set; s_queue: the octets (one per bit) of the messages in tx_queue; s_ts: the back pointer is
   set.  s_refill stands for the user: the messages that the next calls of in_cb_queue_empty enqueue. *)
Record schan := mkSchan {
  s_ts : bool; s_rate : i460_rate; s_off : Z; s_bitbuf : bool; s_buf : list Z; s_size : Z;
  s_cbits : bool; s_cbytes : bool; s_empty : bool; s_queue : list (list Z); s_refill : list (list (list Z)) }.

Definition set_buf (s : schan) (b : list Z) : schan :=
  mkSchan (s_ts s) (s_rate s) (s_off s) (s_bitbuf s) b (s_size s) (s_cbits s) (s_cbytes s) (s_empty s) (s_queue s) (s_refill s).
Definition set_queue (s : schan) (q : list (list Z)) : schan :=
  mkSchan (s_ts s) (s_rate s) (s_off s) (s_bitbuf s) (s_buf s) (s_size s) (s_cbits s) (s_cbytes s) (s_empty s) q (s_refill s).
Definition set_refill (s : schan) (r : list (list (list Z))) : schan :=
  mkSchan (s_ts s) (s_rate s) (s_off s) (s_bitbuf s) (s_buf s) (s_size s) (s_cbits s) (s_cbytes s) (s_empty s) (s_queue s) r.

(* osmo_i460_subchan_count, i460_mux.c:29-39; a timeslot is the list of its 8 sub-channels *)
Definition osmo_i460_subchan_count (ts : list schan) : Z :=
  zlen (filter (fun s => negb (rate_none (s_rate s))) ts).

(* osmo_i460_has_single_64k_schan, i460_mux.c:42-51 *)
Definition has_single_64k (ts : list schan) : bool :=
  if negb (osmo_i460_subchan_count ts =? 1) then false
  else match ts with s :: _ => rate_64k (s_rate s) | [] => false end.

(* demux_subchan_append_bit, i460_mux.c:58-80.  Simplified: the call-backs do not change the sub-channel. *)
Definition append_bit (s : schan) (bit : Z) : res (schan * list i460_out) :=
  if negb (s_bitbuf s) then Abort else
  if negb (zlen (s_buf s) <? s_size s) then Abort else
  let b := s_buf s ++ [if bit =? 0 then 0 else 1] in
  if zlen b >=? s_size s then
    if s_cbits s then Ok (set_buf s [], [OBits b])
    else if negb (zlen b mod 8 =? 0) then Abort
    else if negb (s_cbytes s) then UB
    else do ' (bytes, _) <- osmo_ubit2pbit (repeat 0 (Z.to_nat (zlen b / 8))) b (zlen b) ;;
         Ok (set_buf s [], [OBytes bytes])
  else Ok (set_buf s b, []).

Fixpoint append_bits (s : schan) (bits : list Z) : res (schan * list i460_out) :=
  match bits with
  | [] => Ok (s, [])
  | b :: bs => do ' (s1, o1) <- append_bit s b ;; do ' (s2, o2) <- append_bits s1 bs ;; Ok (s2, o1 ++ o2)
  end.

(* the masks tested for each rate in demux_subchan_extract_bits, i460_mux.c:94-120 *)
Definition rate_masks (r : i460_rate) : list Z :=
  match r with
  | R_NONE => []
  | R_8k => [0x80]
  | R_16k => [0x80; 0x40]
  | R_32k => [0x80; 0x40; 0x20; 0x10]
  | R_64k => [0x80; 0x40; 0x20; 0x10; 0x08; 0x04; 0x02; 0x01]
  end.

(* demux_subchan_extract_bits, i460_mux.c:83-122, for one octet; a shift by 32 and more is undefined (by less
   than 24, the int does not overflow) *)
Definition extract_octet (s : schan) (inbyte : Z) : res (schan * list i460_out) :=
  if s_off s >=? 24 then UB else
  let inbits := u8 (Z.shiftl inbyte (s_off s)) in
  if rate_none (s_rate s) then Abort else
  append_bits s (map (Z.land inbits) (rate_masks (s_rate s))).

Fixpoint extract_bits (s : schan) (data : list Z) : res (schan * list i460_out) :=
  match data with
  | [] => Ok (s, [])
  | x :: xs => do ' (s1, o1) <- extract_octet s x ;; do ' (s2, o2) <- extract_bits s1 xs ;; Ok (s2, o1 ++ o2)
  end.

(* the slow path of osmo_i460_demux_in, i460_mux.c:148-154; the calls are tagged with the sub-channel's number *)
Fixpoint demux_slow (i : Z) (ts : list schan) (data : list Z) : res (list schan * list (Z * i460_out)) :=
  match ts with
  | [] => Ok ([], [])
  | s :: ts' =>
    if rate_none (s_rate s) then do ' (r, o) <- demux_slow (i + 1) ts' data ;; Ok (s :: r, o)
    else do ' (s1, o1) <- extract_bits s data ;;
         do ' (r, o) <- demux_slow (i + 1) ts' data ;; Ok (s1 :: r, map (pair i) o1 ++ o)
  end.

(* osmo_i460_demux_in, i460_mux.c:128-155 *)
Definition osmo_i460_demux_in (ts : list schan) (data : list Z) : res (list schan * list (Z * i460_out)) :=
  if has_single_64k ts then
    match ts with
    | [] => UB
    | s :: _ =>
      if s_cbytes s then Ok (ts, [(0, OBytes data)])
      else if negb (s_cbits s) then UB
      else do ' (b, _) <- osmo_pbit2ubit (repeat 0 (Z.to_nat (zlen data * 8))) data (zlen data * 8) ;;
           Ok (ts, [(0, OBits b)])
    end
  else demux_slow 0 ts data.

(* osmo_i460_mux_enqueue, i460_mux.c:163-167 *)
Definition osmo_i460_mux_enqueue (s : schan) (msg : list Z) : res schan :=
  if negb (zlen msg >? 0) then Abort else Ok (set_queue s (s_queue s ++ [msg])).

Fixpoint enqueue_all (s : schan) (msgs : list (list Z)) : res schan :=
  match msgs with
  | [] => Ok s
  | m :: ms => do s1 <- osmo_i460_mux_enqueue s m ;; enqueue_all s1 ms
  end.

(* the call of in_cb_queue_empty, i460_mux.c:179-180: the user enqueues the messages of the next refill.
   Simplified: for this sub-channel only. *)
Definition queue_empty_cb (s : schan) : res schan :=
  if s_empty s then
    match s_refill s with
    | [] => Ok s
    | r :: rs => enqueue_all (set_refill s rs) r
    end
  else Ok s.

(* mux_schan_provide_bit, i460_mux.c:170-196 *)
Definition provide_bit (s : schan) : res (schan * Z) :=
  do s <- (match s_queue s with [] => queue_empty_cb s | _ => Ok s end) ;;
  match s_queue s with
  | [] => Ok (s, 1)
  | [] :: _ => Abort
  | [b] :: q => Ok (set_queue s q, b)
  | (b :: m) :: q => Ok (set_queue s (m :: q), b)
  end.

Definition rate_width (r : i460_rate) : nat :=
  match r with R_NONE => 0 | R_8k => 1 | R_16k => 2 | R_32k => 4 | R_64k => 8 end%nat.
(* outmask, i460_mux.c:210-239 *)
Definition rate_outmask (r : i460_rate) : Z :=
  match r with R_NONE => 0 | R_8k => 0x80 | R_16k => 0xC0 | R_32k => 0xF0 | R_64k => 0xFF end.

(* the cases of mux_subchan_provide_bits, i460_mux.c:210-239: as many bits as the rate says, the first to
   position 7, outbits kept in an uint8_t *)
Fixpoint provide_loop (n : nat) (pos : Z) (s : schan) (outbits : Z) : res (schan * Z) :=
  match n with
  | O => Ok (s, outbits)
  | S n' => do ' (s1, b) <- provide_bit s ;; provide_loop n' (pos - 1) s1 (u8 (Z.lor outbits (Z.shiftl b pos)))
  end.

(* mux_subchan_provide_bits, i460_mux.c:202-243: the bits and the mask; a shift by 32 and more is undefined *)
Definition provide_bits (s : schan) : res (schan * Z * Z) :=
  if rate_none (s_rate s) then Abort else
  do ' (s1, outbits) <- provide_loop (rate_width (s_rate s)) 7 s 0 ;;
  if s_off s >=? 32 then UB else
  Ok (s1, Z.shiftr outbits (s_off s), Z.shiftr (rate_outmask (s_rate s)) (s_off s)).

(* mux_timeslot_provide_bits, i460_mux.c:246-262 *)
Fixpoint mux_loop (ts : list schan) (ret : Z) : res (list schan * Z) :=
  match ts with
  | [] => Ok ([], ret)
  | s :: ts' =>
    if rate_none (s_rate s) then do ' (r, x) <- mux_loop ts' ret ;; Ok (s :: r, x)
    else do ' (s1, bits, mask) <- provide_bits s ;;
         do ' (r, x) <- mux_loop ts' (u8 (Z.lor (Z.land ret (Z.lnot mask)) bits)) ;; Ok (s1 :: r, x)
  end.
Definition mux_timeslot_provide_bits (ts : list schan) : res (list schan * Z) := mux_loop ts 0xff.

(* osmo_i460_mux_out, i460_mux.c:269-280: the octets written to out *)
Fixpoint osmo_i460_mux_out (ts : list schan) (out_len : nat) : res (list schan * list Z) :=
  match out_len with
  | O => Ok (ts, [])
  | S n => do ' (ts1, x) <- mux_timeslot_provide_bits ts ;;
           do ' (ts2, xs) <- osmo_i460_mux_out ts1 n ;; Ok (ts2, x :: xs)
  end.

(* subchan_reset, i460_mux.c:315-332: everything cleared, the back pointer included *)
Definition subchan_reset : schan := mkSchan false R_NONE 0 false [] 0 false false false [] [].

(* osmo_i460_ts_init, i460_mux.c:335-344; OSMO_I460_NUM_SUBCHAN, i460_mux.h:25 *)
Definition osmo_i460_ts_init : list schan := repeat subchan_reset 8.

(* struct osmo_i460_schan_desc, i460_mux.h:78-104 *)
Record schan_desc := mkDesc {
  cd_rate : i460_rate; cd_off : Z; cd_bits : Z; cd_cbits : bool; cd_cbytes : bool; cd_empty : bool;
  cd_refill : list (list (list Z)) }.

(* find_unused_subchan_idx, i460_mux.c:302-312, and osmo_i460_subchan_add, i460_mux.c:351-379 with alloc_bitbuf,
   i460_mux.c:288-299: the first unused sub-channel is set up; None: NULL.  out_idx is left at 0 by the reset.
   Simplified: allocation succeeds. *)
Fixpoint subchan_add_at (ts : list schan) (chd : schan_desc) : option (list schan) :=
  match ts with
  | [] => None
  | s :: ts' =>
    if rate_none (s_rate s) then
      Some (mkSchan (s_ts s) (cd_rate chd) (u8 (cd_off chd)) true (s_buf s) (u32 (cd_bits chd)) (cd_cbits chd) (cd_cbytes chd)
              (cd_empty chd) (s_queue s) (cd_refill chd) :: ts')
    else match subchan_add_at ts' chd with Some r => Some (s :: r) | None => None end
  end.
Definition osmo_i460_subchan_add (ts : list schan) (chd : schan_desc) : option (list schan) := subchan_add_at ts chd.

(* osmo_i460_subchan_del, i460_mux.c:382-385 *)
Definition osmo_i460_subchan_del (ts : list schan) (i : nat) : list schan :=
  firstn i ts ++ match skipn i ts with [] => [] | _ :: r => subchan_reset :: r end.
