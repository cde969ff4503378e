(* M_msgb.v - model of the message buffer, include/osmocom/core/msgb.h and src/core/msgb.c.
   Pointers into the buffer are offsets from msg->_data.  msg->head is always _data
   (msgb.c:90,168 and :344 only ever set it to _data), so it is offset 0 and not stored.
   The fields dst/trx, lchan and cb[] are not modelled.  An out-of-range pointer value can be
   formed (the refutations need it) but accessing memory through it is UB. *)
From Verif Require Import Base M_bitgen.

(* msgb.h:31-57 struct msgb; [mem] is _data[0..size-1] *)
Record msgb := Msgb {
  mem : list Z;
  mdata : Z;            (* msg->data - msg->_data *)
  mtail : Z;            (* msg->tail - msg->_data *)
  mlen : Z;             (* uint16_t len *)
  data_len : Z;         (* uint16_t data_len *)
  l1h : option Z; l2h : option Z; l3h : option Z; l4h : option Z (* None = NULL *)
}.

Definition set_mem (m : msgb) (x : list Z) : msgb :=
  Msgb x (mdata m) (mtail m) (mlen m) (data_len m) (l1h m) (l2h m) (l3h m) (l4h m).

(* memory accesses through a uint8_t pointer at offset off *)
Definition write_bytes (m : msgb) (off : Z) (s : list Z) : res msgb :=
  if (off <? 0) || (zlen (mem m) <? off + zlen s) then UB
  else Ok (set_mem m (blit (mem m) (Z.to_nat off) s)).
Definition read_bytes (m : msgb) (off n : Z) : res (list Z) :=
  if (off <? 0) || (n <? 0) || (zlen (mem m) <? off + n) then UB
  else Ok (zslice (mem m) off n).
Definition st_be (m : msgb) (w x off : Z) : res msgb :=
  if off <? 0 then UB else
  do t <- store_be w x (skipn (Z.to_nat off) (mem m)) ;;
  Ok (set_mem m (firstn (Z.to_nat off) (mem m) ++ t)).
Definition ld_be (m : msgb) (w off : Z) : res Z :=
  if off <? 0 then UB else load_be w (skipn (Z.to_nat off) (mem m)).

(* msgb.c:73-94 msgb_alloc_c, successful allocation (memory is zero-initialised) *)
Definition msgb_alloc (size : Z) : msgb :=
  Msgb (repeat 0 (Z.to_nat size)) 0 0 0 size None None None None.

(* msgb.h:484-488 msgb_reserve *)
Definition msgb_reserve (m : msgb) (len : Z) : msgb :=
  Msgb (mem m) (mdata m + len) (mtail m + len) (mlen m) (data_len m) (l1h m) (l2h m) (l3h m) (l4h m).

(* msgb.h:529-539 msgb_alloc_headroom_c, with a successful allocation *)
Definition msgb_alloc_headroom (size headroom : Z) : res msgb :=
  if size <? headroom then Abort else Ok (msgb_reserve (msgb_alloc size) headroom).

(* msgb.h:211-226; the ptrdiff_t to int conversion is the identity for offsets below 2^31 *)
Definition msgb_tailroom (m : msgb) : Z := data_len m - mtail m.
Definition msgb_headroom (m : msgb) : Z := mdata m.

(* msgb.h:240-254 msgb_put; len is unsigned int, compared after a cast to int *)
Definition msgb_put (m : msgb) (len : Z) : res (Z * msgb) :=
  if msgb_tailroom m <? s32 len then Abort
  else Ok (mtail m, Msgb (mem m) (mdata m) (mtail m + len) (u16 (mlen m + len)) (data_len m)
                         (l1h m) (l2h m) (l3h m) (l4h m)).

(* msgb.h:289-298 msgb_get *)
Definition msgb_get (m : msgb) (len : Z) : res (Z * msgb) :=
  if mlen m <? len then Abort
  else Ok (mtail m - len, Msgb (mem m) (mdata m) (mtail m - len) (u16 (mlen m - len)) (data_len m)
                               (l1h m) (l2h m) (l3h m) (l4h m)).

(* msgb.h:341-354 msgb_push *)
Definition msgb_push (m : msgb) (len : Z) : res (Z * msgb) :=
  if msgb_headroom m <? s32 len then Abort
  else Ok (mdata m - len, Msgb (mem m) (mdata m - len) (mtail m) (u16 (mlen m + len)) (data_len m)
                               (l1h m) (l2h m) (l3h m) (l4h m)).

(* msgb.h:404-411 msgb_pull *)
Definition msgb_pull (m : msgb) (len : Z) : res (Z * msgb) :=
  if mlen m <? len then Abort
  else Ok (mdata m + len, Msgb (mem m) (mdata m + len) (mtail m) (u16 (mlen m - len)) (data_len m)
                               (l1h m) (l2h m) (l3h m) (l4h m)).

(* msgb.h:259-263, 269-273, 279-283 msgb_put_u8/u16/u32; w = 1, 2, 4 octets *)
Definition msgb_put_u (w : Z) (m : msgb) (x : Z) : res msgb :=
  do '(p, m1) <- msgb_put m w ;;
  if w =? 1 then write_bytes m1 p [Z.land x 255] else st_be m1 w x p.

(* msgb.h:360-384 msgb_push_u8/u16/u32 *)
Definition msgb_push_u (w : Z) (m : msgb) (x : Z) : res msgb :=
  do '(p, m1) <- msgb_push m w ;;
  if w =? 1 then write_bytes m1 p [u8 x] else st_be m1 w x p.

(* msgb.h:303-327 msgb_get_u8/u16/u32 *)
Definition msgb_get_u (w : Z) (m : msgb) : res (Z * msgb) :=
  do '(p, m1) <- msgb_get m w ;;
  if w =? 1 then do l <- read_bytes m1 p 1 ;; Ok (nth 0 l 0, m1)
  else do v <- ld_be m1 w p ;; Ok (v, m1).

(* msgb.h:447-471 msgb_pull_u8/u16/u32 *)
Definition msgb_pull_u (w : Z) (m : msgb) : res (Z * msgb) :=
  do '(p, m1) <- msgb_pull m w ;;
  if w =? 1 then do l <- read_bytes m1 (p - w) 1 ;; Ok (nth 0 l 0, m1)
  else do v <- ld_be m1 w (p - w) ;; Ok (v, m1).

(* msgb.h:386-393 msgb_push_tl *)
Definition msgb_push_tl (m : msgb) (tag : Z) : res msgb :=
  do '(p, m1) <- msgb_push m 2 ;;
  write_bytes m1 p [u8 tag; u8 (mlen m1 - 2)].

(* msgb.h:421-442 msgb_pull_to_l3 / msgb_pull_to_l2 with a valid (non-NULL) header pointer.
   The offset difference is converted to unsigned int. *)
Definition msgb_pull_to_l3 (m : msgb) : res msgb :=
  match l3h m with
  | None => UB
  | Some h => do '(_, m1) <- msgb_pull m (u32 (h - mdata m)) ;;
    Ok (Msgb (mem m1) (mdata m1) (mtail m1) (mlen m1) (data_len m1) None None (l3h m1) (l4h m1))
  end.
Definition msgb_pull_to_l2 (m : msgb) : res msgb :=
  match l2h m with
  | None => UB
  | Some h => do '(_, m1) <- msgb_pull m (u32 (h - mdata m)) ;;
    Ok (Msgb (mem m1) (mdata m1) (mtail m1) (mlen m1) (data_len m1) None (l2h m1) (l3h m1) (l4h m1))
  end.

(* msgb.h:495-506 msgb_trim; len is int *)
Definition msgb_trim (m : msgb) (len : Z) : res msgb :=
  if len <? 0 then Abort else
  if data_len m <? len then Err (-1)
  else Ok (Msgb (mem m) (mdata m) (mdata m + len) (u16 len) (data_len m) (l1h m) (l2h m) (l3h m) (l4h m)).

(* msgb.h:513-516 msgb_l3trim, with a valid l3h *)
Definition msgb_l3trim (m : msgb) (l3len : Z) : res msgb :=
  match l3h m with None => UB | Some h => msgb_trim m (h - mdata m + l3len) end.

(* msgb.h:566-602 msgb_test_invariant (msg, data, tail non-NULL) *)
Definition hdr_step (lb : option Z) (h : option Z) : option Z :=
  match lb, h with
  | None, _ => None
  | Some b, None => Some b
  | Some b, Some x => if x <? b then None else Some x
  end.
Definition msgb_test_invariant (m : msgb) : bool :=
  if negb (mdata m + mlen m =? mtail m) || (mdata m <? 0) || (data_len m <? mtail m) then false
  else match hdr_step (hdr_step (hdr_step (hdr_step (Some 0) (l1h m)) (l2h m)) (l3h m)) (l4h m) with
       | None => false
       | Some lb => lb <=? data_len m
       end.

(* msgb.c:164-178 msgb_reset (l1h is not cleared) *)
Definition msgb_reset (m : msgb) : msgb :=
  Msgb (mem m) 0 0 0 (data_len m) (l1h m) None None None.

(* msgb.c:326-360 msgb_copy_resize_c; alloc_ok = the talloc call succeeds.
   None = NULL is returned. *)
Definition msgb_copy_resize (alloc_ok : bool) (m : msgb) (new_len : Z) : res (option msgb) :=
  if new_len <? mlen m then Ok None else
  if negb alloc_ok then Ok None else
  let n := msgb_alloc new_len in
  let n1 := Msgb (mem n) (mdata n + mdata m) (mtail n + mtail m) (mlen m) (data_len n)
                 None None None None in
  do src <- read_bytes m (mdata m) (mlen m) ;;
  do n2 <- write_bytes n1 (mdata n1) src ;;
  Ok (Some (Msgb (mem n2) (mdata n2) (mtail n2) (mlen n2) (data_len n2)
                 (l1h m) (l2h m) (l3h m) (l4h m))).

(* msgb.c:383-386 msgb_copy_c *)
Definition msgb_copy (alloc_ok : bool) (m : msgb) : res (option msgb) :=
  msgb_copy_resize alloc_ok m (data_len m).

(* memmove(mem+dst, mem+src, n) inside the buffer; n is converted to size_t *)
Definition memmove (m : msgb) (dst src n : Z) : res msgb :=
  do s <- read_bytes m src n ;; write_bytes m dst s.

Definition shift_hdr (post_start delta : Z) (h : option Z) : option Z :=
  match h with None => None | Some x => if post_start <=? x then Some (x + delta) else Some x end.

(* msgb.c:414-452 msgb_resize_area; area is an offset, old_size/new_size are int.
   A signed overflow in "new_size - old_size" or "msg->len + delta_size" is UB.
   Returns the message on rc 0. *)
Definition msgb_resize_area (m : msgb) (area old_size new_size : Z) : res msgb :=
  let post_start := area + old_size in
  let pre_len := area - mdata m in
  let post_len := mlen m - old_size - pre_len in
  let delta := new_size - old_size in
  if negb ((-2147483648 <=? delta) && (delta <? 2147483648)) then UB else
  if (old_size <? 0) || (new_size <? 0) then Abort else
  if (area <? mdata m) || (mtail m <? post_start) then Abort else
  if delta =? 0 then Ok m else
  do m1 <- (if 0 <? delta then
              (if 2147483648 <=? mlen m + delta then UB else msgb_trim m (mlen m + delta))
            else Ok m) ;;
  do m2 <- memmove m1 (area + new_size) (area + old_size) post_len ;;
  let m3 := Msgb (mem m2) (mdata m2) (mtail m2) (mlen m2) (data_len m2)
              (shift_hdr post_start delta (l1h m2)) (shift_hdr post_start delta (l2h m2))
              (shift_hdr post_start delta (l3h m2)) (shift_hdr post_start delta (l4h m2)) in
  if delta <? 0 then msgb_trim m3 (mlen m3 + delta) else Ok m3.

(* ---- call sequences a user makes (put/push followed by filling the returned area;
   get/pull followed by reading the removed bytes) ---- *)
From Verif Require Import S_msgb.

Definition m_step (m : msgb) (o : op) : res (msgb * list Z) :=
  match o with
  | OPut s => do '(p, m1) <- msgb_put m (zlen s) ;; do m2 <- write_bytes m1 p s ;; Ok (m2, [])
  | OPush s => do '(p, m1) <- msgb_push m (zlen s) ;; do m2 <- write_bytes m1 p s ;; Ok (m2, [])
  | OGet n => do '(p, m1) <- msgb_get m n ;; do l <- read_bytes m1 p n ;; Ok (m1, l)
  | OPull n => do '(p, m1) <- msgb_pull m n ;; do l <- read_bytes m1 (p - n) n ;; Ok (m1, l)
  | OPutU w x => do m1 <- msgb_put_u w m x ;; Ok (m1, [])
  | OPushU w x => do m1 <- msgb_push_u w m x ;; Ok (m1, [])
  | OGetU w => do '(v, m1) <- msgb_get_u w m ;; Ok (m1, [v])
  | OPullU w => do '(v, m1) <- msgb_pull_u w m ;; Ok (m1, [v])
  end.

Fixpoint m_run (m : msgb) (ops : list op) : res (msgb * list (list Z)) :=
  match ops with
  | [] => Ok (m, [])
  | o :: t => do '(m1, out) <- m_step m o ;; do '(m2, outs) <- m_run m1 t ;; Ok (m2, out :: outs)
  end.

(* what an observer sees of a msgb: headroom, bytes data..tail, tailroom *)
Definition view (m : msgb) : deque :=
  Deque (msgb_headroom m) (zslice (mem m) (mdata m) (mlen m)) (msgb_tailroom m).

(* an allocated, consistent message buffer *)
Definition msgb_ok (m : msgb) : Prop :=
  msgb_test_invariant m = true /\ 0 <= mlen m /\ zlen (mem m) = data_len m /\
  bytes (mem m) /\ data_len m <= 65535.
