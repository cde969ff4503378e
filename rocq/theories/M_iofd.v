(* M_iofd.v - src/core/osmo_io.c with the poll back-end src/core/osmo_io_poll.c, mode OSMO_IO_FD_MODE_READ_WRITE.
   A received message is the list of its octets; its buffer holds `size` of them (msgb_alloc.size). The segmentation
   call-back is a function of these octets (a call-back that also moves msg->data is not modelled); None: no call-back.
   Call-backs do not close the descriptor. Failing allocation is not modelled. *)
From Verif Require Import Base S_iofd.

(* ---- receiving ---- *)
Inductive act := ONE | MORE (pend : list Z) | DEFER (pend : option (list Z)).

(* osmo_io.c:268-324 iofd_handle_segmentation: (action with *pending_out, the message after trimming) *)
Definition iofd_handle_segmentation (seg : option (list Z -> Z)) (size : Z) (msg : list Z) : res (act * list Z) :=
  match seg with
  | None => Ok (ONE, msg)
  | Some f =>
    let expected := f msg in
    if expected =? - EAGAIN then Ok (DEFER (Some msg), msg)
    else if expected <? 0 then Ok (DEFER None, msg)
    else
      let extra := zlen msg - expected in
      if extra =? 0 then Ok (ONE, msg)
      else if extra <? 0 then Ok (DEFER (Some msg), msg)
      else if size <? extra then UB
      else Ok (MORE (skipn (Z.to_nat expected) msg), firstn (Z.to_nat expected) msg)
  end.

(* osmo_io.c:340-346: the loop of iofd_handle_segmented_read; (calls of read_cb, pending). A segmentation call-back that
   returns 0 keeps it going for ever: fuel exhausted = UB *)
Fixpoint seg_loop (fuel : nat) seg size rc (msg : list Z) : res (list (Z * list Z) * option (list Z)) :=
  match fuel with
  | O => UB
  | S fuel =>
    do ' (a, m) <- iofd_handle_segmentation seg size msg ;;
    match a with
    | ONE => Ok ([(rc, m)], None)
    | DEFER p => Ok ([], p)
    | MORE p => do ' (cbs, pend) <- seg_loop fuel seg size rc p ;; Ok ((rc, m) :: cbs, pend)
    end
  end.
(* osmo_io.c:328-350 iofd_handle_segmented_read; iofd->pending is NULL on entry (taken by iofd_msgb_pending_or_alloc) *)
Definition iofd_handle_segmented_read seg size (msg : list Z) (rc : Z) : res (list (Z * list Z) * option (list Z)) :=
  if rc <=? 0 then Ok ([(rc, msg)], None) else seg_loop (S (length msg)) seg size rc msg.

(* osmo_io_poll.c:50-78, osmo_io.c:179-200: the descriptor is readable; recvmsg() returned octets (at most the tailroom)
   or a result <= 0 *)
Inductive rx := RxData (l : list Z) | RxFail (rc : Z).
Definition iofd_readable seg size (pending : option (list Z)) (r : rx) : res (list (Z * list Z) * option (list Z)) :=
  let msg := match pending with Some m => m | None => [] end in
  match r with
  | RxData l => if size <? zlen msg + zlen l then UB else iofd_handle_segmented_read seg size (msg ++ l) (zlen l)
  | RxFail rc => iofd_handle_segmented_read seg size msg rc
  end.

(* the descriptor becomes readable again and again: avail octets of the stream have arrived each time, as many as fit are read *)
Fixpoint reads seg size (pending : option (list Z)) (stream : list Z) (avail : list Z) : res (list (list Z) * option (list Z) * list Z) :=
  match avail with
  | [] => Ok ([], pending, stream)
  | n :: t =>
    let room := size - match pending with Some m => zlen m | None => 0 end in
    let k := Z.to_nat (Z.min n room) in
    match firstn k stream with
    | [] => reads seg size pending stream t
    | l =>
      do ' (cbs, pending) <- iofd_readable seg size pending (RxData l) ;;
      do ' (r, pending, s) <- reads seg size pending (skipn k stream) t ;;
      Ok (map snd cbs ++ r, pending, s)
    end
  end.

(* cbsp.c:1573-1588 osmo_cbsp_segmentation_cb *)
Definition osmo_cbsp_segmentation_cb (msg : list Z) : Z :=
  match msg with
  | _ :: a :: b :: c :: _ => 4 + Z.lor (Z.lor (Z.shiftl a 16) (Z.shiftl b 8)) c
  | _ => - EAGAIN
  end.

(* ---- transmitting ---- *)
(* struct iofd_msghdr: the memory iov[0].iov_base points to, iov[0].iov_len, and the octets of msg *)
Record mhdr := mkmhdr { iov : list Z; iov_len : Z; mdata : list Z }.
Record txs := mktxs { txq : list mhdr; max_length : Z; wen : bool; cbl : list (Z * option (list Z)); sent : list Z }.
(* wen: the descriptor waits for writability; cbl: calls of write_cb, oldest first; sent: what the kernel has taken *)

(* osmo_io.c:210-222 iofd_txqueue_enqueue *)
Definition iofd_txqueue_enqueue (s : txs) (h : mhdr) : Z * txs :=
  if max_length s <=? zlen (txq s) then (- ENOSPC, s) else
  let q := txq s ++ [h] in
  (0, mktxs q (max_length s) (if zlen q =? 1 then true else wen s) (cbl s) (sent s)).
(* osmo_io.c:231-238 iofd_txqueue_enqueue_front *)
Definition iofd_txqueue_enqueue_front (s : txs) (h : mhdr) : txs :=
  let q := h :: txq s in mktxs q (max_length s) (if zlen q =? 1 then true else wen s) (cbl s) (sent s).
(* osmo_io.c:245-262 iofd_txqueue_dequeue *)
Definition iofd_txqueue_dequeue (s : txs) : option (mhdr * txs) :=
  match txq s with
  | [] => None
  | h :: q => Some (h, mktxs q (max_length s) (if zlen q =? 0 then false else wen s) (cbl s) (sent s))
  end.
(* osmo_io.c:438-467 osmo_iofd_write_msgb *)
Definition osmo_iofd_write_msgb (s : txs) (msg : list Z) : Z * txs :=
  if zlen msg =? 0 then (- EINVAL, s) else iofd_txqueue_enqueue s (mkmhdr msg (zlen msg) msg).
(* osmo_io.c:381-420 iofd_handle_send_completion, action IOFD_ACT_WRITE *)
Definition iofd_handle_send_completion (s : txs) (rc : Z) (h : mhdr) : txs :=
  if (0 <? rc) && (rc <? zlen (mdata h)) then
    let m := skipn (Z.to_nat rc) (mdata h) in
    iofd_txqueue_enqueue_front s (mkmhdr (iov h) (zlen m) m)
  else if rc =? - EAGAIN then iofd_txqueue_enqueue_front s h
  else mktxs (txq s) (max_length s) (wen s) (cbl s ++ [(rc, Some (mdata h))]) (sent s).
(* sendmsg(): the kernel takes k of the iov_len octets offered, or fails *)
Definition sendmsg (h : mhdr) (k : kern) : Z * list Z :=
  match k with
  | Takes n => let n := Z.min n (iov_len h) in (n, firstn (Z.to_nat n) (iov h))
  | Fails e => (- e, [])
  end.
(* osmo_io_poll.c:83-108: the descriptor is writable *)
Definition iofd_writable (s : txs) (k : kern) : txs :=
  match iofd_txqueue_dequeue s with
  | Some (h, s) =>
    let '(rc, l) := sendmsg h k in
    iofd_handle_send_completion (mktxs (txq s) (max_length s) (wen s) (cbl s) (sent s ++ l)) rc h
  | None => mktxs (txq s) (max_length s) false (cbl s ++ [(0, None)]) (sent s)
  end.

(* a history, with the results of the writes *)
Fixpoint tx_run (s : txs) (ops : list txop) : txs * list Z :=
  match ops with
  | [] => (s, [])
  | Write m :: t => let '(rc, s) := osmo_iofd_write_msgb s m in let '(s, l) := tx_run s t in (s, rc :: l)
  | Writable k :: t => if wen s then tx_run (iofd_writable s k) t else tx_run s t
  end.
Definition tx_init (max : Z) : txs := mktxs [] max false [] [].
