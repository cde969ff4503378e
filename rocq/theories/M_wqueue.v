(* M_wqueue.v - model of src/core/write_queue.c on top of the pointer-level list and msgb queue models.
   The bfd's other fields, callback pointers and logging are not modelled; the three user callbacks are
   given by an event's cb records (calls made on the queue, value returned). *)
From Verif Require Import Base S_llist M_llist S_msgq M_msgq S_wqueue.

(* include/osmocom/core/write_queue.h:32-48 struct osmo_wqueue: msg_queue/current_length (in wq_q), max_length, bfd.when *)
Record wq := Wq { wq_q : mq; wq_max : Z; wq_when : Z }.

(* include/osmocom/core/select.h:17-21 *)
Definition OSMO_FD_READ := 1. Definition OSMO_FD_WRITE := 2. Definition OSMO_FD_EXCEPT := 4.
Definition fd_set (w f : Z) : Z := Z.lor w f.
Definition fd_clr (w f : Z) : Z := Z.land w (Z.lnot f).

(* write_queue.c:91-100 osmo_wqueue_init; [when] is not touched *)
Definition osmo_wqueue_init (h : heap) (head max_length when : Z) : wq :=
  Wq (Mq (INIT_LLIST_HEAD h head) 0) (u32 max_length) when.

(* write_queue.c:107-116 osmo_wqueue_enqueue_quiet *)
Definition osmo_wqueue_enqueue_quiet (head : Z) (s : wq) (data : Z) : wq * Z :=
  if wq_max s <=? mq_count (wq_q s) then (s, - ENOSPC) else
  (Wq (msgb_enqueue_count head (wq_q s) data) (wq_max s) (fd_set (wq_when s) OSMO_FD_WRITE), 0).

(* write_queue.c:123-132 osmo_wqueue_enqueue (logging not modelled) *)
Definition osmo_wqueue_enqueue (head : Z) (s : wq) (data : Z) : wq * Z :=
  if wq_max s <=? mq_count (wq_q s) then (s, - ENOSPC) else osmo_wqueue_enqueue_quiet head s data.

(* write_queue.c:141-144, the while loop of osmo_wqueue_clear; None: fuel exhausted.  The messages freed *)
Fixpoint clear_loop (fuel : nat) (head : Z) (h : heap) : option (heap * list Z) :=
  if llist_empty h head then Some (h, []) else
  match fuel with
  | O => None
  | S f => let '(h1, m) := msgb_dequeue h head in
           match clear_loop f head h1 with Some (h2, l) => Some (h2, m :: l) | None => None end
  end.
(* write_queue.c:139-148 osmo_wqueue_clear *)
Definition osmo_wqueue_clear (head : Z) (s : wq) : res (wq * list Z) :=
  match clear_loop (Z.to_nat (mq_count (wq_q s))) head (mq_heap (wq_q s)) with
  | None => UB
  | Some (h, l) => Ok (Wq (Mq h 0) (wq_max s) (fd_clr (wq_when s) OSMO_FD_WRITE), l)
  end.

(* write_queue.c:162-166, the while loop of osmo_wqueue_set_maxlen *)
Fixpoint maxlen_loop (fuel : nat) (head : Z) (q : mq) (max dropped : Z) : option (mq * list Z * Z) :=
  if negb (max <? mq_count q) then Some (q, [], dropped) else
  match fuel with
  | O => None
  | S f => let '(q1, m) := msgb_dequeue_count head q in
           match maxlen_loop f head q1 max (dropped + 1) with Some (q2, l, d) => Some (q2, m :: l, d) | None => None end
  end.
(* write_queue.c:157-168 osmo_wqueue_set_maxlen *)
Definition osmo_wqueue_set_maxlen (head : Z) (s : wq) (len : Z) : res (wq * list Z * Z) :=
  match maxlen_loop (Z.to_nat (mq_count (wq_q s))) head (wq_q s) len 0 with
  | None => UB
  | Some (q, l, d) => Ok (Wq q len (wq_when s), l, d)
  end.

Definition m_call (head : Z) (s : wq) (c : wcall) : res (wq * list wout) :=
  match c with
  | WEnq m => let '(s1, rc) := osmo_wqueue_enqueue head s m in Ok (s1, [OEnq m rc])
  | WClear => do ' (s1, l) <- osmo_wqueue_clear head s ;; Ok (s1, map OFree l)
  | WMaxlen n => do ' (s1, l, d) <- osmo_wqueue_set_maxlen head s n ;; Ok (s1, map OFree l ++ [ODropped d])
  end.
Fixpoint m_calls (head : Z) (s : wq) (cs : list wcall) : res (wq * list wout) :=
  match cs with
  | [] => Ok (s, [])
  | c :: t => do ' (s1, o1) <- m_call head s c ;; do ' (s2, o2) <- m_calls head s1 t ;; Ok (s2, o1 ++ o2)
  end.

(* write_queue.c:39-85 osmo_wqueue_bfd_cb; None = the err_badfd exit *)
Definition osmo_wqueue_bfd_cb (head : Z) (s : wq) (what : Z) (rcb ecb wcb : cb) : res (option wq * list wout) :=
  (* 46-50 *)
  do ' (s, o1) <- (if negb (Z.land what OSMO_FD_READ =? 0) then
                     do ' (s, o) <- m_calls head s (cb_calls rcb) ;;
                     Ok (if cb_rc rcb =? - EBADF then None else Some s, o)
                   else Ok (Some s, [])) ;;
  match s with
  | None => Ok (None, o1)
  | Some s =>
    (* 52-56 *)
    do ' (s, o2) <- (if negb (Z.land what OSMO_FD_EXCEPT =? 0) then
                       do ' (s, o) <- m_calls head s (cb_calls ecb) ;;
                       Ok (if cb_rc ecb =? - EBADF then None else Some s, o)
                     else Ok (Some s, [])) ;;
    match s with
    | None => Ok (None, o1 ++ o2)
    | Some s =>
      (* 58-80 *)
      if negb (Z.land what OSMO_FD_WRITE =? 0) then
        let '(q, msg) := msgb_dequeue_count head (wq_q s) in
        let s := Wq q (wq_max s) (fd_clr (wq_when s) OSMO_FD_WRITE) in
        if negb (msg =? 0) then
          do ' (s, o3) <- m_calls head s (cb_calls wcb) ;;
          if cb_rc wcb =? - EBADF then Ok (None, o1 ++ o2 ++ o3 ++ [OWrite msg (cb_rc wcb); OFree msg])
          else
            let '(s, o4) := (if cb_rc wcb =? - EAGAIN
                             then (Wq (Mq (llist_add (mq_heap (wq_q s)) msg head) (u32 (mq_count (wq_q s) + 1))) (wq_max s) (wq_when s), [])
                             else (s, [OFree msg])) in
            let s := if negb (llist_empty (mq_heap (wq_q s)) head)
                     then Wq (wq_q s) (wq_max s) (fd_set (wq_when s) OSMO_FD_WRITE) else s in
            Ok (Some s, o1 ++ o2 ++ o3 ++ [OWrite msg (cb_rc wcb)] ++ o4)
        else Ok (Some s, o1 ++ o2)
      else Ok (Some s, o1 ++ o2)
    end
  end.

Definition b2f (b : bool) (f : Z) : Z := if b then f else 0.
Definition m_event (head : Z) (s : option wq) (e : wevent) : res (option wq * list wout) :=
  match s with
  | None => Ok (None, [])
  | Some s =>
    match e with
    | Call c => do ' (s1, o) <- m_call head s c ;; Ok (Some s1, o)
    | Select r e w rcb ecb wcb =>
      osmo_wqueue_bfd_cb head s (b2f r OSMO_FD_READ + b2f e OSMO_FD_EXCEPT + b2f w OSMO_FD_WRITE) rcb ecb wcb
    end
  end.
Fixpoint m_run (head : Z) (s : option wq) (es : list wevent) : res (option wq * list wout) :=
  match es with
  | [] => Ok (s, [])
  | e :: t => do ' (s1, o1) <- m_event head s e ;; do ' (s2, o2) <- m_run head s1 t ;; Ok (s2, o1 ++ o2)
  end.
