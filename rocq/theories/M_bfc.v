(* M_bfc.v - model of BSSGP downlink flow control (src/gb/gprs_bssgp.c).  Times are in microseconds. *)
From Verif Require Import Base S_bfc.

(* struct bssgp_flow_control, include/osmocom/gprs/gprs_bssgp.h:86-102; f_timer: when the timer expires *)
Record bfc := mkFc {
  f_bmax : Z; f_rate : Z; f_cnt : Z; f_last : Z; f_maxq : Z; f_depth : Z; f_queue : list pdu; f_timer : option Z }.
Definition set_cnt (f : bfc) c := mkFc (f_bmax f) (f_rate f) c (f_last f) (f_maxq f) (f_depth f) (f_queue f) (f_timer f).
Definition set_last (f : bfc) t := mkFc (f_bmax f) (f_rate f) (f_cnt f) t (f_maxq f) (f_depth f) (f_queue f) (f_timer f).
Definition set_q (f : bfc) d q := mkFc (f_bmax f) (f_rate f) (f_cnt f) (f_last f) (f_maxq f) d q (f_timer f).
Definition set_tm (f : bfc) t := mkFc (f_bmax f) (f_rate f) (f_cnt f) (f_last f) (f_maxq f) (f_depth f) (f_queue f) t.

Definition EIO : Z := 5.
Definition ENOSPC : Z := 28.

(* bssgp_fc_init, gprs_bssgp.c:919-931, on zeroed memory *)
Definition bssgp_fc_init (bmax rate maxq now : Z) : bfc := mkFc bmax rate 0 now maxq 0 [] None.

(* bssgp_fc_needs_queueing, gprs_bssgp.c:845-878.  timersub and the division yield the hundredths of a second, rounded
   down, in an uint32_t; bucket_counter + pdu_len is computed in uint32_t, bucket_predicted is an int64_t *)
Definition needs_queueing (f : bfc) (now len : Z) : bfc * bool :=
  let csecs := u32 ((now - f_last f) / 10000) in
  let leaked := u32 (csecs * (f_rate f / 100)) in
  let predicted := u32 (f_cnt f + len) - leaked in
  if predicted <? len then (f, false)
  else if predicted <=? f_bmax f then (set_cnt f (u32 predicted), false)
  else (f, true).

(* fc_queue_timer_cfg, gprs_bssgp.c:790-816 *)
Definition queue_timer_cfg (f : bfc) (now : Z) : bfc :=
  match f_queue f with
  | [] => f
  | (_, len) :: _ =>
    if negb (f_rate f =? 0) then
      let msecs := u32 (len * 1000) / f_rate f in set_tm f (Some (now + 1000 * msecs))
    else f
  end.

(* fc_enqueue, gprs_bssgp.c:819-842.  Simplified: talloc succeeds. *)
Definition fc_enqueue (f : bfc) (now : Z) (p : pdu) : bfc * Z :=
  if f_depth f >=? f_maxq f then (f, - ENOSPC)
  else (queue_timer_cfg (set_q f (u32 (f_depth f + 1)) (f_queue f ++ [p])) now, 0).

(* bssgp_fc_in, gprs_bssgp.c:890-915: the state, the PDU passed on to out_cb, if any, and the return code.
   Simplified: out_cb returns 0 and does not use this instance. *)
Definition bssgp_fc_in (f : bfc) (now : Z) (p : pdu) : bfc * option pdu * Z :=
  if snd p >? f_bmax f then (f, None, - EIO)
  else let '(f1, q) := needs_queueing f now (snd p) in
       if q then let '(f2, rc) := fc_enqueue f1 now p in (f2, None, rc)
       else (set_last f1 now, Some p, 0).

(* fc_timer_cb, gprs_bssgp.c:742-785, when the timer has expired *)
Definition fc_timer_cb (f : bfc) (now : Z) : bfc * option pdu :=
  let f := set_tm f None in
  match f_queue f with
  | [] => (f, None)
  | p :: q =>
    let '(f1, busy) := needs_queueing f now (snd p) in
    if busy then (queue_timer_cfg f1 now, None)
    else (queue_timer_cfg (set_last (set_q f1 (u32 (f_depth f1 - 1)) q) now) now, Some p)
  end.

(* the new limits of bssgp_rx_fc_bvc, gprs_bssgp.c:951-999: bucket size in 100 octets, leak rate in 100 bit/s *)
Definition rx_fc_bvc (f : bfc) (now size rate : Z) : bfc :=
  queue_timer_cfg (mkFc (100 * size) (100 * rate / 8) (f_cnt f) (f_last f) (f_maxq f) (f_depth f) (f_queue f) (f_timer f)) now.

(* bssgp_fc_flush_queue, gprs_bssgp.c:1452-1461: the queue is emptied, nothing else is changed *)
Definition bssgp_fc_flush_queue (f : bfc) : bfc := set_q f (f_depth f) [].

(* one call or timer expiry, and what it did to PDUs; a history *)
Definition fstep (f : bfc) (e : fev) : bfc * list fate :=
  match e with
  | FIn now p => let '(f1, o, rc) := bssgp_fc_in f now p in
      (f1, [match o with Some x => Passed now x | None => if rc =? 0 then Queued p else Refused p rc end])
  | FTick now => let '(f1, o) := fc_timer_cb f now in (f1, match o with Some p => [Dequeued now p] | None => [] end)
  | FLimits now size rate => (rx_fc_bvc f now size rate, [])
  end.
Fixpoint frun (f : bfc) (es : list fev) : bfc * list fate :=
  match es with
  | [] => (f, [])
  | e :: es' => let '(f1, l1) := fstep f e in let '(f2, l2) := frun f1 es' in (f2, l1 ++ l2)
  end.
