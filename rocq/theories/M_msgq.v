(* M_msgq.v - model of msgb queues: src/core/msgb.c:129-155 and include/osmocom/core/msgb.h:95-118,
   on top of the pointer-level list model.  A message is identified by the address of its list node. *)
From Verif Require Import Base S_llist S_msgq M_llist.

(* queue head address, heap, and the unsigned int counter of the _count variants *)
Record mq := Mq { mq_heap : heap; mq_count : Z }.

(* msgb.c:129-132 msgb_enqueue *)
Definition msgb_enqueue (h : heap) (queue msg : Z) : heap := llist_add_tail h msg queue.

(* msgb.c:141-155 msgb_dequeue; 0 = NULL *)
Definition msgb_dequeue (h : heap) (queue : Z) : heap * Z :=
  if llist_empty h queue then (h, 0) else
  let lh := nxt h queue in
  if lh =? 0 then (h, 0) else (llist_del h lh, lh).

(* msgb.h:95-100 msgb_enqueue_count *)
Definition msgb_enqueue_count (queue : Z) (s : mq) (msg : Z) : mq :=
  Mq (msgb_enqueue (mq_heap s) queue msg) (u32 (mq_count s + 1)).

(* msgb.h:111-118 msgb_dequeue_count *)
Definition msgb_dequeue_count (queue : Z) (s : mq) : mq * Z :=
  let '(h, m) := msgb_dequeue (mq_heap s) queue in
  (Mq h (if m =? 0 then mq_count s else u32 (mq_count s - 1)), m).

(* msgb.h:80-84 msgb_queue_free: dequeue until NULL; returns the messages freed, in order *)
Fixpoint msgb_queue_free (fuel : nat) (h : heap) (queue : Z) : option (heap * list Z) :=
  let '(h1, m) := msgb_dequeue h queue in
  if m =? 0 then Some (h1, []) else
  match fuel with
  | O => None
  | S f => match msgb_queue_free f h1 queue with
           | Some (h2, l) => Some (h2, m :: l) | None => None end
  end.

(* history: returns the final state and the result of every dequeue, in order *)
Fixpoint q_run (queue : Z) (s : mq) (ops : list qop) : mq * list Z :=
  match ops with
  | [] => (s, [])
  | QEnq m :: t => q_run queue (msgb_enqueue_count queue s m) t
  | QDeq :: t => let '(s1, m) := msgb_dequeue_count queue s in
                 let '(s2, outs) := q_run queue s1 t in (s2, m :: outs)
  end.
