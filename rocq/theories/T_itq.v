(* C13: inter-thread queue.  Every schedule of any number of threads calling enqueue, dequeue, flush and the
   eventfd dispatch callback. *)
From Verif Require Import Base M_itq S_itq P_itq.

(* C13: nothing lost, duplicated or reordered: what was accepted is what was removed followed by what is
   still queued; a thread delivers exactly what it removed, in order, apart from the item in its hands *)
Theorem C13_fifo_exactly_once : forall maxlen n sch t p,
  0 <= maxlen < 4294967295 -> Forall sched_ok sch ->
  let s := runs (init maxlen n) sch in
  accepted (log s) = removed (log s) ++ q s /\
  (nth_error (pcs s) t = Some p -> taken t (log s) = given t (log s) ++ holding p).
Proof. exact fifo. Qed.
Print Assumptions C13_fifo_exactly_once.

Theorem C13_bounded : forall maxlen n sch,
  0 <= maxlen < 4294967295 -> Forall sched_ok sch ->
  let s := runs (init maxlen n) sch in
  zlen (q s) <= maxlen /\ (owner s = None -> cur s = zlen (q s)).
Proof. exact bounded. Qed.
Print Assumptions C13_bounded.

(* at most one thread is ever between a lock and its unlock, and it is always able to move on and
   releases the lock in finitely many steps of its own: no path leaks the mutex *)
Theorem C13_mutual_exclusion : forall maxlen n sch t u p1 p2,
  0 <= maxlen < 4294967295 -> Forall sched_ok sch ->
  let s := runs (init maxlen n) sch in
  nth_error (pcs s) t = Some p1 -> nth_error (pcs s) u = Some p2 -> in_cs p1 = true -> in_cs p2 = true -> t = u.
Proof. exact mutex_excl. Qed.
Print Assumptions C13_mutual_exclusion.

Theorem C13_lock_released : forall maxlen n sch t c,
  0 <= maxlen < 4294967295 -> Forall sched_ok sch -> sched_ok (t, c) ->
  let s := runs (init maxlen n) sch in
  owner s = Some t -> exists k, owner (runs s (alone t k c)) = None.
Proof. exact lock_released. Qed.
Print Assumptions C13_lock_released.

(* enqueue is refused exactly when the queue is full at the moment of the check *)
Theorem C13_refused_iff_full : forall maxlen n sch t c m,
  0 <= maxlen < 4294967295 -> Forall sched_ok sch ->
  let s := runs (init maxlen n) sch in
  nth_error (pcs s) t = Some (EqIn m) ->
  nth_error (pcs (sstep s (t, c))) t = Some (if zlen (q s) =? maxlen then EqFull m else EqAdd m).
Proof. exact refused_iff_full. Qed.
Print Assumptions C13_refused_iff_full.

(* no lost wake-up: whenever no thread is between adding an item and signalling it, and none is inside its
   dispatch loop, the eventfd counts at least the queued items, so a non-empty queue makes it readable *)
Theorem C13_no_lost_wakeup : forall maxlen n sch,
  0 <= maxlen < 4294967295 -> Forall sched_ok sch ->
  let s := runs (init maxlen n) sch in
  Forall (fun p => signalling p = false /\ dispatching p = false) (pcs s) -> zlen (q s) <= efd s.
Proof. exact no_lost_wakeup. Qed.
Print Assumptions C13_no_lost_wakeup.

(* ... and running the dispatch callback then delivers everything queued, in order *)
Theorem C13_dispatch_delivers_all : forall maxlen n sch t,
  0 <= maxlen < 4294967295 -> Forall sched_ok sch ->
  let s := runs (init maxlen n) sch in
  owner s = None -> nth_error (pcs s) t = Some Idle ->
  Forall (fun p => signalling p = false /\ dispatching p = false) (pcs s) -> q s <> [] ->
  exists k, let s' := runs s (alone t k CDispatch) in
    q s' = [] /\ given t (log s') = given t (log s) ++ q s /\ nth_error (pcs s') t = Some Idle.
Proof. exact dispatch_delivers. Qed.
Print Assumptions C13_dispatch_delivers_all.

(* with max_length = UINT_MAX the check wraps and the queue is not bounded at all: the hypothesis is needed *)
Theorem C13_unbounded_max_refuted : exists s t m, nth_error (pcs s) t = Some (EqIn m) /\ maxl s = 4294967295 /\ cur s = maxl s /\
  nth_error (pcs (sstep s (t, CDeq))) t = Some (EqAdd m).
Proof. exists (St [] 4294967295 4294967295 0 (Some 0%nat) [EqIn 5] []), 0%nat, 5. repeat split. Qed.
Print Assumptions C13_unbounded_max_refuted.

(* two producers interleaved with a consumer; capacity 2, third item refused *)
Example C13_nonvacuous :
  let s := runs (init 2 3) (alone 0 3 (CEnq 11) ++ alone 1 2 (CEnq 22) ++ alone 0 4 (CEnq 11) ++ alone 1 7 (CEnq 22) ++ alone 0 4 (CEnq 33)) in
  let s' := runs s (alone 2 12 CDispatch) in
  q s = [11; 22] /\ efd s = 2 /\ log s = [EvAcc 0 11; EvAcc 1 22; EvRej 0 33] /\
  given 2 (log s') = [11; 22] /\ q s' = [] /\ pcs s' = [Idle; EqWant 22; Idle].
Proof. vm_compute. repeat split. Qed.
