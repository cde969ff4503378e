(* Property theorems for linked lists and msgb queues: C41, C05.
   Models: M_llist.v, M_msgq.v.  Specifications: S_llist.v, S_msgq.v. *)
From Verif Require Import Base S_llist S_msgq M_llist P_llist M_msgq P_msgq.

(* C41: any permitted history of list operations on any family of lists keeps the pointer structure
   in one-to-one correspondence with the family of sequences *)
Theorem C41_llist_history : forall ops h w,
  world_ok w -> represents h w -> lops_ok w ops ->
  world_ok (run l_step w ops) /\ represents (run m_lop h ops) (run l_step w ops).
Proof. exact l_run_ok. Qed.
Print Assumptions C41_llist_history.

(* iteration visits exactly the sequence, terminates, and llist_empty is exact *)
Theorem C41_llist_traverse : forall h w p, world_ok w -> represents h w -> In p w ->
  llist_walk (length (snd p)) h (nxt h (fst p)) (fst p) = Some (snd p) /\
  (llist_empty h (fst p) = true <-> snd p = []).
Proof. exact walk_ok. Qed.
Print Assumptions C41_llist_traverse.

(* from freshly initialised, distinct heads: every permitted history, observed by traversal *)
Theorem C41_llist_del_init : forall h w n, world_ok w -> represents h w -> queued w n ->
  represents (llist_del_init h n) (without n w) /\ ring (llist_del_init h n) n [].
Proof. exact rep_llist_del_init. Qed.
Print Assumptions C41_llist_del_init.

Theorem C41_llist_fresh : forall h hds ops, NoDup hds ->
  let w0 := map (fun a => (a, [])) hds in
  let h' := run m_lop (run INIT_LLIST_HEAD h hds) ops in
  lops_ok w0 ops ->
  Forall (fun p => llist_walk (length (snd p)) h' (nxt h' (fst p)) (fst p) = Some (snd p) /\
                   (llist_empty h' (fst p) = true <-> snd p = [])) (run l_step w0 ops).
Proof. exact llist_fresh. Qed.
Print Assumptions C41_llist_fresh.

Example C41_nonvacuous :
  let h0 := INIT_LLIST_HEAD (INIT_LLIST_HEAD (Heap (fun _ => 0) (fun _ => 0)) 100) 200 in
  let w0 := [(100, []); (200, [])] in
  let ops := [LAdd 1 100; LAddTail 2 100; LAddTail 3 200; LMove 2 200; LAddTail 4 100; LSpliceInit 200 100; LDel 3] in
  represents h0 w0 /\ world_ok w0 /\ lops_ok w0 ops /\
  run l_step w0 ops = [(100, [2; 1; 4]); (200, [])] /\
  llist_walk 10 (run m_lop h0 ops) (nxt (run m_lop h0 ops) 100) 100 = Some [2; 1; 4].
Proof.
  cbv zeta. split; [|split; [|split; [|split]]].
  - repeat constructor.
  - unfold world_ok; cbn. repeat constructor; cbn; intuition discriminate.
  - cbn. unfold queued. repeat split; cbn; try (intuition discriminate).
    + exists (100, [1; 2]). cbn. intuition.
    + exists (100, [2; 3; 1; 4]). cbn. intuition.
  - reflexivity.
  - reflexivity.
Qed.

(* C05: any interleaving of enqueue and dequeue is a FIFO, with an exact counter *)
Theorem C05_msgb_queue_fifo : forall q ops s l,
  ring (mq_heap s) q l -> NoDup (q :: l) -> ~ In 0 l -> mq_count s = u32 (zlen l) -> q_ok q l ops ->
  let '(s', outs) := q_run q s ops in
  let '(l', outs') := q_spec l ops in
  outs = outs' /\ ring (mq_heap s') q l' /\ NoDup (q :: l') /\ mq_count s' = u32 (zlen l').
Proof. exact q_run_ok. Qed.
Print Assumptions C05_msgb_queue_fifo.

(* the same, from a freshly initialised queue head, observed through the API only *)
Theorem C05_msgb_queue_fresh : forall h q ops, q_ok q [] ops ->
  let '(s', outs) := q_run q (Mq (INIT_LLIST_HEAD h q) 0) ops in
  let '(l', outs') := q_spec [] ops in
  outs = outs' /\ mq_count s' = u32 (zlen l') /\
  llist_walk (length l') (mq_heap s') (nxt (mq_heap s') q) q = Some l'.
Proof. exact q_fifo. Qed.
Print Assumptions C05_msgb_queue_fresh.

(* msgb_queue_free terminates, frees every message once, in order, and leaves the queue empty *)
Theorem C05_msgb_queue_free : forall l h q, ring h q l -> NoDup (q :: l) -> ~ In 0 l ->
  exists h', msgb_queue_free (length l) h q = Some (h', l) /\ ring h' q [].
Proof. exact queue_free_ok. Qed.
Print Assumptions C05_msgb_queue_free.

Example C05_nonvacuous :
  let s0 := Mq (INIT_LLIST_HEAD (Heap (fun _ => 0) (fun _ => 0)) 100) 0 in
  let ops := [QEnq 1; QEnq 2; QDeq; QEnq 1; QDeq; QDeq; QDeq] in
  ring (mq_heap s0) 100 [] /\ q_ok 100 [] ops /\ snd (q_run 100 s0 ops) = [1; 2; 1; 0] /\
  mq_count (fst (q_run 100 s0 ops)) = 0.
Proof. cbn. intuition (try discriminate). Qed.
