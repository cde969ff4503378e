(* Property theorems for the write queue: C12.  Model: M_wqueue.v (pointer level), specification: S_wqueue.v. *)
From Verif Require Import Base S_llist M_llist S_msgq M_msgq S_wqueue M_wqueue P_wqueue.

(* every history of enqueue, clear, set_maxlen and select events, with callbacks returning anything and
   themselves using the queue, behaves as the plain list specification: same observable outcomes, exact
   length counter, the flag and the linked list agree *)
Theorem C12_refines : forall h head max when es, 0 <= max < 4294967295 ->
  events_ok head (Qalive [] max (Z.testbit when 1)) es ->
  exists s', m_run head (Some (osmo_wqueue_init h head max when)) es = Ok (s', snd (s_run (Qalive [] max (Z.testbit when 1)) es)) /\
    match s', fst (s_run (Qalive [] max (Z.testbit when 1)) es) with
    | Some s, Qalive q mx want =>
        mq_count (wq_q s) = zlen q /\ wq_max s = mx /\ Z.testbit (wq_when s) 1 = want /\ zlen q <= mx + 1 /\
        llist_walk (length q) (mq_heap (wq_q s)) (nxt (mq_heap (wq_q s)) head) head = Some q
    | None, Qdead => True
    | _, _ => False
    end.
Proof. exact wqueue_refines. Qed.
Print Assumptions C12_refines.

(* write interest is registered whenever messages are queued *)
Theorem C12_write_interest : forall es max w, match fst (s_run (Qalive [] max w) es) with
  | Qalive q _ want => q <> [] -> want = true | Qdead => True end.
Proof. intros es max w. apply (run_armed es (Qalive [] max w)). cbn. congruence. Qed.
Print Assumptions C12_write_interest.

(* order and no duplication in every history: completed writes followed by what is still queued is a
   subsequence of the accepted messages *)
Theorem C12_order : forall es max w, let '(s, o) := s_run (Qalive [] max w) es in
  subseq (completed o ++ match s with Qalive q _ _ => q | Qdead => [] end) (accepted o).
Proof. intros es max w. pose proof (run_order es (Qalive [] max w)) as H. destruct (s_run _ es) as [s o]. exact H. Qed.
Print Assumptions C12_order.

(* nothing is lost unless it is dropped by clear, set_maxlen or release; -EAGAIN is retried first *)
Theorem C12_lossless : forall es max w, Forall pure_event es -> let '(s, o) := s_run (Qalive [] max w) es in
  completed o ++ match s with Qalive q _ _ => q | Qdead => [] end = accepted o /\ in_turn (accepted o) o.
Proof.
  intros es max w Hp. destruct (run_exact es Hp (Qalive [] max w)) as [E _]; [discriminate|].
  pose proof (run_turn es Hp (Qalive [] max w)) as T. destruct (s_run _ es) as [s o]. split; [exact E|apply T; discriminate].
Qed.
Print Assumptions C12_lossless.

(* enqueue is refused exactly when the queue holds max_length messages or more *)
Theorem C12_nospc : forall head s data, snd (osmo_wqueue_enqueue head s data) = (if wq_max s <=? mq_count (wq_q s) then - ENOSPC else 0) /\
  (wq_max s <= mq_count (wq_q s) -> fst (osmo_wqueue_enqueue head s data) = s) /\
  osmo_wqueue_enqueue_quiet head s data = osmo_wqueue_enqueue head s data.
Proof.
  intros. unfold osmo_wqueue_enqueue, osmo_wqueue_enqueue_quiet. destruct (Z.leb_spec (wq_max s) (mq_count (wq_q s))); repeat split; auto. lia.
Qed.
Print Assumptions C12_nospc.

(* "the length never exceeds max_length" is false: a write callback that fills the slot it was called for and
   then returns -EAGAIN leaves one message more *)
Theorem C12_maxlen_refuted : exists es, events_ok 100 (Qalive [] 1 false) es /\
  exists s, fst (s_run (Qalive [] 1 false) es) = Qalive s 1 true /\ zlen s = 2.
Proof.
  exists [Call (WEnq 1); Select false false true (Cb [] 0) (Cb [] 0) (Cb [WEnq 2] (- EAGAIN))]. split.
  - cbn. repeat split; auto; try discriminate; intros [H|[]]; discriminate || auto.
  - exists [1; 2]. split; vm_compute; reflexivity.
Qed.
Print Assumptions C12_maxlen_refuted.

Example C12_nonvacuous :
  let es := [Call (WEnq 1); Call (WEnq 2); Call (WEnq 3);
             Select false false true (Cb [] 0) (Cb [] 0) (Cb [] (- EAGAIN));
             Select true false true (Cb [WMaxlen 3] 0) (Cb [] 0) (Cb [WEnq 4] 5);
             Call (WMaxlen 1);
             Select false false true (Cb [] 0) (Cb [] 0) (Cb [] 0)] in
  events_ok 100 (Qalive [] 2 false) es /\
  s_run (Qalive [] 2 false) es =
    (Qalive [] 1 false, [OEnq 1 0; OEnq 2 0; OEnq 3 (- ENOSPC); OWrite 1 (- EAGAIN); ODropped 0; OEnq 4 0; OWrite 1 5; OFree 1;
                         OFree 2; ODropped 1; OWrite 4 0; OFree 4]) /\
  exists s, m_run 100 (Some (osmo_wqueue_init (Heap (fun _ => 0) (fun _ => 0)) 100 2 1)) es = Ok (s, snd (s_run (Qalive [] 2 false) es)).
Proof.
  cbv zeta. split; [|split].
  - vm_compute. intuition (try discriminate).
  - vm_compute; reflexivity.
  - destruct (C12_refines (Heap (fun _ => 0) (fun _ => 0)) 100 2 1 [Call (WEnq 1); Call (WEnq 2); Call (WEnq 3);
             Select false false true (Cb [] 0) (Cb [] 0) (Cb [] (- EAGAIN));
             Select true false true (Cb [WMaxlen 3] 0) (Cb [] 0) (Cb [WEnq 4] 5);
             Call (WMaxlen 1);
             Select false false true (Cb [] 0) (Cb [] 0) (Cb [] 0)]) as (s & E & _).
    + lia.
    + vm_compute. intuition (try discriminate).
    + exists s. exact E.
Qed.
