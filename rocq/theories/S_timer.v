(* S_timer.v - what timers are supposed to do, on the queue of pending timers and their timeouts in expiry order *)
From Verif Require Import Base M_rbtree S_rbtree M_timer.

Definition queue := list (Z * tv).
(* a is no later than b *)
Definition tvle (a b : tv) : bool := negb (tvlt b a).

Definition q_del (t : Z) (q : queue) : queue := filter (fun e => negb (fst e =? t)) q.
(* (re-)arm: a timer is queued once, behind the timers that expire no later *)
Definition q_add (t : Z) (x : tv) (q : queue) : queue :=
  filter (fun e => tvle (snd e) x) (q_del t q) ++ (t, x) :: filter (fun e => tvlt x (snd e)) (q_del t q).

(* now + seconds + microseconds, as a struct timeval *)
Definition later (now : tv) (s us : Z) : tv :=
  if 1000000 <=? tusec now + us then Tv (tsec now + s + 1) (tusec now + us - 1000000) else Tv (tsec now + s) (tusec now + us).
Definition q_op (q : queue) (o : top) : queue :=
  match o with TAdd t x => q_add t x q | TSched now t s us => q_add t (later now s us) q | TDel t => q_del t q end.
Definition q_ops (q : queue) (os : list top) : queue := fold_left q_op os q.
(* the timer a call is about *)
Definition target (o : top) : Z := match o with TAdd t _ => t | TSched _ t _ _ => t | TDel t => t end.

(* one pass: the candidates are fired in turn, except those an earlier callback of the pass deleted or re-armed *)
Fixpoint q_fire (cand touched : list Z) (q : queue) (cbs : list (list top)) : queue * list Z :=
  match cand with
  | [] => (q, [])
  | t :: cand =>
      if existsb (Z.eqb t) touched then q_fire cand touched q cbs
      else let '(q, l) := q_fire cand (touched ++ map target (hd [] cbs)) (q_ops (q_del t q) (hd [] cbs)) (tl cbs) in (q, t :: l)
  end.
(* the candidates: all expired timers, the latest expired first *)
Definition due (now : tv) (q : queue) : list Z := map fst (filter (fun e => tvle (snd e) now) q).
Definition q_pass (now : tv) (q : queue) (cbs : list (list top)) : queue * list Z := q_fire (rev (due now q)) [] q cbs.

Fixpoint q_run (q : queue) (es : list tev) : queue * list (list Z) :=
  match es with
  | [] => (q, [])
  | EOp o :: es => q_run (q_op q o) es
  | EUpdate now cbs :: es => let '(q, l) := q_pass now q cbs in let '(q, ls) := q_run q es in (q, l :: ls)
  end.

(* expiry order *)
Fixpoint q_sorted (q : queue) : Prop :=
  match q with [] => True | e :: r => (forall e', In e' r -> tvle (snd e) (snd e') = true) /\ q_sorted r end.

(* a state implements a queue *)
Definition implements (s : tst) (q : queue) : Prop :=
  exists t, holds (theap s) t /\ rb_tree t /\ inorder t = map fst q /\
    (forall e, In e q -> tmo s (fst e) = snd e) /\
    (forall z, act s z = true <-> In z (map fst q)) /\ q_sorted q.

(* what callers owe: non-NULL timers, clock readings that are proper (2^62 s is 146 billion years), int arguments *)
Definition clock_ok (now : tv) : Prop := - 2 ^ 62 <= tsec now < 2 ^ 62 /\ 0 <= tusec now < 1000000.
Definition op_ok (o : top) : Prop :=
  target o <> 0 /\ match o with TSched now _ s us => clock_ok now /\ is_s32 s /\ is_s32 us | _ => True end.
Definition ev_ok (e : tev) : Prop := match e with EOp o => op_ok o | EUpdate _ cbs => Forall (Forall op_ok) cbs end.
(* a time as microseconds *)
Definition usecs (x : tv) : Z := tsec x * 1000000 + tusec x.
(* number of API calls in a program *)
Definition ev_size (e : tev) : nat := match e with EOp _ => 1 | EUpdate _ cbs => length (concat cbs) end.
Fixpoint prog_size (es : list tev) : nat := match es with [] => 0 | e :: es => ev_size e + prog_size es end.

(* first list obtained from the second by leaving elements out *)
Inductive subseq {A} : list A -> list A -> Prop :=
| sub_nil : subseq [] []
| sub_skip x l1 l2 : subseq l1 l2 -> subseq l1 (x :: l2)
| sub_take x l1 l2 : subseq l1 l2 -> subseq (x :: l1) (x :: l2).
(* what is pending after the pass: the calls are carried out in the order they were made, each firing being a deletion *)
Fixpoint pass_ops (l : list Z) (cbs : list (list top)) : list top :=
  match l with [] => [] | t :: l => TDel t :: hd [] cbs ++ pass_ops l (tl cbs) end.
