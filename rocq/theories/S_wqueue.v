(* S_wqueue.v - specification of the write queue: a plain list with a length limit and a
   "want to write" flag.  Messages are identified by non-zero numbers. *)
From Verif Require Import Base.

(* calls of the queue's API; also what a callback may do to the queue before it returns *)
Inductive wcall := WEnq (m : Z) | WClear | WMaxlen (n : Z).
(* one event: an API call, or the select loop reporting (readable, exceptional, writable) with, for each of
   the three user callbacks, the calls it makes on the queue and the value it returns *)
Record cb := Cb { cb_calls : list wcall; cb_rc : Z }.
Inductive wevent := Call (c : wcall) | Select (r e w : bool) (rcb ecb wcb : cb).

(* observable outcome of an event *)
Inductive wout :=
| OEnq (m rc : Z)       (* osmo_wqueue_enqueue(m) returned rc *)
| OFree (m : Z)         (* the library released m *)
| ODropped (n : Z)      (* osmo_wqueue_set_maxlen returned n *)
| OWrite (m rc : Z).    (* the write callback was given m and returned rc *)

(* Qalive q max want: queued messages, limit, write interest.  Qdead: a callback returned -EBADF, i.e.
   the user released the queue inside the callback. *)
Inductive wspec := Qalive (q : list Z) (max : Z) (want : bool) | Qdead.

Definition s_call (s : list Z * Z * bool) (c : wcall) : (list Z * Z * bool) * list wout :=
  let '(q, max, want) := s in
  match c with
  | WEnq m => if max <=? zlen q then (s, [OEnq m (- ENOSPC)]) else ((q ++ [m], max, true), [OEnq m 0])
  | WClear => (([], max, false), map OFree q)
  | WMaxlen n => let d := zlen q - Z.min (zlen q) n in
                 ((skipn (Z.to_nat d) q, n, want), map OFree (firstn (Z.to_nat d) q) ++ [ODropped d])
  end.
Fixpoint s_calls (s : list Z * Z * bool) (cs : list wcall) : (list Z * Z * bool) * list wout :=
  match cs with
  | [] => (s, [])
  | c :: t => let '(s1, o1) := s_call s c in let '(s2, o2) := s_calls s1 t in (s2, o1 ++ o2)
  end.

(* the writable event: the oldest message goes to the callback *)
Definition s_write (s : list Z * Z * bool) (w : cb) : wspec * list wout :=
  let '(q, max, _) := s in
  match q with
  | [] => (Qalive [] max false, [])
  | m :: rest =>
    let '((q', max', want'), o) := s_calls (rest, max, false) (cb_calls w) in
    if cb_rc w =? - EBADF then (Qdead, o ++ [OWrite m (cb_rc w); OFree m])
    else if cb_rc w =? - EAGAIN then (Qalive (m :: q') max' true, o ++ [OWrite m (cb_rc w)])
    else (Qalive q' max' (want' || negb (match q' with [] => true | _ => false end)), o ++ [OWrite m (cb_rc w); OFree m])
  end.
(* the readable / exceptional event: the callback runs *)
Definition s_other (on : bool) (s : list Z * Z * bool) (c : cb) : wspec * list wout :=
  if on then let '((q, m, w), o) := s_calls s (cb_calls c) in
             if cb_rc c =? - EBADF then (Qdead, o) else (Qalive q m w, o)
  else let '(q, m, w) := s in (Qalive q m w, []).
Definition andthen (x : wspec * list wout) (f : list Z * Z * bool -> wspec * list wout) : wspec * list wout :=
  match x with
  | (Qalive q m w, o) => let '(s, o') := f (q, m, w) in (s, o ++ o')
  | (Qdead, o) => (Qdead, o)
  end.
Definition s_event (s : wspec) (e : wevent) : wspec * list wout :=
  match s with
  | Qdead => (Qdead, [])
  | Qalive q m w =>
    match e with
    | Call c => let '((q', m', w'), o) := s_call (q, m, w) c in (Qalive q' m' w', o)
    | Select r e wr rcb ecb wcb =>
      andthen (s_other r (q, m, w) rcb) (fun s =>
      andthen (s_other e s ecb) (fun s =>
      if wr then s_write s wcb else let '(q, m, w) := s in (Qalive q m w, [])))
    end
  end.
Fixpoint s_run (s : wspec) (es : list wevent) : wspec * list wout :=
  match es with
  | [] => (s, [])
  | e :: t => let '(s1, o1) := s_event s e in let '(s2, o2) := s_run s1 t in (s2, o1 ++ o2)
  end.

(* permitted use: only a message that is neither queued nor currently being written is enqueued *)
Definition call_ok (head : Z) (inflight : list Z) (s : list Z * Z * bool) (c : wcall) : Prop :=
  match c with
  | WEnq m => m <> 0 /\ m <> head /\ ~ In m (fst (fst s)) /\ ~ In m inflight
  | WClear => True
  | WMaxlen n => 0 <= n < 4294967295
  end.
Fixpoint calls_ok (head : Z) (inflight : list Z) (s : list Z * Z * bool) (cs : list wcall) : Prop :=
  match cs with [] => True | c :: t => call_ok head inflight s c /\ calls_ok head inflight (fst (s_call s c)) t end.
Definition ok_then (x : wspec * list wout) (f : list Z * Z * bool -> Prop) : Prop :=
  match x with (Qalive q m w, _) => f (q, m, w) | (Qdead, _) => True end.
Definition event_ok (head : Z) (s : wspec) (e : wevent) : Prop :=
  match s with
  | Qdead => True
  | Qalive q m w =>
    match e with
    | Call c => call_ok head [] (q, m, w) c
    | Select r e wr rcb ecb wcb =>
      (if r then calls_ok head [] (q, m, w) (cb_calls rcb) else True) /\
      ok_then (s_other r (q, m, w) rcb) (fun s =>
      (if e then calls_ok head [] s (cb_calls ecb) else True) /\
      ok_then (s_other e s ecb) (fun s => let '(q, m, w) := s in
      if wr then match q with [] => True | x :: rest => calls_ok head [x] (rest, m, false) (cb_calls wcb) end else True))
    end
  end.
Fixpoint events_ok (head : Z) (s : wspec) (es : list wevent) : Prop :=
  match es with [] => True | e :: t => event_ok head s e /\ events_ok head (fst (s_event s e)) t end.

(* messages accepted by enqueue / completed by the write callback (returned something else than -EAGAIN) *)
Definition accepted (o : list wout) : list Z :=
  flat_map (fun x => match x with OEnq m rc => if rc =? 0 then [m] else [] | _ => [] end) o.
Definition completed (o : list wout) : list Z :=
  flat_map (fun x => match x with OWrite m rc => if rc =? - EAGAIN then [] else [m] | _ => [] end) o.
Definition attempts (o : list wout) : list Z :=
  flat_map (fun x => match x with OWrite m rc => [m] | _ => [] end) o.

(* a is obtained from b by deleting elements *)
Inductive subseq : list Z -> list Z -> Prop :=
| sub_nil l : subseq [] l
| sub_skip a x b : subseq a b -> subseq a (x :: b)
| sub_take x a b : subseq a b -> subseq (x :: a) (x :: b).

(* [in_turn l o]: every write attempt in o is for the first message of l not yet completed; -EAGAIN keeps
   that message first *)
Fixpoint in_turn (l : list Z) (o : list wout) : Prop :=
  match o with
  | [] => True
  | OWrite m rc :: t => exists l', l = m :: l' /\ in_turn (if rc =? - EAGAIN then l else l') t
  | _ :: t => in_turn l t
  end.
(* histories in which the queue is neither cleared, nor its limit changed, nor released *)
Definition pure_call (c : wcall) : Prop := match c with WEnq _ => True | _ => False end.
Definition pure_event (e : wevent) : Prop :=
  match e with
  | Call c => pure_call c
  | Select _ _ _ r e w => Forall pure_call (cb_calls r) /\ Forall pure_call (cb_calls e) /\ Forall pure_call (cb_calls w) /\
      cb_rc r <> - EBADF /\ cb_rc e <> - EBADF /\ cb_rc w <> - EBADF
  end.
