(* S_fsm.v - reading a trace *)
From Verif Require Import Base M_fsm.

Definition has (p : ev -> bool) (t : trace) : bool := existsb (fun x => p (snd x)) t.
Definition is_alloc fi e := match e with EvAlloc x _ => x =? fi | _ => false end.
Definition is_term fi e := match e with EvTerm x _ => x =? fi | _ => false end.
Definition is_gone fi e := match e with EvGone x => x =? fi | _ => false end.
Definition is_done fi e := match e with EvDone x => x =? fi | _ => false end.
Definition is_free fi e := match e with EvFree x => x =? fi | _ => false end.
Definition is_stuck fi e := match e with EvStuck x _ => x =? fi | _ => false end.
(* allocated / termination begun / about to be cleaned up / termination complete / deallocated *)
Definition alloced t fi := has (is_alloc fi) t.
Definition termed t fi := has (is_term fi) t.
Definition gone t fi := has (is_gone fi) t.
Definition done t fi := has (is_done fi) t.
Definition freed t fi := has (is_free fi) t.
Definition usable t fi := alloced t fi = true /\ freed t fi = false.

(* descriptor, current state, parent and parent event of an instance *)
Fixpoint fsm_of (t : trace) (fi : Z) : Z :=
  match t with [] => 0 | (_, EvAlloc x f) :: t => if x =? fi then f else fsm_of t fi | _ :: t => fsm_of t fi end.
Fixpoint cur (t : trace) (fi : Z) : Z :=
  match t with
  | [] => 0
  | (_, EvAlloc x _) :: t => if x =? fi then 0 else cur t fi
  | (_, EvState x _ new _ _ _) :: t => if x =? fi then new else cur t fi
  | _ :: t => cur t fi
  end.
Fixpoint parent_of (t : trace) (fi : Z) : Z :=
  match t with
  | [] => 0
  | (_, EvAlloc x _) :: t => if x =? fi then 0 else parent_of t fi
  | (_, EvAttach x p _) :: t => if x =? fi then p else parent_of t fi
  | (_, EvDetach x) :: t => if x =? fi then 0 else parent_of t fi
  | _ :: t => parent_of t fi
  end.
(* terminations in progress, innermost first *)
Fixpoint busy (t : trace) : list Z :=
  match t with
  | [] => []
  | (_, EvTerm x _) :: t => x :: busy t
  | (_, EvDone x) :: t => remove Z.eq_dec x (busy t)
  | _ :: t => busy t
  end.
Fixpoint cause_of (t : trace) (fi : Z) : Z :=
  match t with [] => -1 | (_, EvTerm x c) :: t => if x =? fi then c else cause_of t fi | _ :: t => cause_of t fi end.

(* how far the termination of fi has got; 0 = not begun *)
Definition rank (fi : Z) (e : ev) : Z :=
  match e with
  | EvTerm x _ => if x =? fi then 1 else 0
  | EvCb KPre x _ => if x =? fi then 2 else 0
  | EvGone x => if x =? fi then 3 else 0
  | EvCb KClean x _ => if x =? fi then 4 else 0
  | EvNotify x _ _ => if x =? fi then 5 else 0
  | EvDone x => if x =? fi then 6 else 0
  | EvFree x => if x =? fi then 7 else 0
  | _ => 0
  end.
Fixpoint phase (t : trace) (fi : Z) : Z := match t with [] => 0 | (_, e) :: t => Z.max (rank fi e) (phase t fi) end.

(* the user leaves fi alone inside fi's own onleave callback: no state change, no termination *)
Definition calm_entry (x : list (kind * Z) * ev) : Prop :=
  match snd x with EvState fi _ _ _ _ _ | EvTerm fi _ => ~ In (KLeave, fi) (fst x) | _ => True end.
Definition calm (t : trace) : Prop := Forall calm_entry t.

(* API calls with valid arguments: instances that were not deallocated yet, events and states below 32; children are not
   given to a terminating parent; no unlinking/reparenting once fi's cleanup has begun (fsm.c:506-508, 524-525);
   osmo_fsm_inst_term_children only while some termination is in progress (see C19_term_children_refuted) *)
Definition legal (t : trace) (c : cmd) : Prop :=
  match c with
  | CDispatch fi e => fi = 0 \/ (usable t fi /\ 0 <= e < 32)
  | CChg fi new _ _ _ => usable t fi /\ 0 <= new < 32
  | CTerm fi _ => usable t fi
  | CTermCh fi _ => usable t fi /\ busy t <> []
  | CAlloc _ | CTick _ => True
  | CAllocChild _ p e => usable t p /\ termed t p = false /\ 0 <= e < 32
  | CUnlink fi => usable t fi /\ gone t fi = false
  | CReparent fi np e => usable t fi /\ gone t fi = false /\ (np = 0 \/ (usable t np /\ termed t np = false)) /\ 0 <= e < 32
  end.
(* descriptors: states 0..num-1, masks name only those *)
Definition valid_fsms (D : Z -> fsm) : Prop := forall f, 1 <= num (D f) <= 32 /\
  forall a b, 0 <= a < num (D f) -> 0 <= b -> Z.testbit (out_mask (D f) a) b = true -> b < num (D f).
(* a well-behaved program run so far *)
Fixpoint legal_trace (t : trace) : Prop :=
  match t with [] => True | (_, EvCmd c) :: t => legal t c /\ legal_trace t | _ :: t => legal_trace t end.
Definition behaved (t : trace) : Prop := calm t /\ legal_trace t /\ (forall fi, has (is_stuck fi) t = false).

(* events concerning transitions and actions, relative to what happened before (t) and the running callbacks (k) *)
Definition step_ok (D : Z -> fsm) (t : trace) (k : list (kind * Z)) (e : ev) : Prop :=
  match e with
  | EvState fi old new keep ms tm =>
      Z.testbit (out_mask (D (fsm_of t fi)) old) new = true /\
      (calm ((k, e) :: t) -> cur t fi = old /\ termed t fi = false /\ (keep = false -> tm = if ms =? 0 then None else arm ms))
  | EvCb KAction fi a => termed t fi = false /\ Z.testbit (in_mask (D (fsm_of t fi)) (cur t fi)) a = true /\
                         (Z.testbit (all_mask (D (fsm_of t fi))) a = false \/ has_all (D (fsm_of t fi)) = false)
  | EvCb KAll fi a => termed t fi = false /\ Z.testbit (all_mask (D (fsm_of t fi))) a = true
  | EvCb KLeave fi new => termed t fi = false /\ Z.testbit (out_mask (D (fsm_of t fi)) (cur t fi)) new = true
  | EvCb KEnter fi old => match t with (_, EvState x o _ _ _ _) :: _ => x = fi /\ o = old | _ => False end
  | _ => True
  end.
Fixpoint steps_ok (D : Z -> fsm) (t : trace) : Prop :=
  match t with [] => True | (k, e) :: t => step_ok D t k e /\ steps_ok D t end.

(* the parent event of an instance, and the one it had when its termination began *)
Fixpoint pte_of (t : trace) (fi : Z) : Z :=
  match t with
  | [] => 0
  | (_, EvAlloc x _) :: t => if x =? fi then 0 else pte_of t fi
  | (_, EvAttach x _ e) :: t => if x =? fi then e else pte_of t fi
  | (_, EvDetach x) :: t => if x =? fi then 0 else pte_of t fi
  | _ :: t => pte_of t fi
  end.
Fixpoint term_pte (t : trace) (fi : Z) : Z :=
  match t with [] => 0 | (_, EvTerm x _) :: t => if x =? fi then pte_of t fi else term_pte t fi | _ :: t => term_pte t fi end.

(* termination events relative to what happened before.  The stages of one instance come in order, each at most once:
   begun (1), pre_term (2), removed from its parent (3), cleanup (4), parent notified (5), complete (6), deallocated (7) *)
Definition phase_ok (t : trace) (e : ev) : Prop := forall fi,
  rank fi e = 0 \/
  (phase t fi < rank fi e /\ (rank fi e = 1 \/ 1 <= phase t fi) /\ (4 <= rank fi e -> 3 <= phase t fi) /\ (rank fi e = 7 -> phase t fi = 6)).
Definition term_ok (t : trace) (e : ev) : Prop :=
  phase_ok t e /\
  match e with
  (* unless the loop over the children gave up, all children have been removed (thus terminated or moved away) before *)
  | EvGone fi => has (is_stuck fi) t = false -> forall c, parent_of t c = fi -> gone t c = true
  (* the parent is told, with the event configured when the termination began, only if the cause is not OSMO_FSM_TERM_PARENT (0) *)
  | EvNotify fi p e => cause_of t fi <> 0 /\ p = parent_of t fi /\ p <> 0 /\ e = term_pte t fi
  | EvDone fi => behaved t -> cause_of t fi <> 0 -> parent_of t fi <> 0 -> exists k e, In (k, EvNotify fi (parent_of t fi) e) t
  (* memory is released only when no termination is in progress *)
  | EvFree fi => busy t = []
  | EvAttach fi p _ => legal_trace t -> gone t fi = false /\ termed t p = false
  | EvDetach fi => legal_trace t -> gone t fi = false
  | _ => True
  end.
Fixpoint terms_ok (t : trace) : Prop := match t with [] => True | (_, e) :: t => term_ok t e /\ terms_ok t end.
