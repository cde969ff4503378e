(* M_fsm.v - src/core/fsm.c with arbitrary user callbacks.
   User code (main program and all FSM callbacks) is an arbitrary function env from everything that happened so far to the
   next API call (inl) or to returning from the current callback with a value (inr).
   Not modelled: logging, names/ids, talloc parent/child freeing and osmo_fsm_set_dealloc_ctx, the per-FSM instance list,
   osmo_fsm_inst_broadcast_children, direct osmo_fsm_inst_free by the user, and event data pointers. *)
From Verif Require Import Base.

(* fsm.h:27-58 osmo_fsm_state and 60-80 osmo_fsm: masks and which callbacks exist *)
Record fsm := Fsm { num : Z; in_mask : Z -> Z; out_mask : Z -> Z; has_action : Z -> bool; has_enter : Z -> bool; has_leave : Z -> bool;
                    all_mask : Z; has_all : bool; has_clean : bool; has_tmr : bool; has_pre : bool }.

(* fsm.h:85-120 osmo_fsm_inst; parent 0 = NULL; timer: None = not pending, else the (seconds, microseconds) it was armed with *)
Record inst := Inst { ifsm : Z; istate : Z; iT : Z; itmr : option (Z * Z); iparent : Z; ipte : Z; ichildren : list Z; iterm : bool }.

(* user callbacks *)
Inductive kind := KAction | KAll | KEnter | KLeave | KTimer | KPre | KClean.

(* API calls a user may make; CTick: the main loop sees the instance's timer expire *)
Inductive cmd :=
| CDispatch (fi event : Z) | CChg (fi new : Z) (keep : bool) (ms T : Z) | CTerm (fi cause : Z) | CTermCh (fi cause : Z)
| CAlloc (f : Z) | CAllocChild (f parent pte : Z) | CUnlink (fi : Z) | CReparent (fi np pte : Z) | CTick (fi : Z).

(* what happens, as a trace *)
Inductive ev :=
| EvCmd (c : cmd) | EvRet (rc : Z)
| EvAlloc (fi f : Z) | EvAttach (fi p pte : Z) | EvDetach (fi : Z)
| EvCb (k : kind) (fi arg : Z)
| EvState (fi old new : Z) (keep : bool) (ms : Z) (tm : option (Z * Z))
| EvTerm (fi cause : Z) | EvStuck (fi child : Z) | EvGone (fi : Z) | EvNotify (fi p event : Z) | EvDone (fi : Z) | EvFree (fi : Z).
(* every entry carries the callbacks that were running then, innermost first *)
Definition trace := list (list (kind * Z) * ev).

(* depth, coll: fsm_term_safely.depth and collect_ctx, fsm.c:93-104; next: next address to be allocated; newest trace entry first *)
Record st := St { mem : Z -> inst; live : Z -> bool; next : Z; depth : Z; coll : list Z; stk : list (kind * Z); tr : trace }.

(* Halt: out of fuel (user code may recurse for ever); Crash: use of freed memory, failed assertion or invalid shift/index *)
Inductive out := Done (s : st) (rc : Z) | Halt (s : st) | Crash (s : st).
Definition bindo (x : out) (f : st -> Z -> out) : out := match x with Done s v => f s v | Halt s => Halt s | Crash s => Crash s end.
Notation "'run' ( X , Y ) <- A ; B" := (bindo A (fun X Y => B)) (at level 200, X name, Y name, A at level 100, B at level 200).

Definition emit (e : ev) (s : st) : st := St (mem s) (live s) (next s) (depth s) (coll s) (stk s) ((stk s, e) :: tr s).
Definition setm (fi : Z) (f : inst -> inst) (s : st) : st :=
  St (fun z => if z =? fi then f (mem s fi) else mem s z) (live s) (next s) (depth s) (coll s) (stk s) (tr s).
Definition set_depth (d : Z) (s : st) : st := St (mem s) (live s) (next s) d (coll s) (stk s) (tr s).
Definition set_stk (k : list (kind * Z)) (s : st) : st := St (mem s) (live s) (next s) (depth s) (coll s) k (tr s).
Definition w_tmr (t : option (Z * Z)) (i : inst) := Inst (ifsm i) (istate i) (iT i) t (iparent i) (ipte i) (ichildren i) (iterm i).
Definition w_state (x T : Z) (t : option (Z * Z)) (i : inst) := Inst (ifsm i) x T t (iparent i) (ipte i) (ichildren i) (iterm i).
Definition w_term (i : inst) := Inst (ifsm i) (istate i) (iT i) (itmr i) (iparent i) (ipte i) (ichildren i) true.
Definition w_parent (p e : Z) (i : inst) := Inst (ifsm i) (istate i) (iT i) (itmr i) p e (ichildren i) (iterm i).
Definition w_children (l : list Z) (i : inst) := Inst (ifsm i) (istate i) (iT i) (itmr i) (iparent i) (ipte i) l (iterm i).

(* fsm.h:31-37 osmo_fsm_term_cause: OSMO_FSM_TERM_PARENT = 0, ..., OSMO_FSM_TERM_TIMEOUT = 4 *)
Definition TERM_PARENT := 0.
Definition TERM_TIMEOUT := 4.

(* fsm.c:682-686: osmo_timer_schedule(timer, int seconds = timeout_ms / 1000, int microseconds = (timeout_ms % 1000) * 1000) *)
Definition arm (ms : Z) : option (Z * Z) := Some (s32 (ms / 1000), ms mod 1000 * 1000).

(* JLoop: user code runs until it returns; JTerm: osmo_fsm_inst_term; JTermCh: the loop of osmo_fsm_inst_term_children *)
Inductive job := JLoop | JTerm (fi cause : Z) | JTermCh (fi cause last_seen : Z).

Section Fsm.
  Variable D : Z -> fsm.                    (* FSM descriptors *)
  Variable env : trace -> cmd + Z.          (* user code *)
  Variable safe : bool.                     (* fsm_term_safely_enabled, fsm.c:90, 184-187 *)

  Section Rec.
  Variable rec : job -> st -> out.

  (* calling a user callback *)
  Definition callback (k : kind) (fi arg : Z) (s : st) : out :=
    let s1 := emit (EvCb k fi arg) s in
    run (s2, rc) <- rec JLoop (set_stk ((k, fi) :: stk s) s1) ; Done (set_stk (stk s) s2) rc.

  (* fsm.c:833-878 _osmo_fsm_inst_dispatch *)
  Definition dispatch (fi event : Z) (s : st) : out :=
    if fi =? 0 then Done s (- ENODEV) else
    if negb (live s fi) then Crash s else
    let i := mem s fi in
    let f := D (ifsm i) in
    if iterm i then Done s (- EINVAL) else
    if num f <=? istate i then Crash s else
    if (event <? 0) || (32 <=? event) then Crash s else
    if Z.testbit (all_mask f) event && has_all f then run (s1, rc) <- callback KAll fi event s ; Done s1 0 else
    if negb (Z.testbit (in_mask f (istate i)) event) then Done s (-1) else
    if has_action f (istate i) then run (s1, rc) <- callback KAction fi event s ; Done s1 0 else Done s 0.

  (* fsm.c:619-700 state_chg *)
  Definition state_chg (fi new : Z) (keep : bool) (ms T : Z) (s : st) : out :=
    if negb (live s fi) then Crash s else
    let i := mem s fi in
    let f := D (ifsm i) in
    let old := istate i in
    if iterm i then Done s (- EINVAL) else
    if (num f <=? old) || (new <? 0) || (32 <=? new) then Crash s else
    if negb (Z.testbit (out_mask f old) new) then Done s (- EPERM) else
    let s1 := if keep then s else setm fi (w_tmr None) s in
    run (s2, rc) <- (if has_leave f old then callback KLeave fi new s1 else Done s1 0) ;
    if negb (live s2 fi) || (num f <=? new) then Crash s2 else
    let j := mem s2 fi in
    let restart := negb keep || (match itmr j with None => true | Some _ => false end) in
    let tm := if restart && negb (ms =? 0) then arm ms else itmr j in
    let s3 := emit (EvState fi old new keep ms tm) (setm fi (w_state new (if restart then T else iT j) tm) s2) in
    if has_enter f new then run (s4, rc) <- callback KEnter fi old s3 ; Done s4 0 else Done s3 0.

  (* fsm.c:536-572 osmo_fsm_inst_free, 218-233 osmo_fsm_defer_free *)
  Definition free1 (s : st) (fi : Z) : st :=
    emit (EvFree fi) (St (mem s) (fun z => if z =? fi then false else live s z) (next s) (depth s) (coll s) (stk s) (tr s)).
  Definition set_coll (l : list Z) (s : st) : st := St (mem s) (live s) (next s) (depth s) l (stk s) (tr s).
  Definition inst_free (fi : Z) (s : st) : out :=
    if negb (live s fi) then Crash s else
    let s := setm fi (w_tmr None) s in
    if negb (depth s =? 0) then Done (set_coll (coll s ++ [fi]) s) 0
    else Done (set_coll [] (fold_left free1 (coll s) (free1 s fi))) 0.

  (* llist_del(&fi->proc.child): only if it is on its parent's list; a second time hits the list poison *)
  Definition detach (fi : Z) (s : st) : out :=
    let p := iparent (mem s fi) in
    if negb (live s p) || negb (existsb (Z.eqb fi) (ichildren (mem s p))) then Crash s
    else Done (setm p (fun i => w_children (remove Z.eq_dec fi (ichildren i)) i) s) 0.

  (* fsm.c:896-972 _osmo_fsm_inst_term, in three parts *)
  Definition term_notify (fi cause pte : Z) (s : st) : out :=
    if negb (live s fi) then Crash s else
    let p := iparent (mem s fi) in
    run (s1, rc) <- (if depth s =? 0 then inst_free fi s else Done s 0) ;
    run (s2, rc) <- (if negb (p =? 0) && negb (cause =? TERM_PARENT) then dispatch p pte (emit (EvNotify fi p pte) s1) else Done s1 0) ;
    if depth s2 =? 0 then Done (emit (EvDone fi) s2) 0 else inst_free fi (emit (EvDone fi) (set_depth (depth s2 - 1) s2)).
  Definition term_leave (fi cause pte : Z) (s : st) : out :=
    if negb (live s fi) then Crash s else
    run (s1, rc) <- (if iparent (mem s fi) =? 0 then Done s 0 else detach fi s) ;
    let s2 := emit (EvGone fi) s1 in
    run (s3, rc) <- (if has_clean (D (ifsm (mem s2 fi))) then callback KClean fi cause s2 else Done s2 0) ;
    term_notify fi cause pte s3.
  Definition term (fi cause : Z) (s : st) : out :=
    if negb (live s fi) then Crash s else
    let i := mem s fi in
    let pte := ipte i in
    if iterm i then Done s 0 else
    let s1 := emit (EvTerm fi cause) (setm fi w_term s) in
    let s2 := if safe || negb (depth s1 =? 0) then set_depth (depth s1 + 1) s1 else s1 in
    run (s3, rc) <- (if has_pre (D (ifsm i)) then callback KPre fi cause s2 else Done s2 0) ;
    run (s4, rc) <- rec (JTermCh fi TERM_PARENT 0) s3 ;
    term_leave fi cause pte s4.

  (* fsm.c:986-1015 _osmo_fsm_inst_term_children, one iteration *)
  Definition term_children (fi cause last_seen : Z) (s : st) : out :=
    if negb (live s fi) then Crash s else
    match ichildren (mem s fi) with
    | [] => Done s 0
    | c :: _ =>
        if c =? last_seen then Done (emit (EvStuck fi c) s) 0
        else run (s1, rc) <- rec (JTerm c cause) s ; rec (JTermCh fi cause c) s1
    end.

  (* fsm.c:437-459 osmo_fsm_inst_alloc (with a valid id): returns the address *)
  Definition alloc (f : Z) (s : st) : out :=
    let fi := next s in
    Done (emit (EvAlloc fi f) (St (fun z => if z =? fi then Inst f 0 0 None 0 0 [] false else mem s z) (fun z => if z =? fi then true else live s z)
            (next s + 1) (depth s) (coll s) (stk s) (tr s))) fi.
  (* fsm.c:500-508 osmo_fsm_inst_unlink_parent *)
  Definition unlink_parent (fi : Z) (s : st) : out :=
    if negb (live s fi) then Crash s else
    if iparent (mem s fi) =? 0 then Done s 0 else
    run (s1, rc) <- detach fi s ; Done (emit (EvDetach fi) (setm fi (w_parent 0 0) s1)) 0.
  (* fsm.c:517-531 osmo_fsm_inst_change_parent *)
  Definition change_parent (fi np pte : Z) (s : st) : out :=
    run (s1, rc) <- unlink_parent fi s ;
    if np =? 0 then Done s1 0 else
    if negb (live s1 np) then Crash s1 else
    Done (emit (EvAttach fi np pte) (setm np (fun i => w_children (fi :: ichildren i) i) (setm fi (w_parent np pte) s1))) 0.
  (* fsm.c:472-491 osmo_fsm_inst_alloc_child *)
  Definition alloc_child (f parent pte : Z) (s : st) : out :=
    if negb (live s parent) then Crash s else
    run (s1, fi) <- alloc f s ; run (s2, rc) <- change_parent fi parent pte s1 ; Done s2 fi.

  (* timer.c:275-277 (the expired timer is deleted, then called back) and fsm.c:311-333 fsm_tmr_cb *)
  Definition tick (fi : Z) (s : st) : out :=
    match itmr (mem s fi) with
    | None => Done s 0
    | Some _ =>
        if negb (live s fi) then Crash s else
        let s1 := setm fi (w_tmr None) s in
        if has_tmr (D (ifsm (mem s fi))) then
          run (s2, rc) <- callback KTimer fi (iT (mem s fi)) s1 ;
          if rc =? 1 then rec (JTerm fi TERM_TIMEOUT) (emit (EvCmd (CTerm fi TERM_TIMEOUT)) s2) else Done s2 0
        else rec (JTerm fi TERM_TIMEOUT) s1
    end.

  Definition exec (c : cmd) (s : st) : out :=
    let s := emit (EvCmd c) s in
    match c with
    | CDispatch fi e => dispatch fi e s
    | CChg fi new keep ms T => state_chg fi new keep ms T s
    | CTerm fi cause => rec (JTerm fi cause) s
    | CTermCh fi cause => rec (JTermCh fi cause 0) s
    | CAlloc f => alloc f s
    | CAllocChild f p e => alloc_child f p e s
    | CUnlink fi => unlink_parent fi s
    | CReparent fi np e => change_parent fi np e s
    | CTick fi => tick fi s
    end.

  Definition do_job (j : job) (s : st) : out :=
    match j with
    | JLoop => match env (tr s) with
               | inr rc => Done s rc
               | inl c => run (s1, rc) <- exec c s ; rec JLoop (emit (EvRet rc) s1)
               end
    | JTerm fi cause => term fi cause s
    | JTermCh fi cause last => term_children fi cause last s
    end.
  End Rec.

  Fixpoint exec_job (fuel : nat) (j : job) (s : st) : out :=
    match fuel with O => Halt s | S n => do_job (exec_job n) j s end.
End Fsm.

(* a whole program from the start *)
Definition init_st : st := St (fun _ => Inst 0 0 0 None 0 0 [] false) (fun _ => false) 1 0 [] [] [].
Definition program (D : Z -> fsm) (env : trace -> cmd + Z) (safe : bool) (fuel : nat) : out := exec_job D env safe fuel JLoop init_st.
Definition final (o : out) : st := match o with Done s _ => s | Halt s => s | Crash s => s end.
