(* M_timer.v - src/core/timer.c on top of the red-black tree model.
   A timer is identified by its node address (container_of is the identity).  Simplifications: the eviction list is a plain
   list of timers instead of linked llist_heads (their behaviour is C05/C41); the callback is an arbitrary script of timer
   API calls (one script per firing, so any behaviour); a callback does not call osmo_timers_update recursively; the clock
   is an argument.  Signed overflow of a struct timeval field (long) is UB. *)
From Verif Require Import Base M_rbtree.

Record tv := Tv { tsec : Z; tusec : Z }.

(* timer_compat.h:41-45 timercmp(a, b, <); timercmp(a,b,>) is timercmp(b,a,<) *)
Definition tvlt (a b : tv) : bool := if tsec a =? tsec b then tusec a <? tusec b else tsec a <? tsec b.
Definition chk64 (x : Z) : res Z := if (-9223372036854775808 <=? x) && (x <? 9223372036854775808) then Ok x else UB.
(* timer_compat.h:48-57 timeradd *)
Definition tvadd (a b : tv) : res tv :=
  do s <- chk64 (tsec a + tsec b) ;;
  do u <- chk64 (tusec a + tusec b) ;;
  if 1000000 <=? u then do s <- chk64 (s + 1) ;; Ok (Tv s (u - 1000000)) else Ok (Tv s u).
(* timer_compat.h:61-69 timersub *)
Definition tvsub (a b : tv) : res tv :=
  do s <- chk64 (tsec a - tsec b) ;;
  do u <- chk64 (tusec a - tusec b) ;;
  if u <? 0 then do s <- chk64 (s - 1) ;; Ok (Tv s (u + 1000000)) else Ok (Tv s u).

(* the thread's timer state: timer_root (timer.c:42), and of every timer: timeout, active (timer.h:57-66);
   evict: the timers currently linked into the eviction list *)
Record tst := Ts { theap : heap; tmo : Z -> tv; act : Z -> bool; evict : list Z }.

Definition setf {A} (f : Z -> A) (k : Z) (v : A) : Z -> A := fun z => if z =? k then v else f z.

(* timer.c:116-125 osmo_timer_del *)
Definition timer_del (fuel : nat) (s : tst) (t : Z) : res tst :=
  if act s t then
    do h <- rb_erase fuel (theap s) t ;;
    Ok (Ts h (tmo s) (setf (act s) t false) (remove Z.eq_dec t (evict s)))
  else Ok s.
(* timer.c:79-85 osmo_timer_add and 44-63 __add_timer; INIT_LLIST_HEAD: not on the eviction list *)
Definition timer_add (fuel : nat) (s : tst) (t : Z) : res tst :=
  do s <- timer_del fuel s t ;;
  do h <- insert_by fuel (theap s) (fun z => tvlt (tmo s t) (tmo s z)) t ;;
  Ok (Ts h (tmo s) (setf (act s) t true) (evict s)).
(* timer.c:98-108 osmo_timer_schedule *)
Definition timer_schedule (fuel : nat) (s : tst) (now : tv) (t seconds microseconds : Z) : res tst :=
  do x <- tvadd (Tv seconds microseconds) now ;;
  timer_add fuel (Ts (theap s) (setf (tmo s) t x) (act s) (evict s)) t.
(* timer.c:134-137 osmo_timer_pending *)
Definition timer_pending (s : tst) (t : Z) : Z := if act s t then 1 else 0.
(* timer.c:148-165 osmo_timer_remaining: (return value, remaining) *)
Definition timer_remaining (s : tst) (now : tv) (t : Z) : res (Z * tv) :=
  do r <- tvsub (tmo s t) now ;; Ok ((if tsec r <? 0 then -1 else 0), r).

(* the timer API calls a program (or a callback) may make; TAdd: fill in timer->timeout, then osmo_timer_add *)
Inductive top := TAdd (t : Z) (x : tv) | TSched (now : tv) (t seconds microseconds : Z) | TDel (t : Z).
Definition timer_op (fuel : nat) (s : tst) (o : top) : res tst :=
  match o with
  | TAdd t x => timer_add fuel (Ts (theap s) (setf (tmo s) t x) (act s) (evict s)) t
  | TSched now t a b => timer_schedule fuel s now t a b
  | TDel t => timer_del fuel s t
  end.
Fixpoint timer_ops (fuel : nat) (s : tst) (os : list top) : res tst :=
  match os with [] => Ok s | o :: os => do s <- timer_op fuel s o ;; timer_ops fuel s os end.

(* timer.c:251-259: the expired timers are put in front of the eviction list one by one *)
Fixpoint collect (n fuel : nat) (s : tst) (now : tv) (node : Z) (acc : list Z) : res (list Z) :=
  match n with
  | O => UB
  | S n' => if node =? 0 then Ok acc else
            if tvlt now (tmo s node) then Ok acc else
            do nx <- rb_next fuel (theap s) node ;; collect n' fuel s now nx (node :: acc)
  end.
(* timer.c:273-280: take the first of the list, delete it, call back, start again; cbs: what the callbacks do.
   Result: state, timers fired in order *)
Fixpoint fire (n fuel : nat) (s : tst) (cbs : list (list top)) : res (tst * list Z) :=
  match n with
  | O => UB
  | S n' =>
      match evict s with
      | [] => Ok (s, [])
      | t :: _ =>
          do s <- timer_del fuel s t ;;
          do s <- timer_ops fuel s (hd [] cbs) ;;
          do ' (s, l) <- fire n' fuel s (tl cbs) ;;
          Ok (s, t :: l)
      end
  end.
(* timer.c:240-283 osmo_timers_update: (state, fired, return value) *)
Definition timers_update (fuel : nat) (s : tst) (now : tv) (cbs : list (list top)) : res (tst * list Z * Z) :=
  do first <- rb_first fuel (theap s) ;;
  do ev <- collect fuel fuel s now first [] ;;
  do ' (s, l) <- fire fuel fuel (Ts (theap s) (tmo s) (act s) ev) cbs ;;
  Ok (s, l, match l with [] => 0 | _ => 1 end).

(* timer.c:207-237 update_nearest, osmo_timers_prepare: nearest_p, None = NULL *)
Definition update_nearest (cand cur : tv) : res (option tv) :=
  if tsec cand =? 9223372036854775807 then Ok None else
  if tvlt cur cand then do r <- tvsub cand cur ;; Ok (Some r) else Ok (Some (Tv 0 0)).
Definition timers_prepare (fuel : nat) (s : tst) (now : tv) : res (option tv) :=
  do first <- rb_first fuel (theap s) ;;
  if first =? 0 then Ok None else update_nearest (tmo s first) now.
(* timer.c:186-205 osmo_timers_nearest_ms (not EMBEDDED); "int nearest_ms = long" keeps the low 32 bits *)
Definition nearest_ms (p : option tv) : res Z :=
  match p with
  | None => Ok (-1)
  | Some x =>
      do a <- chk64 (tsec x * 1000) ;;
      do u <- chk64 (tusec x + 999) ;;
      Ok (s32 (s32 a + Z.quot u 1000))
  end.
(* timer.c:287-296 osmo_timers_check *)
Fixpoint check_loop (n fuel : nat) (s : tst) (node i : Z) : res Z :=
  match n with
  | O => UB
  | S n' => if node =? 0 then Ok i else do nx <- rb_next fuel (theap s) node ;; check_loop n' fuel s nx (i + 1)
  end.
Definition timers_check (fuel : nat) (s : tst) : res Z :=
  do first <- rb_first fuel (theap s) ;; check_loop fuel fuel s first 0.

(* a whole program: API calls, and passes of the select loop *)
Inductive tev := EOp (o : top) | EUpdate (now : tv) (cbs : list (list top)).
(* result: state and the firings of each pass *)
Fixpoint timer_run (fuel : nat) (s : tst) (es : list tev) : res (tst * list (list Z)) :=
  match es with
  | [] => Ok (s, [])
  | EOp o :: es => do s <- timer_op fuel s o ;; timer_run fuel s es
  | EUpdate now cbs :: es =>
      do ' (s, l, _) <- timers_update fuel s now cbs ;;
      do ' (s, ls) <- timer_run fuel s es ;; Ok (s, l :: ls)
  end.
(* a fresh thread: no timers *)
Definition timer_init (h : heap) (f : Z -> tv) : tst := Ts (empty_root h) f (fun _ => false) [].
