(* S_itq.v - reading the event log of an inter-thread queue *)
From Verif Require Import Base M_itq.

Definition accepted (l : list ev) : list Z := flat_map (fun e => match e with EvAcc _ m => [m] | _ => [] end) l.
(* everything taken out of the queue, by whomever *)
Definition removed (l : list ev) : list Z := flat_map (fun e => match e with EvOut _ m | EvFree _ m => [m] | _ => [] end) l.
(* taken out by thread t for delivery / actually delivered in thread t *)
Definition taken (t : nat) (l : list ev) : list Z :=
  flat_map (fun e => match e with EvOut u m => if Nat.eqb u t then [m] else [] | _ => [] end) l.
Definition given (t : nat) (l : list ev) : list Z :=
  flat_map (fun e => match e with EvGive u m => if Nat.eqb u t then [m] else [] | _ => [] end) l.

(* the thread is between the lock and the unlock *)
Definition in_cs (p : pc) : bool :=
  match p with EqIn _ | EqAdd _ | EqInc _ | EqUnl _ | EqFull _ | DqIn _ | DqDec _ _ | DqUnl _ _ | FlIn | FlZero | FlUnl => true | _ => false end.
(* the thread has put an item on the queue but not yet signalled the eventfd *)
Definition signalling (p : pc) : bool := match p with EqInc _ | EqUnl _ | EqEv _ => true | _ => false end.
(* the thread has read the eventfd and is still in its dispatch loop *)
Definition dispatching (p : pc) : bool :=
  match p with DqWant k | DqIn k | DqDec k _ | DqUnl k _ | DqRet k _ => negb (k =? 0) | _ => false end.
(* the item a thread has removed but not yet handed over *)
Definition holding (p : pc) : list Z :=
  match p with DqDec _ m | DqUnl _ m | DqRet _ m => if m =? 0 then [] else [m] | _ => [] end.
(* items are non-NULL *)
Definition sched_ok (x : nat * call) : Prop := match snd x with CEnq m => m <> 0 | _ => True end.
