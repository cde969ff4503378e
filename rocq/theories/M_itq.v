(* M_itq.v - model of src/core/it_q.c: any number of threads, one step per shared-memory access or lock
   operation.  Items are non-zero numbers (addresses); the linked list is a sequence (C41 proves the
   pointer code implements it).  The eventfd is the kernel's 64-bit counter: read blocks on 0 and
   takes the whole value, write of 1 blocks if the counter is 2^64-2.  Not modelled: talloc, queue names,
   osmo_it_q_alloc/destroy; the int loop counter of the dispatch loop is unbounded. *)
From Verif Require Import Base.

Inductive pc :=
| Idle
(* it_q.c:226-243 _osmo_it_q_enqueue *)
| EqWant (m : Z)            (* before pthread_mutex_lock, 252 *)
| EqIn (m : Z)              (* before the length check, 253 *)
| EqAdd (m : Z)             (* before llist_add_tail, 257 *)
| EqInc (m : Z)             (* before current_length++, 258 *)
| EqUnl (m : Z)             (* before the unlock, 259 *)
| EqFull (m : Z)            (* before the unlock of the -ENOSPC path, 254 *)
| EqEv (m : Z)              (* before eventfd_increment, 261-262 *)
(* it_q.c:250-264 _osmo_it_q_dequeue; the argument is 0 for a direct call, otherwise the number of
   iterations left in the dispatch loop of osmo_it_q_fd_cb, this one included *)
| DqWant (k : Z)            (* before the lock, 278 *)
| DqIn (k : Z)              (* before item_dequeue, 280 *)
| DqDec (k m : Z)           (* before current_length--, 281-282 *)
| DqUnl (k m : Z)           (* before the unlock, 284 *)
| DqRet (k m : Z)           (* after the call: returned to the caller, or lines 103-106 of the dispatch loop *)
(* it_q.c:84-110 osmo_it_q_fd_cb *)
| Disp                      (* before read(), 93 *)
(* it_q.c:194-201 osmo_it_q_flush *)
| FlWant | FlIn (* loop, 202-204 *) | FlZero (* 205 *) | FlUnl.

Inductive call := CEnq (m : Z) | CDeq | CFlush | CDispatch.
(* observable events, newest last *)
Inductive ev :=
| EvAcc (t : nat) (m : Z)   (* m became part of the queue *)
| EvRej (t : nat) (m : Z)   (* enqueue of m returned -ENOSPC *)
| EvOut (t : nat) (m : Z)   (* m was removed from the queue by thread t *)
| EvFree (t : nat) (m : Z)  (* m was removed and released by flush *)
| EvGive (t : nat) (m : Z)  (* m was returned to the caller / passed to read_cb in thread t *)
| EvNull (t : nat).         (* NULL was returned to a caller *)

Record st := St { q : list Z; cur : Z; maxl : Z; efd : Z; owner : option nat; pcs : list pc; log : list ev }.

Definition setpc (s : st) (t : nat) (p : pc) : st := St (q s) (cur s) (maxl s) (efd s) (owner s) (upd (pcs s) t p) (log s).
Definition emit (s : st) (e : ev) : st := St (q s) (cur s) (maxl s) (efd s) (owner s) (pcs s) (log s ++ [e]).
Definition setq (s : st) (l : list Z) : st := St l (cur s) (maxl s) (efd s) (owner s) (pcs s) (log s).
Definition setcur (s : st) (c : Z) : st := St (q s) c (maxl s) (efd s) (owner s) (pcs s) (log s).
Definition setefd (s : st) (c : Z) : st := St (q s) (cur s) (maxl s) c (owner s) (pcs s) (log s).
Definition setown (s : st) (o : option nat) : st := St (q s) (cur s) (maxl s) (efd s) o (pcs s) (log s).

(* pthread_mutex_lock: enabled only when free; unlock *)
Definition lock (s : st) (t : nat) (p : pc) : option st :=
  match owner s with None => Some (setpc (setown s (Some t)) t p) | Some _ => None end.
Definition unlock (s : st) (t : nat) (p : pc) : option st := Some (setpc (setown s None) t p).

(* one step of thread t; c is the call made if the thread is idle; None: the thread is blocked *)
Definition step (s : st) (t : nat) (c : call) : option st :=
  match nth_error (pcs s) t with
  | None => None
  | Some p =>
    match p with
    | Idle => Some (setpc s t match c with CEnq m => EqWant m | CDeq => DqWant 0 | CFlush => FlWant | CDispatch => Disp end)
    | EqWant m => lock s t (EqIn m)
    | EqIn m => Some (setpc s t (if maxl s <? u32 (cur s + 1) then EqFull m else EqAdd m))
    | EqFull m => match unlock s t Idle with Some s => Some (emit s (EvRej t m)) | None => None end
    | EqAdd m => Some (emit (setpc (setq s (q s ++ [m])) t (EqInc m)) (EvAcc t m))
    | EqInc m => Some (setpc (setcur s (u32 (cur s + 1))) t (EqUnl m))
    | EqUnl m => unlock s t (EqEv m)
    | EqEv m => if efd s <? 18446744073709551614 then Some (setpc (setefd s (efd s + 1)) t Idle) else None
    | DqWant k => lock s t (DqIn k)
    | DqIn k => match q s with
                | [] => Some (setpc s t (DqDec k 0))
                | m :: r => Some (emit (setpc (setq s r) t (DqDec k m)) (EvOut t m))
                end
    | DqDec k m => Some (setpc (if negb (m =? 0) then setcur s (u32 (cur s - 1)) else s) t (DqUnl k m))
    | DqUnl k m => unlock s t (DqRet k m)
    | DqRet k m =>
        if k =? 0 then Some (emit (setpc s t Idle) (if m =? 0 then EvNull t else EvGive t m))
        else if m =? 0 then Some (setpc s t Idle)                                    (* break *)
        else Some (emit (setpc s t (if k =? 1 then Idle else DqWant (k - 1))) (EvGive t m))
    | Disp => if efd s =? 0 then None else Some (setpc (setefd s 0) t (DqWant (efd s)))
    | FlWant => lock s t FlIn
    | FlIn => match q s with
              | [] => Some (setpc s t FlZero)
              | m :: r => Some (emit (setpc (setq s r) t FlIn) (EvFree t m))
              end
    | FlZero => Some (setpc (setcur s 0) t FlUnl)
    | FlUnl => unlock s t Idle
    end
  end.

(* a schedule: which thread runs next (and which call it starts if idle); a blocked thread does not move *)
Definition sched := list (nat * call).
Definition sstep (s : st) (x : nat * call) : st := match step s (fst x) (snd x) with Some s' => s' | None => s end.
Definition init (maxlen : Z) (nthreads : nat) : st := St [] 0 maxlen 0 None (repeat Idle nthreads) [].
Definition runs (s : st) (l : sched) : st := fold_left sstep l s.
(* only thread t runs, n steps *)
Definition alone (t : nat) (n : nat) (c : call) : sched := repeat (t, c) n.
