(** Model of src/core/signal.c: registration of signal handlers and delivery of signals.
    Simplifications: the linked list is the list of its entries in order; an entry is known by a number that is never used again, so that
    an entry that has been freed is one that is not in the list any more (reading it is [UB]); allocation does not fail except where
    [osmo_signal_register_handler] is told so; a handler's own code is an arbitrary function of all calls made so far, giving the
    registrations and unregistrations it performs; handlers that dispatch a further signal themselves are not modelled. *)
From Verif Require Import Base.

(** src/core/signal.c:38-43 struct signal_handler *)
Record handler := Handler { h_id : Z; h_subsys : Z; h_cbfn : Z; h_data : Z }.
(** src/core/signal.c:35-36 signal_handler_list (and the number of the next entry) *)
Record sigs := Sigs { list_of : list handler; next_id : Z }.

(** src/core/signal.c:61-79 osmo_signal_register_handler; [mem]: talloc_zero succeeds *)
Definition osmo_signal_register_handler (mem : bool) (st : sigs) (subsys cbfn data : Z) : Z * sigs :=
  if negb mem then (- ENOMEM, st) else
  (0, Sigs (list_of st ++ [Handler (next_id st) subsys cbfn data]) (next_id st + 1)).

(** the loop of src/core/signal.c:91-98 *)
Fixpoint unreg (l : list handler) (subsys cbfn data : Z) : list handler :=
  match l with
  | [] => []
  | h :: r => if (h_cbfn h =? cbfn) && (h_data h =? data) && (subsys =? h_subsys h) then r else h :: unreg r subsys cbfn data
  end.
(** src/core/signal.c:86-99 osmo_signal_unregister_handler *)
Definition osmo_signal_unregister_handler (st : sigs) (subsys cbfn data : Z) : sigs :=
  Sigs (unreg (list_of st) subsys cbfn data) (next_id st).

(** what a handler may do to the list *)
Inductive op := Reg (mem : bool) (subsys cbfn data : Z) | Unreg (subsys cbfn data : Z).
Definition do_op (st : sigs) (o : op) : sigs :=
  match o with
  | Reg mem s c d => snd (osmo_signal_register_handler mem st s c d)
  | Unreg s c d => osmo_signal_unregister_handler st s c d
  end.

(** one call of a handler: whose, and the arguments *)
Record call := Call { c_id : Z; c_cbfn : Z; c_subsys : Z; c_signal : Z; c_data : Z; c_sigdata : Z }.

(** the step of llist_for_each_entry, include/osmocom/core/linuxlist.h:299-304: the entry behind entry [id]; [UB]: it was freed *)
Fixpoint next_of (l : list handler) (id : Z) : res (option handler) :=
  match l with
  | [] => UB
  | h :: r => if h_id h =? id then Ok (hd_error r) else next_of r id
  end.

(** the loop of src/core/signal.c:111-115; the fuel bounds the number of entries looked at *)
Fixpoint dispatch_loop (fuel : nat) (beh : list call -> list op) (subsys signal sigdata : Z) (st : sigs) (cur : option handler) (tr : list call)
  : res (sigs * list call) :=
  match cur with
  | None => Ok (st, tr)
  | Some h =>
      match fuel with
      | O => Err 0
      | S fuel =>
          let '(st, tr) :=
            if negb (h_subsys h =? subsys) then (st, tr)
            else let tr := tr ++ [Call (h_id h) (h_cbfn h) subsys signal (h_data h) sigdata] in (fold_left do_op (beh tr) st, tr) in
          do n <- next_of (list_of st) (h_id h) ;;
          dispatch_loop fuel beh subsys signal sigdata st n tr
      end
  end.
(** src/core/signal.c:106-116 osmo_signal_dispatch *)
Definition osmo_signal_dispatch (fuel : nat) (beh : list call -> list op) (subsys signal sigdata : Z) (st : sigs) : res (sigs * list call) :=
  dispatch_loop fuel beh subsys signal sigdata st (hd_error (list_of st)) [].
