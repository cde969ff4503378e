(** What the users of signals rely on. *)
From Verif Require Import Base M_signal.
From Coq Require Import Sorted.

(** The list after any history of registrations and unregistrations *)
Definition after (history : list op) : sigs := fold_left do_op history (Sigs [] 0).
(** Entry [h] was registered for this subsystem, function and data *)
Definition is_for (subsys cbfn data : Z) (h : handler) : Prop := h_subsys h = subsys /\ h_cbfn h = cbfn /\ h_data h = data.
(** The call a handler gets for a signal *)
Definition call_for (signal sigdata : Z) (h : handler) : call := Call (h_id h) (h_cbfn h) (h_subsys h) signal (h_data h) sigdata.
(** A function called for this subsystem never unregisters the very registration it is being called for *)
Definition keeps_itself (subsys : Z) (beh : list call -> list op) : Prop :=
  forall tr c, c_subsys c = subsys -> ~ In (Unreg (c_subsys c) (c_cbfn c) (c_data c)) (beh (tr ++ [c])).
(** No function called registers anything *)
Definition registers_nothing (beh : list call -> list op) : Prop := forall tr m s c d, ~ In (Reg m s c d) (beh tr).
