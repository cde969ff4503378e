(* S_msgq.v - specification: a plain list used as a FIFO queue; 0 = NULL *)
From Verif Require Import Base.

Inductive qop := QEnq (m : Z) | QDeq.
(* specification: plain list queue; 0 = NULL *)
Fixpoint q_spec (l : list Z) (ops : list qop) : list Z * list Z :=
  match ops with
  | [] => (l, [])
  | QEnq m :: t => q_spec (l ++ [m]) t
  | QDeq :: t => let '(l', outs) := q_spec (tl l) t in (l', hd 0 l :: outs)
  end.
(* messages are only enqueued while not queued, and are non-NULL and not the head *)
Fixpoint q_ok (queue : Z) (l : list Z) (ops : list qop) : Prop :=
  match ops with
  | [] => True
  | QEnq m :: t => m <> 0 /\ m <> queue /\ ~ In m l /\ q_ok queue (l ++ [m]) t
  | QDeq :: t => q_ok queue (tl l) t
  end.
