(* What the users of a LAPD data link rely on (C58): small notions, independent of the model. *)
From Coq Require Import ZArith List.
Import ListNotations.
Local Open Scope Z_scope.

(* what has been delivered so far is an initial part of what has been handed over: nothing is lost in the
   middle, nothing comes twice, nothing comes out of order, nothing comes that was not sent *)
Definition is_prefix {A} (p l : list A) : Prop := exists e, l = p ++ e.

(* the numbers of the frames sent and not yet acknowledged, counted modulo the range *)
Definition unacked (vs va range : Z) : Z := (vs - va) mod range.
