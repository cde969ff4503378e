(** Environments as lists of strings, and what a whitelist permits. *)
From Coq Require Import ZArith List.
Import ListNotations.
Open Scope Z_scope.

(** An array of pointers holds these strings: they, then a null pointer; anything behind. *)
Definition env (l : list (list Z)) (m : list (option (list Z))) : Prop := exists rest, m = map Some l ++ None :: rest.
(** An entry KEY=VALUE whose key is in the list; the key ends at the first '=' (61) and has at most 255 characters. *)
Definition permitted (wl : list (list Z)) (e : list Z) : Prop :=
  exists k v, e = k ++ 61 :: v /\ ~ In 61 k /\ In k wl /\ (length k <= 255)%nat.
(** [k] is [l] without the elements that do not satisfy P, in the same order. *)
Inductive sub (P : list Z -> Prop) : list (list Z) -> list (list Z) -> Prop :=
  | sub_nil : sub P [] []
  | sub_keep x l k : P x -> sub P l k -> sub P (x :: l) (x :: k)
  | sub_drop x l k : ~ P x -> sub P l k -> sub P (x :: l) k.
