(** A vector is a map from slots to pointers, all NULL at first. *)
From Verif Require Import Base M_vector.

Inductive op := Set_ (val : Z) | SetAt (i val : Z) | Unset (i : Z) | LookupEnsure (i : Z).
(** What a call returns, 0 if nothing, and the vector afterwards *)
Definition run (v : vec) (o : op) : res (Z * vec) :=
  match o with
  | Set_ val => vector_set v val
  | SetAt i val => vector_set_index v i val
  | Unset i => do v <- vector_unset v i ;; Ok (0, v)
  | LookupEnsure i => vector_lookup_ensure v i
  end.
Fixpoint run_all (v : vec) (h : list op) : res vec := match h with [] => Ok v | o :: h => do x <- run v o ;; run_all (snd x) h end.
(** Slots are 32 bit numbers; memory suffices for fewer than 2^30 slots *)
Definition op_ok (o : op) : Prop := match o with Set_ _ => True | SetAt i _ | LookupEnsure i => 0 <= i < 2 ^ 30 | Unset i => 0 <= i < 2 ^ 32 end.
Definition history_ok (size : Z) (h : list op) : Prop := 0 <= size < 2 ^ 32 /\ Forall op_ok h /\ zlen h < 2 ^ 30.

(** The map [m] before, the call, its result, and the map [m'] after: only the slot named changes *)
Definition effect (m : Z -> Z) (o : op) (r : Z) (m' : Z -> Z) : Prop :=
  match o with
  | Set_ val => 0 <= r /\ m r = 0 /\ (forall j, 0 <= j < r -> m j <> 0) /\ forall j, 0 <= j -> m' j = if j =? r then val else m j
  | SetAt i val => r = i /\ forall j, 0 <= j -> m' j = if j =? i then val else m j
  | Unset i => forall j, 0 <= j -> m' j = if j =? i then 0 else m j
  | LookupEnsure i => r = m i /\ forall j, 0 <= j -> m' j = m j
  end.
(** The vector shows map [m] *)
Definition shows (v : vec) (m : Z -> Z) : Prop := forall i, 0 <= i < 2 ^ 32 -> vector_lookup v i = Ok (m i).
(** Only pointers other than NULL are stored *)
Definition stores_pointer (o : op) : Prop := match o with Set_ val | SetAt _ val => val <> 0 | _ => True end.
