(** ITU-T O.150: sequences of maximal length from shift registers with two taps. *)
From Verif Require Import Base M_prbs.

(** Every element is a bit, and every bit is the sum modulo two of the bits [near] and [far] places before it (the outputs of these stages of the register) *)
Definition fed_back (seq : nat -> Z) (near far : nat) : Prop := forall k, (seq k = 0 \/ seq k = 1) /\ seq (k + far)%nat = Z.lxor (seq k) (seq (k + (far - near))%nat).
(** The sequence repeats after [n] bits and not earlier *)
Definition period (seq : nat -> Z) (n : nat) : Prop :=
  (0 < n)%nat /\ (forall k, seq (k + n)%nat = seq k) /\ forall m, (0 < m < n)%nat -> exists k, seq (k + m)%nat <> seq k.
(** The word of [w] bits at position [k] *)
Definition word (seq : nat -> Z) (w k : nat) : list Z := map (fun i => seq (k + i)%nat) (List.seq 0 w).

(** The bits delivered one after another from a state on *)
Fixpoint nth_bit (st : prbs_state) (k : nat) : Z := match k with O => fst (osmo_prbs_get_ubit st) | S k => nth_bit (snd (osmo_prbs_get_ubit st)) k end.
