(** C74: vectors of pointers. *)
From Verif Require Import Base M_vector S_vector P_vector.

(** A new vector, of any size, shows NULL in all slots. *)
Theorem C74_new : forall size, 0 <= size < 2 ^ 32 -> shows (vector_init size) (fun _ => 0).
Proof. intros size H i Hi. destruct (init_ok size H) as (I & _ & Z0). rewrite (lookup_ok 0 _ I i Hi), Z0. reflexivity. Qed.
Print Assumptions C74_new.
Example C74_new_nonvacuous : map (vector_lookup (vector_init 3)) [0; 2; 3; 4000000000] = [Ok 0; Ok 0; Ok 0; Ok 0].
Proof. vm_compute. reflexivity. Qed.

(** After any calls, a further call does to the map what is said of it, and returns what is said: storing anywhere uses the lowest empty slot
    and says which; the other calls use the slot given; no other slot changes, however the vector has to grow. *)
Theorem C74_call : forall size h o, history_ok size (h ++ [o]) ->
  exists v m r v' m', run_all (vector_init size) h = Ok v /\ shows v m /\ run v o = Ok (r, v') /\ shows v' m' /\ effect m o r m'.
Proof.
  intros size h o (Hs & F & L). apply Forall_app in F. destruct F as (F & Fo). inversion Fo; subst. rewrite zlen_app in L. change (zlen [o]) with 1 in L.
  destruct (init_ok size Hs) as (I & _ & _). destruct (run_all_ok h 0 _ I) as (v & E & Iv & _); [lia|lia|exact F|]. rewrite Z.add_0_l in Iv. pose proof (zlen_nonneg h).
  destruct (run_ok (zlen h) v o Iv) as (r & v' & E' & I' & Ef & _); [lia|assumption|].
  exists v, (at0 (index v)), r, v', (at0 (index v')). split; [exact E|]. split; [exact (lookup_ok _ _ Iv)|]. split; [exact E'|]. split; [exact (lookup_ok _ _ I')|exact Ef].
Qed.
Print Assumptions C74_call.
Example C74_call_nonvacuous : let h := [Set_ 7; SetAt 5 8; Unset 0; Set_ 9; Set_ 10; LookupEnsure 40; SetAt 2 0; Unset 5; Set_ 11; Unset 4000000000] in history_ok 0 (h ++ [Set_ 12]) /\
  (do v <- run_all (vector_init 0) h ;; do x <- run v (Set_ 12) ;; Ok (fst x, active (snd x), firstn 5 (index (snd x)), zlen (index (snd x)))) = Ok (3, 4, [9; 10; 11; 12; 0], 64).
Proof. split; [|vm_compute; reflexivity]. split; [lia|]. split; [|cbn; lia]. cbn [app]. repeat (apply Forall_cons; [cbn [op_ok]; try exact Logic.I; lia|]). apply Forall_nil. Qed.

(** The count is the number of slots that are not NULL. *)
Theorem C74_count : forall size h, history_ok size h -> exists v m l, run_all (vector_init size) h = Ok v /\ shows v m /\ vector_count v = Ok (zlen l) /\
  NoDup l /\ forall i, 0 <= i < 2 ^ 32 -> (In i l <-> m i <> 0).
Proof.
  intros size h (Hs & F & L). destruct (init_ok size Hs) as (I & _ & _). destruct (run_all_ok h 0 _ I) as (v & E & Iv & _); [lia|lia|exact F|].
  exists v, (at0 (index v)), (filter (fun j => negb (at0 (index v) j =? 0)) (zseq 0 (Z.to_nat (active v)))). split; [exact E|]. split; [exact (lookup_ok _ _ Iv)|]. destruct Iv as (La & A & _ & Z0).
  split; [unfold vector_count; rewrite count_ok by lia; f_equal|]. split.
  - apply NoDup_filter. assert (G : forall n s, NoDup (zseq s n) /\ forall x, In x (zseq s n) -> s <= x).
    { induction n as [|n IH]; intros s; cbn [zseq]; [split; [constructor|intros x []]|]. destruct (IH (s + 1)) as (N & B). split; [constructor; [intros X; apply B in X; lia|exact N]|]. intros x [<-|X]; [lia|apply B in X; lia]. }
    apply G.
  - intros i Hi. rewrite filter_In. assert (G : forall n s x, In x (zseq s n) <-> s <= x < s + Z.of_nat n).
    { induction n as [|n IH]; intros s x; cbn [zseq In]; [lia|]. rewrite IH. lia. }
    rewrite G. destruct (Z.eqb_spec (at0 (index v) i) 0) as [X|X]; cbn [negb]; [split; [intros (_ & K); discriminate|contradiction]|]. split; [auto|]. intros _. split; [|reflexivity].
    destruct (Z_lt_ge_dec i (active v)); [lia|]. exfalso. apply X, Z0. lia.
Qed.
Print Assumptions C74_count.
Example C74_count_nonvacuous : (do v <- run_all (vector_init 0) [Set_ 7; SetAt 5 8; Unset 0; SetAt 9 4; Set_ 3] ;; vector_count v) = Ok 3.
Proof. vm_compute. reflexivity. Qed.

(** All slots from the number of active slots on are NULL; if NULL was never stored, that number is the lowest of which this holds. *)
Theorem C74_active : forall size h, history_ok size h -> exists v m, run_all (vector_init size) h = Ok v /\ shows v m /\ 0 <= active v < 2 ^ 31 /\
  (forall i, active v <= i -> m i = 0) /\ (Forall stores_pointer h -> active v = 0 \/ m (active v - 1) <> 0).
Proof.
  intros size h (Hs & F & L). destruct (init_ok size Hs) as (I & T & _). destruct (run_all_ok h 0 _ I) as (v & E & Iv & Tv); [lia|lia|exact F|].
  exists v, (at0 (index v)). split; [exact E|]. split; [exact (lookup_ok _ _ Iv)|]. destruct Iv as (La & A & B & Z0). split; [lia|]. split; [exact Z0|]. intros S. exact (Tv T S).
Qed.
Print Assumptions C74_active.
Example C74_active_nonvacuous : map (fun h => do v <- run_all (vector_init 1) h ;; Ok (active v))
  [[SetAt 9 4; Set_ 3]; [SetAt 9 4; Set_ 3; Unset 9]; [SetAt 9 4; Unset 9]; [SetAt 9 4; SetAt 7 1; Unset 7; Unset 9; Set_ 5]] = [Ok 10; Ok 1; Ok 0; Ok 1].
Proof. vm_compute. reflexivity. Qed.

(** The bound on the slots is needed: when the number of slots doubles beyond 32 bits, memory that was not allocated is written. *)
Theorem C74_wrap_refuted : exists size i, 0 <= size < 2 ^ 32 /\ 0 <= i < 2 ^ 32 /\ forall val, vector_set_index (vector_init size) i val = UB.
Proof.
  exists (2 ^ 31), (2 ^ 31). split; [lia|]. split; [lia|]. intros val. unfold vector_set_index, vector_ensure. change 33%nat with (S 32).
  assert (L : zlen (repeat 0 (Z.to_nat (2 ^ 31))) = 2 ^ 31) by (unfold zlen; rewrite repeat_length; apply Z2Nat.id; lia).
  unfold vector_init. change (2 ^ 31 =? 0) with false. cbv iota zeta. remember (repeat 0 (Z.to_nat (2 ^ 31))) as l. rewrite ensure_S, L. rewrite Z.ltb_irrefl. reflexivity.
Qed.
Print Assumptions C74_wrap_refuted.
