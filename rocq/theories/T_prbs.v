(** C70: the pseudo random bit sequences are those of ITU-T O.150. *)
From Verif Require Import Base M_prbs S_prbs P_prbs.

(** The sequence a generator delivers from its initialisation on, bit by bit *)
Notation from_start p := (nth_bit (osmo_prbs_state_init p)) (only parsing).
Definition n_of (w : Z) : nat := Z.to_nat (2 ^ w - 1).

(** Every bit, at any position of the sequence, is the sum modulo two of the outputs of the two stages that O.150 names: 6 and 7, 5 and 9,
    9 and 11, 14 and 15. *)
Theorem C70_feedback :
  fed_back (from_start osmo_prbs7) 6 7 /\ fed_back (from_start osmo_prbs9) 5 9 /\
  fed_back (from_start osmo_prbs11) 9 11 /\ fed_back (from_start osmo_prbs15) 14 15.
Proof.
  split; [|split; [|split]]; apply feedback; try lia; apply all_check_ok; [exact c7|exact c9|exact c11|exact c15].
Qed.
Print Assumptions C70_feedback.
Example C70_feedback_nonvacuous : map (from_start osmo_prbs7) (seq 0 14) = [1; 0; 0; 0; 0; 0; 1; 1; 0; 0; 0; 0; 1; 0].
Proof. reflexivity. Qed.

(** Maximal length: the sequences repeat after exactly 2^w - 1 bits, no earlier, for ever. *)
Theorem C70_period :
  period (from_start osmo_prbs7) (n_of 7) /\ period (from_start osmo_prbs9) (n_of 9) /\
  period (from_start osmo_prbs11) (n_of 11) /\ period (from_start osmo_prbs15) (n_of 15).
Proof.
  assert (G : forall p near far, (0 < near < far)%nat -> all_check p near far = true -> cyc p (Z.of_nat far) = true -> (0 < n_of (Z.of_nat far))%nat ->
    period (from_start p) (n_of (Z.of_nat far))).
  { intros p near far N C Y L. destruct (all_check_ok _ _ _ C) as (A & B). destruct (return_ok _ _ (cyc_ok _ _ Y) L) as (R & D).
    exact (has_period p near far N A _ R L D B). }
  split; [|split; [|split]].
  - apply (G osmo_prbs7 6%nat 7%nat); [lia|exact c7|exact r7|apply Nat.ltb_lt; vm_compute; reflexivity].
  - apply (G osmo_prbs9 5%nat 9%nat); [lia|exact c9|exact r9|apply Nat.ltb_lt; vm_compute; reflexivity].
  - apply (G osmo_prbs11 9%nat 11%nat); [lia|exact c11|exact r11|apply Nat.ltb_lt; vm_compute; reflexivity].
  - apply (G osmo_prbs15 14%nat 15%nat); [lia|exact c15|exact r15|apply Nat.ltb_lt; vm_compute; reflexivity].
Qed.
Print Assumptions C70_period.
Example C70_period_nonvacuous : n_of 7 = 127%nat /\ nth_bit (osmo_prbs_state_init osmo_prbs7) 127 = 1 /\ nth_bit (osmo_prbs_state_init osmo_prbs7) 1 = 0.
Proof. split; [|split]; reflexivity. Qed.

(** Within a period no word of w bits comes twice, and nowhere in the sequence are there w zeros in a row: the sequence cannot get
    stuck. *)
Theorem C70_words :
  forall p near far, In (p, near, far) [(osmo_prbs7, 6, 7); (osmo_prbs9, 5, 9); (osmo_prbs11, 9, 11); (osmo_prbs15, 14, 15)]%nat ->
   (forall i j, (i < j < n_of (Z.of_nat far))%nat -> word (from_start p) far i <> word (from_start p) far j) /\
   (forall k, exists i, (i < far)%nat /\ from_start p (k + i) <> 0).
Proof.
  assert (G : forall p near far, (0 < near < far)%nat -> all_check p near far = true -> cyc p (Z.of_nat far) = true -> (0 < n_of (Z.of_nat far))%nat -> step p 0 = 0 ->
    (forall i j, (i < j < n_of (Z.of_nat far))%nat -> word (from_start p) far i <> word (from_start p) far j) /\
    (forall k, exists i, (i < far)%nat /\ from_start p (k + i) <> 0)).
  { intros p near far N C Y L Z0. destruct (all_check_ok _ _ _ C) as (A & B). destruct (return_ok _ _ (cyc_ok _ _ Y) L) as (R & D). split.
    - intros i j. apply (words_differ p near far N A (n_of (Z.of_nat far)) R L D B).
    - intros k. apply (no_zero_word p near far N A (n_of (Z.of_nat far)) R L D Z0 B). }
  intros p near far [E|[E|[E|[E|[]]]]]; injection E as <- <- <-.
  - apply (G osmo_prbs7 6%nat 7%nat); [lia|exact c7|exact r7|apply Nat.ltb_lt; vm_compute; reflexivity|reflexivity].
  - apply (G osmo_prbs9 5%nat 9%nat); [lia|exact c9|exact r9|apply Nat.ltb_lt; vm_compute; reflexivity|reflexivity].
  - apply (G osmo_prbs11 9%nat 11%nat); [lia|exact c11|exact r11|apply Nat.ltb_lt; vm_compute; reflexivity|reflexivity].
  - apply (G osmo_prbs15 14%nat 15%nat); [lia|exact c15|exact r15|apply Nat.ltb_lt; vm_compute; reflexivity|reflexivity].
Qed.
Print Assumptions C70_words.
Example C70_words_nonvacuous : word (from_start osmo_prbs7) 7 0 = [1; 0; 0; 0; 0; 0; 1] /\ word (from_start osmo_prbs7) 7 1 = [0; 0; 0; 0; 0; 1; 1].
Proof. split; reflexivity. Qed.

(** Filling a buffer: the next bits of the sequence, as many as asked for, from the start of the buffer, the number is returned and the rest is
    untouched; going on with a second buffer continues the sequence where the first one ended, so that it does not matter how the
    bits are divided into calls. *)
Theorem C70_fill : forall st buf rest,
  (exists st', osmo_prbs_get_ubits (buf ++ rest) (zlen buf) st = Ok (zlen buf, map (nth_bit st) (seq 0 (length buf)) ++ rest, st') /\
   forall k, nth_bit st' k = nth_bit st (length buf + k)) /\
  (forall buf2 st1 n1 out1, osmo_prbs_get_ubits buf (zlen buf) st = Ok (n1, out1, st1) ->
   exists st2 out2, osmo_prbs_get_ubits buf2 (zlen buf2) st1 = Ok (zlen buf2, out2, st2) /\
   osmo_prbs_get_ubits (buf ++ buf2) (zlen buf + zlen buf2) st = Ok (zlen buf + zlen buf2, out1 ++ out2, st2)).
Proof.
  intros st buf rest.
  assert (F : forall b r s, osmo_prbs_get_ubits (b ++ r) (zlen b) s = Ok (zlen b, map (nth_bit s) (seq 0 (length b)) ++ r, state_after s (length b))).
  { intros b r s. unfold osmo_prbs_get_ubits, zlen. rewrite Nat2Z.id. exact (loop_ok (length b) [] b r s eq_refl). }
  assert (K : forall n s k, nth_bit (state_after s n) k = nth_bit s (n + k)).
  { intros n [p s] k. unfold state_after. cbn [s_prbs s_state]. rewrite !nth_bit_steps, steps_add. reflexivity. }
  split.
  - exists (state_after st (length buf)). split; [apply F|apply K].
  - intros buf2 st1 n1 out1 E. pose proof (F buf [] st) as F1. rewrite !app_nil_r in F1. rewrite F1 in E. injection E as <- <- <-.
    pose proof (F buf2 [] (state_after st (length buf))) as F2. rewrite !app_nil_r in F2. eexists. eexists. split; [exact F2|].
    replace (zlen buf + zlen buf2) with (zlen (buf ++ buf2)) by (unfold zlen; rewrite app_length; lia).
    pose proof (F (buf ++ buf2) [] st) as F3. rewrite !app_nil_r in F3. rewrite F3. rewrite app_length. f_equal. f_equal.
    + f_equal. rewrite seq_app, map_app. f_equal. cbn [plus]. rewrite <- (Nat.add_0_r (length buf)) at 1.
      clear F1 F2 F3. generalize 0%nat as z. induction (length buf2) as [|n IH]; intros z; [reflexivity|]. cbn [seq map]. rewrite K. f_equal. rewrite <- IH. rewrite Nat.add_succ_r. reflexivity.
    + destruct st as [p s]. unfold state_after. cbn [s_prbs s_state]. rewrite steps_add. reflexivity.
Qed.
Print Assumptions C70_fill.
Example C70_fill_nonvacuous : exists st, osmo_prbs_get_ubits (repeat 9 9) 7 (osmo_prbs_state_init osmo_prbs7) = Ok (7, [1; 0; 0; 0; 0; 0; 1; 9; 9], st).
Proof. eexists. reflexivity. Qed.
