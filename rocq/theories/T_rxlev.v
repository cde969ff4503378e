(** C72: reception level statistics. *)
From Verif Require Import Base M_rxlev S_rxlev P_rxlev.
From Coq Require Import Sorted.

(** After any measurements, asking for the next channel after [a] (any negative number: from the start) at a level gives the lowest channel
    above [a] that was measured at that level, or -1 if there is none. Nothing is read or written outside the buckets, whatever the channel and the level. *)
Theorem C72_next : forall h level a, Forall input_ok h -> 0 <= level < 256 -> -32768 <= a <= 32767 ->
  exists st r, after h = Ok st /\ rxlev_stat_get_next st level a = Ok r /\
  ((r = -1 /\ forall x, Z.max a (-1) < x -> ~ measured h level x) \/
   (Z.max a (-1) < r /\ measured h level r /\ forall x, Z.max a (-1) < x < r -> ~ measured h level x)).
Proof.
  intros h level a F Hl Ha. destruct (after_inv h F) as (st & E & I). destruct (next_ok h st level a I Hl Ha) as (r & R & K). exists st, r.
  split; [exact E|]. split; [exact R|]. destruct K as [K|(K1 & K2)]; [left; exact K|right; split; [lia|exact K2]].
Qed.
Print Assumptions C72_next.
Example C72_next_nonvacuous :
  let h := [(871, 20); (1023, 63); (5, 31); (5, 20); (2000, 20); (871, 20)] in Forall input_ok h /\
  map (fun x => do st <- after h ;; rxlev_stat_get_next st (fst x) (snd x)) [(20, -7); (20, 5); (20, 871); (40, 5); (0, -1)] = [Ok 5; Ok 871; Ok (-1); Ok 1023; Ok (-1)].
Proof. split; [repeat constructor; cbn; lia|vm_compute; reflexivity]. Qed.

(** Going on from each answer visits, in ascending order and once each, exactly the channels measured at the level, and then ends. *)
Theorem C72_walk : forall h level, Forall input_ok h -> 0 <= level < 256 ->
  exists st l, after h = Ok st /\ dump_loop 1025 st level (-1) = Ok l /\ channels_of h level l.
Proof.
  intros h level F Hl. destruct (after_inv h F) as (st & E & I). destruct (dump_loop_ok h st level F I Hl 1025 (-1) ltac:(lia) ltac:(lia)) as (l & El & So & _ & In').
  exists st, l. split; [exact E|]. split; [exact El|]. split; [exact So|]. intros a. rewrite In'. split; [tauto|]. intros M. split; [pose proof (measured_nonneg _ _ _ F M); lia|exact M].
Qed.
Print Assumptions C72_walk.
Example C72_walk_nonvacuous :
  (do st <- after [(871, 20); (1023, 63); (5, 31); (5, 20); (2000, 20); (0, 20)] ;; dump_loop 1025 st 20 (-1)) = Ok [0; 5; 871].
Proof. vm_compute. reflexivity. Qed.

(** The dump has a line for each of the 32 levels, highest first, and each line has exactly the channels measured at its level, ascending. *)
Theorem C72_dump : forall h, Forall input_ok h -> exists st d, after h = Ok st /\ rxlev_stat_dump st = Ok d /\
  map fst d = rev (zseq 0 32) /\ Forall (fun x => channels_of h (fst x) (snd x)) d.
Proof.
  intros h F. destruct (after_inv h F) as (st & E & I). destruct (dump_levels_ok h st F I 32 ltac:(lia)) as (d & K). exists st, d. split; [exact E|exact K].
Qed.
Print Assumptions C72_dump.
Example C72_dump_nonvacuous :
  (do st <- after [(871, 20); (1023, 63); (5, 31); (5, 20)] ;; do d <- rxlev_stat_dump st ;; Ok (filter (fun x => negb (zlen (snd x) =? 0)) d)) = Ok [(31, [5; 1023]); (20, [5; 871])].
Proof. vm_compute. reflexivity. Qed.
