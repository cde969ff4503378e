(* T_nri.v - C28: NRI values in a TMSI and lists of NRI ranges *)
From Verif Require Import Base Str M_num M_nri S_nri P_nri.

(* osmo_tmsi_nri_v_get reads the bits TS 23.236 assigns to the NRI; other bit lengths are refused and report -1 *)
Theorem C28_get : forall tmsi n, 0 <= tmsi < 2 ^ 32 ->
  (1 <= n <= 15 -> osmo_tmsi_nri_v_get tmsi n = (0, nri_of tmsi n)) /\ (~ 1 <= n <= 15 -> osmo_tmsi_nri_v_get tmsi n = (-1, -1)).
Proof. intros. split; [apply get_spec; assumption|apply bad_bitlen_get]. Qed.
Print Assumptions C28_get.

(* osmo_tmsi_nri_v_set: succeeds exactly for bit lengths 1..15 and non-negative values; a failure changes nothing; afterwards the
   NRI is the value (its low bits) and every other bit of the TMSI is as before *)
Theorem C28_set : forall tmsi v n, 0 <= tmsi < 2 ^ 32 -> -32768 <= v <= 32767 ->
  (fst (osmo_tmsi_nri_v_set tmsi v n) = 0 <-> 1 <= n <= 15 /\ 0 <= v) /\
  (fst (osmo_tmsi_nri_v_set tmsi v n) <> 0 -> osmo_tmsi_nri_v_set tmsi v n = (-1, tmsi)) /\
  (1 <= n <= 15 -> 0 <= v ->
    let t := snd (osmo_tmsi_nri_v_set tmsi v n) in
    0 <= t < 2 ^ 32 /\ nri_of t n = v mod 2 ^ n /\ forall i, 0 <= i -> ~ in_nri n i -> Z.testbit t i = Z.testbit tmsi i).
Proof.
  intros tmsi v n Ht Hv. split; [apply set_rc|]. split; [apply set_fail|]. intros Hn H0 t. split; [apply set_range; lia|]. split; [apply get_set; lia|].
  intros i Hi NI. unfold t. rewrite set_bits by lia. unfold in_nri in NI. replace ((24 - n <=? i) && (i <=? 23)) with false by lia. reflexivity.
Qed.
Print Assumptions C28_set.

(* osmo_nri_v_validate *)
Theorem C28_validate : forall v n,
  osmo_nri_v_validate v n = if v <? 0 then -1 else if (1 <=? n) && ((v <? 2 ^ n) || (15 <=? n)) then 0 else 1.
Proof. exact v_validate_spec. Qed.
Print Assumptions C28_validate.

(* adding and deleting: the list stays sorted with gaps and stands for the union / the difference *)
Theorem C28_add : forall l a b, normal l -> 0 <= a <= b -> b <= 32767 ->
  exists l', osmo_nri_ranges_add l (a, b) = (0, l') /\ normal l' /\ forall v, has l' v <-> has l v \/ a <= v <= b.
Proof. exact add_spec. Qed.
Print Assumptions C28_add.
Theorem C28_del : forall l a b, normal l -> 0 <= a <= b ->
  exists l', osmo_nri_ranges_del l (a, b) = (0, l') /\ normal l' /\ forall v, has l' v <-> has l v /\ ~ a <= v <= b.
Proof. exact del_spec. Qed.
Print Assumptions C28_del.
Theorem C28_invalid : forall l a b, ~ (0 <= a <= b) -> osmo_nri_ranges_add l (a, b) = (-1, l) /\ osmo_nri_ranges_del l (a, b) = (-1, l).
Proof. intros. split; [apply add_invalid|apply del_invalid]; assumption. Qed.
Print Assumptions C28_invalid.

(* every history of add and delete requests, valid or not, from the empty list *)
Theorem C28_history : forall rs, Forall wf_request rs ->
  let l := fold_right (fun r l => match r with Add a b => snd (osmo_nri_ranges_add l (a, b)) | Del a b => snd (osmo_nri_ranges_del l (a, b)) end) [] rs in
  normal l /\ forall v, osmo_nri_v_matches_ranges v l = true <-> wanted rs v.
Proof.
  intros rs H l. destruct (replay_spec rs H) as [N S]. split; [exact N|]. intros v. rewrite matches_spec. apply S.
Qed.
Print Assumptions C28_history.

Theorem C28_overlaps : forall l a b, normal l -> 0 <= a <= b ->
  (osmo_nri_range_overlaps_ranges (a, b) l = true <-> exists v, has l v /\ a <= v <= b).
Proof. intros l a b N H. apply (overlaps_spec l (a, b)); [exact H|apply (gaps_vr 0); [lia|exact N]]. Qed.
Print Assumptions C28_overlaps.

(* limiting a value: the (v mod count)-th of the values of the ranges below 2^bitlen; every one of them can be reached *)
Theorem C28_limit_exact : forall v l bl, 0 <= v <= 32767 -> 1 <= bl <= 15 -> valid_ranges l -> 0 < zlen (values bl l) < 2 ^ 32 ->
  osmo_nri_v_limit_by_ranges v l bl = Ok (0, nth (Z.to_nat (v mod zlen (values bl l))) (values bl l) 0).
Proof. exact limit_spec. Qed.
Print Assumptions C28_limit_exact.
Theorem C28_limit : forall l bl, normal l -> 1 <= bl <= 15 -> (exists x, has l x /\ x < 2 ^ bl) ->
  (forall v, 0 <= v <= 32767 -> exists w, osmo_nri_v_limit_by_ranges v l bl = Ok (0, w) /\ has l w /\ 0 <= w < 2 ^ bl) /\
  (forall w, has l w -> w < 2 ^ bl -> exists v, 0 <= v <= 32767 /\ osmo_nri_v_limit_by_ranges v l bl = Ok (0, w)).
Proof. exact limit_normal. Qed.
Print Assumptions C28_limit.
(* documented to return a negative code when nothing is available; the code divides by zero *)
Theorem C28_limit_nothing_refuted : forall v l bl, 0 <= v -> 1 <= bl <= 15 -> valid_ranges l -> values bl l = [] ->
  osmo_nri_v_limit_by_ranges v l bl = UB.
Proof. exact limit_empty. Qed.
Print Assumptions C28_limit_nothing_refuted.
Theorem C28_tmsi_limit : forall tmsi l n, 0 <= tmsi < 2 ^ 32 -> 1 <= n <= 15 -> normal l -> (exists x, has l x /\ x < 2 ^ n) ->
  exists t, osmo_tmsi_nri_v_limit_by_ranges tmsi l n = Ok (0, t) /\ has l (nri_of t n) /\ 0 <= t < 2 ^ 32 /\
    (forall i, 0 <= i -> ~ in_nri n i -> Z.testbit t i = Z.testbit tmsi i).
Proof. exact tmsi_limit. Qed.
Print Assumptions C28_tmsi_limit.

(* VTY: decimal and 0x texts of a value mean that value *)
Theorem C28_vty : forall l a b n, normal l -> 0 <= a <= b -> b <= 32767 ->
  exists rc l', osmo_nri_ranges_vty_add l (dec a) (Some (bs "0x" ++ hex b)) n = (rc, l') /\
    (rc = 0 \/ rc = 1) /\ (rc = 1 <-> n < 1 \/ (n < 15 /\ 2 ^ n <= b)) /\ normal l' /\ forall v, has l' v <-> has l v \/ a <= v <= b.
Proof.
  intros l a b n N H Hb. unfold osmo_nri_ranges_vty_add, osmo_nri_parse_range.
  rewrite (proj1 (parse_spec a ltac:(lia))), (proj2 (parse_spec b ltac:(lia))). destruct (add_spec l a b N H Hb) as (l' & E & N' & S). rewrite E. cbn [Z.eqb negb].
  assert (V : (osmo_nri_range_validate (a, b) n =? 0) = (1 <=? n) && ((b <? 2 ^ n) || (15 <=? n))).
  { unfold osmo_nri_range_validate, first, last. cbn [fst snd]. rewrite !v_validate_spec. replace (a <? 0) with false by lia. replace (b <? 0) with false by lia.
    destruct (Z.leb_spec 1 n); cbn [andb]; [|reflexivity]. destruct (Z.leb_spec 15 n); [rewrite !orb_true_r; cbn [Z.eqb negb]; replace (a >? b) with false by lia; reflexivity|]. rewrite !orb_false_r.
    destruct (Z.ltb_spec b (2 ^ n)); [replace (a <? 2 ^ n) with true by lia; cbn [Z.eqb negb]; replace (a >? b) with false by lia; reflexivity|].
    destruct (a <? 2 ^ n); reflexivity. }
  rewrite V. unfold NRI_BITLEN_MAX.
  destruct (Z.leb_spec n 15); cbn [andb].
  - destruct (Z.leb_spec 1 n); cbn [andb negb]; [|exists 1, l'; split; [reflexivity|]; split; [auto|]; split; [split; auto; lia|auto]].
    destruct (Z.leb_spec 15 n); [rewrite orb_true_r; cbn [negb]; exists 0, l'; split; [reflexivity|]; split; [auto|]; split; [split; lia|auto]|].
    rewrite orb_false_r. destruct (Z.ltb_spec b (2 ^ n)); cbn [negb]; [exists 0, l'|exists 1, l']; (split; [reflexivity|]; split; [auto|]; split; [|auto]); split; try lia; auto.
  - exists 0, l'. split; [reflexivity|]. split; [auto|]. split; [split; lia|auto].
Qed.
Print Assumptions C28_vty.

Theorem C28_vty_del : forall l a b, normal l -> 0 <= a <= b -> b <= 32767 ->
  exists l', osmo_nri_ranges_vty_del l (dec a) (Some (bs "0x" ++ hex b)) = (0, l') /\ normal l' /\
    forall v, has l' v <-> has l v /\ ~ a <= v <= b.
Proof.
  intros l a b N H Hb. unfold osmo_nri_ranges_vty_del, osmo_nri_parse_range.
  rewrite (proj1 (parse_spec a ltac:(lia))), (proj2 (parse_spec b ltac:(lia))). destruct (del_spec l a b N H) as (l' & E & R). rewrite E. exists l'. auto.
Qed.
Print Assumptions C28_vty_del.

(* the printed list ("like 23..42,123..142") does not identify the ranges: the comma is never printed *)
Theorem C28_text_identifies_ranges_refuted : exists l m, normal l /\ normal m /\ (exists v, has l v /\ ~ has m v) /\ osmo_nri_ranges_to_str l = osmo_nri_ranges_to_str m.
Proof.
  exists [(1, 23); (25, 326)], [(1, 2); (325, 326)]. split; [cbn; lia|]. split; [cbn; lia|]. split; [|vm_compute; reflexivity].
  exists 10. split; [exists 1, 23; cbn; split; [auto|lia]|]. intros (a & b & H & V). cbn in H. destruct H as [E|[E|[]]]; injection E as <- <-; lia.
Qed.
Print Assumptions C28_text_identifies_ranges_refuted.

Example C28_nonvacuous :
  snd (osmo_nri_ranges_add [(10, 20); (30, 40); (50, 60)] (15, 49)) = [(10, 60)] /\
  snd (osmo_nri_ranges_del [(10, 60)] (21, 29)) = [(10, 20); (30, 60)] /\ normal [(10, 20); (30, 40); (50, 60)] /\
  osmo_tmsi_nri_v_set 4294967295 5 10 = (0, 4278288383) /\ osmo_tmsi_nri_v_get 4278288383 10 = (0, 5) /\
  osmo_nri_v_limit_by_ranges 25 [(10, 20); (30, 40)] 10 = Ok (0, 13) /\ wf_request (Add 3 5).
Proof. repeat split; try (vm_compute; reflexivity); try (cbn; lia). Qed.
