(** Proofs about pseudo random bit sequences. *)
From Verif Require Import Base M_prbs S_prbs.

Definition step (p : prbs) (s : Z) : Z := s_state (osmo_prbs_process_bit (St p s) (u8 (Z.land s 1))).
Fixpoint steps (p : prbs) (n : nat) (s : Z) : Z := match n with O => s | S n => steps p n (step p s) end.
Definition bit_of (s : Z) : Z := u8 (Z.land s 1).

Lemma nth_bit_steps p : forall k s, nth_bit (St p s) k = bit_of (steps p k s).
Proof.
  induction k as [|k IH]; intros s; [reflexivity|]. cbn [nth_bit steps]. unfold osmo_prbs_get_ubit. cbn [snd s_state].
  change (osmo_prbs_process_bit (St p s) (u8 (Z.land s 1))) with (St p (step p s)). apply IH.
Qed.
Lemma steps_add p a : forall b s, steps p (a + b) s = steps p b (steps p a s).
Proof. induction a as [|a IH]; intros b s; [reflexivity|]. cbn [steps plus]. apply IH. Qed.
Lemma steps_S p n s : steps p (S n) s = step p (steps p n s).
Proof. replace (S n) with (n + 1)%nat by lia. rewrite steps_add. reflexivity. Qed.

(** all states of a register satisfy what is checked by computation for each *)
Definition fb_check (p : prbs) (near far : nat) (s : Z) : bool :=
  (bit_of (steps p far s) =? Z.lxor (bit_of s) (bit_of (steps p (far - near) s))) && (0 <=? step p s) && (step p s <? 2 ^ Z.of_nat far).
(** walk once round: the numbers of steps at which state 1 comes back *)
Fixpoint first_return (p : prbs) (fuel : nat) (s : Z) (n : nat) : option nat :=
  match fuel with O => None | S f => let s' := step p s in if s' =? 1 then Some n else first_return p f s' (S n) end.
Lemma first_return_spec p : forall fuel s n r, first_return p fuel s n = Some r -> exists m, r = (n + m)%nat /\ steps p (S m) s = 1 /\ forall j, (j < m)%nat -> steps p (S j) s <> 1.
Proof.
  induction fuel as [|f IH]; intros s n r H; [discriminate H|]. cbn [first_return] in H. destruct (Z.eqb_spec (step p s) 1) as [E|N].
  - injection H as <-. exists 0%nat. split; [lia|]. split; [exact E|]. intros j L. lia.
  - destruct (IH _ _ _ H) as (m & -> & E & K). exists (S m). split; [lia|]. split; [exact E|]. intros j L. destruct j as [|j]; [exact N|].
    change (steps p (S (S j)) s) with (steps p (S j) (step p s)). apply K. lia.
Qed.

Lemma bit_is s : bit_of s = 0 \/ bit_of s = 1.
Proof.
  unfold bit_of. assert (E : Z.land s 1 = s mod 2) by (change 1 with (Z.ones 1); rewrite Z.land_ones by lia; reflexivity). rewrite E.
  pose proof (Z.mod_pos_bound s 2 ltac:(lia)). rewrite u8_small by (unfold is_byte; lia). lia.
Qed.

Section Reg.
  Variable p : prbs. Variables near far : nat.
  Hypothesis Near : (0 < near < far)%nat.
  Hypothesis FB : forall s, 0 <= s < 2 ^ Z.of_nat far -> fb_check p near far s = true.
  Lemma range k : forall s, 0 <= s < 2 ^ Z.of_nat far -> 0 <= steps p k s < 2 ^ Z.of_nat far.
  Proof.
    induction k as [|k IH]; intros s B; [exact B|]. cbn [steps]. apply IH. specialize (FB s B). unfold fb_check in FB.
    rewrite !andb_true_iff, Z.leb_le, Z.ltb_lt in FB. lia.
  Qed.
  Lemma one_range : 0 <= 1 < 2 ^ Z.of_nat far.
  Proof. split; [lia|]. apply (Z.pow_gt_1 2); lia. Qed.
  Lemma feedback : fed_back (nth_bit (osmo_prbs_state_init p)) near far.
  Proof.
    intros k. unfold osmo_prbs_state_init. rewrite !nth_bit_steps, !steps_add. split; [apply bit_is|]. pose proof (range k 1 one_range) as B. specialize (FB _ B). unfold fb_check in FB.
    rewrite !andb_true_iff, Z.eqb_eq in FB. tauto.
  Qed.
  Variable N : nat.
  Hypothesis R : steps p N 1 = 1.
  Hypothesis R0 : (0 < N)%nat.
  Hypothesis First : forall j, (0 < j < N)%nat -> steps p j 1 <> 1.
  Hypothesis Zero : step p 0 = 0.
  Hypothesis Words : forall a b, 0 <= a < 2 ^ Z.of_nat far -> 0 <= b < 2 ^ Z.of_nat far ->
     (forall i, (i < far)%nat -> bit_of (steps p i a) = bit_of (steps p i b)) -> a = b.
  Lemma distinct i j : (i < j < N)%nat -> steps p i 1 <> steps p j 1.
  Proof.
    intros L E. apply (First (i + (N - j))); [lia|]. rewrite steps_add, E, <- steps_add. replace (j + (N - j))%nat with N by lia. exact R.
  Qed.
  Lemma words_differ i j : (i < j < N)%nat -> word (nth_bit (osmo_prbs_state_init p)) far i <> word (nth_bit (osmo_prbs_state_init p)) far j.
  Proof.
    intros L E. apply (distinct i j L). apply Words; [apply range, one_range|apply range, one_range|].
    intros q Lq. unfold word, osmo_prbs_state_init in E.
    assert (K : nth q (map (fun x => nth_bit (St p 1) (i + x)) (seq 0 far)) 0 = nth q (map (fun x => nth_bit (St p 1) (j + x)) (seq 0 far)) 0) by (rewrite E; reflexivity).
    rewrite !(nth_indep _ 0 (nth_bit (St p 1) 0)) in K by (rewrite map_length, seq_length; exact Lq).
    rewrite (nth_indep _ (nth_bit (St p 1) 0) ((fun x => nth_bit (St p 1) (i + x)) 0%nat)) in K by (rewrite map_length, seq_length; exact Lq).
    rewrite (map_nth (fun x => nth_bit (St p 1) (i + x))) in K.
    rewrite (nth_indep _ (nth_bit (St p 1) 0) ((fun x => nth_bit (St p 1) (j + x)) 0%nat)) in K by (rewrite map_length, seq_length; exact Lq).
    rewrite (map_nth (fun x => nth_bit (St p 1) (j + x))) in K. rewrite !seq_nth in K by exact Lq. cbn [plus] in K.
    rewrite !nth_bit_steps, !steps_add in K. exact K.
  Qed.
  Lemma zero_stays k : steps p k 0 = 0.
  Proof. induction k as [|k IH]; [reflexivity|]. cbn [steps]. rewrite Zero. exact IH. Qed.
  Lemma comes_back k : steps p (k * N) 1 = 1.
  Proof. induction k as [|k IH]; [reflexivity|]. cbn [Nat.mul]. rewrite steps_add, R. exact IH. Qed.
  Lemma never_zero k : steps p k 1 <> 0.
  Proof.
    intros E. pose proof (comes_back k) as C. assert (L : (k <= k * N)%nat) by nia.
    replace (k * N)%nat with (k + (k * N - k))%nat in C by lia. rewrite steps_add, E, zero_stays in C. discriminate C.
  Qed.
  Lemma no_zero_word k : exists i, (i < far)%nat /\ nth_bit (osmo_prbs_state_init p) (k + i) <> 0.
  Proof.
    destruct (forallb (fun i => nth_bit (osmo_prbs_state_init p) (k + i) =? 0) (seq 0 far)) eqn:F.
    - exfalso. rewrite forallb_forall in F. apply (never_zero k). apply Words; [apply range, one_range|split; [lia|apply Z.pow_pos_nonneg; lia]|].
      intros i L. rewrite zero_stays. specialize (F i ltac:(apply in_seq; lia)). apply Z.eqb_eq in F. unfold osmo_prbs_state_init in F.
      rewrite nth_bit_steps, steps_add in F. exact F.
    - assert (G : forall l, forallb (fun i => nth_bit (osmo_prbs_state_init p) (k + i) =? 0) l = false -> exists i, In i l /\ nth_bit (osmo_prbs_state_init p) (k + i) <> 0).
      { induction l as [|a l IH]; cbn [forallb]; [discriminate|]. destruct (Z.eqb_spec (nth_bit (osmo_prbs_state_init p) (k + a)) 0).
        - cbn [andb]. intros H. destruct (IH H) as (i & I & K). exists i. split; [right; exact I|exact K].
        - intros _. exists a. split; [left; reflexivity|assumption]. }
      destruct (G _ F) as (i & I & K). apply in_seq in I. exists i. split; [lia|exact K].
  Qed.
  Lemma repeats k : nth_bit (osmo_prbs_state_init p) (k + N) = nth_bit (osmo_prbs_state_init p) k.
  Proof. unfold osmo_prbs_state_init. rewrite !nth_bit_steps, Nat.add_comm, steps_add, R. reflexivity. Qed.
  Lemma has_period : period (nth_bit (osmo_prbs_state_init p)) N.
  Proof.
    split; [exact R0|]. split; [apply repeats|]. intros m L.
    (* the words at 0 and m differ somewhere *)
    assert (D : word (nth_bit (osmo_prbs_state_init p)) far 0 <> word (nth_bit (osmo_prbs_state_init p)) far m) by (apply words_differ; lia).
    assert (G : forall l, map (fun i => nth_bit (osmo_prbs_state_init p) (0 + i)) l <> map (fun i => nth_bit (osmo_prbs_state_init p) (m + i)) l ->
       exists k, nth_bit (osmo_prbs_state_init p) (k + m) <> nth_bit (osmo_prbs_state_init p) k).
    { induction l as [|a l IH]; cbn [map]; intros H; [congruence|].
      destruct (Z.eq_dec (nth_bit (osmo_prbs_state_init p) (0 + a)) (nth_bit (osmo_prbs_state_init p) (m + a))) as [E|E].
      - apply IH. congruence.
      - exists a. rewrite Nat.add_comm. cbn [plus] in E. congruence. }
    exact (G _ D).
  Qed.
End Reg.


(** the next [n] bits, and the state they determine *)
Fixpoint outs (p : prbs) (n : nat) (s : Z) : list Z := match n with O => [] | S n => bit_of s :: outs p n (step p s) end.
Fixpoint dec (coeff : Z) (w : Z) (bits : list Z) : Z :=
  match bits with [] => 0 | b :: r => Z.lxor (if b =? 0 then 0 else Z.lxor w (2 * w * coeff)) (dec coeff (2 * w) r) end.
Lemma outs_eq p : forall n a b, (forall i, (i < n)%nat -> bit_of (steps p i a) = bit_of (steps p i b)) -> outs p n a = outs p n b.
Proof.
  induction n as [|n IH]; intros a b H; [reflexivity|]. cbn [outs]. f_equal; [exact (H 0%nat ltac:(lia))|]. apply IH. intros i L. exact (H (S i) ltac:(lia)).
Qed.
Definition all_check (p : prbs) (near far : nat) : bool :=
  forallb (fun s => fb_check p near far s && (Z.land (dec (p_coeff p) 1 (outs p far s)) (2 ^ Z.of_nat far - 1) =? s)) (zseq 0 (Z.to_nat (2 ^ Z.of_nat far))).
Lemma all_check_ok p near far : all_check p near far = true ->
  (forall s, 0 <= s < 2 ^ Z.of_nat far -> fb_check p near far s = true) /\
  (forall a b, 0 <= a < 2 ^ Z.of_nat far -> 0 <= b < 2 ^ Z.of_nat far ->
     (forall i, (i < far)%nat -> bit_of (steps p i a) = bit_of (steps p i b)) -> a = b).
Proof.
  intros C. assert (K : forall s, 0 <= s < 2 ^ Z.of_nat far -> fb_check p near far s && (Z.land (dec (p_coeff p) 1 (outs p far s)) (2 ^ Z.of_nat far - 1) =? s) = true).
  { intros s B. apply (forall_zseq (fun s => fb_check p near far s && (Z.land (dec (p_coeff p) 1 (outs p far s)) (2 ^ Z.of_nat far - 1) =? s)) 0 (Z.to_nat (2 ^ Z.of_nat far)) C s). rewrite Z2Nat.id by (apply Z.pow_nonneg; lia). exact B. }
  split.
  - intros s B. specialize (K s B). rewrite andb_true_iff in K. tauto.
  - intros a b A B H. pose proof (K a A) as Ka. pose proof (K b B) as Kb. rewrite andb_true_iff, Z.eqb_eq in Ka, Kb.
    rewrite <- (proj2 Ka), <- (proj2 Kb), (outs_eq p far a b H). reflexivity.
Qed.
Lemma return_ok p n : first_return p (S n) 1 1 = Some n -> (0 < n)%nat -> steps p n 1 = 1 /\ forall j, (0 < j < n)%nat -> steps p j 1 <> 1.
Proof.
  intros H L. destruct (first_return_spec _ _ _ _ _ H) as (m & E & R & K). assert (n = S m) by lia. subst n. split; [exact R|].
  intros j J. destruct j as [|j]; [lia|]. apply K. lia.
Qed.
Lemma c7 : all_check osmo_prbs7 6 7 = true. Proof. vm_compute. reflexivity. Qed.
Lemma c9 : all_check osmo_prbs9 5 9 = true. Proof. vm_compute. reflexivity. Qed.
Lemma c11 : all_check osmo_prbs11 9 11 = true. Proof. vm_compute. reflexivity. Qed.
Lemma c15 : all_check osmo_prbs15 14 15 = true. Proof. vm_compute. reflexivity. Qed.
Definition cyc (p : prbs) (w : Z) : bool := match first_return p (S (Z.to_nat (2 ^ w - 1))) 1 1 with Some r => (r =? Z.to_nat (2 ^ w - 1))%nat | None => false end.
Lemma cyc_ok p w : cyc p w = true -> first_return p (S (Z.to_nat (2 ^ w - 1))) 1 1 = Some (Z.to_nat (2 ^ w - 1)).
Proof. unfold cyc. destruct (first_return _ _ _ _); [|discriminate]. intros E. apply Nat.eqb_eq in E. rewrite E. reflexivity. Qed.
Lemma r7 : cyc osmo_prbs7 7 = true. Proof. vm_compute. reflexivity. Qed.
Lemma r9 : cyc osmo_prbs9 9 = true. Proof. vm_compute. reflexivity. Qed.
Lemma r11 : cyc osmo_prbs11 11 = true. Proof. vm_compute. reflexivity. Qed.
Lemma r15 : cyc osmo_prbs15 15 = true. Proof. vm_compute. reflexivity. Qed.

(** the state after [n] bits *)
Definition state_after (st : prbs_state) (n : nat) : prbs_state := St (s_prbs st) (steps (s_prbs st) n (s_state st)).
Lemma nth_bit_S st k : nth_bit st (S k) = nth_bit (state_after st 1) k.
Proof. destruct st. reflexivity. Qed.
Lemma wr_mid {A} (a r : list A) x v i : i = zlen a -> wr (a ++ x :: r) i v = Ok (a ++ v :: r).
Proof.
  intros ->. unfold wr, zlen. destruct (Z.ltb_spec (Z.of_nat (length a)) 0); [lia|].
  destruct (Z.leb_spec (Z.of_nat (length (a ++ x :: r))) (Z.of_nat (length a))) as [H0|H0]; [rewrite app_length in H0; cbn [length] in H0; lia|].
  f_equal. rewrite Nat2Z.id. clear. induction a as [|y a IH]; [reflexivity|]. cbn [app length upd]. rewrite IH. reflexivity.
Qed.
Lemma loop_ok : forall n pre mid rest st, length mid = n ->
  ubits_loop n (zlen pre) (pre ++ mid ++ rest) st = Ok (zlen pre + Z.of_nat n, pre ++ map (nth_bit st) (seq 0 n) ++ rest, state_after st n).
Proof.
  induction n as [|n IH]; intros pre mid rest st L.
  - destruct mid; [|discriminate L]. cbn [ubits_loop seq map app]. unfold state_after. cbn [steps]. destruct st. cbn. repeat f_equal. lia.
  - destruct mid as [|m mid]; [discriminate L|]. cbn [ubits_loop]. unfold osmo_prbs_get_ubit at 1. cbv zeta beta iota.
    assert (Wr : wr (pre ++ (m :: mid) ++ rest) (zlen pre) (u8 (Z.land (s_state st) 1)) = Ok ((pre ++ [nth_bit st 0]) ++ mid ++ rest)).
    { cbn [app]. rewrite (wr_mid pre (mid ++ rest) m _ (zlen pre) eq_refl), <- app_assoc. reflexivity. }
    rewrite Wr. cbn [bind]. replace (zlen pre + 1) with (zlen (pre ++ [nth_bit st 0])) by (unfold zlen; rewrite app_length; cbn [length]; lia).
    rewrite IH by (cbn in L; lia). destruct st as [p s].
    change (osmo_prbs_process_bit (St p s) (u8 (Z.land (s_state (St p s)) 1))) with (St p (step p s)).
    f_equal. f_equal. f_equal.
    + unfold zlen. rewrite app_length. cbn [length]. lia.
    + rewrite <- app_assoc. f_equal. cbn [seq map app]. f_equal. f_equal. rewrite <- seq_shift, map_map. apply map_ext. intros k. reflexivity.
Qed.
