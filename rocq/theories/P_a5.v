(* P_a5.v - the register words of a5.c are the shift registers of the specification *)
From Verif Require Import Base S_a5 M_a5.

Definition bitsof (n : nat) (r : Z) : list bool := map (fun i => Z.testbit r (Z.of_nat i)) (seq 0 n).
Definition R (n : nat) (r : Z) (l : list bool) : Prop := 0 <= r < 2 ^ Z.of_nat n /\ l = bitsof n r.

Lemma bitn_bits n r i : (i < n)%nat -> bitn (bitsof n r) i = Z.testbit r (Z.of_nat i).
Proof.
  intros H. unfold bitn, bitsof. rewrite (nth_indep _ false (Z.testbit r (Z.of_nat 0))) by (rewrite map_length, seq_length; lia).
  rewrite map_nth with (f := fun i => Z.testbit r (Z.of_nat i)). now rewrite seq_nth by lia.
Qed.

Lemma testbit_mask n i : 0 <= n -> 0 <= i -> Z.testbit (Z.shiftl 1 n - 1) i = (i <? n).
Proof. intros. rewrite Z.shiftl_1_l. replace (2 ^ n - 1) with (Z.ones n) by (rewrite Z.ones_equiv; lia). now rewrite Z.testbit_ones_nonneg by lia. Qed.

Lemma land_pow r k : 0 <= k -> (Z.land r (2 ^ k) =? 0) = negb (Z.testbit r k).
Proof.
  intros Hk. destruct (Z.eqb_spec (Z.land r (2 ^ k)) 0) as [E|E].
  - assert (X : Z.testbit (Z.land r (2 ^ k)) k = false) by (rewrite E; apply Z.testbit_0_l).
    rewrite Z.land_spec, Z.pow2_bits_true, andb_true_r in X by lia. now rewrite X.
  - destruct (Z.testbit r k) eqn:T; auto. exfalso. apply E. apply Z.bits_inj'. intros i Hi. rewrite Z.land_spec, Z.testbit_0_l.
    rewrite Z.pow2_bits_eqb by lia. destruct (Z.eqb_spec k i) as [<-|]; [now rewrite T|apply andb_false_r].
Qed.
Lemma nz_pow r k : 0 <= k -> nz (Z.land r (2 ^ k)) = Z.b2z (Z.testbit r k).
Proof. intros. unfold nz. rewrite land_pow by auto. now rewrite negb_involutive. Qed.
Lemma nz_lnot r k : 0 <= k < 32 -> nz (Z.land (u32 (Z.lnot r)) (2 ^ k)) = Z.b2z (negb (Z.testbit r k)).
Proof.
  intros. rewrite nz_pow by lia. f_equal. unfold u32. change 4294967296 with (2 ^ 32). rewrite Z.mod_pow2_bits_low by lia. now rewrite Z.lnot_spec by lia.
Qed.

Lemma nibble y : 0 <= y < 16 -> Z.land (Z.shiftr 0x6996 y) 1 =
  Z.b2z (xorb (xorb (Z.testbit y 0) (Z.testbit y 1)) (xorb (Z.testbit y 2) (Z.testbit y 3))).
Proof.
  intros H. apply Z.eqb_eq. revert y H.
  assert (G : forallb (fun y => Z.land (Z.shiftr 0x6996 y) 1 =? Z.b2z (xorb (xorb (Z.testbit y 0) (Z.testbit y 1)) (xorb (Z.testbit y 2) (Z.testbit y 3)))) (zseq 0 16) = true) by reflexivity.
  intros y H. rewrite forallb_forall in G. apply (G y). apply zseq_In. lia.
Qed.

Ltac par_tac := intros r; unfold a5_12_parity;
  match goal with |- Z.land (Z.shiftr _ (Z.land ?x _)) 1 = _ =>
    let y := fresh "y" in set (y := Z.land x 0xf);
    assert (Y0 : Z.testbit y 0 = Z.testbit x 0) by (unfold y; rewrite Z.land_spec; apply andb_true_r);
    assert (Y1 : Z.testbit y 1 = Z.testbit x 1) by (unfold y; rewrite Z.land_spec; apply andb_true_r);
    assert (Y2 : Z.testbit y 2 = Z.testbit x 2) by (unfold y; rewrite Z.land_spec; apply andb_true_r);
    assert (Y3 : Z.testbit y 3 = Z.testbit x 3) by (unfold y; rewrite Z.land_spec; apply andb_true_r);
    assert (YR : 0 <= y < 16) by (unfold y; change 15 with (Z.ones 4); rewrite Z.land_ones by lia; apply Z.mod_pos_bound; lia);
    rewrite (nibble y YR), Y0, Y1, Y2, Y3; clear;
    repeat (rewrite ?Z.lxor_spec, ?Z.shiftr_spec by lia; cbn [Z.add Pos.add Pos.succ Pos.add_carry]);
    rewrite !Z.land_spec
  end.
Ltac ev r := repeat match goal with |- context [Z.testbit ?t ?k] => match t with r => fail 1 | _ => let v := eval vm_compute in (Z.testbit t k) in change (Z.testbit t k) with v end end.
Ltac fin_par r := ev r; rewrite ?andb_false_r, ?andb_true_r, ?xorb_false_l, ?xorb_false_r; unfold fb, T1, T2, T3, T4; cbn [map fold_right];
  rewrite !bitn_bits by lia; cbn [Z.of_nat Pos.of_succ_nat Pos.succ]; f_equal; rewrite xorb_false_r;
  repeat match goal with |- context [Z.testbit r ?k] => destruct (Z.testbit r k) end; reflexivity.
Lemma par1 : forall r, a5_12_parity (Z.land r A5_R1_TAPS) = Z.b2z (fb T1 (bitsof 19 r)).
Proof. par_tac. fin_par r. Qed.
Lemma par2 : forall r, a5_12_parity (Z.land r A5_R2_TAPS) = Z.b2z (fb T2 (bitsof 22 r)).
Proof. par_tac. fin_par r. Qed.
Lemma par3 : forall r, a5_12_parity (Z.land r A5_R3_TAPS) = Z.b2z (fb T3 (bitsof 23 r)).
Proof. par_tac. fin_par r. Qed.
Lemma par4 : forall r, a5_12_parity (Z.land r A5_R4_TAPS) = Z.b2z (fb T4 (bitsof 17 r)).
Proof. par_tac. fin_par r. Qed.

(* register words by their bits *)
Lemma R_intro n r l : 0 <= r -> (forall i, Z.of_nat n <= i -> Z.testbit r i = false) -> length l = n ->
  (forall i, (i < n)%nat -> nth i l false = Z.testbit r (Z.of_nat i)) -> R n r l.
Proof.
  intros H0 Hhi L Hl. split.
  - split; auto. destruct (Z.lt_ge_cases r (2 ^ Z.of_nat n)) as [?|G]; auto. exfalso.
    assert (P : 0 < r) by (pose proof (pow2_pos (Z.of_nat n) ltac:(lia)); lia).
    assert (Lg : Z.of_nat n <= Z.log2 r) by (apply Z.log2_le_pow2; auto).
    pose proof (Z.bit_log2 r P) as B. rewrite Hhi in B by auto. discriminate.
  - apply (nth_ext _ _ false false); [unfold bitsof; rewrite map_length, seq_length; auto|]. intros i Hi. rewrite Hl by lia. rewrite L in Hi.
    symmetry. exact (bitn_bits n r i Hi).
Qed.
Lemma R_bit n r l i : R n r l -> (i < n)%nat -> bitn l i = Z.testbit r (Z.of_nat i).
Proof. intros [_ ->] H. now apply bitn_bits. Qed.
Lemma R_hi n r l i : R n r l -> Z.of_nat n <= i -> Z.testbit r i = false.
Proof. intros [H _] Hi. apply (testbit_above r (Z.of_nat n)); auto; lia. Qed.
Lemma R_len n r l : R n r l -> length l = n.
Proof. intros [_ ->]. unfold bitsof. now rewrite map_length, seq_length. Qed.

Lemma clock_R n r l taps T : (1 <= n <= 31)%nat -> R n r l -> a5_12_parity (Z.land r taps) = Z.b2z (fb T (bitsof n r)) ->
  R n (a5_12_clock r (Z.shiftl 1 (Z.of_nat n) - 1) taps) (step T l).
Proof.
  intros Hn HR HP. pose proof (R_len _ _ _ HR) as L. unfold a5_12_clock. rewrite HP. replace (bitsof n r) with l by apply HR. unfold step.
  set (p := fb T l). destruct HR as [Hr Hl]. assert (HR : R n r l) by (split; auto). clear Hl.
  assert (TB : forall i, 0 <= i -> Z.testbit (Z.lor (Z.land (u32 (Z.shiftl r 1)) (Z.shiftl 1 (Z.of_nat n) - 1)) (Z.b2z p)) i =
     if i =? 0 then p else if i <? Z.of_nat n then Z.testbit r (i - 1) else false).
  { intros i Hi. rewrite Z.lor_spec, Z.land_spec, testbit_mask by lia. destruct (Z.eqb_spec i 0) as [-> |N].
    - replace (Z.testbit (Z.b2z p) 0) with p by (destruct p; reflexivity). unfold u32. change 4294967296 with (2 ^ 32). rewrite Z.mod_pow2_bits_low by lia.
      rewrite Z.shiftl_spec_low by lia. reflexivity.
    - replace (Z.testbit (Z.b2z p) i) with false by (destruct p; [symmetry; apply (testbit_above 1 1); lia|symmetry; apply Z.testbit_0_l]). rewrite orb_false_r.
      destruct (Z.ltb_spec i (Z.of_nat n)); [|apply andb_false_r]. rewrite andb_true_r. unfold u32. change 4294967296 with (2 ^ 32). rewrite Z.mod_pow2_bits_low by lia. apply Z.shiftl_spec. lia. }
  assert (Ne : l <> []) by (intros ->; cbn in L; lia).
  assert (LR : length (removelast l) = (n - 1)%nat).
  { pose proof (app_removelast_last false Ne) as A. apply (f_equal (@length bool)) in A. rewrite app_length in A. cbn [length] in A. lia. }
  apply R_intro.
  - apply Z.lor_nonneg. split; [|destruct p; cbn; lia]. apply Z.land_nonneg. left. unfold u32. apply Z.mod_pos_bound. lia.
  - intros i Hi. rewrite TB by lia. replace (i =? 0) with false by lia. replace (i <? Z.of_nat n) with false by lia. reflexivity.
  - cbn [length]. lia.
  - intros [|i] Hi; rewrite TB by lia; [reflexivity|]. cbn [nth]. replace (Z.of_nat (S i) =? 0) with false by lia. replace (Z.of_nat (S i) <? Z.of_nat n) with true by lia.
    replace (Z.of_nat (S i) - 1) with (Z.of_nat i) by lia. rewrite <- (R_bit n r l i HR) by lia. unfold bitn.
    rewrite (app_removelast_last false Ne) at 2. rewrite app_nth1 by lia. reflexivity.
Qed.
Lemma c1 r l : R 19 r l -> R 19 (a5_12_clock r A5_R1_MASK A5_R1_TAPS) (step T1 l).
Proof. intros H. apply (clock_R 19); auto; [lia|apply par1]. Qed.
Lemma c2 r l : R 22 r l -> R 22 (a5_12_clock r A5_R2_MASK A5_R2_TAPS) (step T2 l).
Proof. intros H. apply (clock_R 22); auto; [lia|apply par2]. Qed.
Lemma c3 r l : R 23 r l -> R 23 (a5_12_clock r A5_R3_MASK A5_R3_TAPS) (step T3 l).
Proof. intros H. apply (clock_R 23); auto; [lia|apply par3]. Qed.
Lemma c4 r l : R 17 r l -> R 17 (a5_12_clock r A5_R4_MASK A5_R4_TAPS) (step T4 l).
Proof. intros H. apply (clock_R 17); auto; [lia|apply par4]. Qed.

Lemma inject_R n r l b : (1 <= n)%nat -> R n r l -> R n (Z.lxor r (Z.b2z b)) (inject b l).
Proof.
  intros Hn HR. pose proof (R_len _ _ _ HR) as L. destruct l as [|x t]; [cbn in L; lia|]. cbn [inject].
  assert (TB : forall i, 0 < i -> Z.testbit (Z.b2z b) i = false) by (intros; destruct b; [apply (testbit_above 1 1); lia|apply Z.testbit_0_l]).
  apply R_intro.
  - apply Z.lxor_nonneg. split; intros; [destruct b; cbn; lia|]. apply HR.
  - intros i Hi. rewrite Z.lxor_spec, TB by lia. rewrite (R_hi _ _ _ i HR) by auto. reflexivity.
  - exact L.
  - intros [|i] Hi; rewrite Z.lxor_spec; cbn [nth].
    + replace (Z.testbit (Z.b2z b) (Z.of_nat 0)) with b by (destruct b; reflexivity). rewrite <- (R_bit _ _ _ 0 HR) by auto. reflexivity.
    + rewrite TB by lia. rewrite xorb_false_r. rewrite <- (R_bit _ _ _ (S i) HR) by auto. reflexivity.
Qed.
Lemma setbit_R n r l k : (k < n)%nat -> R n r l -> R n (Z.lor r (Z.shiftl 1 (Z.of_nat k))) (setbit k l).
Proof.
  intros Hk HR. pose proof (R_len _ _ _ HR) as L. rewrite Z.shiftl_1_l. unfold setbit. apply R_intro.
  - apply Z.lor_nonneg. split; [apply HR|]. apply Z.pow_nonneg. lia.
  - intros i Hi. rewrite Z.lor_spec, (R_hi _ _ _ i HR) by auto. rewrite Z.pow2_bits_false by lia. reflexivity.
  - now rewrite upd_length.
  - intros i Hi. rewrite Z.lor_spec, Z.pow2_bits_eqb by lia. rewrite <- (R_bit _ _ _ i HR) by auto. unfold bitn.
    destruct (Nat.eq_dec i k) as [-> |Ne].
    + rewrite Z.eqb_refl, orb_true_r. apply upd_nth_same. lia.
    + replace (Z.of_nat k =? Z.of_nat i) with false by lia. rewrite orb_false_r. apply upd_nth_other. auto.
Qed.
Lemma R_zero n : R n 0 (zero n).
Proof.
  apply R_intro; [lia|intros; apply Z.testbit_0_l|apply repeat_length|]. intros i Hi. rewrite Z.testbit_0_l. unfold zero. apply nth_repeat.
Qed.
Lemma top_R n r l : R (S n) r l -> Z.shiftr r (Z.of_nat n) = Z.b2z (bitn l n).
Proof.
  intros HR. rewrite (R_bit _ _ _ n HR) by lia. rewrite Z.shiftr_div_pow2 by lia. rewrite Z.testbit_spec' by lia.
  symmetry. apply Z.mod_small. destruct HR as [[H0 H1] _]. split; [apply Z.div_pos; auto; apply pow2_pos; lia|].
  apply Z.div_lt_upper_bound; [apply pow2_pos; lia|]. rewrite Nat2Z.inj_succ, Z.pow_succ_r in H1 by lia. lia.
Qed.

(* ---- A5/1 ---- *)
Definition R3 (r : regs3) (s : st1) : Prop := let '(a, b, c) := r in let '(x, y, z) := s in R 19 a x /\ R 22 b y /\ R 23 c z.
Lemma majority_b a b c : a5_12_majority (Z.b2z a) (Z.b2z b) (Z.b2z c) = Z.b2z (maj a b c).
Proof. destruct a, b, c; reflexivity. Qed.
Lemma b2z_eqb a b : (Z.b2z a =? Z.b2z b) = Bool.eqb b a. Proof. destruct a, b; reflexivity. Qed.
Lemma clock1_R r s : R3 r s -> R3 (a5_1_clock r false) (a51_clock s).
Proof.
  destruct r as [[a b] c], s as [[x y] z]. intros (H1 & H2 & H3). unfold a5_1_clock, a51_clock. cbn [orb].
  change 0x100 with (2 ^ 8). change 0x400 with (2 ^ 10). rewrite !nz_pow by lia. change 8 with (Z.of_nat 8). change 10 with (Z.of_nat 10).
  rewrite <- (R_bit _ _ _ 8 H1), <- (R_bit _ _ _ 10 H2), <- (R_bit _ _ _ 10 H3) by lia. rewrite majority_b, !b2z_eqb.
  split; [|split].
  - destruct (Bool.eqb _ _); auto using c1.
  - destruct (Bool.eqb _ _); auto using c2.
  - destruct (Bool.eqb _ _); auto using c3.
Qed.
Lemma load1_R r s b : R3 r s -> R3 (a5_1_load (Z.b2z b) r) (a51_load s b).
Proof.
  destruct r as [[a c] d], s as [[x y] z]. intros (H1 & H2 & H3). unfold a5_1_load, a5_1_clock, a51_load, a51_all. cbn [orb].
  split; [|split]; apply inject_R; try lia; auto using c1, c2, c3.
Qed.
Lemma out1_R r s : R3 r s -> a5_1_get_output r = Z.b2z (a51_out s).
Proof.
  destruct r as [[a c] d], s as [[x y] z]. intros (H1 & H2 & H3). unfold a5_1_get_output, a51_out.
  change 18 with (Z.of_nat 18). change 21 with (Z.of_nat 21). change 22 with (Z.of_nat 22).
  rewrite (top_R _ _ _ H1), (top_R _ _ _ H2), (top_R _ _ _ H3). destruct (bitn x 18), (bitn y 21), (bitn z 22); reflexivity.
Qed.
Lemma iter1_R n r s : R3 r s -> R3 (repeat_ n (fun r => a5_1_clock r false) r) (iter n a51_clock s).
Proof. revert r s. induction n; intros; cbn [repeat_ iter]; auto using clock1_R. Qed.
Lemma outs1_R n : forall r s, R3 r s -> fst (a5_1_outs n r) = map Z.b2z (stream a51_clock a51_out n s) /\ R3 (snd (a5_1_outs n r)) (iter n a51_clock s).
Proof.
  induction n as [|n IH]; intros r s H; cbn [a5_1_outs stream iter map fst snd]; auto.
  apply clock1_R in H. destruct (IH _ _ H) as [I1 I2]. destruct (a5_1_outs n (a5_1_clock r false)) as [l r']. cbn [fst snd] in *.
  split; [|exact I2]. rewrite I1. f_equal. apply out1_R; auto.
Qed.
Lemma stream_app {A} (clk : A -> A) out a b s : stream clk out (a + b) s = stream clk out a s ++ stream clk out b (iter a clk s).
Proof. revert s. induction a; intros; cbn [Nat.add stream iter app]; auto. now rewrite IHa. Qed.
Lemma stream_length {A} (clk : A -> A) out n s : length (stream clk out n s) = n.
Proof. revert s. induction n; intros; cbn; auto. Qed.

(* key and frame bits *)
Lemma keybit key i : length key = 8%nat -> 0 <= i < 64 ->
  exists k, rd key (7 - Z.shiftr i 3) = Ok k /\ Z.land (Z.shiftr k (Z.land i 7)) 1 = Z.b2z (key_bit key (Z.to_nat i)).
Proof.
  intros L Hi. rewrite Z.shiftr_div_pow2 by lia. change (2 ^ 3) with 8. change 7 with (Z.ones 3) at 2. rewrite Z.land_ones by lia. change (2 ^ 3) with 8.
  assert (L' : zlen key = 8) by (unfold zlen; lia).
  exists (at0 key (7 - i / 8)). split; [apply rd_at0; lia|].
  unfold key_bit, at0. replace (Z.to_nat (7 - i / 8)) with (7 - Z.to_nat i / 8)%nat.
  2: { rewrite Z2Nat.inj_sub by lia. f_equal. rewrite Z2Nat.inj_div by lia. reflexivity. }
  replace (Z.of_nat (Z.to_nat i mod 8)) with (i mod 8) by (rewrite Nat2Z.inj_mod, Z2Nat.id by lia; reflexivity).
  change 1 with (Z.ones 1). rewrite Z.land_ones by lia. rewrite <- Z.bit0_mod. rewrite Z.shiftr_spec by lia. reflexivity.
Qed.
Lemma load_list_R l r s (f : Z -> Z) : R3 r s -> (forall i, In i l -> f i = Z.b2z (Z.testbit (f i) 0)) ->
  R3 (fold_left (fun r i => a5_1_load (f i) r) l r) (fold_left a51_load (map (fun i => Z.testbit (f i) 0) l) s).
Proof.
  revert r s. induction l as [|i l IH]; intros r s H F; cbn [fold_left map]; auto. apply IH; [|intros; apply F; right; auto].
  rewrite (F i) by (left; auto). rewrite Z.b2z_bit0. apply load1_R. auto.
Qed.
Lemma key1_R key : length key = 8%nat -> forall l r s, R3 r s -> (forall i, In i l -> 0 <= i < 64) ->
  exists r', a5_1_key key l r = Ok r' /\ R3 r' (fold_left a51_load (map (fun i => key_bit key (Z.to_nat i)) l) s).
Proof.
  intros L. induction l as [|i l IH]; intros r s H F; cbn [a5_1_key map fold_left]; [eauto|].
  destruct (keybit key i L (F i ltac:(left; auto))) as (k & -> & E). cbn [bind]. rewrite E. apply IH; [apply load1_R; auto|]. intros; apply F; right; auto.
Qed.
Lemma map_zseq {A} (f : nat -> A) n : map (fun i => f (Z.to_nat i)) (zseq 0 n) = map f (seq 0 n).
Proof.
  assert (G : forall k, map (fun i => f (Z.to_nat i)) (zseq (Z.of_nat k) n) = map f (seq k n)).
  { induction n as [|m IH]; intros k; [reflexivity|]. cbn [zseq seq map]. rewrite Nat2Z.id. f_equal. rewrite <- IH. do 2 f_equal. lia. }
  exact (G 0%nat).
Qed.

(* the frame count *)
Lemma fn_count_spec fn : 0 <= fn < 2715648 -> exists c, osmo_a5_fn_count fn = Ok c /\ 0 <= c < 2 ^ 22 /\ forall i, 0 <= i < 22 -> Z.testbit c i = fn_bit fn (Z.to_nat i).
Proof.
  intros H. unfold osmo_a5_fn_count.
  assert (S : forall x, 0 <= x < 65536 -> s32 x = x).
  { intros x Hx. unfold s32, u32. rewrite Z.mod_small by lia. replace (x <? 2147483648) with true by lia. reflexivity. }
  assert (B1 : 0 <= fn / 1326 < 2048) by lia. assert (B2 : 0 <= fn mod 26 < 26) by (apply Z.mod_pos_bound; lia). assert (B3 : 0 <= fn mod 51 < 51) by (apply Z.mod_pos_bound; lia).
  change (26 * 51) with 1326. rewrite !S by lia. unfold fn_bit. revert B1 B2 B3. generalize (fn / 1326) as t1, (fn mod 26) as t2, (fn mod 51) as t3. intros t1 t2 t3 B1 B2 B3.
  assert (Sh : Z.shiftl t1 11 = t1 * 2048) by (rewrite Z.shiftl_mul_pow2 by lia; reflexivity).
  replace ((t1 <? 0) || (2 ^ 31 <=? Z.shiftl t1 11)) with false by (rewrite Sh; lia).
  assert (TB : forall i, 0 <= i -> Z.testbit (Z.lor (Z.lor (Z.shiftl t1 11) (Z.shiftl t3 5)) t2) i =
     if i <? 5 then Z.testbit t2 i else if i <? 11 then Z.testbit t3 (i - 5) else Z.testbit t1 (i - 11)).
  { intros i Hi. rewrite !Z.lor_spec, !Z.shiftl_spec by lia. destruct (Z.ltb_spec i 5).
    - rewrite !Z.testbit_neg_r by lia. reflexivity.
    - rewrite (testbit_above t2 5) by (change (2 ^ 5) with 32; lia). rewrite orb_false_r. destruct (Z.ltb_spec i 11).
      + rewrite (Z.testbit_neg_r t1) by lia. reflexivity.
      + rewrite (testbit_above t3 6) by (change (2 ^ 6) with 64; lia). apply orb_false_r. }
  set (c := Z.lor (Z.lor (Z.shiftl t1 11) (Z.shiftl t3 5)) t2) in *.
  assert (C0 : 0 <= c) by (unfold c; apply Z.lor_nonneg; split; [apply Z.lor_nonneg; split; apply Z.shiftl_nonneg; lia|lia]).
  assert (C : R 22 c (bitsof 22 c)).
  { apply R_intro; [exact C0| |reflexivity|intros; apply bitn_bits; auto].
    intros i Hi. rewrite TB by lia. replace (i <? 5) with false by lia. replace (i <? 11) with false by lia. apply (testbit_above t1 11); [change (2 ^ 11) with 2048; lia|lia]. }
  destruct C as [C _]. exists c. split; [f_equal; apply u32_small; unfold is_u32; change (2 ^ Z.of_nat 22) with 4194304 in C; lia|]. split; [exact C|].
  intros i Hi. rewrite Z2Nat.id by lia. apply TB. lia.
Qed.
Lemma fn1_R fn c r s : (forall i, 0 <= i < 22 -> Z.testbit c i = fn_bit fn (Z.to_nat i)) -> R3 r s ->
  R3 (a5_1_fn c r) (fold_left a51_load (map (fn_bit fn) (seq 0 22)) s).
Proof.
  intros H HR. unfold a5_1_fn. rewrite <- map_zseq.
  replace (map (fun i => fn_bit fn (Z.to_nat i)) (zseq 0 22)) with (map (fun i => Z.testbit (Z.land (Z.shiftr c i) 1) 0) (zseq 0 22)).
  - apply load_list_R; auto. intros i _. change 1 with (Z.ones 1). rewrite Z.land_ones by lia. rewrite <- Z.bit0_mod. now rewrite Z.b2z_bit0.
  - apply map_ext_in. intros i Hi. apply zseq_In in Hi. rewrite <- H by lia. rewrite Z.land_spec, Z.shiftr_spec by lia. apply andb_true_r.
Qed.

Lemma a5_1_spec key fn dl ul : length key = 8%nat -> 0 <= fn < 2715648 ->
  a5_1 key fn dl ul = Ok (if dl then Some (map Z.b2z (firstn 114 (a51_stream key fn))) else None,
                          if ul then Some (map Z.b2z (skipn 114 (a51_stream key fn))) else None).
Proof.
  intros L Hf. unfold a5_1.
  destruct (key1_R key L (zseq 0 64) (0, 0, 0) (zero 19, zero 22, zero 23)) as (r & -> & HR).
  { split; [apply R_zero|split; apply R_zero]. } { intros i Hi. apply zseq_In in Hi. lia. }
  cbn [bind]. destruct (fn_count_spec fn Hf) as (c & -> & _ & Hc). cbn [bind].
  rewrite (map_zseq (key_bit key)) in HR. apply (fn1_R fn c) in HR; auto. rewrite <- fold_left_app in HR. fold (load_bits key fn) in HR.
  apply (iter1_R 100) in HR. unfold a51_stream. change 228%nat with (114 + 114)%nat. rewrite stream_app.
  rewrite firstn_app, skipn_app, stream_length, Nat.sub_diag, firstn_O, app_nil_r, skipn_O.
  rewrite firstn_all2, skipn_all2 by (rewrite stream_length; lia). cbn [app].
  destruct (outs1_R 114 _ _ HR) as [O1 HR2]. destruct (a5_1_outs 114 _) as [l1 r1]. cbn [fst snd] in O1, HR2. subst l1.
  destruct (outs1_R 114 _ _ HR2) as [O2 _]. destruct (a5_1_outs 114 r1) as [l2 r2]. cbn [fst] in O2. subst l2. reflexivity.
Qed.

(* ---- A5/2 ---- *)
Definition R4 (r : regs4) (s : st2) : Prop := let '(a, b, c, d) := r in let '(x, y, z, w) := s in R 19 a x /\ R 22 b y /\ R 23 c z /\ R 17 d w.
Lemma clock2_R r s : R4 r s -> R4 (a5_2_clock r false) (a52_clock s).
Proof.
  destruct r as [[[a b] c] d], s as [[[x y] z] w]. intros (H1 & H2 & H3 & H4). unfold a5_2_clock, a52_clock. cbn [orb].
  change 0x400 with (2 ^ 10). change 0x8 with (2 ^ 3). change 0x80 with (2 ^ 7). rewrite !nz_pow by lia.
  change 10 with (Z.of_nat 10). change 3 with (Z.of_nat 3). change 7 with (Z.of_nat 7).
  rewrite <- (R_bit _ _ _ 10 H4), <- (R_bit _ _ _ 3 H4), <- (R_bit _ _ _ 7 H4) by lia.
  replace (Z.b2z (2 <=? Z.b2z (bitn w 10) + Z.b2z (bitn w 3) + Z.b2z (bitn w 7))) with (Z.b2z (maj (bitn w 10) (bitn w 3) (bitn w 7)))
    by (destruct (bitn w 10), (bitn w 3), (bitn w 7); reflexivity).
  rewrite !b2z_eqb. split; [|split; [|split]].
  - destruct (Bool.eqb _ _); auto using c1.
  - destruct (Bool.eqb _ _); auto using c2.
  - destruct (Bool.eqb _ _); auto using c3.
  - auto using c4.
Qed.
Lemma load2_R r s b : R4 r s -> R4 (a5_2_load (Z.b2z b) r) (a52_load s b).
Proof.
  destruct r as [[[a c] d] e], s as [[[x y] z] w]. intros (H1 & H2 & H3 & H4). unfold a5_2_load, a5_2_clock, a52_load, a52_all. cbn [orb].
  split; [|split; [|split]]; apply inject_R; try lia; auto using c1, c2, c3, c4.
Qed.
Lemma majority_nz a b c x y z : nz a = Z.b2z x -> nz b = Z.b2z y -> nz c = Z.b2z z -> a5_12_majority a b c = Z.b2z (maj x y z).
Proof. intros A B C. unfold a5_12_majority. rewrite A, B, C. destruct x, y, z; reflexivity. Qed.
Lemma out2_R r s : R4 r s -> a5_2_get_output r = Z.b2z (a52_out s).
Proof.
  destruct r as [[[a c] d] e], s as [[[x y] z] w]. intros (H1 & H2 & H3 & _). unfold a5_2_get_output, a52_out.
  assert (P : forall n r l k, R n r l -> (k < n)%nat -> nz (Z.land r (2 ^ Z.of_nat k)) = Z.b2z (bitn l k)).
  { intros n r l k HR Hk. rewrite nz_pow by lia. now rewrite <- (R_bit _ _ _ k HR). }
  assert (Q : forall n r l k, R n r l -> (k < n)%nat -> (n < 32)%nat -> nz (Z.land (u32 (Z.lnot r)) (2 ^ Z.of_nat k)) = Z.b2z (negb (bitn l k))).
  { intros n r l k HR Hk Hn. rewrite nz_lnot by lia. now rewrite <- (R_bit _ _ _ k HR). }
  change 0x8000 with (2 ^ Z.of_nat 15). change 0x4000 with (2 ^ Z.of_nat 14). change 0x1000 with (2 ^ Z.of_nat 12). change 0x10000 with (2 ^ Z.of_nat 16). change 0x2000 with (2 ^ Z.of_nat 13). change 0x200 with (2 ^ Z.of_nat 9). change 0x40000 with (2 ^ Z.of_nat 18).
  rewrite (majority_nz _ _ _ _ _ _ (P 19%nat a x 15%nat H1 ltac:(lia)) (Q 19%nat a x 14%nat H1 ltac:(lia) ltac:(lia)) (P 19%nat a x 12%nat H1 ltac:(lia))).
  rewrite (majority_nz _ _ _ _ _ _ (Q 22%nat c y 16%nat H2 ltac:(lia) ltac:(lia)) (P 22%nat c y 13%nat H2 ltac:(lia)) (P 22%nat c y 9%nat H2 ltac:(lia))).
  rewrite (majority_nz _ _ _ _ _ _ (P 23%nat d z 18%nat H3 ltac:(lia)) (P 23%nat d z 16%nat H3 ltac:(lia)) (Q 23%nat d z 13%nat H3 ltac:(lia) ltac:(lia))).
  change 18 with (Z.of_nat 18). change 21 with (Z.of_nat 21). change 22 with (Z.of_nat 22).
  rewrite (top_R _ _ _ H1), (top_R _ _ _ H2), (top_R _ _ _ H3).
  generalize (maj (bitn x 15) (negb (bitn x 14)) (bitn x 12)), (maj (negb (bitn y 16)) (bitn y 13) (bitn y 9)), (maj (bitn z 18) (bitn z 16) (negb (bitn z 13))).
  intros [] [] []; destruct (bitn x 18), (bitn y 21), (bitn z 22); reflexivity.
Qed.
Lemma iter2_R n r s : R4 r s -> R4 (repeat_ n (fun r => a5_2_clock r false) r) (iter n a52_clock s).
Proof. revert r s. induction n; intros; cbn [repeat_ iter]; auto using clock2_R. Qed.
Lemma outs2_R n : forall r s, R4 r s -> fst (a5_2_outs n r) = map Z.b2z (stream a52_clock a52_out n s) /\ R4 (snd (a5_2_outs n r)) (iter n a52_clock s).
Proof.
  induction n as [|n IH]; intros r s H; cbn [a5_2_outs stream iter map fst snd]; auto.
  apply clock2_R in H. destruct (IH _ _ H) as [I1 I2]. destruct (a5_2_outs n (a5_2_clock r false)) as [l r']. cbn [fst snd] in *.
  split; [|exact I2]. rewrite I1. f_equal. apply out2_R; auto.
Qed.
Lemma load_list2_R l r s (f : Z -> Z) : R4 r s -> (forall i, In i l -> f i = Z.b2z (Z.testbit (f i) 0)) ->
  R4 (fold_left (fun r i => a5_2_load (f i) r) l r) (fold_left a52_load (map (fun i => Z.testbit (f i) 0) l) s).
Proof.
  revert r s. induction l as [|i l IH]; intros r s H F; cbn [fold_left map]; auto. apply IH; [|intros; apply F; right; auto].
  rewrite (F i) by (left; auto). rewrite Z.b2z_bit0. apply load2_R. auto.
Qed.
Lemma key2_R key : length key = 8%nat -> forall l r s, R4 r s -> (forall i, In i l -> 0 <= i < 64) ->
  exists r', a5_2_key key l r = Ok r' /\ R4 r' (fold_left a52_load (map (fun i => key_bit key (Z.to_nat i)) l) s).
Proof.
  intros L. induction l as [|i l IH]; intros r s H F; cbn [a5_2_key map fold_left]; [eauto|].
  destruct (keybit key i L (F i ltac:(left; auto))) as (k & -> & E). cbn [bind]. rewrite E. apply IH; [apply load2_R; auto|]. intros; apply F; right; auto.
Qed.
Lemma fn2_R fn c r s : (forall i, 0 <= i < 22 -> Z.testbit c i = fn_bit fn (Z.to_nat i)) -> R4 r s ->
  R4 (a5_2_fn c r) (fold_left a52_load (map (fn_bit fn) (seq 0 22)) s).
Proof.
  intros H HR. unfold a5_2_fn. rewrite <- map_zseq.
  replace (map (fun i => fn_bit fn (Z.to_nat i)) (zseq 0 22)) with (map (fun i => Z.testbit (Z.land (Z.shiftr c i) 1) 0) (zseq 0 22)).
  - apply load_list2_R; auto. intros i _. change 1 with (Z.ones 1). rewrite Z.land_ones by lia. rewrite <- Z.bit0_mod. now rewrite Z.b2z_bit0.
  - apply map_ext_in. intros i Hi. apply zseq_In in Hi. rewrite <- H by lia. rewrite Z.land_spec, Z.shiftr_spec by lia. apply andb_true_r.
Qed.
Lemma a5_2_spec key fn dl ul : length key = 8%nat -> 0 <= fn < 2715648 ->
  a5_2 key fn dl ul = Ok (if dl then Some (map Z.b2z (firstn 114 (a52_stream key fn))) else None,
                          if ul then Some (map Z.b2z (skipn 114 (a52_stream key fn))) else None).
Proof.
  intros L Hf. unfold a5_2.
  destruct (key2_R key L (zseq 0 64) (0, 0, 0, 0) (zero 19, zero 22, zero 23, zero 17)) as (r & -> & HR).
  { split; [apply R_zero|split; [apply R_zero|split; apply R_zero]]. } { intros i Hi. apply zseq_In in Hi. lia. }
  cbn [bind]. destruct (fn_count_spec fn Hf) as (c & -> & _ & Hc). cbn [bind].
  rewrite (map_zseq (key_bit key)) in HR. apply (fn2_R fn c) in HR; auto. rewrite <- fold_left_app in HR. fold (load_bits key fn) in HR.
  unfold a52_stream. destruct (a5_2_fn c r) as [[[r0 r1] r2] r3]. destruct (fold_left a52_load (load_bits key fn) _) as [[[x y] z] w].
  assert (HR' : R4 (Z.lor r0 (Z.shiftl 1 15), Z.lor r1 (Z.shiftl 1 16), Z.lor r2 (Z.shiftl 1 18), Z.lor r3 (Z.shiftl 1 10)) (setbit 15 x, setbit 16 y, setbit 18 z, setbit 10 w)).
  { destruct HR as (H1 & H2 & H3 & H4). split; [|split; [|split]].
    - apply (setbit_R 19 r0 x 15); auto; lia.
    - apply (setbit_R 22 r1 y 16); auto; lia.
    - apply (setbit_R 23 r2 z 18); auto; lia.
    - apply (setbit_R 17 r3 w 10); auto; lia. }
  apply (iter2_R 99) in HR'. change 228%nat with (114 + 114)%nat. rewrite stream_app.
  rewrite firstn_app, skipn_app, stream_length, Nat.sub_diag, firstn_O, app_nil_r, skipn_O.
  rewrite firstn_all2, skipn_all2 by (rewrite stream_length; lia). cbn [app].
  destruct (outs2_R 114 _ _ HR') as [O1 HR2]. destruct (a5_2_outs 114 _) as [l1 q1]. cbn [fst snd] in O1, HR2. subst l1.
  destruct (outs2_R 114 _ _ HR2) as [O2 _]. destruct (a5_2_outs 114 q1) as [l2 q2]. cbn [fst] in O2. subst l2. reflexivity.
Qed.

(* the frame count determines the frame number *)
Lemma fn_count_inj fn fn' c : 0 <= fn < 2715648 -> 0 <= fn' < 2715648 -> osmo_a5_fn_count fn = Ok c -> osmo_a5_fn_count fn' = Ok c -> fn = fn'.
Proof.
  intros H H' E E'. destruct (fn_count_spec fn H) as (d & D & _ & B). destruct (fn_count_spec fn' H') as (d' & D' & _ & B').
  assert (X : d = c) by congruence. assert (X' : d' = c) by congruence. subst d d'. clear E E' D D'.
  assert (A : forall i, 0 <= i < 22 -> fn_bit fn (Z.to_nat i) = fn_bit fn' (Z.to_nat i)) by (intros i Hi; rewrite <- B, <- B' by auto; reflexivity). clear B B'.
  assert (G : forall x y n, 0 <= x < 2 ^ n -> 0 <= y < 2 ^ n -> 0 <= n -> (forall i, 0 <= i < n -> Z.testbit x i = Z.testbit y i) -> x = y).
  { intros x y n Hx Hy Hn T. apply Z.bits_inj'. intros i Hi. destruct (Z.lt_ge_cases i n); [apply T; lia|]. rewrite !(testbit_above _ n) by lia. reflexivity. }
  assert (E1 : fn / 1326 = fn' / 1326).
  { apply (G _ _ 11); try lia. intros i Hi. specialize (A (i + 11) ltac:(lia)). unfold fn_bit in A. rewrite Z2Nat.id in A by lia.
    replace (i + 11 <? 5) with false in A by lia. replace (i + 11 <? 11) with false in A by lia. replace (i + 11 - 11) with i in A by lia. exact A. }
  assert (E2 : fn mod 26 = fn' mod 26).
  { apply (G _ _ 5); try (change (2 ^ 5) with 32; pose proof (Z.mod_pos_bound fn 26); pose proof (Z.mod_pos_bound fn' 26); lia). intros i Hi. specialize (A i ltac:(lia)). unfold fn_bit in A. rewrite Z2Nat.id in A by lia.
    replace (i <? 5) with true in A by lia. exact A. }
  assert (E3 : fn mod 51 = fn' mod 51).
  { apply (G _ _ 6); try (change (2 ^ 6) with 64; pose proof (Z.mod_pos_bound fn 51); pose proof (Z.mod_pos_bound fn' 51); lia). intros i Hi. specialize (A (i + 5) ltac:(lia)). unfold fn_bit in A. rewrite Z2Nat.id in A by lia.
    replace (i + 5 <? 5) with false in A by lia. replace (i + 5 <? 11) with true in A by lia. replace (i + 5 - 5) with i in A by lia. exact A. }
  clear A G. lia.
Qed.

(* ciphering *)
Lemma cipher_twice ks text : (length text <= length ks)%nat -> cipher ks (cipher ks text) = text.
Proof.
  revert ks. induction text as [|x t IH]; intros [|k ks] L; cbn [length] in L; try reflexivity; [lia|].
  unfold cipher in *. cbn [combine map fst snd]. rewrite IH by lia. f_equal. rewrite Z.lxor_assoc, Z.lxor_nilpotent, Z.lxor_0_r. reflexivity.
Qed.
