(* P_kasumi.v - KASUMI: the code computes the published function *)
From Verif Require Import Base P_crc M_bits S_bits P_bits M_bitgen P_bitgen M_a5 M_kasumi S_kasumi.

Definition w16 (x : Z) : Prop := 0 <= x < 65536.
Definition w32 (x : Z) : Prop := 0 <= x < 4294967296.
Lemma xor_b n a b : 0 <= n -> 0 <= a < 2 ^ n -> 0 <= b < 2 ^ n -> 0 <= Z.lxor a b < 2 ^ n.
Proof. intros. apply lxor_bound; auto. Qed.
Lemma xor16 a b : w16 a -> w16 b -> w16 (Z.lxor a b).
Proof. intros. apply (xor_b 16); auto; lia. Qed.
Lemma xor32 a b : w32 a -> w32 b -> w32 (Z.lxor a b).
Proof. intros. apply (xor_b 32); auto; lia. Qed.
Lemma xor9 a b : 0 <= a < 512 -> 0 <= b < 512 -> 0 <= Z.lxor a b < 512.
Proof. intros. apply (xor_b 9); auto; lia. Qed.
Lemma xor7 a b : 0 <= a < 128 -> 0 <= b < 128 -> 0 <= Z.lxor a b < 128.
Proof. intros. apply (xor_b 7); auto; lia. Qed.
Lemma land_b n a b : 0 <= n -> 0 <= a < 2 ^ n -> 0 <= b -> 0 <= Z.land a b < 2 ^ n.
Proof.
  intros Hn Ha Hb. split; [apply Z.land_nonneg; lia|]. destruct (Z.lt_ge_cases (Z.land a b) (2 ^ n)); auto. exfalso.
  assert (P : 0 < Z.land a b) by (pose proof (pow2_pos n Hn); lia). assert (Lg : n <= Z.log2 (Z.land a b)) by (apply Z.log2_le_pow2; auto).
  pose proof (Z.bit_log2 _ P) as B. rewrite Z.land_spec in B. rewrite (testbit_above a n) in B by (auto; lia). discriminate.
Qed.
Lemma lor_b n a b : 0 <= n -> 0 <= a < 2 ^ n -> 0 <= b < 2 ^ n -> 0 <= Z.lor a b < 2 ^ n.
Proof.
  intros Hn Ha Hb. split; [apply Z.lor_nonneg; lia|]. destruct (Z.lt_ge_cases (Z.lor a b) (2 ^ n)); auto. exfalso.
  assert (P : 0 < Z.lor a b) by (pose proof (pow2_pos n Hn); lia). assert (Lg : n <= Z.log2 (Z.lor a b)) by (apply Z.log2_le_pow2; auto).
  pose proof (Z.bit_log2 _ P) as B. rewrite Z.lor_spec in B. rewrite (testbit_above a n), (testbit_above b n) in B by (auto; lia). discriminate.
Qed.
Lemma land16 a b : w16 a -> w16 b -> w16 (Z.land a b).
Proof. unfold w16. intros. apply (land_b 16); lia. Qed.
Lemma lor16 a b : w16 a -> w16 b -> w16 (Z.lor a b).
Proof. unfold w16. intros. apply (lor_b 16); lia. Qed.

(* S-boxes *)
Lemma s9_ok i : 0 <= i < 512 -> rd k_S9 i = Ok (at0 S9 i) /\ 0 <= at0 S9 i < 512.
Proof.
  intros H. split. { change k_S9 with S9. apply rd_at0. change (zlen S9) with 512. auto. }
  assert (F : Forall (fun x => 0 <= x < 512) S9) by (apply Forall_forall; intros x Hx; assert (G : forallb (fun x => (0 <=? x) && (x <? 512)) S9 = true) by reflexivity; rewrite forallb_forall in G; specialize (G x Hx); lia).
  rewrite Forall_forall in F. apply F. unfold at0. apply nth_In. change (length S9) with 512%nat. lia.
Qed.
Lemma s7_ok i : 0 <= i < 128 -> rd k_S7 i = Ok (at0 S7 i) /\ 0 <= at0 S7 i < 128.
Proof.
  intros H. split. { change k_S7 with S7. apply rd_at0. change (zlen S7) with 128. auto. }
  assert (F : Forall (fun x => 0 <= x < 128) S7) by (apply Forall_forall; intros x Hx; assert (G : forallb (fun x => (0 <=? x) && (x <? 128)) S7 = true) by reflexivity; rewrite forallb_forall in G; specialize (G x Hx); lia).
  rewrite Forall_forall in F. apply F. unfold at0. apply nth_In. change (length S7) with 128%nat. lia.
Qed.
Lemma u16_w x : w16 x -> u16 x = x. Proof. intros. now apply u16_small. Qed.
Lemma u32_w x : w32 x -> u32 x = x. Proof. intros. now apply u32_small. Qed.
Lemma FI_ok I k : w16 I -> w16 k -> kasumi_FI I k = Ok (FI I k) /\ w16 (FI I k).
Proof.
  intros HI Hk. unfold kasumi_FI, FI. change (Z.shiftr I 7) with (Z.shiftr I 7). rewrite (Z.shiftr_div_pow2 I 7) by lia. change (2 ^ 7) with 128.
  change 0x7F with (Z.ones 7). rewrite !Z.land_ones by lia. change (2 ^ 7) with 128. change 0x1FF with (Z.ones 9). rewrite (Z.land_ones k) by lia. change (2 ^ 9) with 512.
  rewrite (Z.shiftr_div_pow2 k 9) by lia. change (2 ^ 9) with 512. unfold w16 in *.
  assert (B1 : 0 <= I / 128 < 512) by lia. assert (B2 : 0 <= I mod 128 < 128) by (apply Z.mod_pos_bound; lia).
  assert (B3 : 0 <= k mod 512 < 512) by (apply Z.mod_pos_bound; lia). assert (B4 : 0 <= k / 512 < 128) by lia.
  revert B1 B2 B3 B4. generalize (I / 128) as L0, (I mod 128) as R0, (k mod 512) as k2, (k / 512) as k1. intros L0 R0 k2 k1 B1 B2 B3 B4.
  rewrite (u16_w L0), (u16_w R0) by (unfold w16; lia).
  destruct (s9_ok L0 B1) as [-> Q1]. cbn [bind]. destruct (s7_ok R0 B2) as [-> Q2]. cbn [bind].
  rewrite (Z.land_ones (Z.lxor (at0 S9 L0) R0)) by lia. change (2 ^ 7) with 128. cbv zeta. unfold xor.
  assert (X1 : 0 <= Z.lxor (at0 S9 L0) R0 < 512) by (apply xor9; lia).
  assert (M1 : 0 <= Z.lxor (at0 S9 L0) R0 mod 128 < 128) by (apply Z.mod_pos_bound; lia).
  set (R1 := Z.lxor (at0 S9 L0) R0) in *. set (L2 := Z.lxor R1 k2) in *. assert (X2 : 0 <= L2 < 512) by (apply xor9; lia).
  set (R2 := Z.lxor (Z.lxor (at0 S7 R0) (R1 mod 128)) k1) in *. assert (X3 : 0 <= R2 < 128) by (apply xor7; [apply xor7; lia|lia]).
  destruct (s9_ok L2 X2) as [-> Q3]. cbn [bind]. destruct (s7_ok R2 X3) as [-> Q4]. cbn [bind].
  set (R3 := Z.lxor (at0 S9 L2) R2) in *. assert (X4 : 0 <= R3 < 512) by (apply xor9; lia).
  rewrite (Z.land_ones R3) by lia. change (2 ^ 7) with 128. assert (M2 : 0 <= R3 mod 128 < 128) by (apply Z.mod_pos_bound; lia).
  set (L4 := Z.lxor (at0 S7 R2) (R3 mod 128)) in *. assert (X5 : 0 <= L4 < 128) by (apply xor7; lia).
  rewrite Z.shiftl_mul_pow2 by lia. change (2 ^ 9) with 512. clearbody L4 R3. rewrite u16_w by (unfold w16; lia). split; [f_equal; lia|lia].
Qed.
Lemma rol_ok x k : w16 x -> 0 <= k <= 16 -> osmo_rol16 x k = rotl16 x k /\ w16 (rotl16 x k).
Proof.
  intros Hx Hk. unfold osmo_rol16, rotl16. unfold w16 in *. rewrite Z.shiftr_div_pow2 by lia.
  assert (P1 : 2 ^ 16 = 2 ^ k * 2 ^ (16 - k)) by (rewrite <- Z.pow_add_r by lia; f_equal; lia).
  pose proof (pow2_pos k ltac:(lia)) as K1. pose proof (pow2_pos (16 - k) ltac:(lia)) as K2.
  assert (B : 0 <= x / 2 ^ (16 - k) < 2 ^ k). { split; [apply Z.div_pos; lia|]. apply Z.div_lt_upper_bound; [lia|]. change (2 ^ 16) with 65536 in P1. lia. }
  rewrite Z.lor_comm, lor_shiftl_add by lia.
  assert (D : (x * 2 ^ k) mod 65536 = (x mod 2 ^ (16 - k)) * 2 ^ k).
  { change 65536 with (2 ^ 16). rewrite P1. rewrite (Z.mul_comm (2 ^ k)). rewrite Z.mul_mod_distr_r by lia. reflexivity. }
  assert (M : 0 <= x mod 2 ^ (16 - k) <= 2 ^ (16 - k) - 1) by (pose proof (Z.mod_pos_bound x (2 ^ (16 - k)) K2); lia).
  assert (W : 0 <= (x * 2 ^ k) mod 65536 + x / 2 ^ (16 - k) < 65536).
  { rewrite D. assert ((x mod 2 ^ (16 - k)) * 2 ^ k <= (2 ^ (16 - k) - 1) * 2 ^ k) by (apply Z.mul_le_mono_nonneg_r; lia).
    assert (0 <= x mod 2 ^ (16 - k) * 2 ^ k) by (apply Z.mul_nonneg_nonneg; lia). change (2 ^ 16) with 65536 in P1. lia. }
  split; [|exact W]. unfold u16. rewrite <- (Z.add_mod_idemp_r _ _ 65536) by lia. rewrite Z.add_comm. apply Z.mod_small. exact W.
Qed.

(* the rounds *)
Definition wlist (l : list Z) : Prop := length l = 8%nat /\ Forall w16 l.
Definition good (k : subkeys) : Prop :=
  wlist (KL1 k) /\ wlist (KL2 k) /\ wlist (KO1 k) /\ wlist (KO2 k) /\ wlist (KO3 k) /\ wlist (KI1 k) /\ wlist (KI2 k) /\ wlist (KI3 k).
Definition rkof (k : subkeys) (i : Z) : round_key :=
  RK (at0 (KL1 k) i) (at0 (KL2 k) i) (at0 (KO1 k) i) (at0 (KO2 k) i) (at0 (KO3 k) i) (at0 (KI1 k) i) (at0 (KI2 k) i) (at0 (KI3 k) i).
Definition wrk (k : round_key) : Prop :=
  w16 (rKL1 k) /\ w16 (rKL2 k) /\ w16 (rKO1 k) /\ w16 (rKO2 k) /\ w16 (rKO3 k) /\ w16 (rKI1 k) /\ w16 (rKI2 k) /\ w16 (rKI3 k).
Lemma wlist_rd l i : wlist l -> 0 <= i < 8 -> rd l i = Ok (at0 l i) /\ w16 (at0 l i).
Proof.
  intros [L F] H. split. { apply rd_at0. unfold zlen. rewrite L. lia. }
  rewrite Forall_forall in F. apply F. unfold at0. apply nth_In. lia.
Qed.
Lemma good_rk k i : good k -> 0 <= i < 8 -> wrk (rkof k i).
Proof.
  intros (a & b & c & d & e & f & g & h) Hi. unfold wrk, rkof. cbn [rKL1 rKL2 rKO1 rKO2 rKO3 rKI1 rKI2 rKI3].
  repeat (split; [apply wlist_rd; auto|]). apply wlist_rd; auto.
Qed.
Lemma halves I : w32 I -> u16 (Z.shiftr I 16) = I / 65536 /\ u16 I = I mod 65536 /\ w16 (I / 65536) /\ w16 (I mod 65536).
Proof.
  intros H. unfold w32, w16 in *. rewrite Z.shiftr_div_pow2 by lia. change (2 ^ 16) with 65536. rewrite u16_small by (unfold is_u16; lia).
  split; auto. split; auto. split; [lia|]. apply Z.mod_pos_bound; lia.
Qed.
Lemma join32 L R : w16 L -> w16 R -> u32 (u32 (Z.shiftl L 16) + R) = 65536 * L + R /\ w32 (65536 * L + R).
Proof.
  unfold w16, w32. intros. rewrite Z.shiftl_mul_pow2 by lia. change (2 ^ 16) with 65536. rewrite (u32_small (L * 65536)) by (unfold is_u32; lia).
  rewrite u32_small by (unfold is_u32; lia). split; lia.
Qed.
Lemma FL_ok I k i : w32 I -> good k -> 0 <= i < 8 -> kasumi_FL I k i = Ok (FL I (rkof k i)) /\ w32 (FL I (rkof k i)).
Proof.
  intros HI (a & b & _) Hi. unfold kasumi_FL, FL. destruct (halves I HI) as (-> & -> & A & B). cbv zeta.
  destruct (wlist_rd _ i a Hi) as [-> E1]. cbn [bind]. destruct (wlist_rd _ i b Hi) as [-> E2]. cbn [bind].
  unfold rkof. cbn [rKL1 rKL2]. unfold xor.
  destruct (rol_ok (Z.land (I / 65536) (at0 (KL1 k) i)) 1) as [-> C1]; [apply land16; auto|lia|].
  set (R' := Z.lxor (I mod 65536) (rotl16 (Z.land (I / 65536) (at0 (KL1 k) i)) 1)) in *. assert (W1 : w16 R') by (apply xor16; auto).
  destruct (rol_ok (Z.lor R' (at0 (KL2 k) i)) 1) as [-> C2]; [apply lor16; auto|lia|].
  assert (W2 : w16 (Z.lxor (I / 65536) (rotl16 (Z.lor R' (at0 (KL2 k) i)) 1))) by (apply xor16; auto).
  destruct (join32 _ _ W2 W1) as [-> ?]. auto.
Qed.
Lemma FO_ok I k i : w32 I -> good k -> 0 <= i < 8 -> kasumi_FO I k i = Ok (FO I (rkof k i)) /\ w32 (FO I (rkof k i)).
Proof.
  intros HI (_ & _ & c & d & e & f & g & h) Hi. unfold kasumi_FO, FO. destruct (halves I HI) as (-> & -> & A & B). cbv zeta.
  destruct (wlist_rd _ i c Hi) as [-> E1]. destruct (wlist_rd _ i d Hi) as [-> E2]. destruct (wlist_rd _ i e Hi) as [-> E3].
  destruct (wlist_rd _ i f Hi) as [-> E4]. destruct (wlist_rd _ i g Hi) as [-> E5]. destruct (wlist_rd _ i h Hi) as [-> E6].
  unfold rkof. cbn [rKO1 rKO2 rKO3 rKI1 rKI2 rKI3]. unfold xor. cbn [bind].
  destruct (FI_ok (Z.lxor (I / 65536) (at0 (KO1 k) i)) (at0 (KI1 k) i)) as [-> F1]; [apply xor16; auto|auto|]. cbn [bind].
  set (R1 := Z.lxor (FI (Z.lxor (I / 65536) (at0 (KO1 k) i)) (at0 (KI1 k) i)) (I mod 65536)) in *. assert (W1 : w16 R1) by (apply xor16; auto).
  destruct (FI_ok (Z.lxor (I mod 65536) (at0 (KO2 k) i)) (at0 (KI2 k) i)) as [-> F2]; [apply xor16; auto|auto|]. cbn [bind].
  set (R2 := Z.lxor (FI (Z.lxor (I mod 65536) (at0 (KO2 k) i)) (at0 (KI2 k) i)) R1) in *. assert (W2 : w16 R2) by (apply xor16; auto).
  destruct (FI_ok (Z.lxor R1 (at0 (KO3 k) i)) (at0 (KI3 k) i)) as [-> F3]; [apply xor16; auto|auto|]. cbn [bind].
  set (R3 := Z.lxor (FI (Z.lxor R1 (at0 (KO3 k) i)) (at0 (KI3 k) i)) R2) in *. assert (W3 : w16 R3) by (apply xor16; auto).
  destruct (join32 _ _ W2 W3) as [-> ?]. auto.
Qed.

Fixpoint pairs_of (k : subkeys) (is_ : list Z) : list round_key :=
  match is_ with [] => [] | i :: t => rkof k i :: rkof k (i + 1) :: pairs_of k t end.
Lemma loop_ok k : good k -> forall is_ L R n, Forall (fun i => 0 <= i < 7) is_ -> Nat.odd n = true -> w32 L -> w32 R ->
  kasumi_loop is_ k L R = Ok (feistel n (pairs_of k is_) L R) /\ w32 (fst (feistel n (pairs_of k is_) L R)) /\ w32 (snd (feistel n (pairs_of k is_) L R)).
Proof.
  intros G. induction is_ as [|i t IH]; intros L R n HF Hn HL HR; cbn [kasumi_loop pairs_of feistel]. { auto. }
  inversion HF; subst. unfold f_round. rewrite Hn.
  assert (Hn1 : Nat.odd (S n) = false) by (rewrite Nat.odd_succ, <- Nat.negb_odd, Hn; auto). rewrite Hn1.
  destruct (FL_ok L k i HL G) as [-> F1]; [lia|]. cbn [bind]. destruct (FO_ok (FL L (rkof k i)) k i F1 G) as [-> F2]; [lia|]. cbn [bind]. cbv zeta.
  assert (W1 : w32 (Z.lxor R (FO (FL L (rkof k i)) (rkof k i)))) by (apply xor32; auto). unfold xor.
  set (R1 := Z.lxor R (FO (FL L (rkof k i)) (rkof k i))) in *.
  destruct (FO_ok R1 k (i + 1) W1 G) as [-> F3]; [lia|]. cbn [bind]. destruct (FL_ok _ k (i + 1) F3 G) as [-> F4]; [lia|]. cbn [bind].
  assert (W2 : w32 (Z.lxor L (FL (FO R1 (rkof k (i + 1))) (rkof k (i + 1))))) by (apply xor32; auto).
  apply IH; auto.
Qed.
Definition w64 (x : Z) : Prop := 0 <= x < 2 ^ 64.
Definition rks_of (k : subkeys) : list round_key := map (rkof k) [0; 1; 2; 3; 4; 5; 6; 7].
Lemma kasumi_ok k P : good k -> w64 P -> kasumi P k = Ok (KASUMI (rks_of k) P) /\ w64 (KASUMI (rks_of k) P).
Proof.
  intros G HP. unfold kasumi, KASUMI. unfold w64 in HP. change (2 ^ 64) with 18446744073709551616 in HP.
  assert (E : u32 (Z.shiftr P 32) = P / 2 ^ 32 /\ u32 P = P mod 2 ^ 32 /\ w32 (P / 2 ^ 32) /\ w32 (P mod 2 ^ 32)).
  { rewrite Z.shiftr_div_pow2 by lia. change (2 ^ 32) with 4294967296. unfold w32. rewrite u32_small by (unfold is_u32; lia).
    split; auto. split; auto. split; [lia|]. apply Z.mod_pos_bound; lia. }
  destruct E as (-> & -> & A & B). cbv zeta.
  destruct (loop_ok k G [0; 2; 4; 6] (P / 2 ^ 32) (P mod 2 ^ 32) 1) as (-> & F1 & F2); auto.
  { repeat constructor; lia. }
  change (pairs_of k [0; 2; 4; 6]) with (rks_of k) in *. cbn [bind]. destruct (feistel 1 (rks_of k) (P / 2 ^ 32) (P mod 2 ^ 32)) as [L R]. cbn [fst snd] in *.
  unfold w32, w64 in *. change (2 ^ 64) with 18446744073709551616. change (2 ^ 32) with 4294967296.
  rewrite Z.shiftl_mul_pow2 by lia. change (2 ^ 32) with 4294967296. unfold u64. rewrite (Z.mod_small (L * 4294967296)) by lia. rewrite Z.mod_small by lia. split; [auto|lia].
Qed.

(* key schedule *)
Lemma load16_ok key o : length key = 16%nat -> bytes key -> 0 <= o <= 14 -> load16be key o = Ok (at0 key o * 256 + at0 key (o + 1)) /\ w16 (at0 key o * 256 + at0 key (o + 1)).
Proof.
  intros HL HB Ho. unfold load16be, load_be.
  rewrite load_be_ext_ok; [|lia| |apply Forall_skipn; auto].
  2:{ unfold zlen. rewrite skipn_length. lia. }
  assert (E : firstn (Z.to_nat 2) (skipn (Z.to_nat o) key) = [at0 key o; at0 key (o + 1)]).
  { change (Z.to_nat 2) with 2%nat. apply (list_ext _ _ 0). { rewrite firstn_length, skipn_length. cbn [length]. lia. }
    intros i Hi. rewrite firstn_length, skipn_length in Hi. rewrite nth_firstn. destruct (Nat.ltb_spec i 2); [|lia]. rewrite nth_skipn. unfold at0.
    destruct i as [|[|i]]; cbn [nth]; [f_equal; lia|f_equal; lia|lia]. }
  rewrite E. assert (F : forall j, 0 <= j < 16 -> is_byte (at0 key j)).
  { intros j Hj. unfold bytes in HB. rewrite Forall_forall in HB. apply HB. unfold at0. apply nth_In. lia. }
  pose proof (F o ltac:(lia)). pose proof (F (o + 1) ltac:(lia)). unfold is_byte, w16 in *. split; [|lia]. f_equal.
  change (be_val [at0 key o; at0 key (o + 1)]) with (at0 key (o + 1) + 256 * (at0 key o + 256 * 0)). change (2 ^ (8 * (2 - 2))) with 1. lia.
Qed.
Lemma expand_abs key (W : Z -> Z) : (forall o, 0 <= o <= 14 -> load16be key o = Ok (W o)) ->
  let c := fun i => Z.lxor (nth i k_C 0) (W (Z.of_nat (2 * i))) in
  kasumi_key_expand key = Ok (Sub
    (map (fun o => osmo_rol16 (W o) 1) [0; 2; 4; 6; 8; 10; 12; 14])
    (map c [2; 3; 4; 5; 6; 7; 0; 1]%nat)
    (map (fun o => osmo_rol16 (W o) 5) [2; 4; 6; 8; 10; 12; 14; 0])
    (map (fun o => osmo_rol16 (W o) 8) [10; 12; 14; 0; 2; 4; 6; 8])
    (map (fun o => osmo_rol16 (W o) 13) [12; 14; 0; 2; 4; 6; 8; 10])
    (map c [4; 5; 6; 7; 0; 1; 2; 3]%nat)
    (map c [3; 4; 5; 6; 7; 0; 1; 2]%nat)
    (map c [7; 0; 1; 2; 3; 4; 5; 6]%nat)).
Proof.
  intros H. unfold kasumi_key_expand.
  assert (H0 := H 0 ltac:(lia)). assert (H2 := H 2 ltac:(lia)). assert (H4 := H 4 ltac:(lia)). assert (H6 := H 6 ltac:(lia)).
  assert (H8 := H 8 ltac:(lia)). assert (H10 := H 10 ltac:(lia)). assert (H12 := H 12 ltac:(lia)). assert (H14 := H 14 ltac:(lia)).
  assert (E : exists C, zfor 8 0 (fun i C => do w <- load16be key (i * 2) ;; do c <- rd C i ;; wr C i (Z.lxor c w)) k_C = Ok C /\
     C = map (fun i => Z.lxor (nth i k_C 0) (W (Z.of_nat (2 * i)))) [0;1;2;3;4;5;6;7]%nat).
  { eexists. split; [|reflexivity]. repeat (cbv -[Z.lxor load16be]; first [rewrite H0|rewrite H2|rewrite H4|rewrite H6|rewrite H8|rewrite H10|rewrite H12|rewrite H14]). reflexivity. }
  destruct E as (C & -> & ->). cbn [bind map].
  repeat (cbv -[Z.lxor load16be osmo_rol16]; rewrite ?H0, ?H2, ?H4, ?H6, ?H8, ?H10, ?H12, ?H14).
  reflexivity.
Qed.
Lemma forallw l : (forall x, In x l -> w16 x) -> Forall w16 l. Proof. intros. apply Forall_forall; auto. Qed.
Lemma expand_ok key : length key = 16%nat -> bytes key -> exists k, kasumi_key_expand key = Ok k /\ good k /\ rks_of k = round_keys key.
Proof.
  intros HL HB. set (W := fun o => at0 key o * 256 + at0 key (o + 1)).
  assert (HW : forall o, 0 <= o <= 14 -> load16be key o = Ok (W o)) by (intros; apply load16_ok; auto).
  assert (BW : forall o, 0 <= o <= 14 -> w16 (W o)) by (intros; apply load16_ok; auto).
  assert (CW : forall i, (i < 8)%nat -> w16 (Z.lxor (nth i k_C 0) (W (Z.of_nat (2 * i))))).
  { intros i Hi. apply xor16; [|apply BW; lia]. do 8 (destruct i as [|i]; [cbv; split; [discriminate|reflexivity]|]). lia. }
  eexists. split; [exact (expand_abs key W HW)|]. cbv zeta. split.
  - assert (RW : forall o n, 0 <= o <= 14 -> 0 <= n <= 16 -> w16 (osmo_rol16 (W o) n)).
    { intros o n Ho Hn. destruct (rol_ok (W o) n) as [-> ?]; auto. }
    unfold good. cbn [KL1 KL2 KO1 KO2 KO3 KI1 KI2 KI3 map].
    assert (Q : forall a b c d e f g h, w16 a -> w16 b -> w16 c -> w16 d -> w16 e -> w16 f -> w16 g -> w16 h -> wlist [a;b;c;d;e;f;g;h]).
    { intros. split; [reflexivity|repeat (apply Forall_cons; [assumption|]); apply Forall_nil]. }
    split; [apply Q; apply RW; lia|]. split; [apply Q; apply CW; lia|].
    split; [apply Q; apply RW; lia|]. split; [apply Q; apply RW; lia|]. split; [apply Q; apply RW; lia|].
    split; [apply Q; apply CW; lia|]. split; [apply Q; apply CW; lia|]. apply Q; apply CW; lia.
  - unfold rks_of, round_keys. cbn [map seq]. unfold rkof. cbn [KL1 KL2 KO1 KO2 KO3 KI1 KI2 KI3].
    assert (RW : forall o n, 0 <= o <= 14 -> 0 <= n <= 16 -> osmo_rol16 (W o) n = rotl16 (W o) n) by (intros; apply rol_ok; auto).
    unfold Kw', Kw, xor. fold W. 
    repeat match goal with |- context [at0 [?a;?b;?c;?d;?e;?f;?g;?h] ?i] => let r := eval cbv [at0 nth Z.to_nat Pos.to_nat Pos.iter_op Init.Nat.add] in (at0 [a;b;c;d;e;f;g;h] i) in change (at0 [a;b;c;d;e;f;g;h] i) with r end.
    rewrite !RW by lia.
    assert (EC : forall i, (i < 8)%nat -> Z.lxor (nth i k_C 0) (W (Z.of_nat (2 * i))) = Z.lxor (W (Z.of_nat (2 * i))) (nth i Cj 0)) by (intros; apply Z.lxor_comm).
    rewrite !EC by lia. reflexivity.
Qed.

(* storing *)
Lemma store_at_ok co ofs x n : 0 <= n <= 8 -> 0 <= ofs -> ofs + n <= zlen co ->
  exists co', store_at co ofs x n = Ok co' /\ zlen co' = zlen co /\
    forall j, 0 <= j -> at0 co' j = if (ofs <=? j) && (j <? ofs + n) then x / 2 ^ (8 * (n - 1 - (j - ofs))) mod 256 else at0 co j.
Proof.
  intros Hn Ho Hl. unfold store_at. destruct (Z.ltb_spec (zlen co) ofs); [lia|].
  assert (L1 : zlen (skipn (Z.to_nat ofs) co) = zlen co - ofs) by (unfold zlen in *; rewrite skipn_length; lia).
  rewrite store_be_ext_ok by lia. cbn [bind]. eexists. split; [reflexivity|].
  assert (L2 : zlen (firstn (Z.to_nat ofs) co) = ofs) by (unfold zlen in *; rewrite firstn_length; lia).
  assert (L3 : zlen (be_bytes (Z.to_nat n) x) = n) by (unfold zlen; rewrite be_bytes_length; lia).
  assert (L4 : zlen (skipn (Z.to_nat n) (skipn (Z.to_nat ofs) co)) = zlen co - ofs - n) by (unfold zlen in *; rewrite !skipn_length; lia).
  split; [rewrite !zlen_app; lia|]. intros j Hj. rewrite at0_app by lia. rewrite L2. destruct (Z.ltb_spec j ofs).
  - rewrite at0_firstn by lia. destruct (Z.ltb_spec j ofs); [|lia]. destruct (Z.leb_spec ofs j); [lia|]. reflexivity.
  - destruct (Z.leb_spec ofs j); [|lia]. cbn [andb]. rewrite at0_app by lia. rewrite L3. destruct (Z.ltb_spec (j - ofs) n); destruct (Z.ltb_spec j (ofs + n)); try lia.
    + unfold at0, be_bytes. rewrite rev_nth by (rewrite le_bytes_length; lia). rewrite le_bytes_length, nth_le_bytes by lia. do 2 f_equal. f_equal. f_equal. lia.
    + rewrite at0_skipn by lia. rewrite at0_skipn by lia. f_equal. lia.
Qed.

Lemma A_ok ca cb cc cd : 0 <= ca < 256 -> 0 <= cb < 32 -> 0 <= cc < 2 ^ 32 -> 0 <= cd < 2 -> kgcore_A ca cb cc cd = A0 ca cb cc cd /\ w64 (A0 ca cb cc cd).
Proof.
  intros. unfold kgcore_A, A0. cbv zeta.
  assert (E1 : Z.lor (Z.shiftl cb 3) (Z.shiftl cd 2) = cb * 8 + cd * 4).
  { rewrite (Z.shiftl_mul_pow2 cd) by lia. rewrite Z.lor_comm, lor_shiftl_add by lia. change (2 ^ 3) with 8. change (2 ^ 2) with 4. lia. }
  rewrite E1. assert (E2 : u64 (Z.shiftl (cb * 8 + cd * 4) 24) = (cb * 8 + cd * 4) * 2 ^ 24).
  { rewrite Z.shiftl_mul_pow2 by lia. unfold u64. apply Z.mod_small. change (2 ^ 24) with 16777216. lia. }
  rewrite E2. rewrite (Z.shiftl_mul_pow2 ca) by lia. change (2 ^ 24) with 16777216. change (2 ^ 16) with 65536.
  rewrite (Z.lor_comm (Z.shiftl cc 32)), lor_shiftl_add by lia. rewrite Z.lor_comm.
  assert (E3 : ca * 65536 + cc * 2 ^ 32 = ca * 65536 + Z.shiftl (cc * 256) 24). { rewrite Z.shiftl_mul_pow2 by lia. change (2 ^ 24) with 16777216. change (2 ^ 32) with 4294967296. lia. }
  assert (E4 : Z.lor ((cb * 8 + cd * 4) * 16777216) (ca * 65536 + cc * 2 ^ 32) = cc * 2 ^ 32 + (cb * 8 + cd * 4) * 16777216 + ca * 65536).
  { change (2 ^ 32) with 4294967296 in *.
    replace (ca * 65536 + cc * 4294967296) with (Z.lor (ca * 65536) (Z.shiftl cc 32)) by (rewrite lor_shiftl_add by lia; change (2 ^ 32) with 4294967296; lia).
    rewrite Z.lor_assoc.
    replace (Z.lor ((cb * 8 + cd * 4) * 16777216) (ca * 65536)) with ((cb * 8 + cd * 4) * 16777216 + ca * 65536).
    - rewrite lor_shiftl_add by lia. change (2 ^ 32) with 4294967296. lia.
    - rewrite Z.lor_comm. replace ((cb * 8 + cd * 4) * 16777216) with (Z.shiftl (cb * 8 + cd * 4) 24) by (rewrite Z.shiftl_mul_pow2 by lia; reflexivity).
      rewrite lor_shiftl_add by lia. change (2 ^ 24) with 16777216. rewrite Z.shiftl_mul_pow2 by lia. change (2 ^ 24) with 16777216. lia. }
  rewrite E4. split; auto. unfold w64. change (2 ^ 32) with 4294967296 in *. change (2 ^ 64) with 18446744073709551616. lia.
Qed.
Lemma xor64 a b : w64 a -> w64 b -> w64 (Z.lxor a b).
Proof. intros. apply (xor_b 64); auto; lia. Qed.

Definition keyok (ck : list Z) : Prop := length ck = 16%nat /\ bytes ck.
Lemma km_ok ck : keyok ck -> zfor 16 0 (fun i l => do b <- rd ck i ;; Ok (l ++ [Z.lxor b 0x55])) [] = Ok (map (fun b => xor b 0x55) ck) /\ keyok (map (fun b => xor b 0x55) ck).
Proof.
  intros [HL HB]. split.
  - do 16 (destruct ck as [|? ck]; [discriminate|]). destruct ck; [|discriminate]. reflexivity.
  - split; [rewrite map_length; auto|]. unfold bytes in *. apply Forall_forall. intros x Hx. apply in_map_iff in Hx as (y & <- & Hy).
    rewrite Forall_forall in HB. specialize (HB y Hy). unfold is_byte in *. apply (xor_b 8); lia.
Qed.
Lemma ksb_w key A n : keyok key -> w64 A -> Z.of_nat n <= 65536 -> w64 (ksb key A n).
Proof.
  intros [HL HB] HA Hn. destruct (expand_ok key HL HB) as (k & _ & G & R). induction n; cbn [ksb]. { unfold w64. change (2 ^ 64) with 18446744073709551616. lia. }
  rewrite <- R. apply kasumi_ok; auto. apply xor64; [apply xor64; auto|apply IHn; lia]. unfold w64. change (2 ^ 64) with 18446744073709551616. lia.
Qed.
Lemma blk_step ck k A i : keyok ck -> good k -> rks_of k = round_keys ck -> w64 A -> 0 <= i < 65536 ->
  kasumi (Z.lxor (Z.lxor A i) (ksb ck A (Z.to_nat i))) k = Ok (ksb ck A (S (Z.to_nat i))).
Proof.
  intros KO G R WA Hi. cbn [ksb]. rewrite <- R. rewrite Z2Nat.id by lia. apply kasumi_ok; auto. apply xor64; [apply xor64; auto|apply ksb_w; auto; lia].
  unfold w64. change (2 ^ 64) with 18446744073709551616. lia.
Qed.
Definition kg_body (A : Z) (k : subkeys) : Z -> Z * list Z -> res (Z * list Z) := fun i s =>
  let '(BLK, co) := s in do BLK <- kasumi (Z.lxor (Z.lxor A i) BLK) k ;; do co <- store_at co (i * 8) BLK 8 ;; Ok (BLK, co).
Definition sto (ck : list Z) (A : Z) (i : Z) : Z := octet_of (ksb ck A (S (Z.to_nat (i / 8)))) (i mod 8).
Lemma kg_loop ck k A co n : keyok ck -> good k -> rks_of k = round_keys ck -> w64 A -> 0 <= n < 65536 -> n * 8 <= zlen co ->
  exists c2, zfor (Z.to_nat n) 0 (kg_body A k) (0, co) = Ok (ksb ck A (Z.to_nat n), c2) /\ zlen c2 = zlen co /\
    (forall j, 0 <= j < 8 * n -> at0 c2 j = sto ck A j) /\ (forall j, 8 * n <= j -> at0 c2 j = at0 co j).
Proof.
  intros KO G R WA Hn Hl.
  destruct (zfor_inv (fun i (s : Z * list Z) => fst s = ksb ck A (Z.to_nat i) /\ zlen (snd s) = zlen co /\
      (forall j, 0 <= j < 8 * i -> at0 (snd s) j = sto ck A j) /\ (forall j, 0 <= 8 * i <= j -> at0 (snd s) j = at0 co j))
    (kg_body A k) (Z.to_nat n) 0 (0, co)) as ([BLK c2] & E & I1 & I2 & I3 & I4).
  { cbn [fst snd]. split; [reflexivity|]. split; auto. split; [intros; lia|auto]. }
  { intros i [B c] Hi (J1 & J2 & J3 & J4). cbn [fst snd] in *. subst B. rewrite Z2Nat.id in Hi by lia. unfold kg_body.
    rewrite (blk_step ck) by (auto; lia). cbn [bind]. destruct (store_at_ok c (i * 8) (ksb ck A (S (Z.to_nat i))) 8) as (c' & -> & L' & V); [lia|lia|lia|]. cbn [bind].
    eexists. split; [reflexivity|]. cbn [fst snd]. replace (Z.to_nat (i + 1)) with (S (Z.to_nat i)) by lia. split; [reflexivity|]. split; [lia|]. split.
    - intros j Hj. rewrite V by lia. destruct (Z.leb_spec (i * 8) j); destruct (Z.ltb_spec j (i * 8 + 8)); cbn [andb]; try lia; try (apply J3; lia).
      unfold sto, octet_of. replace (j / 8) with i by lia. do 2 f_equal. f_equal. f_equal. replace (j mod 8) with (j - i * 8) by lia. lia.
    - intros j Hj. rewrite V by lia. destruct (Z.ltb_spec j (i * 8 + 8)); [lia|]. rewrite Bool.andb_false_r. apply J4. lia. }
  cbn [fst snd] in *. rewrite Z.add_0_l, Z2Nat.id in * by lia. subst BLK. exists c2. split; [exact E|]. split; [exact I2|]. split; [exact I3|]. intros. apply I4. lia.
Qed.
Lemma kg_tail ck k A c2 cl m : keyok ck -> good k -> rks_of k = round_keys ck -> w64 A -> 0 <= cl < 65536 -> 0 < m <= 8 -> m = (cl + 7) / 8 - 8 * (cl / 64) ->
  (cl + 7) / 8 <= zlen c2 ->
  exists c', (do BLK <- kasumi (Z.lxor (Z.lxor A (cl / 64)) (ksb ck A (Z.to_nat (cl / 64)))) k ;; store_at c2 (cl / 64 * 8) (Z.shiftr BLK ((8 - m) * 8)) m) = Ok c' /\
    zlen c' = zlen c2 /\ forall j, 0 <= j -> at0 c' j = if (cl / 64 * 8 <=? j) && (j <? (cl + 7) / 8) then sto ck A j else at0 c2 j.
Proof.
  intros KO G R WA Hcl Hm M Hl. rewrite (blk_step ck) by (auto; lia). cbn [bind].
  destruct (store_at_ok c2 (cl / 64 * 8) (Z.shiftr (ksb ck A (S (Z.to_nat (cl / 64)))) ((8 - m) * 8)) m) as (c' & -> & L' & V); [lia|lia|lia|].
  exists c'. split; auto. split; [lia|]. intros j Hj. rewrite V by lia. replace ((cl + 7) / 8) with (cl / 64 * 8 + m) by lia.
  destruct (Z.leb_spec (cl / 64 * 8) j); destruct (Z.ltb_spec j (cl / 64 * 8 + m)); cbn [andb]; auto.
  unfold sto, octet_of. replace (j / 8) with (cl / 64) by lia. rewrite Z.shiftr_div_pow2 by lia. rewrite Z.div_div by (try apply Z.pow_nonzero; try apply pow2_pos; lia).
  rewrite <- Z.pow_add_r by lia. do 2 f_equal. f_equal. replace (j mod 8) with (j - cl / 64 * 8) by lia. lia.
Qed.
Lemma Areg_ok ca cb cc cd ck : keyok ck -> 0 <= ca < 256 -> 0 <= cb < 32 -> 0 <= cc < 2 ^ 32 -> 0 <= cd < 2 ->
  (do km <- zfor 16 0 (fun i l => do b <- rd ck i ;; Ok (l ++ [Z.lxor b 0x55])) [] ;; do k <- kasumi_key_expand km ;; kasumi (kgcore_A ca cb cc cd) k) = Ok (Areg ca cb cc cd ck)
  /\ w64 (Areg ca cb cc cd ck).
Proof.
  intros KO Ha Hb Hc Hd. unfold Areg. destruct (km_ok ck KO) as [-> [KL KB]]. cbn [bind]. destruct (expand_ok _ KL KB) as (k1 & -> & G1 & R1). cbn [bind].
  destruct (A_ok ca cb cc cd Ha Hb Hc Hd) as [-> WA0]. rewrite <- R1. apply kasumi_ok; auto.
Qed.
Lemma bind_assoc {A B C} (x : res A) (f : A -> res B) (g : B -> res C) : bind (bind x f) g = bind x (fun a => bind (f a) g).
Proof. destruct x; reflexivity. Qed.
Lemma kgcore_unfold CA cb cc cd ck co cl : kasumi_kgcore CA cb cc cd ck co cl =
  do A <- (do km <- zfor 16 0 (fun i l => do b <- rd ck i ;; Ok (l ++ [Z.lxor b 0x55])) [] ;; do k <- kasumi_key_expand km ;; kasumi (kgcore_A CA cb cc cd) k) ;;
  do k <- kasumi_key_expand ck ;;
  do '(BLK, co) <- zfor (Z.to_nat (cl / 64)) 0 (kg_body A k) (0, co) ;;
  let bytes_remain := u8 ((cl / 8) mod 8 + (if negb (cl mod 8 =? 0) then 1 else 0)) in
  if bytes_remain =? 0 then Ok co else
  do BLK <- kasumi (Z.lxor (Z.lxor A (cl / 64)) BLK) k ;;
  store_at co (cl / 64 * 8) (Z.shiftr BLK ((8 - bytes_remain) * 8)) bytes_remain.
Proof.
  unfold kasumi_kgcore. rewrite bind_assoc. destruct (zfor 16 0 _ _) as [km| | |]; cbn [bind]; try reflexivity. rewrite bind_assoc. reflexivity.
Qed.
Lemma kgcore_ok ca cb cc cd ck co cl : keyok ck -> 0 <= ca < 256 -> 0 <= cb < 32 -> 0 <= cc < 2 ^ 32 -> 0 <= cd < 2 ->
  0 <= cl < 65536 -> (cl + 7) / 8 <= zlen co ->
  exists co', kasumi_kgcore ca cb cc cd ck co cl = Ok co' /\ zlen co' = zlen co /\
    (forall j, 0 <= j < (cl + 7) / 8 -> at0 co' j = ks_octet ca cb cc cd ck j) /\
    (forall j, (cl + 7) / 8 <= j -> at0 co' j = at0 co j).
Proof.
  intros KO Ha Hb Hc Hd Hcl Hlen. rewrite kgcore_unfold.
  destruct (Areg_ok ca cb cc cd ck KO Ha Hb Hc Hd) as [-> WA]. cbn [bind].
  assert (KS : forall j, ks_octet ca cb cc cd ck j = sto ck (Areg ca cb cc cd ck) j) by (intros; unfold ks_octet, sto; reflexivity).
  revert KS WA. generalize (Areg ca cb cc cd ck) as A. intros A KS WA.
  destruct (expand_ok ck (proj1 KO) (proj2 KO)) as (k & -> & G & R). cbn [bind].
  destruct (kg_loop ck k A co (cl / 64) KO G R WA) as (c2 & -> & I2 & I3 & I4); [lia|lia|]. cbn [bind].
  set (m := (cl / 8) mod 8 + (if negb (cl mod 8 =? 0) then 1 else 0)).
  assert (M : m = (cl + 7) / 8 - 8 * (cl / 64) /\ 0 <= m <= 8). { unfold m. destruct (Z.eqb_spec (cl mod 8) 0); cbn [negb]; lia. }
  destruct M as [M MB]. assert (U : u8 m = m) by (unfold u8; apply Z.mod_small; lia). rewrite U. clearbody m. cbv zeta.
  destruct (Z.eqb_spec m 0) as [E0|N0].
  - exists c2. split; auto. split; auto. split; intros j Hj; [rewrite KS; apply I3|apply I4]; lia.
  - destruct (kg_tail ck k A c2 cl m KO G R WA Hcl) as (c' & -> & L' & V); [lia|lia|lia|]. exists c'. split; auto. split; [lia|]. split; intros j Hj.
    + rewrite V by lia. rewrite KS. destruct (Z.leb_spec (cl / 64 * 8) j); destruct (Z.ltb_spec j ((cl + 7) / 8)); cbn [andb]; try lia; apply I3; lia.
    + rewrite V by lia. destruct (Z.ltb_spec j ((cl + 7) / 8)); [lia|]. rewrite Bool.andb_false_r. apply I4. lia.
Qed.

(* A5/4 *)
Lemma count_ok fn : 0 <= fn < 2715648 -> osmo_a5_fn_count fn = Ok (COUNT fn) /\ 0 <= COUNT fn < 2 ^ 22.
Proof.
  intros H. unfold osmo_a5_fn_count, COUNT.
  assert (S : forall x, 0 <= x < 65536 -> s32 x = x).
  { intros x Hx. unfold s32, u32. rewrite Z.mod_small by lia. replace (x <? 2147483648) with true by lia. reflexivity. }
  assert (B1 : 0 <= fn / 1326 < 2048) by lia. assert (B2 : 0 <= fn mod 26 < 26) by (apply Z.mod_pos_bound; lia). assert (B3 : 0 <= fn mod 51 < 51) by (apply Z.mod_pos_bound; lia).
  change (26 * 51) with 1326. rewrite !S by lia. revert B1 B2 B3. generalize (fn / 1326) as t1, (fn mod 26) as t2, (fn mod 51) as t3. clear. intros t1 t2 t3 B1 B2 B3.
  assert (Sh : Z.shiftl t1 11 = t1 * 2048) by (rewrite Z.shiftl_mul_pow2 by lia; reflexivity).
  assert (Sh3 : Z.shiftl t3 5 = t3 * 32) by (rewrite Z.shiftl_mul_pow2 by lia; reflexivity).
  replace ((t1 <? 0) || (2 ^ 31 <=? Z.shiftl t1 11)) with false by (rewrite Sh; lia).
  assert (E : Z.lor (Z.lor (Z.shiftl t1 11) (Z.shiftl t3 5)) t2 = t1 * 2048 + t3 * 32 + t2).
  { rewrite (Z.lor_comm (Z.shiftl t1 11)). rewrite (lor_shiftl_add (Z.shiftl t3 5)) by (rewrite ?Sh3; lia). rewrite Sh3.
    replace (t3 * 32 + t1 * 2 ^ 11) with (Z.shiftl (t3 + t1 * 64) 5) by (rewrite Z.shiftl_mul_pow2 by lia; change (2 ^ 11) with 2048; change (2 ^ 5) with 32; lia).
    rewrite Z.lor_comm, lor_shiftl_add by lia. change (2 ^ 5) with 32. lia. }
  rewrite E. rewrite u32_small by (unfold is_u32; lia). change (2 ^ 22) with 4194304. split; [auto|lia].
Qed.
Lemma ks_octet_byte ca cb cc cd ck j : is_byte (ks_octet ca cb cc cd ck j).
Proof. unfold ks_octet, octet_of, is_byte. apply Z.mod_pos_bound. lia. Qed.
Lemma ks_bit_pbit ca cb cc cd ck l i : 0 <= i -> at0 l (i / 8) = ks_octet ca cb cc cd ck (i / 8) -> b2z (pbit false l i) = ks_bit ca cb cc cd ck i.
Proof.
  intros Hi E. unfold pbit, ks_bit. rewrite <- E. rewrite <- Z.testbit_spec' by lia. unfold Z.b2z, b2z. reflexivity.
Qed.
Lemma pbit_dl ca cb cc cd ck g : keyok ck -> zlen g = 32 -> 0 <= ca < 256 -> 0 <= cb < 32 -> 0 <= cc < 2 ^ 32 -> 0 <= cd < 2 ->
  (do gamma <- kasumi_kgcore ca cb cc cd ck g 114 ;; do '(o, _) <- osmo_pbit2ubit (repeat 0 114) gamma 114 ;; Ok (Some o)) =
  Ok (Some (map (fun i => ks_bit ca cb cc cd ck (0 + i)) (zseq 0 114))).
Proof.
  intros KO HL Ha Hb Hc Hd. change ((114 + 7) / 8) with 15.
  destruct (kgcore_ok ca cb cc cd ck g 114 KO Ha Hb Hc Hd) as (co & -> & L & V & _); [lia|change ((114 + 7) / 8) with 15; lia|]. cbn [bind].
  destruct (pbit2ubit_ok (repeat 0 114) co 114) as (o & -> & Lo & Vo & _); [lia|unfold zlen; rewrite repeat_length; lia|unfold nbytes; change ((114 + 7) / 8) with 15; lia|]. cbn [bind].
  do 2 f_equal. apply (list_ext _ _ 0).
  - unfold zlen in Lo. rewrite repeat_length in Lo. rewrite map_length, zseq_length. lia.
  - intros i Hi. unfold zlen in Lo. rewrite repeat_length in Lo. rewrite nth_map_zseq by lia. specialize (Vo (Z.of_nat i) ltac:(lia)). unfold at0 in Vo. rewrite Nat2Z.id in Vo. rewrite Vo.
    rewrite !Z.add_0_l. apply ks_bit_pbit; [lia|]. apply V. change ((114 + 7) / 8) with 15. lia.
Qed.
Lemma uplink_ok gamma : 30 <= zlen gamma -> exists u, a5_4_uplink gamma = Ok u /\ zlen u = 15 /\ forall i, 0 <= i < 15 -> at0 u i = u8 (Z.shiftl (at0 gamma (i + 14)) 2 + Z.shiftr (at0 gamma (i + 15)) 6).
Proof.
  intros H. unfold a5_4_uplink.
  destruct (zfor_inv (fun i u => zlen u = i /\ forall j, 0 <= j < i -> at0 u j = u8 (Z.shiftl (at0 gamma (j + 14)) 2 + Z.shiftr (at0 gamma (j + 15)) 6))
    (fun i l => do a <- rd gamma (i + 14) ;; do b <- rd gamma (i + 15) ;; Ok (l ++ [u8 (Z.shiftl a 2 + Z.shiftr b 6)])) 15 0 []) as (u & -> & L & V).
  - split; [reflexivity|intros; lia].
  - intros j s Hj [L V]. rewrite !rd_at0 by lia. cbn [bind]. eexists. split; [reflexivity|]. rewrite zlen_app. split; [rewrite L; reflexivity|].
    intros k Hk. rewrite at0_app by lia. rewrite L. destruct (Z.ltb_spec k j); [apply V; lia|]. replace k with j by lia. rewrite Z.sub_diag. reflexivity.
  - exists u. auto.
Qed.
Lemma up_bit a b p : 0 <= b < 256 -> 0 <= p < 8 -> Z.testbit (u8 (Z.shiftl a 2 + Z.shiftr b 6)) p = if p <? 2 then Z.testbit b (6 + p) else Z.testbit a (p - 2).
Proof.
  intros Hb Hp. unfold u8. change 256 with (2 ^ 8). rewrite Z.mod_pow2_bits_low by lia. rewrite (Z.shiftl_mul_pow2 a), (Z.shiftr_div_pow2 b) by lia.
  assert (B : 0 <= b / 2 ^ 6 < 2 ^ 2) by (change (2 ^ 6) with 64; change (2 ^ 2) with 4; lia).
  rewrite Z.add_comm, <- lor_shiftl_add by (auto; lia). rewrite Z.lor_spec, Z.shiftl_spec by lia. destruct (Z.ltb_spec p 2).
  - rewrite (Z.testbit_neg_r a) by lia. rewrite orb_false_r. rewrite <- Z.shiftr_div_pow2 by lia. rewrite Z.shiftr_spec by lia. f_equal. lia.
  - rewrite (testbit_above (b / 2 ^ 6) 2) by (auto; lia). reflexivity.
Qed.
Lemma pbit_ul ca cb cc cd ck g : keyok ck -> zlen g = 32 -> bytes g -> 0 <= ca < 256 -> 0 <= cb < 32 -> 0 <= cc < 2 ^ 32 -> 0 <= cd < 2 ->
  (do gamma <- kasumi_kgcore ca cb cc cd ck g 228 ;; do uplink <- a5_4_uplink gamma ;; do '(o, _) <- osmo_pbit2ubit (repeat 0 114) uplink 114 ;; Ok (Some o)) =
  Ok (Some (map (fun i => ks_bit ca cb cc cd ck (114 + i)) (zseq 0 114))).
Proof.
  intros KO HL HB Ha Hb Hc Hd.
  destruct (kgcore_ok ca cb cc cd ck g 228 KO Ha Hb Hc Hd) as (co & -> & L & V & W); [lia|change ((228 + 7) / 8) with 29; lia|]. cbn [bind]. change ((228 + 7) / 8) with 29 in *.
  destruct (uplink_ok co) as (u & -> & Lu & Vu); [lia|]. cbn [bind].
  destruct (pbit2ubit_ok (repeat 0 114) u 114) as (o & -> & Lo & Vo & _); [lia|unfold zlen; rewrite repeat_length; lia|unfold nbytes; change ((114 + 7) / 8) with 15; lia|]. cbn [bind].
  do 2 f_equal. apply (list_ext _ _ 0).
  - unfold zlen in Lo. rewrite repeat_length in Lo. rewrite map_length, zseq_length. lia.
  - intros i Hi. unfold zlen in Lo. rewrite repeat_length in Lo. rewrite nth_map_zseq by lia. specialize (Vo (Z.of_nat i) ltac:(lia)). unfold at0 in Vo. rewrite Nat2Z.id in Vo. rewrite Vo.
    rewrite Z.add_0_l. assert (J : 0 <= Z.of_nat i < 114) by lia. revert J. generalize (Z.of_nat i) as j. clear i Hi Vo. intros j Hj.
    rewrite <- (ks_bit_pbit ca cb cc cd ck co) by (try apply V; lia). f_equal. unfold pbit. rewrite Vu by lia.
    assert (BY : is_byte (at0 co (j / 8 + 15))).
    { destruct (Z.eq_dec (j / 8) 14). { rewrite W by lia. unfold bytes in HB. rewrite Forall_forall in HB. apply HB. unfold at0. apply nth_In. unfold zlen in HL. lia. }
      rewrite V by lia. apply ks_octet_byte. }
    rewrite up_bit by (auto; lia). destruct (Z.ltb_spec (7 - j mod 8) 2).
    + replace ((114 + j) / 8) with (j / 8 + 15) by lia. f_equal. lia.
    + replace ((114 + j) / 8) with (j / 8 + 14) by lia. f_equal. lia.
Qed.
Lemma a5_4_ok g_ul g_dl ck fn dl ul : keyok ck -> zlen g_ul = 32 -> bytes g_ul -> zlen g_dl = 32 -> 0 <= fn < 2715648 ->
  a5_4 g_ul g_dl ck fn dl ul = Ok (if dl then Some (a54_bits ck fn 0) else None, if ul then Some (a54_bits ck fn 114) else None).
Proof.
  intros KO L1 B1 L2 Hf. unfold a5_4, a54_bits. destruct (count_ok fn Hf) as [-> BC]. cbn [bind].
  assert (C32 : 0 <= COUNT fn < 2 ^ 32) by (change (2 ^ 22) with 4194304 in BC; change (2 ^ 32) with 4294967296; lia).
  destruct ul; [rewrite pbit_ul by (auto; lia)|]; cbn [bind]; (destruct dl; [rewrite pbit_dl by (auto; lia)|]; cbn [bind]; reflexivity).
Qed.
Lemma c4_ok kc : length kc = 8%nat -> bytes kc -> osmo_c4 kc = Ok (kc ++ kc) /\ keyok (kc ++ kc).
Proof.
  intros L B. unfold osmo_c4. rewrite L. cbn [Nat.ltb Nat.leb]. rewrite firstn_all2 by lia. split; auto. split; [rewrite app_length; lia|apply Forall_app; auto].
Qed.

(* KASUMI is a permutation of the blocks *)
Lemma xor_cancel a b c : xor a c = xor b c -> a = b.
Proof. unfold xor. intros E. rewrite <- (Z.lxor_0_r a), <- (Z.lxor_0_r b), <- (Z.lxor_nilpotent c), <- !Z.lxor_assoc, E. reflexivity. Qed.
Lemma feistel_inj ks : forall i L R L' R', feistel i ks L R = feistel i ks L' R' -> L = L' /\ R = R'.
Proof.
  induction ks as [|k t IH]; intros i L R L' R' E; cbn [feistel] in E. { split; congruence. }
  apply IH in E as [E1 ->]. split; auto. now apply xor_cancel in E1.
Qed.
Definition mk (k : round_key) : subkeys :=
  Sub (repeat (rKL1 k) 8) (repeat (rKL2 k) 8) (repeat (rKO1 k) 8) (repeat (rKO2 k) 8) (repeat (rKO3 k) 8) (repeat (rKI1 k) 8) (repeat (rKI2 k) 8) (repeat (rKI3 k) 8).
Lemma mk_good k : wrk k -> good (mk k) /\ rkof (mk k) 0 = k.
Proof.
  intros (a & b & c & d & e & f & g & h). split; [|destruct k; reflexivity].
  assert (Q : forall x, w16 x -> wlist (repeat x 8)) by (intros x Hx; split; [reflexivity|apply Forall_forall; intros y Hy; apply repeat_spec in Hy; subst; auto]).
  unfold good, mk. cbn [KL1 KL2 KO1 KO2 KO3 KI1 KI2 KI3]. repeat (split; [apply Q; auto|]). apply Q; auto.
Qed.
Lemma f_round_w i k I : wrk k -> w32 I -> w32 (f_round i k I).
Proof.
  intros Hk HI. destruct (mk_good k Hk) as [G E]. unfold f_round. rewrite <- E. destruct (Nat.odd i).
  - apply FO_ok; auto; [apply FL_ok; auto; lia|lia].
  - apply FL_ok; auto; [apply FO_ok; auto; lia|lia].
Qed.
Lemma feistel_surj ks : Forall wrk ks -> forall i L' R', w32 L' -> w32 R' -> exists L R, w32 L /\ w32 R /\ feistel i ks L R = (L', R').
Proof.
  induction 1 as [|k t Hk Ht IH]; intros i L' R' HL HR; cbn [feistel]; [eauto|].
  destruct (IH (S i) L' R' HL HR) as (L1 & R1 & W1 & W2 & E). exists R1, (xor L1 (f_round i k R1)).
  assert (WF := f_round_w i k R1 Hk W2). split; auto. split; [apply xor32; auto|]. rewrite <- E. f_equal.
  unfold xor. rewrite Z.lxor_assoc, Z.lxor_nilpotent, Z.lxor_0_r. reflexivity.
Qed.
Lemma rks_wrk k : good k -> Forall wrk (rks_of k).
Proof. intros G. unfold rks_of. apply Forall_forall. intros x Hx. apply in_map_iff in Hx as (i & <- & Hi). apply good_rk; auto. cbn [In] in Hi. lia. Qed.
Lemma feistel_w ks : Forall wrk ks -> forall i L R, w32 L -> w32 R -> w32 (fst (feistel i ks L R)) /\ w32 (snd (feistel i ks L R)).
Proof.
  induction 1 as [|k t Hk Ht IH]; intros i L R HL HR; cbn [feistel]; [auto|]. apply IH; auto. apply xor32; auto. apply f_round_w; auto.
Qed.
Lemma split64 a : w64 a -> w32 (a / 2 ^ 32) /\ w32 (a mod 2 ^ 32).
Proof. unfold w64, w32. change (2 ^ 64) with 18446744073709551616. change (2 ^ 32) with 4294967296. intros. split; [lia|apply Z.mod_pos_bound; lia]. Qed.
Lemma KASUMI_inj ks a b : Forall wrk ks -> w64 a -> w64 b -> KASUMI ks a = KASUMI ks b -> a = b.
Proof.
  intros W Ha Hb E. unfold KASUMI in E. destruct (split64 a Ha) as [A1 A2]. destruct (split64 b Hb) as [B1 B2].
  pose proof (feistel_w ks W 1 _ _ A1 A2) as [X1 X2]. pose proof (feistel_w ks W 1 _ _ B1 B2) as [Y1 Y2].
  destruct (feistel 1 ks (a / 2 ^ 32) (a mod 2 ^ 32)) as [L R] eqn:EA. destruct (feistel 1 ks (b / 2 ^ 32) (b mod 2 ^ 32)) as [L' R'] eqn:EB. cbn [fst snd] in *.
  assert (L = L' /\ R = R') as [-> ->] by (unfold w32 in *; change (2 ^ 32) with 4294967296 in E; lia).
  rewrite <- EB in EA. apply feistel_inj in EA as [E1 E2]. rewrite (Z.div_mod a (2 ^ 32)), (Z.div_mod b (2 ^ 32)) by lia. congruence.
Qed.
Lemma KASUMI_surj ks c : Forall wrk ks -> w64 c -> exists a, w64 a /\ KASUMI ks a = c.
Proof.
  intros W Hc. destruct (split64 c Hc) as [C1 C2]. destruct (feistel_surj ks W 1 _ _ C1 C2) as (L & R & W1 & W2 & E).
  exists (L * 2 ^ 32 + R). unfold KASUMI. unfold w32 in W1, W2.
  assert (D : (L * 2 ^ 32 + R) / 2 ^ 32 = L /\ (L * 2 ^ 32 + R) mod 2 ^ 32 = R). { change (2 ^ 32) with 4294967296. split; lia. }
  destruct D as [-> ->]. rewrite E. split.
  - unfold w64. change (2 ^ 32) with 4294967296. change (2 ^ 64) with 18446744073709551616. lia.
  - rewrite (Z.div_mod c (2 ^ 32)) at 3 by lia. lia.
Qed.
