(* P_conv.v - proofs about the convolutional coder *)
From Verif Require Import Base S_conv M_conv.

(* ---- puncturing ---- *)
Definition PI (c : code) (idx p : Z) : Prop :=
  match puncture c with
  | None => True
  | Some l => exists a b e, l = a ++ b ++ [e] /\ e < 0 /\ zlen a = p /\ Forall (fun x => x < idx) a /\ incr_from idx b
  end.
Lemma incr_weak lo lo' l : lo' <= lo -> incr_from lo l -> incr_from lo' l.
Proof. destruct l; cbn [incr_from]; auto. intros ? [? ?]. split; auto. lia. Qed.
Lemma incr_ge lo l : incr_from lo l -> Forall (fun x => lo <= x) l.
Proof.
  revert lo. induction l; intros lo H; cbn [incr_from] in H; constructor. { tauto. } destruct H as [H1 H2]. eapply incr_weak in H2; [|instantiate (1 := lo); lia]. auto.
Qed.
Lemma existsb_none i l : Forall (fun x => x <> i) l -> existsb (fun x => x =? i) l = false.
Proof. induction 1; cbn [existsb]; auto. rewrite IHForall. destruct (Z.eqb_spec x i); [lia|]. reflexivity. Qed.
Lemma PI_step c idx p : 0 <= idx -> PI c idx p -> 
  match puncture c with
  | None => punctured c idx = false
  | Some l => exists x, rd l p = Ok x /\ (x =? idx) = punctured c idx
  end /\ PI c (idx + 1) (if punctured c idx then p + 1 else p).
Proof.
  intros Hi H. unfold PI, punctured in *. destruct (puncture c) as [l|]; [|auto].
  destruct H as (a & b & e & -> & He & Ha & Fa & Ib).
  assert (FA : Forall (fun x => x <> idx) a) by (eapply Forall_impl; [|exact Fa]; cbn beta; intros; lia).
  assert (FA1 : Forall (fun x => x < idx + 1) a) by (eapply Forall_impl; [|exact Fa]; cbn beta; intros; lia).
  rewrite !existsb_app, (existsb_none idx a FA). cbn [orb].
  destruct b as [|y b].
  - cbn [app existsb]. destruct (Z.eqb_spec e idx); [lia|]. cbn [orb]. split.
    + exists e. split; [|destruct (Z.eqb_spec e idx); [lia|reflexivity]]. rewrite <- Ha, rd_at0 by (rewrite zlen_app; unfold zlen; cbn [length]; lia).
      rewrite at0_app by (unfold zlen; lia). rewrite Z.ltb_irrefl, Z.sub_diag. reflexivity.
    + exists a, [], e. split; [reflexivity|]. split; auto.
  - cbn [incr_from] in Ib. destruct Ib as [I1 I2]. cbn [app existsb].
    assert (RD : rd (a ++ y :: b ++ [e]) p = Ok y).
    { rewrite <- Ha, rd_at0 by (rewrite zlen_app; unfold zlen; cbn [length]; lia). rewrite at0_app by (unfold zlen; lia). rewrite Z.ltb_irrefl, Z.sub_diag. reflexivity. }
    destruct (Z.eqb_spec y idx) as [E|N].
    + cbn [orb]. split. { exists y. split; auto. rewrite E, Z.eqb_refl. reflexivity. }
      exists (a ++ [y]), b, e. rewrite <- app_assoc. split; [reflexivity|]. split; auto. split; [rewrite zlen_app, Ha; reflexivity|].
      split; [apply Forall_app; split; auto; constructor; auto; lia|]. eapply incr_weak; [|exact I2]. lia.
    + cbn [orb]. assert (G : Forall (fun x => x <> idx) b). { apply incr_ge in I2. eapply Forall_impl; [|exact I2]. cbn beta. intros; lia. }
      rewrite (existsb_none idx b G). cbn [orb existsb]. destruct (Z.eqb_spec e idx); [lia|]. split.
      * exists y. split; auto. destruct (Z.eqb_spec y idx); [lia|reflexivity].
      * exists a, (y :: b), e. split; [reflexivity|]. split; auto. split; auto. split; auto. cbn [incr_from]. split; [lia|auto].
Qed.
Lemma PI_0 c : usable c -> PI c 0 0.
Proof.
  intros (_ & _ & _ & _ & _ & _ & _ & _ & _ & H). unfold PI. destruct (puncture c) as [l|]; auto. destruct H as (ps & e & -> & He & I & _).
  exists [], ps, e. split; [reflexivity|]. split; auto.
Qed.
Lemma keep_app c l1 : forall i l2, keep c i (l1 ++ l2) = keep c i l1 ++ keep c (i + zlen l1) l2.
Proof.
  induction l1 as [|b t IH]; intros i l2; cbn [app keep]. { unfold zlen; cbn [length]. rewrite Z.add_0_r. reflexivity. }
  rewrite !IH. replace (i + 1 + zlen t) with (i + zlen (b :: t)) by (unfold zlen; cbn [length]; lia). destruct (punctured c i); reflexivity.
Qed.
Lemma land_bit out k : 0 <= k -> Z.land (Z.shiftr out k) 1 = out / 2 ^ k mod 2.
Proof. intros. change 1 with (Z.ones 1). rewrite Z.land_ones by lia. rewrite Z.shiftr_div_pow2 by lia. reflexivity. Qed.
Definition out_pre (c : code) (out j : Z) : list Z := map (fun j => out / 2 ^ (cN c - 1 - j) mod 2) (zseq 0 (Z.to_nat j)).
Lemma out_pre_S c out j : 0 <= j -> out_pre c out (j + 1) = out_pre c out j ++ [out / 2 ^ (cN c - 1 - j) mod 2].
Proof.
  intros. unfold out_pre. replace (Z.to_nat (j + 1)) with (S (Z.to_nat j)) by lia. rewrite zseq_snoc, map_app. cbn [map]. rewrite Z2Nat.id, Z.add_0_l by lia. reflexivity.
Qed.
Lemma out_pre_len c out j : 0 <= j -> zlen (out_pre c out j) = j.
Proof. intros. unfold out_pre, zlen. rewrite map_length, zseq_length. lia. Qed.
Lemma do_output_ok c i p s out : 1 <= cN c -> 0 <= i -> PI c (i * cN c) p ->
  exists p', conv_encode_do_output c (Enc i p s) out = Ok (Enc i p' s, keep c (i * cN c) (out_bits c out)) /\ PI c ((i + 1) * cN c) p'.
Proof.
  intros HN Hi HP. set (N := cN c) in *. assert (B : 0 <= i * N) by (apply Z.mul_nonneg_nonneg; lia).
  assert (G : forall f, (forall j p o, 0 <= j < N -> PI c (i * N + j) p ->
       f j (Enc i p s, o) = Ok (Enc i (if punctured c (i * N + j) then p + 1 else p) s, if punctured c (i * N + j) then o else o ++ [out / 2 ^ (N - 1 - j) mod 2])) ->
     exists p', zfor (Z.to_nat N) 0 f (Enc i p s, []) = Ok (Enc i p' s, keep c (i * N) (out_bits c out)) /\ PI c ((i + 1) * N) p').
  { intros f Hf. destruct (zfor_inv (fun j x => exists p', x = (Enc i p' s, keep c (i * N) (out_pre c out j)) /\ PI c (i * N + j) p') f (Z.to_nat N) 0 (Enc i p s, [])) as (x & E & p' & -> & P').
    - exists p. split; [reflexivity|]. rewrite Z.add_0_r. auto.
    - intros j x Hj (p1 & -> & P1). rewrite Z2Nat.id in Hj by lia. rewrite Hf by (auto; lia). eexists. split; [reflexivity|]. eexists. split.
      + f_equal. rewrite out_pre_S by lia. rewrite keep_app, out_pre_len by lia. cbn [keep]. destruct (punctured c (i * N + j)); [rewrite app_nil_r|]; reflexivity.
      + replace (i * N + (j + 1)) with (i * N + j + 1) by lia. apply PI_step; auto. lia.
    - rewrite Z2Nat.id in * by lia. exists p'. split; [exact E|]. replace ((i + 1) * N) with (i * N + (0 + N)) by lia. exact P'. }
  unfold conv_encode_do_output. fold N. destruct (puncture c) as [l|] eqn:EP.
  - apply G. intros j p1 o Hj P1. cbn [i_idx p_idx st]. destruct (PI_step c (i * N + j) p1) as [S1 _]; [lia|auto|]. rewrite EP in S1. destruct S1 as (x & -> & E). cbn [bind]. rewrite E.
    destruct (punctured c (i * N + j)); [reflexivity|]. rewrite land_bit by lia. replace (N - j - 1) with (N - 1 - j) by lia. reflexivity.
  - apply G. intros j p1 o Hj P1. destruct (PI_step c (i * N + j) p1) as [S1 _]; [lia|auto|]. rewrite EP in S1. rewrite S1. rewrite land_bit by lia. replace (N - j - 1) with (N - 1 - j) by lia. reflexivity.
Qed.

Lemma ns_pos c : usable c -> 1 <= n_states c <= 256.
Proof.
  intros (_ & K & _). unfold n_states. split. { pose proof (pow2_pos (cK c - 1) ltac:(lia)). lia. }
  change 256 with (2 ^ 8). apply Z.pow_le_mono_r; lia.
Qed.
Lemma raw_ok c : usable c -> forall bits i p s, Forall is_bit bits -> 0 <= s < n_states c -> 0 <= i -> PI c (i * cN c) p ->
  exists p', conv_encode_raw c (Enc i p s) bits = Ok (Enc (i + zlen bits) p' (walk_end c s bits), keep c (i * cN c) (walk_out c s bits)) /\
    PI c ((i + zlen bits) * cN c) p' /\ 0 <= walk_end c s bits < n_states c.
Proof.
  intros U. pose proof U as (HN & HK & HL & L1 & L2 & R1 & _). induction bits as [|b t IH]; intros i p s HB Hs Hi HP; cbn [conv_encode_raw walk_end walk_out keep].
  { exists p. change (zlen []) with 0. rewrite Z.add_0_r. auto. }
  inversion HB; subst. unfold is_bit in H1. cbn [st]. rewrite !rd_at0 by lia. cbn [bind]. fold (nout c s b) (nst c s b).
  destruct (do_output_ok c i p (nst c s b) (nout c s b)) as (p1 & E & P1); [lia|lia|auto|]. cbn [i_idx p_idx]. rewrite E. cbn [bind i_idx p_idx st].
  destruct (IH (i + 1) p1 (nst c s b) H2) as (p2 & E2 & P2 & W); [apply R1; lia|lia|auto|]. rewrite E2. cbn [bind].
  exists p2. replace (i + zlen (b :: t)) with (i + 1 + zlen t) by (unfold zlen; cbn [length]; lia). split; [|auto]. f_equal. f_equal.
  rewrite keep_app. f_equal. f_equal. unfold out_bits. fold (out_pre c (nout c s b) (cN c)). rewrite out_pre_len by lia. lia.
Qed.
Lemma term_ok c s : usable c -> 0 <= s < n_states c -> term_step c s = Ok (tout c s, tst c s) /\ 0 <= tst c s < n_states c.
Proof.
  intros U Hs. pose proof U as (HN & HK & HL & L1 & L2 & R1 & R2 & R3 & R4 & _). split; [|auto]. unfold term_step, tout, tst. destruct (next_term c) as [[o t]|].
  - destruct R3. rewrite !rd_at0 by lia. reflexivity.
  - rewrite !rd_at0 by lia. unfold nout, nst. rewrite Z.add_0_r. reflexivity.
Qed.
Lemma flush_ok c : usable c -> forall n i p s, 0 <= s < n_states c -> 0 <= i -> PI c (i * cN c) p ->
  exists p', conv_encode_flush c (Enc i p s) n = Ok (Enc (i + Z.of_nat n) p' (flush_end c s n), keep c (i * cN c) (flush_out c s n)).
Proof.
  intros U. pose proof U as (HN & _). induction n as [|n IH]; intros i p s Hs Hi HP; cbn [conv_encode_flush flush_end flush_out keep].
  { exists p. change (Z.of_nat 0) with 0. rewrite Z.add_0_r. auto. }
  cbn [st]. destruct (term_ok c s U Hs) as [-> Ht]. cbn [bind]. cbn [i_idx p_idx].
  destruct (do_output_ok c i p (tst c s) (tout c s)) as (p1 & E & P1); [lia|lia|auto|]. rewrite E. cbn [bind i_idx p_idx st].
  destruct (IH (i + 1) p1 (tst c s) Ht) as (p2 & E2); [lia|auto|]. rewrite E2. cbn [bind].
  exists p2. replace (i + Z.of_nat (S n)) with (i + 1 + Z.of_nat n) by lia. f_equal. f_equal.
  rewrite keep_app. f_equal. f_equal. unfold out_bits. fold (out_pre c (tout c s) (cN c)). rewrite out_pre_len by lia. lia.
Qed.
Lemma bits_num_snoc l b : bits_num (l ++ [b]) = 2 * bits_num l + b.
Proof. unfold bits_num. rewrite fold_left_app. reflexivity. Qed.
Lemma bits_num_bound l : Forall is_bit l -> 0 <= bits_num l < 2 ^ zlen l.
Proof.
  induction l as [|b l IH] using rev_ind; intros H. { cbn. lia. }
  apply Forall_app in H as [H1 H2]. inversion H2; subst. unfold is_bit in H3. rewrite bits_num_snoc, zlen_app. specialize (IH H1).
  change (zlen [b]) with 1. rewrite Z.pow_add_r by (unfold zlen; lia). change (2 ^ 1) with 2. lia.
Qed.
Lemma load_state_ok c input : 1 <= cK c <= 9 -> Forall is_bit input -> zlen input = cK c - 1 -> conv_encode_load_state c input = Ok (bits_num input).
Proof.
  intros HK HB HL. unfold conv_encode_load_state.
  destruct (zfor_inv (fun i x => x = bits_num (firstn (Z.to_nat i) input)) (fun i state => do b <- rd input i ;; Ok (u8 (Z.lor (Z.shiftl state 1) b))) (Z.to_nat (cK c - 1)) 0 0) as (x & -> & ->).
  - reflexivity.
  - intros j x Hj ->. rewrite rd_at0 by lia. cbn [bind]. eexists. split; [reflexivity|].
    assert (E : firstn (Z.to_nat (j + 1)) input = firstn (Z.to_nat j) input ++ [at0 input j]).
    { apply (list_ext _ _ 0). - rewrite app_length, !firstn_length. unfold zlen in HL. cbn [length]. lia.
      - intros k Hk. rewrite firstn_length in Hk. unfold zlen in HL. rewrite nth_firstn. destruct (Nat.ltb_spec k (Z.to_nat (j + 1))); [|lia].
        destruct (Nat.eq_dec k (Z.to_nat j)). + subst. rewrite app_nth2; rewrite firstn_length; [|lia]. replace (Z.to_nat j - Nat.min (Z.to_nat j) (length input))%nat with O by lia. reflexivity.
        + rewrite app_nth1 by (rewrite firstn_length; lia). rewrite nth_firstn. destruct (Nat.ltb_spec k (Z.to_nat j)); [reflexivity|lia]. }
    rewrite E, bits_num_snoc. assert (BB : is_bit (at0 input j)). { rewrite Forall_forall in HB. apply HB. unfold at0. apply nth_In. unfold zlen in HL. lia. }
    assert (BN := bits_num_bound (firstn (Z.to_nat j) input) (Forall_firstn _ _ _ HB)). unfold zlen in BN. rewrite firstn_length in BN. unfold zlen in HL.
    assert (P8 : 2 ^ Z.of_nat (Nat.min (Z.to_nat j) (length input)) <= 2 ^ 7) by (apply Z.pow_le_mono_r; lia). change (2 ^ 7) with 128 in P8.
    rewrite Z.lor_comm, lor_shiftl_add by (unfold is_bit in BB; change (2 ^ 1) with 2; lia). change (2 ^ 1) with 2. unfold u8, is_bit in *. rewrite Z.mod_small by lia. lia.
  - rewrite firstn_all2 by (unfold zlen in HL; lia). reflexivity.
Qed.
Lemma encode_ok c input : usable c -> Forall is_bit input -> zlen input = clen c -> (cterm c = TAIL_BITING -> cK c - 1 <= clen c) ->
  conv_encode c input = Ok (encoded c input).
Proof.
  intros U HB HL HT. pose proof U as (HN & HK & HLn & _). unfold conv_encode, encoded, codeword. destruct (Z.ltb_spec (zlen input) (clen c)); [lia|].
  match goal with |- bind ?x _ = _ => assert (S0 : x = Ok (start_state c input) /\ 0 <= start_state c input < n_states c) end.
  { pose proof (ns_pos c U). unfold start_state. destruct (cterm c); try (split; [reflexivity|lia]). specialize (HT eq_refl). cbv zeta. destruct (Z.ltb_spec (clen c - cK c + 1) 0); [lia|].
    assert (L : zlen (skipn (Z.to_nat (clen c - cK c + 1)) input) = cK c - 1) by (unfold zlen in *; rewrite skipn_length; lia).
    assert (B : Forall is_bit (skipn (Z.to_nat (clen c - cK c + 1)) input)) by (apply Forall_skipn; auto).
    split; [apply load_state_ok; auto|]. pose proof (bits_num_bound _ B). rewrite L in H2. exact H2. }
  destruct S0 as [-> S0]. cbn [bind]. rewrite firstn_all2 by (unfold zlen in HL; lia). cbv zeta.
  destruct (raw_ok c U input 0 0 (start_state c input) HB S0) as (p & -> & P1 & W); [lia|apply PI_0; auto|]. cbn [bind].
  rewrite keep_app. rewrite Z.mul_0_l.
  assert (LW : forall bits s, zlen (walk_out c s bits) = zlen bits * cN c).
  { clear - HN. induction bits; intros s; cbn [walk_out]; [reflexivity|]. rewrite zlen_app, IHbits. unfold out_bits. fold (out_pre c (nout c s a) (cN c)). rewrite out_pre_len by lia. unfold zlen. cbn [length]. lia. }
  destruct (cterm c) eqn:ET; cbn [keep]; rewrite ?app_nil_r; auto.
  destruct (flush_ok c U (Z.to_nat (cK c - 1)) (0 + zlen input) p (walk_end c (start_state c input) input) W) as (p2 & ->); [unfold zlen; lia|auto|]. cbn [bind].
  rewrite LW. rewrite !Z.add_0_l. reflexivity.
Qed.
Lemma walk_len c bits : 1 <= cN c -> forall s, zlen (walk_out c s bits) = zlen bits * cN c.
Proof. intros HN. induction bits; intros s; cbn [walk_out]; [reflexivity|]. rewrite zlen_app, IHbits. unfold out_bits. fold (out_pre c (nout c s a) (cN c)). rewrite out_pre_len by lia. unfold zlen. cbn [length]. lia. Qed.
Lemma flush_len c n : 1 <= cN c -> forall s, zlen (flush_out c s n) = Z.of_nat n * cN c.
Proof. intros HN. induction n; intros s; cbn [flush_out]; [reflexivity|]. rewrite zlen_app, IHn. unfold out_bits. fold (out_pre c (tout c s) (cN c)). rewrite out_pre_len by lia. lia. Qed.
Lemma codeword_len c bits : 1 <= cN c -> 1 <= cK c -> zlen bits = clen c -> zlen (codeword c bits) = total c.
Proof.
  intros. unfold codeword, total. cbv zeta. rewrite zlen_app, walk_len by auto. destruct (cterm c); rewrite ?flush_len by auto; change (zlen []) with 0; rewrite ?Z2Nat.id by lia; lia.
Qed.
Lemma keep_none c l : puncture c = None -> forall i, keep c i l = l.
Proof. intros E. induction l; intros i; cbn [keep]; auto. unfold punctured. rewrite E, IHl. reflexivity. Qed.
Lemma keep_len c l : forall i a b e, puncture c = Some (a ++ b ++ [e]) -> e < 0 -> 0 <= i -> Forall (fun x => x < i) a -> incr_from i b -> Forall (fun x => x < i + zlen l) b ->
  zlen (keep c i l) + zlen b = zlen l.
Proof.
  induction l as [|x l IH]; intros i a b e EP He Hi FA IB FB; cbn [keep].
  - destruct b as [|y b]; [reflexivity|]. cbn [incr_from] in IB. inversion FB; subst. change (zlen []) with 0 in *. lia.
  - assert (P : PI c i (zlen a)) by (unfold PI; rewrite EP; exists a, b, e; auto). destruct (PI_step c i _ Hi P) as [S1 S2]. rewrite EP in S1.
    destruct S1 as (y & R & E). rewrite <- E in *. replace (zlen (x :: l)) with (zlen l + 1) in * by (unfold zlen; cbn [length]; lia).
    assert (FA1 : Forall (fun x => x < i + 1) a) by (eapply Forall_impl; [|exact FA]; cbn beta; intros; lia).
    destruct b as [|z b].
    + assert (y = e). { rewrite rd_at0 in R by (rewrite !zlen_app; unfold zlen; cbn [length]; lia). rewrite at0_app, Z.ltb_irrefl, Z.sub_diag in R by (unfold zlen; lia). injection R as <-. reflexivity. }
      subst y. destruct (Z.eqb_spec e i); [lia|]. assert (G := IH (i + 1) a [] e EP He ltac:(lia) FA1 I ltac:(constructor)). unfold zlen in *. cbn [length] in *. lia.
    + assert (y = z). { rewrite rd_at0 in R by (rewrite !zlen_app; unfold zlen; cbn [length app]; lia). rewrite at0_app, Z.ltb_irrefl, Z.sub_diag in R by (unfold zlen; lia). injection R as <-. reflexivity. }
      subst z. cbn [incr_from] in IB. destruct IB as [I1 I2]. inversion FB; subst. destruct (Z.eqb_spec y i) as [->|N].
      * assert (G := IH (i + 1) (a ++ [i]) b e). rewrite <- app_assoc in G. specialize (G EP He ltac:(lia)). 
        assert (zlen (keep c (i + 1) l) + zlen b = zlen l). { apply G; auto. - apply Forall_app; split; auto. constructor; auto. lia. - eapply Forall_impl; [|exact H2]. cbn beta. intros; lia. }
        unfold zlen in *. cbn [length]. lia.
      * assert (G := IH (i + 1) a (y :: b) e EP He ltac:(lia) FA1 ltac:(cbn [incr_from]; split; [lia|auto])).
        assert (zlen (keep c (i + 1) l) + zlen (y :: b) = zlen l). { apply G. constructor; [lia|]. eapply Forall_impl; [|exact H2]. cbn beta. intros; lia. }
        unfold zlen in *. cbn [length] in *. lia.
Qed.
Lemma count_ok ps e : e < 0 -> forall n lo, 0 <= lo -> incr_from lo ps -> count_punct (ps ++ [e]) n = Ok (n + zlen ps).
Proof.
  intros He. induction ps as [|x ps IH]; intros n lo Hl I; cbn [app count_punct].
  - destruct (Z.leb_spec 0 e); [lia|]. change (zlen []) with 0. rewrite Z.add_0_r. reflexivity.
  - cbn [incr_from] in I. destruct (Z.leb_spec 0 x); [|lia]. rewrite (IH (n + 1) (x + 1)) by (try apply I; lia). f_equal. unfold zlen. cbn [length]. lia.
Qed.
Lemma encoded_len c bits : usable c -> zlen bits = clen c -> conv_get_output_length c 0 = Ok (zlen (encoded c bits)).
Proof.
  intros U HL. pose proof U as (HN & HK & HLn & _ & _ & _ & _ & _ & _ & HP). unfold conv_get_output_length, conv_get_input_length. cbn [Z.leb Z.compare].
  assert (T : match cterm c with FLUSH => clen c * cN c + cN c * (cK c - 1) | _ => clen c * cN c end = total c) by (unfold total; destruct (cterm c); lia).
  rewrite T. cbv zeta. assert (CL := codeword_len c bits ltac:(lia) ltac:(lia) HL). unfold encoded. destruct (puncture c) as [l|] eqn:EP.
  - destruct HP as (ps & e & -> & He & I & F). rewrite (count_ok ps e He 0 0) by (auto; lia). cbn [bind]. f_equal.
    assert (G := keep_len c (codeword c bits) 0 [] ps e EP He ltac:(lia) ltac:(constructor) I). rewrite CL in G. assert (zlen (keep c 0 (codeword c bits)) + zlen ps = total c) by (apply G; eapply Forall_impl; [|exact F]; cbn beta; intros; lia). lia.
  - rewrite keep_none by auto. rewrite CL. reflexivity.
Qed.
