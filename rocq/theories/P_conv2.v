(* P_conv2.v - the Viterbi decoder finds a path of minimum distance *)
From Verif Require Import Base S_conv M_conv P_conv.

(* ---- soft bits with the punctured positions filled in ---- *)
Definition used (c : code) (i : Z) : Z := zlen (keep c 0 (repeat 0 (Z.to_nat i))).
Lemma repeat_S_end {A} (x : A) n : repeat x (S n) = repeat x n ++ [x].
Proof. induction n; cbn [repeat app] in *; congruence. Qed.
Lemma used_S c i : 0 <= i -> used c (i + 1) = used c i + (if punctured c i then 0 else 1).
Proof.
  intros. unfold used. replace (Z.to_nat (i + 1)) with (S (Z.to_nat i)) by lia. rewrite repeat_S_end, keep_app, zlen_app. unfold zlen at 3. rewrite repeat_length, Z2Nat.id, Z.add_0_l by lia.
  cbn [keep]. destruct (punctured c i); reflexivity.
Qed.
Lemma used_mono c i j : 0 <= i <= j -> used c i <= used c j.
Proof.
  intros [H1 H2]. replace j with (i + Z.of_nat (Z.to_nat (j - i))) by lia. induction (Z.to_nat (j - i)) as [|n IH]. { replace (i + Z.of_nat 0) with i by lia. lia. }
  replace (i + Z.of_nat (S n)) with (i + Z.of_nat n + 1) by lia. rewrite used_S by lia. destruct (punctured c _); lia.
Qed.
Lemma used_nn c i : 0 <= used c i. Proof. unfold used, zlen. lia. Qed.
Lemma keep_zlen c l : forall i l', zlen l = zlen l' -> zlen (keep c i l) = zlen (keep c i l').
Proof.
  induction l as [|x l IH]; intros i [|y l'] E; unfold zlen in *; cbn [length] in *; try lia. cbn [keep]. assert (G := IH (i + 1) l'). destruct (punctured c i); cbn [length]; lia.
Qed.
Lemma used_total c l : zlen (keep c 0 l) = used c (zlen l).
Proof. unfold used. apply keep_zlen. unfold zlen. rewrite repeat_length. lia. Qed.
Definition sof (c : code) (input : list Z) (i : Z) : Z := if punctured c i then 0 else at0 input (used c i).
Fixpoint sumd (c : code) (input : list Z) (i : Z) (l : list Z) : Z := match l with [] => 0 | b :: t => sdist b (sof c input i) + sumd c input (i + 1) t end.
Lemma sumd_app c input l1 : forall i l2, sumd c input i (l1 ++ l2) = sumd c input i l1 + sumd c input (i + zlen l1) l2.
Proof.
  induction l1 as [|b t IH]; intros i l2; cbn [app sumd]. { change (zlen []) with 0. rewrite Z.add_0_r. lia. }
  rewrite IH. replace (i + zlen (b :: t)) with (i + 1 + zlen t) by (unfold zlen; cbn [length]; lia). lia.
Qed.
Lemma skipn_cons (l : list Z) k : 0 <= k < zlen l -> skipn (Z.to_nat k) l = at0 l k :: skipn (Z.to_nat (k + 1)) l.
Proof.
  intros H. apply (list_ext _ _ 0). { rewrite skipn_length. cbn [length]. rewrite skipn_length. unfold zlen in H. lia. }
  intros i Hi. rewrite nth_skipn. destruct i; cbn [nth]. { unfold at0. f_equal. lia. } rewrite nth_skipn. f_equal. lia.
Qed.
Lemma dist_keep c input l : forall i, 0 <= i -> used c (i + zlen l) <= zlen input -> dist (keep c i l) (skipn (Z.to_nat (used c i)) input) = sumd c input i l.
Proof.
  induction l as [|b t IH]; intros i Hi H; cbn [keep sumd]; [reflexivity|].
  replace (i + zlen (b :: t)) with (i + 1 + zlen t) in H by (unfold zlen; cbn [length]; lia). specialize (IH (i + 1) ltac:(lia) H).
  assert (M := used_mono c (i + 1) (i + 1 + zlen t) ltac:(unfold zlen; lia)). pose proof (used_nn c i) as NN. rewrite used_S in IH, M by lia. unfold sof.
  destruct (punctured c i).
  - rewrite Z.add_0_r in IH. rewrite IH. reflexivity.
  - rewrite skipn_cons by lia. cbn [dist]. rewrite IH. reflexivity.
Qed.
Lemma sdist_bound b x : -128 <= x <= 127 -> 0 <= sdist b x <= 127.
Proof.
  intros H. unfold sdist. destruct (x =? 0); [lia|]. assert (B : -255 <= x - (if b =? 1 then -127 else 127) <= 255) by (destruct (b =? 1); lia).
  generalize dependent (x - (if b =? 1 then -127 else 127)). intros e B. rewrite Z.pow_2_r. assert (0 <= e * e <= 65025) by nia. lia.
Qed.
Lemma sof_range c input i : Forall (fun x => -128 <= x <= 127) input -> -128 <= sof c input i <= 127.
Proof.
  intros F. unfold sof. destruct (punctured c i); [lia|]. unfold at0. destruct (Nat.lt_ge_cases (Z.to_nat (used c i)) (length input)).
  - rewrite Forall_forall in F. apply F. apply nth_In. auto.
  - rewrite nth_overflow by auto. lia.
Qed.
Lemma sumd_bound c input l : Forall (fun x => -128 <= x <= 127) input -> forall i, 0 <= sumd c input i l <= 127 * zlen l.
Proof.
  intros F. induction l as [|b t IH]; intros i; cbn [sumd]; [change (zlen []) with 0; lia|]. pose proof (sdist_bound b _ (sof_range c input i F)). specialize (IH (i + 1)).
  replace (zlen (b :: t)) with (zlen t + 1) by (unfold zlen; cbn [length]; lia). lia.
Qed.

(* ---- one step ---- *)
Definition sym_of (c : code) (input : list Z) (t : Z) : list Z := map (fun j => sof c input (t * cN c + j)) (zseq 0 (Z.to_nat (cN c))).
Lemma get_sym_ok c input off t p : 1 <= cN c -> 0 <= t -> 0 <= off <= used c (t * cN c) -> used c ((t + 1) * cN c) <= zlen input -> PI c (t * cN c) p ->
  exists p', get_sym c (skipn (Z.to_nat off) input) t (used c (t * cN c) - off) p = Ok (sym_of c input t, used c ((t + 1) * cN c) - off, p') /\ PI c ((t + 1) * cN c) p'.
Proof.
  intros HN Ht Ho Hu HP. set (N := cN c) in *. assert (B : 0 <= t * N) by (apply Z.mul_nonneg_nonneg; lia). unfold get_sym. fold N.
  match goal with |- exists p', zfor _ _ ?f _ = _ /\ _ => 
    destruct (zfor_inv (fun j x => exists p', x = (map (fun j => sof c input (t * N + j)) (zseq 0 (Z.to_nat j)), used c (t * N + j) - off, p') /\ PI c (t * N + j) p') f (Z.to_nat N) 0
      ([], used c (t * N) - off, p)) as (x & E & p' & -> & P') end.
  - exists p. rewrite Z.add_0_r. split; auto.
  - intros j x Hj (p1 & -> & P1). rewrite Z2Nat.id in Hj by lia.
    assert (SN : map (fun j => sof c input (t * N + j)) (zseq 0 (Z.to_nat (j + 1))) = map (fun j => sof c input (t * N + j)) (zseq 0 (Z.to_nat j)) ++ [sof c input (t * N + j)]).
    { replace (Z.to_nat (j + 1)) with (S (Z.to_nat j)) by lia. rewrite zseq_snoc, map_app. cbn [map]. rewrite Z2Nat.id, Z.add_0_l by lia. reflexivity. }
    destruct (PI_step c (t * N + j) p1) as [S1 S2]; [lia|auto|]. replace (t * N + (j + 1)) with (t * N + j + 1) by lia.
    assert (M := used_mono c (t * N + j + 1) ((t + 1) * N) ltac:(lia)). assert (M0 := used_mono c (t * N) (t * N + j) ltac:(lia)).
    assert (US := used_S c (t * N + j) ltac:(lia)).
    assert (RDI : punctured c (t * N + j) = false -> rd (skipn (Z.to_nat off) input) (used c (t * N + j) - off) = Ok (sof c input (t * N + j))).
    { intros EF. unfold sof. rewrite EF in *. rewrite rd_at0 by (unfold zlen in *; rewrite skipn_length; lia). rewrite at0_skipn by lia. do 2 f_equal. lia. }
    destruct (puncture c) as [l|] eqn:EP.
    + destruct S1 as (y & -> & Ey). cbn [bind]. rewrite (Z.eqb_sym (t * N + j) y), Ey. destruct (punctured c (t * N + j)) eqn:EF.
      * eexists. split; [reflexivity|]. eexists. split; [|exact S2]. rewrite SN. assert (Z0 : sof c input (t * N + j) = 0) by (unfold sof; rewrite EF; reflexivity). rewrite Z0. do 2 f_equal. lia.
      * rewrite RDI by auto. cbn [bind]. eexists. split; [reflexivity|]. eexists. split; [|exact S2]. rewrite SN. do 2 f_equal. lia.
    + rewrite S1 in *. rewrite RDI by auto. cbn [bind]. eexists. split; [reflexivity|]. eexists. split; [|exact S2]. rewrite SN. do 2 f_equal. lia.
  - rewrite Z2Nat.id in * by lia. rewrite E. exists p'. replace ((t + 1) * N) with (t * N + (0 + N)) by lia. split; [reflexivity|auto].
Qed.
Definition cost (c : code) (input : list Z) (t out : Z) : Z := sumd c input (t * cN c) (out_bits c out).
Lemma mask_bit out k : 0 <= k -> negb (Z.land out (2 ^ k) =? 0) = (out / 2 ^ k mod 2 =? 1).
Proof.
  intros Hk. assert (E : Z.land out (2 ^ k) = (out / 2 ^ k mod 2) * 2 ^ k).
  { apply Z.bits_inj'. intros i Hi. rewrite Z.land_spec, Z.pow2_bits_eqb, Z.mul_pow2_bits by lia. destruct (Z.eqb_spec k i) as [->|N].
    - rewrite Z.sub_diag. rewrite <- Z.testbit_spec' by lia. destruct (Z.testbit out i); reflexivity.
    - rewrite andb_false_r. destruct (Z.lt_ge_cases (i - k) 0). { rewrite Z.testbit_neg_r by lia. reflexivity. }
      rewrite (testbit_above _ 1); [reflexivity| |lia]. change (2 ^ 1) with 2. apply Z.mod_pos_bound. lia. }
  rewrite E. pose proof (pow2_pos k Hk). assert (M : out / 2 ^ k mod 2 = 0 \/ out / 2 ^ k mod 2 = 1) by (pose proof (Z.mod_pos_bound (out / 2 ^ k) 2); lia).
  destruct M as [-> | ->]; [reflexivity|]. rewrite Z.mul_1_l. destruct (Z.eqb_spec (2 ^ k) 0); [lia|reflexivity].
Qed.
Lemma new_ae_ok c input t a out : 1 <= cN c <= 8 -> new_ae c (sym_of c input t) a out = Ok (a + cost c input t out).
Proof.
  intros HN. set (N := cN c) in *. unfold new_ae. fold N.
  match goal with |- bind (zfor _ _ ?f _) _ = _ =>
    destruct (zfor_inv (fun j x => x = (a + sumd c input (t * N) (out_pre c out j), Z.shiftr (2 ^ (N - 1)) j)) f (Z.to_nat N) 0 (a, u8 (Z.shiftl 1 (N - 1)))) as (x & E & ->) end.
  - change (out_pre c out 0) with (@nil Z). cbn [sumd]. rewrite Z.shiftr_0_r, Z.add_0_r. f_equal. rewrite Z.shiftl_1_l. unfold u8. apply Z.mod_small. split; [apply Z.pow_nonneg; lia|].
    change 256 with (2 ^ 8). apply Z.pow_lt_mono_r; lia.
  - intros j x Hj ->. rewrite Z2Nat.id in Hj by lia.
    assert (RD : rd (sym_of c input t) j = Ok (sof c input (t * N + j))).
    { unfold sym_of. rewrite rd_at0 by (unfold zlen; rewrite map_length, zseq_length; fold N; lia). fold N. rewrite at0_map_zseq by lia. rewrite Z.add_0_l. reflexivity. }
    rewrite RD. cbn [bind]. eexists. split; [reflexivity|]. f_equal.
    + rewrite out_pre_S by lia. rewrite sumd_app, out_pre_len by lia. cbn [sumd]. fold N. rewrite Z.add_0_r. rewrite (Z.shiftr_div_pow2 (2 ^ (N - 1)) j) by lia. rewrite <- Z.pow_sub_r by lia.
      rewrite mask_bit by lia. unfold sdist. destruct (sof c input (t * N + j) =? 0); [lia|]. rewrite Z.shiftr_div_pow2 by lia. change (2 ^ 9) with 512. rewrite Z.pow_2_r. lia.
    + rewrite Z.shiftr_shiftr by lia. reflexivity.
  - rewrite E. cbn [bind]. rewrite Z.add_0_l, Z2Nat.id by lia. unfold cost, out_bits. fold N. reflexivity.
Qed.

Definition tr_rel : Type := Z -> Z -> Z -> Prop.
Record relaxed (c : code) (cs : Z -> Z) (ae_ : list Z) (row : Z) (h0 : list Z) (P : tr_rel) (x : list Z * list Z) : Prop := {
  r_len : zlen (fst x) = n_states c;
  r_hlen : zlen (snd x) = zlen h0;
  r_old : forall j, 0 <= j < row -> at0 (snd x) j = at0 h0 j;
  r_max : forall y, 0 <= y < n_states c -> at0 (fst x) y <= MAX_AE;
  r_low : forall s out y, P s out y -> at0 (fst x) y <= at0 ae_ s + cs out;
  r_ach : forall y, 0 <= y < n_states c -> at0 (fst x) y < MAX_AE -> exists s out, P s out y /\ at0 (fst x) y = at0 ae_ s + cs out /\ at0 (snd x) (row + y) = s }.
Lemma nth_repeat_lt (x : Z) n i : (i < n)%nat -> nth i (repeat x n) 0 = x.
Proof. revert i. induction n; intros [|i] H; cbn [repeat nth]; auto; try lia. apply IHn. lia. Qed.
Lemma wr_ok (l : list Z) i v : 0 <= i < zlen l -> wr l i v = Ok (upd l (Z.to_nat i) v).
Proof. intros. apply wr_in. auto. Qed.
Lemma at0_upd (l : list Z) i v j : 0 <= i < zlen l -> 0 <= j -> at0 (upd l (Z.to_nat i) v) j = if j =? i then v else at0 l j.
Proof.
  intros Hi Hj. unfold at0. destruct (Z.eqb_spec j i) as [->|N].
  - apply upd_nth_same. unfold zlen in Hi. lia.
  - apply upd_nth_other. lia.
Qed.
Lemma survive_ok c input t ae_ row h0 P x s out y : 1 <= cN c <= 8 -> zlen ae_ = n_states c -> 0 <= row -> row + n_states c <= zlen h0 ->
  0 <= s < n_states c -> 0 <= y < n_states c -> relaxed c (cost c input t) ae_ row h0 P x ->
  exists x', survive c (sym_of c input t) ae_ row s out y x = Ok x' /\ relaxed c (cost c input t) ae_ row h0 (fun s' o' y' => P s' o' y' \/ (s' = s /\ o' = out /\ y' = y)) x'.
Proof.
  intros HN HL Hr Hh Hs Hy R. destruct x as [an h]. destruct R as [R1 R2 R3 R4 R5 R6]. cbn [fst snd] in *. unfold survive.
  rewrite rd_at0 by lia. cbn [bind]. rewrite new_ae_ok by auto. cbn [bind]. rewrite rd_at0 by lia. cbn [bind]. set (v := at0 ae_ s + cost c input t out) in *.
  destruct (Z.ltb_spec v (at0 an y)).
  - rewrite !wr_ok by lia. cbn [bind]. eexists. split; [reflexivity|]. constructor; cbn [fst snd].
    + unfold zlen. rewrite upd_length. exact R1.
    + unfold zlen. rewrite upd_length. exact R2.
    + intros j Hj. rewrite at0_upd by lia. destruct (Z.eqb_spec j (row + y)); [lia|]. apply R3. auto.
    + intros z Hz. rewrite at0_upd by lia. destruct (Z.eqb_spec z y); [pose proof (R4 y Hy); lia|]. apply R4. auto.
    + intros s' o' y' [HP|(-> & -> & ->)].
      * destruct (Z.lt_ge_cases y' 0) as [Hneg|Hpos].
        { specialize (R5 _ _ _ HP). unfold at0 in *. replace (Z.to_nat y') with (Z.to_nat 0) in * by lia.
          destruct (Z.eq_dec y 0) as [->|N0]; [rewrite upd_nth_same by (unfold zlen in R1; lia); change (Z.to_nat 0) with O in *; lia|rewrite upd_nth_other by lia; exact R5]. }
        rewrite at0_upd by lia. specialize (R5 _ _ _ HP). destruct (Z.eqb_spec y' y) as [->|]; lia.
      * rewrite at0_upd by lia. rewrite Z.eqb_refl. lia.
    + intros z Hz Hlt. rewrite at0_upd in * by lia. destruct (Z.eqb_spec z y) as [->|Nz].
      * exists s, out. split; [right; auto|]. split; [reflexivity|]. rewrite at0_upd by lia. rewrite Z.eqb_refl. reflexivity.
      * destruct (R6 z Hz Hlt) as (s1 & o1 & P1 & E1 & E2). exists s1, o1. split; [left; auto|]. split; auto. rewrite at0_upd by lia. destruct (Z.eqb_spec (row + z) (row + y)); [lia|]. exact E2.
  - exists (an, h). split; [reflexivity|]. constructor; cbn [fst snd]; auto.
    + intros s' o' y' [HP|(-> & -> & ->)]; [auto|]. lia.
    + intros z Hz Hlt. destruct (R6 z Hz Hlt) as (s1 & o1 & P1 & E1 & E2). exists s1, o1. split; [left; auto|auto].
Qed.
Lemma relaxed_init c cs ae_ row h0 : usable c -> relaxed c cs ae_ row h0 (fun _ _ _ => False) (repeat MAX_AE (Z.to_nat (n_states c)), h0).
Proof.
  intros U. pose proof (ns_pos c U). constructor; cbn [fst snd]; auto.
  - unfold zlen. rewrite repeat_length. lia.
  - intros y Hy. unfold at0. rewrite nth_repeat_lt by lia. lia.
  - intros; contradiction.
  - intros y Hy Hlt. unfold at0 in Hlt. rewrite nth_repeat_lt in Hlt by lia. lia.
Qed.
Lemma relaxed_ext c cs ae_ row h0 (P Q : tr_rel) x : (forall s o y, P s o y <-> Q s o y) -> relaxed c cs ae_ row h0 P x -> relaxed c cs ae_ row h0 Q x.
Proof.
  intros E [R1 R2 R3 R4 R5 R6]. constructor; auto.
  - intros. apply R5. apply E. auto.
  - intros y Hy Hl. destruct (R6 y Hy Hl) as (s & o & P1 & ?). exists s, o. split; [apply E; auto|auto].
Qed.
Definition scan_tr (c : code) : tr_rel := fun s o y => 0 <= s < n_states c /\ exists b, 0 <= b <= 1 /\ o = nout c s b /\ y = nst c s b.
Definition flush_tr (c : code) : tr_rel := fun s o y => 0 <= s < n_states c /\ o = tout c s /\ y = tst c s.
Lemma scan_step_ok c input t ae_ row h0 : usable c -> zlen ae_ = n_states c -> 0 <= row -> row + n_states c <= zlen h0 ->
  exists x, scan_step c ae_ (sym_of c input t) row h0 = Ok x /\ relaxed c (cost c input t) ae_ row h0 (scan_tr c) x.
Proof.
  intros U HL Hr Hh. pose proof U as (HN & HK & HLn & L1 & L2 & R1 & _). pose proof (ns_pos c U) as NS. unfold scan_step.
  match goal with |- exists x, zfor _ _ ?f _ = _ /\ _ =>
    destruct (zfor_inv (fun k x => relaxed c (cost c input t) ae_ row h0 (fun s o y => 0 <= s < k /\ exists b, 0 <= b <= 1 /\ o = nout c s b /\ y = nst c s b) x) f (Z.to_nat (n_states c)) 0
      (repeat MAX_AE (Z.to_nat (n_states c)), h0)) as (x & E & R) end.
  - eapply relaxed_ext; [|apply relaxed_init; auto]. intros s o y. split; [tauto|]. intros [? _]. lia.
  - intros k x Hk R. rewrite Z2Nat.id in Hk by lia. cbn [zfor].
    rewrite !rd_at0 by lia. cbn [bind]. rewrite !Z.add_0_r. replace (2 * k) with (2 * k + 0) by lia. fold (nout c k 0) (nst c k 0).
    destruct (survive_ok c input t ae_ row h0 _ x k (nout c k 0) (nst c k 0) HN HL Hr Hh ltac:(lia) (R1 k 0 ltac:(lia) ltac:(lia)) R) as (x1 & -> & Q1). cbn [bind].
    rewrite ?rd_at0 by lia. cbn [bind]. rewrite Z.add_0_r. change (0 + 1) with 1. fold (nout c k 1) (nst c k 1).
    destruct (survive_ok c input t ae_ row h0 _ x1 k (nout c k 1) (nst c k 1) HN HL Hr Hh ltac:(lia) (R1 k 1 ltac:(lia) ltac:(lia)) Q1) as (x2 & -> & Q2). cbn [bind].
    exists x2. split; [reflexivity|]. eapply relaxed_ext; [|exact Q2]. intros s o y. cbv beta. split.
    + intros [[[Hs HB]|(-> & -> & ->)]|(-> & -> & ->)]; [split; [lia|auto]| |]; (split; [lia|]); [exists 0|exists 1]; (split; [lia|auto]).
    + intros [Hs (b & Hb & -> & ->)]. destruct (Z.eq_dec s k) as [->|N].
      * destruct (Z.eq_dec b 0) as [->|]; [left; right; auto|right]. replace b with 1 by lia. auto.
      * left. left. split; [lia|]. exists b. auto.
  - rewrite Z2Nat.id, Z.add_0_l in R by lia. exists x. split; auto.
Qed.
Lemma flush_step_ok c input t ae_ row h0 : usable c -> zlen ae_ = n_states c -> 0 <= row -> row + n_states c <= zlen h0 ->
  exists x, flush_step c ae_ (sym_of c input t) row h0 = Ok x /\ relaxed c (cost c input t) ae_ row h0 (flush_tr c) x.
Proof.
  intros U HL Hr Hh. pose proof U as (HN & _). pose proof (ns_pos c U) as NS. unfold flush_step.
  match goal with |- exists x, zfor _ _ ?f _ = _ /\ _ =>
    destruct (zfor_inv (fun k x => relaxed c (cost c input t) ae_ row h0 (fun s o y => 0 <= s < k /\ o = tout c s /\ y = tst c s) x) f (Z.to_nat (n_states c)) 0
      (repeat MAX_AE (Z.to_nat (n_states c)), h0)) as (x & E & R) end.
  - eapply relaxed_ext; [|apply relaxed_init; auto]. intros s o y. split; [tauto|]. intros [? _]. lia.
  - intros k x Hk R. rewrite Z2Nat.id in Hk by lia. destruct (term_ok c k U ltac:(lia)) as [-> Ht]. cbn [bind].
    destruct (survive_ok c input t ae_ row h0 _ x k (tout c k) (tst c k) HN HL Hr Hh ltac:(lia) Ht R) as (x1 & -> & Q1).
    exists x1. split; [reflexivity|]. eapply relaxed_ext; [|exact Q1]. intros s o y. cbv beta. split.
    + intros [[Hs HB]|(-> & -> & ->)]; (split; [lia|auto]).
    + intros [Hs (-> & ->)]. destruct (Z.eq_dec s k) as [->|N]; [right; auto|left; split; [lia|auto]].
  - rewrite Z2Nat.id, Z.add_0_l in R by lia. exists x. split; auto.
Qed.
