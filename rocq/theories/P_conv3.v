(* P_conv3.v - the whole trellis, trace back and the decoder *)
From Verif Require Import Base S_conv M_conv P_conv P_conv2.

Section viterbi.
Context (c : code) (input : list Z) (Tr : nat -> tr_rel) (init : Z -> Z).
Inductive path : nat -> Z -> Z -> list Z -> Prop :=
| path0 s : 0 <= s < n_states c -> path 0 s (init s) []
| pathS t s cst l out y : path t s cst l -> Tr t s out y -> path (S t) y (cst + cost c input (Z.of_nat t) out) (s :: l).
Fixpoint tr (h : list Z) (t : nat) (x : Z) : list Z := match t with O => [] | S m => let s := at0 h (n_states c * Z.of_nat m + x) in s :: tr h m s end.
Definition Tr_ok : Prop := forall t s o y, Tr t s o y -> 0 <= s < n_states c /\ 0 <= y < n_states c.
Record V (t : nat) (ae_ h : list Z) : Prop := {
  v_len : zlen ae_ = n_states c;
  v_max : forall y, 0 <= y < n_states c -> at0 ae_ y <= MAX_AE;
  v_low : forall y cst l, path t y cst l -> at0 ae_ y <= cst;
  v_ach : forall y, 0 <= y < n_states c -> at0 ae_ y < MAX_AE -> path t y (at0 ae_ y) (tr h t y) }.
Lemma path_range t y cst l : Tr_ok -> path t y cst l -> 0 <= y < n_states c.
Proof. intros T H. inversion H; subst; auto. apply (T _ _ _ _ H1). Qed.
Lemma path_S_inv t y cst s l : path (S t) y cst (s :: l) -> exists c0 out, path t s c0 l /\ Tr t s out y /\ cst = c0 + cost c input (Z.of_nat t) out.
Proof. intros H. inversion H; subst. eauto. Qed.
Lemma tr_agree h h' : Tr_ok -> forall t y cst, 0 <= n_states c -> path t y cst (tr h t y) -> (forall j, 0 <= j < n_states c * Z.of_nat t -> at0 h' j = at0 h j) -> tr h' t y = tr h t y.
Proof.
  intros T. induction t as [|t IH]; intros y cst HNS HP HA; [reflexivity|]. cbn [tr] in *. cbv zeta in *.
  pose proof (path_range _ _ _ _ T HP) as Ry. apply path_S_inv in HP as (c0 & out & P0 & T0 & _).
  assert (Rs : 0 <= at0 h (n_states c * Z.of_nat t + y) < n_states c) by (apply (T _ _ _ _ T0)).
  assert (B : 0 <= n_states c * Z.of_nat t) by (apply Z.mul_nonneg_nonneg; lia).
  rewrite HA by lia. f_equal. eapply IH; eauto. intros j Hj. apply HA. lia.
Qed.
Lemma V_step t ae_ h x : Tr_ok -> V t ae_ h -> 0 <= n_states c -> relaxed c (cost c input (Z.of_nat t)) ae_ (n_states c * Z.of_nat t) h (Tr t) x -> V (S t) (fst x) (snd x).
Proof.
  intros T [V1 V2 V3 V4] HNS [R1 R2 R3 R4 R5 R6]. assert (B : 0 <= n_states c * Z.of_nat t) by (apply Z.mul_nonneg_nonneg; lia). constructor; auto.
  - intros y cst l HP. inversion HP; subst. specialize (V3 _ _ _ H0). specialize (R5 _ _ _ H1). lia.
  - intros y Hy Hlt. destruct (R6 y Hy Hlt) as (s & out & P1 & E1 & E2). destruct (T _ _ _ _ P1) as [Rs Ry].
    rewrite E1. cbn [tr]. cbv zeta. rewrite E2. 
    (* the metric is never negative, so the predecessor is below the limit *)
    destruct (Z.lt_ge_cases (at0 ae_ s) MAX_AE) as [Hl|Hg].
    + assert (PP := V4 s Rs Hl). assert (E : tr (snd x) t s = tr h t s) by (eapply tr_agree; eauto). rewrite E. eapply pathS; eauto.
    + exfalso. assert (0 <= cost c input (Z.of_nat t) out).
      { unfold cost. generalize (Z.of_nat t * cN c). induction (out_bits c out) as [|b l IHl]; intros i; cbn [sumd]; [lia|]. specialize (IHl (i + 1)).
        assert (0 <= sdist b (sof c input i)); [|lia]. unfold sdist. destruct (_ =? 0); [lia|]. apply Z.div_pos; [|lia]. rewrite Z.pow_2_r. apply Z.square_nonneg. }
      lia.
Qed.
Lemma steps_ok step d off n : usable c -> Tr_ok -> 0 <= o_idx d -> 0 <= n ->
  V (Z.to_nat (o_idx d)) (ae d) (hist d) -> PI c (o_idx d * cN c) (dp_idx d) -> used c (o_idx d * cN c) = off ->
  n_states c * (o_idx d + n) <= zlen (hist d) -> used c ((o_idx d + n) * cN c) <= zlen input ->
  (forall t ae_ row h0, o_idx d <= t < o_idx d + n -> zlen ae_ = n_states c -> 0 <= row -> row + n_states c <= zlen h0 ->
     exists x, step ae_ (sym_of c input t) row h0 = Ok x /\ relaxed c (cost c input t) ae_ row h0 (Tr (Z.to_nat t)) x) ->
  exists d', steps c step d (skipn (Z.to_nat off) input) n = Ok (d', used c ((o_idx d + n) * cN c) - off) /\ o_idx d' = o_idx d + n /\
    V (Z.to_nat (o_idx d + n)) (ae d') (hist d') /\ PI c ((o_idx d + n) * cN c) (dp_idx d') /\ zlen (hist d') = zlen (hist d).
Proof.
  intros U T Ho Hn HV HP Hoff Hh Hu Hst. pose proof U as (HN & _). pose proof (ns_pos c U) as NS. unfold steps.
  match goal with |- context [zfor _ _ ?f _] =>
    destruct (zfor_inv (fun i x => let '(ae_, h, ii, pi) := x in V (Z.to_nat (o_idx d + i)) ae_ h /\ zlen h = zlen (hist d) /\ ii = used c ((o_idx d + i) * cN c) - off /\ PI c ((o_idx d + i) * cN c) pi)
      f (Z.to_nat n) 0 (ae d, hist d, 0, dp_idx d)) as ([[[ae_ h] ii] pi] & E & I1 & I2 & I3 & I4) end.
  - rewrite Z.add_0_r. split; auto. split; auto. split; [lia|auto].
  - intros i [[[ae_ h] ii] pi] Hi (J1 & J2 & J3 & J4). rewrite Z2Nat.id in Hi by lia. subst ii.
    assert (M1 := used_mono c ((o_idx d + i + 1) * cN c) ((o_idx d + n) * cN c)). assert (M2 := used_mono c (o_idx d * cN c) ((o_idx d + i) * cN c)).
    assert (B1 : (o_idx d + i + 1) * cN c <= (o_idx d + n) * cN c) by (apply Z.mul_le_mono_nonneg_r; lia). assert (B2 : o_idx d * cN c <= (o_idx d + i) * cN c) by (apply Z.mul_le_mono_nonneg_r; lia).
    assert (B3 : 0 <= o_idx d * cN c) by (apply Z.mul_nonneg_nonneg; lia).
    pose proof (used_nn c (o_idx d * cN c)).
    destruct (get_sym_ok c input off (o_idx d + i) pi) as (p' & -> & P'); [lia|lia|lia|lia|auto|]. cbn [bind].
    assert (B4 : 0 <= n_states c * (o_idx d + i)) by (apply Z.mul_nonneg_nonneg; lia).
    assert (B5 : n_states c * (o_idx d + i + 1) <= n_states c * (o_idx d + n)) by (apply Z.mul_le_mono_nonneg_l; lia).
    destruct (Hst (o_idx d + i) ae_ (n_states c * (o_idx d + i)) h) as ([an hn] & -> & R); [lia|apply (v_len _ _ _ J1)|auto|lia|]. cbn [bind].
    eexists. split; [reflexivity|]. cbv beta iota.
    assert (VS : V (S (Z.to_nat (o_idx d + i))) (fst (an, hn)) (snd (an, hn))). { eapply V_step; eauto; [lia|]. rewrite Z2Nat.id by lia. exact R. }
    cbn [fst snd] in VS. replace (Z.to_nat (o_idx d + (i + 1))) with (S (Z.to_nat (o_idx d + i))) by lia. split; auto.
    split; [pose proof (r_hlen _ _ _ _ _ _ _ R) as Q; cbn [snd] in Q; lia|]. replace (o_idx d + (i + 1)) with (o_idx d + i + 1) by lia. split; auto.
  - rewrite E. cbn [bind]. rewrite Z2Nat.id, Z.add_0_l in * by lia. eexists. split; [rewrite I3; reflexivity|]. cbn [o_idx ae hist dp_idx]. auto.
Qed.
End viterbi.

(* ---- paths and bit sequences ---- *)
Definition bits_of_states (c : code) := fix f (l : list Z) (x : Z) : list Z := match l with [] => [] | s :: l' => f l' s ++ [if nst c s 0 =? x then 0 else 1] end.
Lemma walk_out_snoc c bits b : forall s, walk_out c s (bits ++ [b]) = walk_out c s bits ++ out_bits c (nout c (walk_end c s bits) b).
Proof. induction bits as [|a t IH]; intros s; cbn [app walk_out walk_end]; [apply app_nil_r|]. rewrite IH, app_assoc. reflexivity. Qed.
Lemma walk_end_snoc c bits b : forall s, walk_end c s (bits ++ [b]) = nst c (walk_end c s bits) b.
Proof. induction bits as [|a t IH]; intros s; cbn [app walk_end]; auto. Qed.
Lemma flush_out_snoc c n : forall s, flush_out c s (S n) = flush_out c s n ++ out_bits c (tout c (flush_end c s n)).
Proof. induction n as [|n IH]; intros s; [cbn [flush_out flush_end]; rewrite app_nil_r; reflexivity|]. cbn [flush_out flush_end] in *. rewrite <- app_assoc. f_equal. apply IH. Qed.
Lemma flush_end_snoc c n : forall s, flush_end c s (S n) = tst c (flush_end c s n).
Proof. induction n as [|n IH]; intros s; [reflexivity|]. cbn [flush_end] in *. apply IH. Qed.

Definition stages (c : code) (t : nat) : tr_rel := if Z.of_nat t <? clen c then scan_tr c else flush_tr c.
Lemma stages_ok c : usable c -> Tr_ok c (stages c).
Proof.
  intros U. pose proof U as (HN & HK & HLn & L1 & L2 & R1 & R2 & R3 & R4 & _). intros t s o y. unfold stages. destruct (_ <? _).
  - intros [Hs (b & Hb & -> & ->)]. auto.
  - intros [Hs (-> & ->)]. auto.
Qed.
Lemma path_bits c input init : usable c -> forall t y cst l, (Z.of_nat t <= clen c) -> path c input (stages c) init t y cst l ->
  exists s0 bits, 0 <= s0 < n_states c /\ Forall is_bit bits /\ length bits = t /\ y = walk_end c s0 bits /\
    cst = init s0 + sumd c input 0 (walk_out c s0 bits) /\ bits_of_states c l y = bits /\ length l = t.
Proof.
  intros U. pose proof U as (HN & HK & HLn & L1 & L2 & R1 & R2 & _). induction t as [|t IH]; intros y cst l Ht HP; inversion HP; subst.
  - exists y, []. split; auto. split; [constructor|]. split; auto. split; auto. cbn [walk_out sumd]. split; [lia|]. auto.
  - destruct (IH s cst0 l0 ltac:(lia) H0) as (s0 & bits & Hs0 & HB & HL & -> & -> & E & LL). unfold stages in H1. destruct (Z.ltb_spec (Z.of_nat t) (clen c)); [|lia].
    destruct H1 as [Hs (b & Hb & -> & ->)]. exists s0, (bits ++ [b]). split; auto. split; [apply Forall_app; split; auto; constructor; auto; unfold is_bit; lia|].
    split; [rewrite app_length, HL; cbn [length]; lia|]. split; [rewrite walk_end_snoc; reflexivity|]. split; [|split].
    + rewrite walk_out_snoc, sumd_app, walk_len by lia. unfold cost. rewrite Z.add_0_l. unfold zlen. rewrite HL. lia.
    + cbn [bits_of_states]. rewrite E. f_equal. f_equal. destruct (Z.eqb_spec (nst c (walk_end c s0 bits) 0) (nst c (walk_end c s0 bits) b)) as [EQ|NE].
      * destruct (Z.eq_dec b 0); auto. replace b with 1 in EQ by lia. exfalso. apply (R2 (walk_end c s0 bits) Hs EQ).
      * destruct (Z.eq_dec b 0) as [->|]; [congruence|lia].
    + cbn [length]. lia.
Qed.
Lemma bits_path c input init : usable c -> forall bits s0, 0 <= s0 < n_states c -> Forall is_bit bits -> zlen bits <= clen c ->
  exists l, path c input (stages c) init (length bits) (walk_end c s0 bits) (init s0 + sumd c input 0 (walk_out c s0 bits)) l.
Proof.
  intros U. pose proof U as (HN & HK & HLn & L1 & L2 & R1 & R2 & _). induction bits as [|b bits IH] using rev_ind; intros s0 Hs HB HL.
  - exists []. cbn [walk_out walk_end sumd length]. rewrite Z.add_0_r. constructor. auto.
  - apply Forall_app in HB as [HB1 HB2]. rewrite zlen_app in HL. change (zlen [b]) with 1 in HL. destruct (IH s0 Hs HB1 ltac:(lia)) as (l & P).
    assert (Rg := path_range _ _ _ _ _ _ _ _ (stages_ok c U) P). exists (walk_end c s0 bits :: l). rewrite app_length. cbn [length]. rewrite Nat.add_1_r, walk_end_snoc.
    rewrite walk_out_snoc, sumd_app, walk_len by lia. rewrite Z.add_0_l, Z.add_assoc. eapply pathS; [exact P|]. unfold stages. unfold zlen in HL. destruct (Z.ltb_spec (Z.of_nat (length bits)) (clen c)); [|lia].
    split; auto. exists b. inversion HB2; subst. unfold is_bit in H2. split; [lia|auto].
Qed.
Lemma path_flush c input init : usable c -> forall k y cst l, path c input (stages c) init (Z.to_nat (clen c) + k) y cst l ->
  exists s c1 l1, path c input (stages c) init (Z.to_nat (clen c)) s c1 (skipn k l) /\ l1 = skipn k l /\ y = flush_end c s k /\
    cst = c1 + sumd c input (clen c * cN c) (flush_out c s k) /\ nth k (y :: l) 0 = s.
Proof.
  intros U. pose proof U as (HN & HK & HLn & _). induction k as [|k IH]; intros y cst l HP.
  - rewrite Nat.add_0_r in HP. exists y, cst, l. cbn [skipn flush_end flush_out sumd nth]. split; auto. split; auto. split; auto. split; [lia|auto].
  - rewrite Nat.add_succ_r in HP. inversion HP; subst. destruct (IH _ _ _ H0) as (s1 & c1 & l1 & P1 & -> & Es & -> & Nt). unfold stages in H1.
    destruct (Z.ltb_spec (Z.of_nat (Z.to_nat (clen c) + k)) (clen c)); [lia|]. destruct H1 as [Hs [-> ->]].
    exists s1, c1, (skipn k l0). cbn [skipn]. split; auto. split; auto. split; [rewrite flush_end_snoc; congruence|]. split.
    + rewrite flush_out_snoc, sumd_app, flush_len by lia. unfold cost. replace (Z.of_nat (Z.to_nat (clen c) + k) * cN c) with (clen c * cN c + Z.of_nat k * cN c) by lia. rewrite <- Es. lia.
    + exact Nt.
Qed.
Lemma flush_path c input init : usable c -> forall k s c1 l1, path c input (stages c) init (Z.to_nat (clen c)) s c1 l1 ->
  exists l, path c input (stages c) init (Z.to_nat (clen c) + k) (flush_end c s k) (c1 + sumd c input (clen c * cN c) (flush_out c s k)) l.
Proof.
  intros U. pose proof U as (HN & HK & HLn & _). induction k as [|k IH]; intros s c1 l1 HP.
  - rewrite Nat.add_0_r. exists l1. cbn [flush_end flush_out sumd]. rewrite Z.add_0_r. auto.
  - destruct (IH _ _ _ HP) as (l & P). exists (flush_end c s k :: l). rewrite Nat.add_succ_r, flush_end_snoc, flush_out_snoc, sumd_app, flush_len by lia.
    assert (Rg := path_range _ _ _ _ _ _ _ _ (stages_ok c U) P). rewrite Z.add_assoc.
    replace (clen c * cN c + Z.of_nat k * cN c) with (Z.of_nat (Z.to_nat (clen c) + k) * cN c) by lia. eapply pathS; [exact P|].
    unfold stages. destruct (Z.ltb_spec (Z.of_nat (Z.to_nat (clen c) + k)) (clen c)); [lia|]. split; auto.
Qed.

(* ---- trace back ---- *)
Lemma out_back_ok c input init h : usable c -> forall t y cst acc, n_states c * Z.of_nat t <= zlen h -> path c input (stages c) init t y cst (tr c h t y) ->
  out_back c h t y acc = Ok (bits_of_states c (tr c h t y) y ++ acc).
Proof.
  intros U. pose proof U as (HN & HK & HLn & L1 & L2 & R1 & R2 & _). pose proof (ns_pos c U) as NS. induction t as [|t IH]; intros y cst acc Hl HP; [reflexivity|].
  cbn [out_back tr] in *. cbv zeta in *. assert (Rg := path_range _ _ _ _ _ _ _ _ (stages_ok c U) HP). apply path_S_inv in HP as (c0 & out & H3 & _ & _).
  assert (Rs := path_range _ _ _ _ _ _ _ _ (stages_ok c U) H3).
  assert (B : 0 <= n_states c * Z.of_nat t) by (apply Z.mul_nonneg_nonneg; lia). rewrite rd_at0 by lia. cbn [bind]. rewrite rd_at0 by lia. cbn [bind].
  erewrite IH; [|lia|exact H3]. cbn [bits_of_states]. rewrite <- app_assoc. cbn [app]. do 4 f_equal. unfold nst. rewrite Z.add_0_r. reflexivity.
Qed.
Lemma skip_back_ok c input init h : usable c -> forall k t y cst, n_states c * Z.of_nat (t + k) <= zlen h -> path c input (stages c) init (t + k) y cst (tr c h (t + k) y) ->
  skip_back c h (Z.of_nat (t + k)) k y = Ok (nth k (y :: tr c h (t + k) y) 0) /\ tr c h t (nth k (y :: tr c h (t + k) y) 0) = skipn k (tr c h (t + k) y).
Proof.
  intros U. pose proof (ns_pos c U) as NS. induction k as [|k IH]; intros t y cst Hl HP.
  - rewrite Nat.add_0_r in *. cbn [skip_back nth skipn]. auto.
  - rewrite Nat.add_succ_r in *. cbn [skip_back tr nth skipn] in *. cbv zeta in *. assert (Rg := path_range _ _ _ _ _ _ _ _ (stages_ok c U) HP). apply path_S_inv in HP as (c0 & out & H3 & _ & _).
    assert (B : 0 <= n_states c * Z.of_nat (t + k)) by (apply Z.mul_nonneg_nonneg; lia). replace (Z.of_nat (S (t + k)) - 1) with (Z.of_nat (t + k)) by lia. rewrite rd_at0 by lia. cbn [bind].
    destruct (IH t (at0 h (n_states c * Z.of_nat (t + k) + y)) _ ltac:(lia) H3) as [E1 E2]. rewrite E1. split; auto.
Qed.

(* ---- decoding ---- *)
Definition init0 (i : Z) : Z := if i =? 0 then 0 else MAX_AE.
Lemma reset_V c input h : usable c -> V c input (stages c) init0 0 (ae (conv_decode_reset c h 0)) h.
Proof.
  intros U. pose proof (ns_pos c U) as NS. unfold conv_decode_reset. cbn [ae]. destruct (Z.ltb_spec 0 0); [lia|].
  assert (A : forall y, 0 <= y < n_states c -> at0 (map (fun i => if i =? 0 then 0 else MAX_AE) (zseq 0 (Z.to_nat (n_states c)))) y = init0 y).
  { intros y Hy. rewrite at0_map_zseq by lia. rewrite Z.add_0_l. reflexivity. }
  constructor.
  - unfold zlen. rewrite map_length, zseq_length. lia.
  - intros y Hy. rewrite A by auto. unfold init0, MAX_AE. destruct (y =? 0); lia.
  - intros y cst l HP. inversion HP; subst. rewrite A by auto. lia.
  - intros y Hy Hl. rewrite A by auto. cbn [tr]. constructor. auto.
Qed.
Lemma used_encoded c bits : usable c -> zlen bits = clen c -> used c (total c) = zlen (encoded c bits).
Proof. intros U HL. pose proof U as (HN & HK & _). unfold encoded. rewrite used_total, codeword_len by (auto; lia). reflexivity. Qed.

Lemma scan_V c h0 input : usable c -> (n_states c * clen c <= zlen h0) -> used c (clen c * cN c) <= zlen input ->
  exists d, conv_decode_scan c (conv_decode_reset c h0 0) input (clen c) = Ok (d, used c (clen c * cN c)) /\ o_idx d = clen c /\
    V c input (stages c) init0 (Z.to_nat (clen c)) (ae d) (hist d) /\ PI c (clen c * cN c) (dp_idx d) /\ zlen (hist d) = zlen h0.
Proof.
  intros U Hh Hu. pose proof U as (HN & HK & HLn & _). unfold conv_decode_scan.
  destruct (steps_ok c input (stages c) init0 (scan_step c) (conv_decode_reset c h0 0) 0 (clen c) U (stages_ok c U)) as (d & E & E1 & E2 & E3 & E4); cbn [o_idx dp_idx hist conv_decode_reset]; auto; try lia.
  - apply reset_V; auto.
  - apply PI_0; auto.
  - intros t ae_ row hh Ht HL Hr Hhh. destruct (scan_step_ok c input t ae_ row hh U HL Hr Hhh) as (x & Ex & R). exists x. split; auto.
    unfold stages. rewrite Z2Nat.id by lia. destruct (Z.ltb_spec t (clen c)); [|lia]. exact R.
  - cbn [skipn Z.to_nat] in E. rewrite E. exists d. cbn [o_idx conv_decode_reset hist] in *. rewrite Z.add_0_l, ?Z.sub_0_r in *. auto.
Qed.

Lemma best_of_ok d n : 0 <= n <= zlen (ae d) -> (forall y, 0 <= y < n -> at0 (ae d) y <= MAX_AE) ->
  exists a s, best_of d (fun _ => Ok true) n (MAX_AE, -1) = Ok (a, s) /\ (forall y, 0 <= y < n -> a <= at0 (ae d) y) /\
    ((s = -1 /\ a = MAX_AE) \/ (0 <= s < n /\ a = at0 (ae d) s)).
Proof.
  intros Hn HM. unfold best_of.
  match goal with |- context [zfor _ _ ?f _] =>
   destruct (zfor_inv (fun k x => (forall y, 0 <= y < k -> fst x <= at0 (ae d) y) /\ fst x <= MAX_AE /\ ((snd x = -1 /\ fst x = MAX_AE) \/ (0 <= snd x < k /\ fst x = at0 (ae d) (snd x)))) f (Z.to_nat n) 0 (MAX_AE, -1))
     as ([a s] & E & I1 & I2 & I3) end.
  - cbn [fst snd]. split; [intros; lia|]. split; [lia|left; auto].
  - intros k [a s] Hk (J1 & J2 & J3). cbn [bind negb]. rewrite rd_at0 by lia. cbn [bind fst snd] in *. destruct (Z.ltb_spec (at0 (ae d) k) a).
    + eexists. split; [reflexivity|]. cbn [fst snd]. split; [|split; [lia|right; split; [lia|auto]]]. intros y Hy. destruct (Z.eq_dec y k) as [->|]; [lia|]. specialize (J1 y ltac:(lia)). lia.
    + eexists. split; [reflexivity|]. cbn [fst snd]. split; [|split; [lia|]]. * intros y Hy. destruct (Z.eq_dec y k) as [->|]; [lia|]. apply J1. lia.
      * destruct J3 as [?|[? ?]]; [left; auto|right; split; [lia|auto]].
  - rewrite Z2Nat.id, Z.add_0_l in * by lia. cbn [fst snd] in *. exists a, s. split; auto.
Qed.

Lemma decode_ok c h0 input : usable c -> cterm c <> TAIL_BITING -> (cterm c = FLUSH -> flushes c) ->
  n_states c * (clen c + cK c - 1) <= zlen h0 -> Forall (fun x => -128 <= x <= 127) input -> conv_get_output_length c 0 = Ok (zlen input) -> 127 * total c < MAX_AE ->
  exists rv out, conv_decode c h0 input = Ok (rv, out) /\ zlen out = clen c /\ Forall is_bit out /\ rv = dist (encoded c out) input /\
    forall x, zlen x = clen c -> Forall is_bit x -> rv <= dist (encoded c x) input.
Proof.
  intros U NT HF Hh HI HL HB. pose proof U as (HN & HK & HLn & _). pose proof (ns_pos c U) as NS.
  assert (ZL : zlen (repeat 0 (Z.to_nat (clen c))) = clen c) by (unfold zlen; rewrite repeat_length; lia).
  assert (UT : used c (total c) = zlen input).
  { rewrite (encoded_len c (repeat 0 (Z.to_nat (clen c))) U ZL) in HL. rewrite (used_encoded c (repeat 0 (Z.to_nat (clen c))) U ZL). congruence. }
  assert (TL : clen c * cN c <= total c) by (unfold total; destruct (cterm c); nia).
  assert (UL : used c (clen c * cN c) <= zlen input) by (rewrite <- UT; apply used_mono; split; [nia|auto]).
  assert (DK : forall x, zlen x = clen c -> dist (encoded c x) input = sumd c input 0 (codeword c x)).
  { intros x Hx. unfold encoded. rewrite <- (dist_keep c input (codeword c x) 0) by (rewrite ?codeword_len; rewrite ?Z.add_0_l; lia). reflexivity. }
  assert (CB : forall x, zlen x = clen c -> sumd c input 0 (codeword c x) <= 127 * total c).
  { intros x Hx. pose proof (sumd_bound c input (codeword c x) HI 0). rewrite codeword_len in H by lia. lia. }
  assert (Hh1 : n_states c * clen c <= zlen h0) by nia.
  destruct (scan_V c h0 input U Hh1 UL) as (d & E & E1 & E2 & E3 & E4). unfold conv_decode.
  assert (IB0 : Forall is_bit (repeat 0 (Z.to_nat (clen c)))) by (apply Forall_forall; intros z Hz; apply repeat_spec in Hz; left; auto).
  destruct (cterm c) eqn:ET; [| |congruence]; cbn [bind]; rewrite E; cbn [bind].
  - (* flush *)
    specialize (HF eq_refl). set (K1 := Z.to_nat (cK c - 1)) in *.
    assert (TT : total c = (clen c + (cK c - 1)) * cN c) by (unfold total; rewrite ET; lia).
    unfold conv_decode_flush.
    destruct (steps_ok c input (stages c) init0 (flush_step c) d (used c (clen c * cN c)) (cK c - 1) U (stages_ok c U)) as (d2 & F & F1 & F2 & F3 & F4); rewrite ?E1; auto; try lia.
    { rewrite <- TT. lia. }
    { intros t ae_ row hh Ht HLa Hr Hhh. destruct (flush_step_ok c input t ae_ row hh U HLa Hr Hhh) as (x & Ex & R). exists x. split; auto.
      unfold stages. rewrite Z2Nat.id by lia. destruct (Z.ltb_spec t (clen c)); [lia|]. exact R. }
    rewrite F. cbn [bind]. rewrite E1 in *. clear F E.
    replace (Z.to_nat (clen c + (cK c - 1))) with (Z.to_nat (clen c) + K1)%nat in F2 by lia.
    (* every input gives a path to state 0 *)
    assert (ALL : forall x, zlen x = clen c -> Forall is_bit x -> at0 (ae d2) 0 <= sumd c input 0 (codeword c x)).
    { intros x Hx HBx. destruct (bits_path c input init0 U x 0 ltac:(lia) HBx ltac:(lia)) as (l & P). replace (length x) with (Z.to_nat (clen c)) in P by (unfold zlen in Hx; lia).
      destruct (flush_path c input init0 U K1 _ _ _ P) as (l2 & P2). assert (Rg := path_range _ _ _ _ _ _ _ _ (stages_ok c U) P).
      assert (HZ : flush_end c (walk_end c 0 x) K1 = 0) by exact (HF _ Rg). rewrite HZ in P2. pose proof (v_low _ _ _ _ _ _ _ F2 _ _ _ P2) as LO. unfold codeword, start_state. rewrite ET. cbv zeta. rewrite sumd_app, walk_len by lia. rewrite Hx. fold K1.
      change (init0 0) with 0 in LO. rewrite Z.add_0_l. lia. }
    assert (LT : at0 (ae d2) 0 < MAX_AE) by (pose proof (ALL _ ZL IB0); pose proof (CB _ ZL); lia).
    assert (PP := v_ach _ _ _ _ _ _ _ F2 0 ltac:(lia) LT).
    unfold conv_decode_get_output, conv_decode_get_best_end_state. rewrite ET. cbn [Z.ltb Z.compare bind]. rewrite (rd_at0 (ae d2)) by (rewrite (v_len _ _ _ _ _ _ _ F2); lia). cbn [bind].
    fold K1. destruct (path_flush c input init0 U K1 0 _ _ PP) as (s & c1 & l1 & P1 & -> & Es & Ec & Nt).
    assert (HL2 : n_states c * Z.of_nat (Z.to_nat (clen c) + K1) <= zlen (hist d2)) by (rewrite F4, E4; replace (Z.of_nat (Z.to_nat (clen c) + K1)) with (clen c + cK c - 1) by lia; lia).
    destruct (skip_back_ok c input init0 (hist d2) U K1 (Z.to_nat (clen c)) 0 _ HL2 PP) as [SB TB].
    rewrite F1. replace (clen c + (cK c - 1)) with (Z.of_nat (Z.to_nat (clen c) + K1)) by lia. rewrite SB. cbn [bind]. rewrite Nt in *. rewrite <- TB in P1.
    replace (Z.of_nat (Z.to_nat (clen c) + K1) - (cK c - 1)) with (clen c) by lia.
    rewrite (out_back_ok c input init0 (hist d2) U (Z.to_nat (clen c)) s c1 []) by (auto; nia). cbn [bind]. rewrite app_nil_r.
    destruct (path_bits c input init0 U (Z.to_nat (clen c)) _ _ _ ltac:(lia) P1) as (s0 & bits & Hs0 & HBb & HLb & Hend & Hc1 & Hbits & _). rewrite Hbits.
    assert (ZB : zlen bits = clen c) by (unfold zlen; lia).
    assert (S0 : s0 = 0 /\ init0 s0 = 0).
    { pose proof (sumd_bound c input (walk_out c s0 bits) HI 0). pose proof (sumd_bound c input (flush_out c s K1) HI (clen c * cN c)). unfold init0 in *. destruct (Z.eqb_spec s0 0); [auto|lia]. }
    destruct S0 as [-> I0]. exists (at0 (ae d2) 0), bits. split; [reflexivity|]. split; auto. split; auto. split.
    + rewrite DK by auto. unfold codeword, start_state. rewrite ET. cbv zeta. rewrite sumd_app, walk_len by lia. fold K1. rewrite ZB, <- Hend, Z.add_0_l. lia.
    + intros x Hx HBx. rewrite DK by auto. apply ALL; auto.
  - (* truncation *)
    assert (TT : total c = clen c * cN c) by (unfold total; rewrite ET; lia).
    assert (CW : forall x, codeword c x = walk_out c 0 x) by (intros; unfold codeword, start_state; rewrite ET; cbv zeta; apply app_nil_r).
    assert (ALL : forall x, zlen x = clen c -> Forall is_bit x -> exists y, 0 <= y < n_states c /\ at0 (ae d) y <= sumd c input 0 (codeword c x)).
    { intros x Hx HBx. destruct (bits_path c input init0 U x 0 ltac:(lia) HBx ltac:(lia)) as (l & P). replace (length x) with (Z.to_nat (clen c)) in P by (unfold zlen in Hx; lia).
      assert (Rg := path_range _ _ _ _ _ _ _ _ (stages_ok c U) P). pose proof (v_low _ _ _ _ _ _ _ E2 _ _ _ P) as LO. exists (walk_end c 0 x). split; auto. rewrite CW. change (init0 0) with 0 in LO. lia. }
    unfold conv_decode_get_output, conv_decode_get_best_end_state. rewrite ET. cbn [Z.ltb Z.compare bind].
    assert (VL := v_len _ _ _ _ _ _ _ E2).
    destruct (best_of_ok d (n_states c)) as (a & s & -> & B1 & B2); [lia|apply (v_max _ _ _ _ _ _ _ E2)|]. cbn [bind].
    assert (LT : a < MAX_AE). { destruct (ALL _ ZL IB0) as (y & Hy & Hle). specialize (B1 y Hy). pose proof (CB _ ZL). lia. }
    destruct B2 as [[-> ->]|[Hs ->]]; [lia|]. destruct (Z.ltb_spec s 0); [lia|]. rewrite rd_at0 by lia. cbn [bind]. rewrite E1.
    assert (PP := v_ach _ _ _ _ _ _ _ E2 s Hs LT).
    rewrite (out_back_ok c input init0 (hist d) U (Z.to_nat (clen c)) s _ []) by (try exact PP; rewrite E4, Z2Nat.id by lia; auto). cbn [bind]. rewrite app_nil_r.
    destruct (path_bits c input init0 U (Z.to_nat (clen c)) _ _ _ ltac:(lia) PP) as (s0 & bits & Hs0 & HBb & HLb & Hend & Hc1 & Hbits & _). rewrite Hbits.
    assert (ZB : zlen bits = clen c) by (unfold zlen; lia).
    assert (S0 : s0 = 0 /\ init0 s0 = 0). { pose proof (sumd_bound c input (walk_out c s0 bits) HI 0). unfold init0 in *. destruct (Z.eqb_spec s0 0); [auto|lia]. }
    destruct S0 as [-> I0]. exists (at0 (ae d) s), bits. split; [reflexivity|]. split; auto. split; auto. split.
    + rewrite DK, CW by auto. lia.
    + intros x Hx HBx. rewrite DK by auto. destruct (ALL x Hx HBx) as (y & Hy & Hle). specialize (B1 y Hy). lia.
Qed.
Lemma scan_any c d input : usable c -> o_idx d = 0 -> dp_idx d = 0 -> zlen (ae d) = n_states c -> (forall y, 0 <= y < n_states c -> at0 (ae d) y <= MAX_AE) ->
  n_states c * clen c <= zlen (hist d) -> used c (clen c * cN c) <= zlen input ->
  exists d', conv_decode_scan c d input (clen c) = Ok (d', used c (clen c * cN c)) /\ o_idx d' = clen c /\
    V c input (stages c) (at0 (ae d)) (Z.to_nat (clen c)) (ae d') (hist d').
Proof.
  intros U O0 D0 L0 M0 Hh Hu. pose proof U as (HN & HK & HLn & _). unfold conv_decode_scan.
  destruct (steps_ok c input (stages c) (at0 (ae d)) (scan_step c) d 0 (clen c) U (stages_ok c U)) as (d' & E & E1 & E2 & E3 & E4); rewrite ?O0, ?D0, ?Z.add_0_l; auto; try lia.
  - change (Z.to_nat 0) with O. constructor; auto.
    + intros y cst l HP. inversion HP; subst. lia.
    + intros y Hy Hl. cbn [tr]. constructor. auto.
  - apply PI_0; auto.
  - intros t ae_ row hh Ht HL Hr Hhh. destruct (scan_step_ok c input t ae_ row hh U HL Hr Hhh) as (x & Ex & R). exists x. split; auto.
    unfold stages. rewrite Z2Nat.id by lia. destruct (Z.ltb_spec t (clen c)); [|lia]. exact R.
  - cbn [skipn Z.to_nat] in E. rewrite E. exists d'. rewrite O0, Z.add_0_l, ?Z.sub_0_r in *. auto.
Qed.
Lemma dist_nonneg l : forall s, 0 <= dist l s.
Proof.
  induction l as [|b l IH]; intros [|x s]; cbn [dist]; try lia. specialize (IH s). assert (0 <= sdist b x); [|lia].
  unfold sdist. destruct (_ =? 0); [lia|]. apply Z.div_pos; [|lia]. rewrite Z.pow_2_r. apply Z.square_nonneg.
Qed.
Lemma dist_certain l : dist l (certain l) = 0.
Proof. induction l as [|b l IH]; cbn [dist certain map]; auto. fold (certain l). rewrite IH. unfold sdist. destruct (b =? 1); reflexivity. Qed.
Lemma dist_zero l : forall m, length l = length m -> Forall is_bit l -> Forall is_bit m -> dist l (certain m) = 0 -> l = m.
Proof.
  induction l as [|b l IH]; intros [|x m] HL B1 B2 H; cbn [length] in HL; try discriminate; auto. cbn [dist certain map] in H. fold (certain m) in H. inversion B1; inversion B2; subst.
  pose proof (dist_nonneg l (certain m)). assert (S : 0 <= sdist b (if x =? 1 then -127 else 127)).
  { unfold sdist. destruct (_ =? 0); [lia|]. apply Z.div_pos; [|lia]. rewrite Z.pow_2_r. apply Z.square_nonneg. }
  f_equal; [|apply IH; auto; lia]. assert (E : sdist b (if x =? 1 then -127 else 127) = 0) by lia. unfold is_bit in *. destruct H2 as [-> | ->], H6 as [-> | ->]; try reflexivity; vm_compute in E; discriminate.
Qed.
Lemma keep_bits c l : Forall is_bit l -> forall i, Forall is_bit (keep c i l).
Proof. induction 1; intros i; cbn [keep]; [constructor|]. destruct (punctured c i); auto. Qed.
Lemma out_bits_bits c o : Forall is_bit (out_bits c o).
Proof.
  unfold out_bits. apply Forall_forall. intros x Hx. apply in_map_iff in Hx as (j & <- & _). unfold is_bit. generalize (o / 2 ^ (cN c - 1 - j)). intros z. pose proof (Z.mod_pos_bound z 2). lia.
Qed.
Lemma codeword_bits c x : Forall is_bit (codeword c x).
Proof.
  assert (W : forall l s, Forall is_bit (walk_out c s l)) by (induction l; intros s; cbn [walk_out]; [constructor|apply Forall_app; split; [apply out_bits_bits|auto]]).
  assert (F : forall n s, Forall is_bit (flush_out c s n)) by (induction n; intros s; cbn [flush_out]; [constructor|apply Forall_app; split; [apply out_bits_bits|auto]]).
  unfold codeword. cbv zeta. apply Forall_app. split; auto. destruct (cterm c); auto.
Qed.
