(** Range encoding, part B continued: the recursion. *)
From Coq Require Import ZArith List Lia Bool Znumtheory.
From Verif Require Import Base S_range M_range P_range P_range2.
Import ListNotations.
Open Scope Z_scope.

Lemma p2S (n : Z) : 0 <= n -> 2 ^ (n + 1) = 2 * 2 ^ n.
Proof. intros. rewrite Z.pow_add_r by lia. change (2 ^ 1) with 2. ring. Qed.
Lemma div_pow2 a b : 0 <= b <= a -> 2 ^ a / 2 ^ b = 2 ^ (a - b).
Proof.
  intros H. replace a with ((a - b) + b) at 1 by ring. rewrite Z.pow_add_r by lia. apply Z.div_mul.
  pose proof (pow2_pos b). lia.
Qed.

Lemma annexJ_left e W (L : nat) b N : 1 <= e -> 0 <= b < 2 ^ Z.of_nat L ->
  annexJ_up (2 ^ (e + Z.of_nat L)) W (S L) b N =
  annexJ_up (2 ^ (e + Z.of_nat L)) W L b ((N + W (2 ^ Z.of_nat L + b) + 2 ^ (e - 1) - 2) mod (2 ^ e - 1) + 1).
Proof.
  intros He Hb. cbn [annexJ_up]. rewrite Nat2Z.inj_succ. set (l := Z.of_nat L) in *. unfold Z.succ.
  assert (0 <= l) by (unfold l; lia).
  assert (E2 : 2 ^ (l + 1) = 2 * 2 ^ l) by (apply p2S; lia).
  assert (E1 : 2 ^ (e + l) / 2 ^ (l + 1) = 2 ^ (e - 1)) by (rewrite div_pow2 by lia; f_equal; ring).
  assert (E3 : 2 * 2 ^ (e + l) / 2 ^ (l + 1) = 2 ^ e).
  { rewrite <- p2S by lia. rewrite div_pow2 by lia. f_equal. ring. }
  rewrite E1, E3. rewrite E2. rewrite (Z.mul_comm 2 (2 ^ l)) , Z.div_mul by lia.
  destruct (Z.ltb_spec (2 * (2 ^ l * 2 + b)) (3 * (2 ^ l * 2))) as [|Hx]; [|clear - Hb Hx; generalize dependent (2 ^ l); intros; lia].
  replace (2 ^ l * 2 + b - 2 ^ l) with (2 ^ l + b) by ring. reflexivity.
Qed.
Lemma annexJ_right e W (L : nat) b N : 1 <= e -> 0 <= b < 2 ^ Z.of_nat L ->
  annexJ_up (2 ^ (e + Z.of_nat L)) W (S L) (b + 2 ^ Z.of_nat L) N =
  annexJ_up (2 ^ (e + Z.of_nat L)) W L b ((N + W (2 ^ Z.of_nat L + b) - 1) mod (2 ^ e - 1) + 1).
Proof.
  intros He Hb. cbn [annexJ_up]. rewrite Nat2Z.inj_succ. set (l := Z.of_nat L) in *. unfold Z.succ.
  assert (0 <= l) by (unfold l; lia).
  assert (E2 : 2 ^ (l + 1) = 2 * 2 ^ l) by (apply p2S; lia).
  assert (E3 : 2 * 2 ^ (e + l) / 2 ^ (l + 1) = 2 ^ e).
  { rewrite <- p2S by lia. rewrite div_pow2 by lia. f_equal. ring. }
  rewrite E3. rewrite E2. rewrite (Z.mul_comm 2 (2 ^ l)) , Z.div_mul by lia.
  destruct (Z.ltb_spec (2 * (2 ^ l * 2 + (b + 2 ^ l))) (3 * (2 ^ l * 2))) as [Hx|]; [clear - Hb Hx; generalize dependent (2 ^ l); intros; lia|].
  replace (b + 2 ^ l - 2 ^ l) with b by ring.
  replace (2 ^ l * 2 + (b + 2 ^ l) - 2 ^ l * 2) with (2 ^ l + b) by ring. reflexivity.
Qed.
Lemma annexJ_node R W (L : nat) b : 0 <= b < 2 ^ Z.of_nat L ->
  annexJ R W (2 ^ Z.of_nat L + b) = annexJ_up R W L b (W (2 ^ Z.of_nat L + b)).
Proof.
  intros Hb. unfold annexJ. rewrite (Z.log2_unique (2 ^ Z.of_nat L + b) (Z.of_nat L)); [|lia|].
  - rewrite Nat2Z.id. f_equal. ring.
  - unfold Z.succ. rewrite p2S by lia. lia.
Qed.

(** the value is a frame of the parent: left and right *)
Lemma left_val e p v : 2 <= e -> let h := 2 ^ (e - 1) - 1 in
  (1 + v + (1 + p) + 2 ^ (e - 1) - 2) mod (2 ^ e - 1) + 1 = 1 + (v + p + h + 1) mod (2 * h + 1).
Proof.
  intros He h. unfold h. replace (2 ^ e) with (2 * 2 ^ (e - 1)).
  2: { rewrite <- p2S by lia. f_equal. ring. }
  rewrite Z.add_comm. f_equal. f_equal; ring.
Qed.
Lemma right_val e p v : 2 <= e -> let h := 2 ^ (e - 1) - 1 in
  (1 + v + (1 + p) - 1) mod (2 ^ e - 1) + 1 = 1 + (v + p + 1) mod (2 * h + 1).
Proof.
  intros He h. unfold h. replace (2 ^ e) with (2 * 2 ^ (e - 1)).
  2: { rewrite <- p2S by lia. f_equal. ring. }
  rewrite Z.add_comm. f_equal. f_equal; ring.
Qed.

Lemma NoDup_bound R l : NoDup l -> Forall (fun f => 0 <= f < R) l -> zlen l <= Z.max R 0.
Proof.
  intros Hn Hr. assert (Hi : incl l (zseq 0 (Z.to_nat R))).
  { intros x Hx. rewrite Forall_forall in Hr. specialize (Hr x Hx). cbv beta in Hr. apply zseq_In. lia. }
  pose proof (NoDup_incl_length Hn Hi) as H. rewrite zseq_length in H. unfold zlen. lia.
Qed.

Lemma log2_double q : 1 <= q -> Z.log2 (2 * q) = Z.log2 q + 1.
Proof. intros. rewrite Z.log2_double by lia. unfold Z.succ. lia. Qed.
Lemma log2_double1 q : 1 <= q -> Z.log2 (2 * q + 1) = Z.log2 q + 1.
Proof. intros. rewrite Z.log2_succ_double by lia. unfold Z.succ. lia. Qed.

(** indices of a subtree *)
Definition node (L : nat) (b q : Z) : Z := 2 ^ Z.of_nat L * q + b.
Lemma node_left (L : nat) b q : node (S L) b q = node L b (2 * q).
Proof. unfold node. rewrite Nat2Z.inj_succ. unfold Z.succ. rewrite p2S by lia. ring. Qed.
Lemma node_right (L : nat) b q : node (S L) (b + 2 ^ Z.of_nat L) q = node L b (2 * q + 1).
Proof. unfold node. rewrite Nat2Z.inj_succ. unfold Z.succ. rewrite p2S by lia. ring. Qed.
Lemma node_inj L b q q' : node L b q = node L b q' -> q = q'.
Proof. unfold node. intros E. pose proof (pow2_pos (Z.of_nat L) ltac:(lia)). nia. Qed.

Definition enc_post (e : Z) (L : nat) (b : Z) (arfcns out out' : list Z) : Prop :=
  zlen out' = zlen out /\
  (forall k, 1 <= k -> (forall q, 1 <= q <= zlen arfcns -> k <> node L b q) -> at0 out' (k - 1) = at0 out (k - 1)) /\
  (forall q, 1 <= q <= zlen arfcns -> 1 <= at0 out' (node L b q - 1) <= 2 ^ (e - Z.log2 q) - 1) /\
  (forall W, (forall q, 1 <= q <= zlen arfcns -> W (node L b q) = at0 out' (node L b q - 1)) ->
     (forall q, 1 <= q <= zlen arfcns -> exists x, In x arfcns /\
        annexJ (2 ^ (e + Z.of_nat L)) W (node L b q) = annexJ_up (2 ^ (e + Z.of_nat L)) W L b (1 + x)) /\
     (forall x, In x arfcns -> exists q, 1 <= q <= zlen arfcns /\
        annexJ (2 ^ (e + Z.of_nat L)) W (node L b q) = annexJ_up (2 ^ (e + Z.of_nat L)) W L b (1 + x))).

Lemma tree_cases m r l : 2 * r + 1 <= m <= 2 * r + 2 -> l = m - 1 - r ->
  forall q, 1 <= q <= m -> q = 1 \/ (exists q', q = 2 * q' /\ 1 <= q' <= l) \/ (exists q', q = 2 * q' + 1 /\ 1 <= q' <= r).
Proof.
  intros Hm Hl q Hq. pose proof (Z.div_mod q 2 ltac:(lia)) as Hd. pose proof (Z.mod_pos_bound q 2 ltac:(lia)).
  destruct (Z.eq_dec q 1); [left; assumption|right]. destruct (Z.eq_dec (q mod 2) 0).
  - left. exists (q / 2). lia.
  - right. exists (q / 2). lia.
Qed.

Lemma range_enc_ok fu : forall e (L : nat) b arfcns out,
  1 <= e -> e + Z.of_nat L <= 30 -> 0 <= b < 2 ^ Z.of_nat L -> NoDup arfcns ->
  Forall (fun f => 0 <= f < 2 ^ e - 1) arfcns -> (length arfcns < fu)%nat ->
  node L b (zlen arfcns) <= zlen out ->
  exists out', range_enc fu (2 ^ e - 1) arfcns out (2 ^ Z.of_nat L + b - 1) = Ok (out', 0) /\
    enc_post e L b arfcns out out'.
Proof.
  induction fu as [|fu IH]; intros e L b arfcns out He HL Hb Hn Hr Hf Ho; [lia|].
  cbn [range_enc]. set (P := 2 ^ Z.of_nat L) in *.
  assert (HP : 1 <= P) by (unfold P; pose proof (pow2_pos (Z.of_nat L) ltac:(lia)); lia).
  assert (En : forall q, node L b q = P * q + b) by reflexivity.
  pose proof (zlen_nonneg arfcns) as Hz.
  destruct (Z.leb_spec (zlen arfcns) 0).
  { exists out. split; [reflexivity|]. assert (E0 : zlen arfcns = 0) by lia.
    unfold enc_post. rewrite E0. split; [reflexivity|]. split; [auto|]. split; [intros q Hq; lia|].
    intros W _. split; [intros; lia|]. intros x Hx. exfalso. destruct arfcns; [destruct Hx|].
    rewrite zlen_cons in E0. pose proof (zlen_nonneg arfcns). lia. }
  destruct (Z.eqb_spec (zlen arfcns) 1) as [E1 | E1].
  { destruct arfcns as [|a [|a' t]]; [cbn in *; lia| |rewrite !zlen_cons in E1; pose proof (zlen_nonneg t); lia].
    rewrite rd_at0 by (rewrite E1; lia). cbn [bind]. change (at0 [a] 0) with a.
    rewrite En, E1 in Ho. rewrite wr_in by lia. cbn [bind]. eexists. split; [reflexivity|].
    inversion Hr as [|? ? Har _]; subst.
    unfold enc_post. rewrite zlen_upd, E1. split; [reflexivity|].
    assert (Eq : forall q, 1 <= q <= 1 -> q = 1) by (intros; lia).
    assert (Ew : at0 (upd out (Z.to_nat (P + b - 1)) (1 + a)) (node L b 1 - 1) = 1 + a).
    { rewrite En. rewrite at0_upd by lia. destruct (Z.eqb_spec (P * 1 + b - 1) (P + b - 1)); [reflexivity|lia]. }
    split; [|split].
    - intros k Hk Hne. rewrite at0_upd by lia. specialize (Hne 1 ltac:(lia)). rewrite En in Hne.
      destruct (Z.eqb_spec (k - 1) (P + b - 1)); [lia|reflexivity].
    - intros q Hq. rewrite (Eq q Hq), Ew. change (Z.log2 1) with 0. rewrite Z.sub_0_r. lia.
    - intros W HW. specialize (HW 1 ltac:(lia)). rewrite Ew in HW. rewrite En, Z.mul_1_r in HW.
      assert (Ea : annexJ (2 ^ (e + Z.of_nat L)) W (node L b 1) = annexJ_up (2 ^ (e + Z.of_nat L)) W L b (1 + a)).
      { rewrite En, Z.mul_1_r. unfold P. rewrite annexJ_node by exact Hb. fold P. rewrite HW. reflexivity. }
      split.
      + intros q Hq. rewrite (Eq q Hq). exists a. split; [left; reflexivity | exact Ea].
      + intros x [<- | []]. exists 1. split; [lia | exact Ea]. }
  (* two or more *)
  assert (H2 : 2 <= zlen arfcns) by lia.
  pose proof (NoDup_bound _ _ Hn Hr) as Hbd.
  assert (He2 : 2 <= e).
  { destruct (Z.eq_dec e 1) as [-> |]; [change (2 ^ 1 - 1) with 1 in Hbd; lia | lia]. }
  set (h := 2 ^ (e - 1) - 1).
  assert (ER : 2 ^ e - 1 = 2 * h + 1).
  { unfold h. replace (2 ^ e) with (2 * 2 ^ (e - 1)) by (rewrite <- p2S by lia; f_equal; ring). ring. }
  assert (Hh : 0 < h).
  { unfold h. pose proof (Z.pow_le_mono_r 2 1 (e - 1) ltac:(lia) ltac:(lia)). change (2 ^ 1) with 2 in *. lia. }
  rewrite ER in *.
  destruct (find_from_spec h arfcns arfcns 0 ltac:(lia)) as [sp [Esp [Hsp Hg]]].
  { destruct (split_exists h ltac:(lia) arfcns Hn Hr) as [x [Hx Ex]].
    - intros ->. cbn in H2. lia.
    - exists x. split; [exact Hx|]. rewrite quot2 by lia. exact Ex. }
  unfold find_index. rewrite Esp, Z.add_0_l.
  destruct (Z.ltb_spec sp 0); [lia|].
  rewrite rd_at0 by lia. cbn [bind]. set (p := at0 arfcns sp) in *.
  assert (Hp : In p arfcns) by (unfold p, at0; apply nth_In; unfold zlen in Hsp; lia).
  assert (Hpr : 0 <= p < 2 * h + 1) by (rewrite Forall_forall in Hr; apply (Hr p Hp)).
  rewrite En in Ho.
  assert (Hm : P * 2 <= P * zlen arfcns) by (apply Z.mul_le_mono_nonneg_l; lia).
  rewrite wr_in by lia. cbn [bind].
  rewrite part_left by (assumption || lia). cbn [bind].
  rewrite part_right by (assumption || lia). cbn [bind].
  set (lf := lft h p arfcns) in *. set (rt := rgt h p arfcns) in *.
  pose proof (lft_len h p arfcns Hh) as Ell. fold lf in Ell.
  pose proof (rgt_len h p arfcns Hh Hp Hn Hr) as Elr. fold rt in Elr.
  destruct (lft_ok h p arfcns Hh Hn Hr) as [Hnl Hrl]. fold lf in Hnl, Hrl.
  destruct (rgt_ok h p arfcns Hh Hn Hr) as [Hnr Hrr]. fold rt in Hnr, Hrr.
  rewrite quot2 in Hg by lia.
  set (m := zlen arfcns) in *. set (gg := g h p arfcns) in *.
  assert (Em : 2 * zlen rt + 1 <= m <= 2 * zlen rt + 2 /\ zlen lf = m - 1 - zlen rt).
  { pose proof (Z.div_mod (m - 1) 2 ltac:(lia)). pose proof (Z.mod_pos_bound (m - 1) 2 ltac:(lia)). lia. }
  destruct Em as [Em1 Em2].
  set (out1 := upd out (Z.to_nat (P + b - 1)) (1 + p)).
  assert (Zo1 : zlen out1 = zlen out) by (unfold out1; apply zlen_upd).
  (* index arithmetic *)
  assert (Egp : gp2 (P + b - 1 + 1) = P).
  { replace (P + b - 1 + 1) with (P + b) by ring. unfold P. apply gp2_ok; [lia | exact Hb]. }
  rewrite Egp.
  assert (EhL : Z.quot (2 * h + 1) 2 = h) by (rewrite quot2 by lia; symmetry; apply (Z.div_unique _ 2 h 1); lia).
  assert (EhR : Z.quot (2 * h + 1 - 1) 2 = h) by (rewrite quot2 by lia; symmetry; apply (Z.div_unique _ 2 h 0); lia).
  rewrite EhL, EhR.
  assert (EP : 2 ^ Z.of_nat (S L) = 2 * P).
  { rewrite Nat2Z.inj_succ. unfold Z.succ. rewrite p2S by lia. reflexivity. }
  assert (Elen : forall l : list Z, zlen l < m -> (length l < fu)%nat).
  { intros l Hl. unfold m, zlen in Hl. lia. }
  assert (Hfu : (1 <= fu)%nat) by (clear - H2 Hf; unfold m, zlen in H2; lia).
  (* left half *)
  assert (Hleft : exists out2, (if negb (zlen lf =? 0) then range_enc fu h lf out1 (P + b - 1 + P) else Ok (out1, 0)) = Ok (out2, 0)
            /\ enc_post (e - 1) (S L) b lf out1 out2).
  { destruct (IH (e - 1) (S L) b lf out1) as [o2 [Eo2 Po2]]; try assumption; try lia.
    - apply Elen. lia.
    - rewrite node_left, En, Zo1. assert (P * (2 * zlen lf) <= P * m) by (apply Z.mul_le_mono_nonneg_l; lia). lia.
    - fold h in Eo2. rewrite EP in Eo2.
      exists o2. destruct (Z.eqb_spec (zlen lf) 0) as [E0 | E0]; cbn [negb].
      + split; [|exact Po2]. destruct fu as [|fu']; [lia|]. cbn [range_enc] in Eo2. rewrite E0 in Eo2. cbn in Eo2. exact Eo2.
      + split; [|exact Po2]. replace (P + b - 1 + P) with (2 * P + b - 1) by ring. exact Eo2. }
  destruct Hleft as [out2 [Eo2 Po2]]. rewrite Eo2. cbn [bind].
  destruct Po2 as [Zo2 [Fr2 [Bd2 De2]]]. rewrite Zo1 in Zo2.
  assert (Hright : exists out3, (if negb (zlen rt =? 0) then range_enc fu h rt out2 (P + b - 1 + 2 * P) else Ok (out2, 0)) = Ok (out3, 0)
            /\ enc_post (e - 1) (S L) (b + P) rt out2 out3).
  { destruct (IH (e - 1) (S L) (b + P) rt out2) as [o3 [Eo3 Po3]]; try assumption; try lia.
    - apply Elen. lia.
    - unfold P. rewrite node_right, En, Zo2. assert (P * (2 * zlen rt + 1) <= P * m) by (apply Z.mul_le_mono_nonneg_l; lia). lia.
    - fold h in Eo3. rewrite EP in Eo3.
      exists o3. destruct (Z.eqb_spec (zlen rt) 0) as [E0 | E0]; cbn [negb].
      + split; [|exact Po3]. destruct fu as [|fu']; [lia|]. cbn [range_enc] in Eo3. rewrite E0 in Eo3. cbn in Eo3. exact Eo3.
      + split; [|exact Po3]. replace (P + b - 1 + 2 * P) with (2 * P + (b + P) - 1) by ring. exact Eo3. }
  destruct Hright as [out3 [Eo3 Po3]]. rewrite Eo3. cbn [bind].
  destruct Po3 as [Zo3 [Fr3 [Bd3 De3]]].
  exists out3. split; [reflexivity|].
  clear Hbd Hg Ell Elr Esp Hsp EhL EhR Egp Hfu Elen Hf IH Eo2 Eo3 Hz E1 gg.
  (* final contents *)
  assert (V1 : at0 out3 (node L b 1 - 1) = 1 + p).
  { rewrite Fr3.
    - rewrite Fr2.
      + unfold out1. rewrite En, at0_upd by lia. destruct (Z.eqb_spec (P * 1 + b - 1) (P + b - 1)); [reflexivity|lia].
      + rewrite En. lia.
      + intros q Hq. rewrite node_left. intros E. apply node_inj in E. lia.
    - rewrite En. lia.
    - intros q Hq. unfold P. rewrite node_right. intros E. apply node_inj in E. lia. }
  assert (V2 : forall q, 1 <= q <= zlen lf -> at0 out3 (node L b (2 * q) - 1) = at0 out2 (node (S L) b q - 1)).
  { intros q Hq. rewrite Fr3.
    - rewrite node_left. reflexivity.
    - rewrite En. assert (P * 1 <= P * (2 * q)) by (apply Z.mul_le_mono_nonneg_l; lia). lia.
    - intros q' Hq'. unfold P. rewrite node_right. intros E. apply node_inj in E. lia. }
  assert (V3 : forall q, 1 <= q <= zlen rt -> at0 out3 (node L b (2 * q + 1) - 1) = at0 out3 (node (S L) (b + P) q - 1)).
  { intros q Hq. unfold P. rewrite node_right. reflexivity. }
  assert (Cases : forall q, 1 <= q <= m -> q = 1 \/ (exists q', q = 2 * q' /\ 1 <= q' <= zlen lf) \/ (exists q', q = 2 * q' + 1 /\ 1 <= q' <= zlen rt)).
  { clear - Em1 Em2. apply tree_cases; assumption. }
  unfold enc_post. fold m. split; [lia|]. split; [|split].
  - intros k Hk Hne. rewrite Fr3.
    + rewrite Fr2.
      * unfold out1. rewrite at0_upd by lia. specialize (Hne 1 ltac:(lia)). rewrite En in Hne.
        destruct (Z.eqb_spec (k - 1) (P + b - 1)); [lia|reflexivity].
      * exact Hk.
      * intros q Hq. rewrite node_left. apply Hne. lia.
    + exact Hk.
    + intros q Hq. unfold P. rewrite node_right. apply Hne. lia.
  - intros q Hq. destruct (Cases q Hq) as [-> | [[q' [-> Hq']] | [q' [-> Hq']]]].
    + rewrite V1. change (Z.log2 1) with 0. rewrite Z.sub_0_r. lia.
    + rewrite V2 by lia. rewrite log2_double by lia. replace (e - (Z.log2 q' + 1)) with (e - 1 - Z.log2 q') by ring. apply Bd2. lia.
    + rewrite V3 by lia. rewrite log2_double1 by lia. replace (e - (Z.log2 q' + 1)) with (e - 1 - Z.log2 q') by ring. apply Bd3. lia.
  - intros W HW.
    assert (HWp : W (P + b) = 1 + p).
    { specialize (HW 1 ltac:(lia)). rewrite V1, En, Z.mul_1_r in HW. exact HW. }
    destruct (De2 W) as [De2a De2b].
    { intros q Hq. rewrite <- V2 by lia. rewrite node_left. apply HW. lia. }
    destruct (De3 W) as [De3a De3b].
    { intros q Hq. rewrite <- V3 by lia. unfold P. rewrite node_right. apply HW. lia. }
    replace (e - 1 + Z.of_nat (S L)) with (e + Z.of_nat L) in * by lia.
    assert (Eup1 : annexJ (2 ^ (e + Z.of_nat L)) W (node L b 1) = annexJ_up (2 ^ (e + Z.of_nat L)) W L b (1 + p)).
    { rewrite En, Z.mul_1_r. unfold P. rewrite annexJ_node by exact Hb. fold P. rewrite HWp. reflexivity. }
    assert (EupL : forall v, annexJ_up (2 ^ (e + Z.of_nat L)) W (S L) b (1 + v) =
                   annexJ_up (2 ^ (e + Z.of_nat L)) W L b (1 + (v + p + h + 1) mod (2 * h + 1))).
    { intros v. rewrite annexJ_left by (assumption || lia). fold P. rewrite HWp. rewrite left_val by lia. reflexivity. }
    assert (EupR : forall v, annexJ_up (2 ^ (e + Z.of_nat L)) W (S L) (b + P) (1 + v) =
                   annexJ_up (2 ^ (e + Z.of_nat L)) W L b (1 + (v + p + 1) mod (2 * h + 1))).
    { intros v. unfold P. rewrite annexJ_right by (assumption || lia). fold P. rewrite HWp. rewrite right_val by lia. reflexivity. }
    split.
    + intros q Hq. destruct (Cases q Hq) as [-> | [[q' [-> Hq']] | [q' [-> Hq']]]].
      * exists p. split; [exact Hp | exact Eup1].
      * destruct (De2a q' Hq') as [v [Hv Ev]]. rewrite node_left in Ev.
        exists ((v + p + h + 1) mod (2 * h + 1)). split; [apply lft_in; assumption|]. rewrite Ev. apply EupL.
      * destruct (De3a q' Hq') as [v [Hv Ev]]. unfold P in Ev. rewrite node_right in Ev. fold P in Ev.
        exists ((v + p + 1) mod (2 * h + 1)). split; [apply rgt_in; assumption|]. rewrite Ev. apply EupR.
    + intros x Hx. assert (Hxr : 0 <= x < 2 * h + 1) by (rewrite Forall_forall in Hr; apply (Hr x Hx)).
      destruct (halves h p arfcns x Hh Hx Hxr Hpr) as [-> | [[v [Hv Ev]] | [v [Hv Ev]]]].
      * exists 1. split; [lia | exact Eup1].
      * destruct (De2b v Hv) as [q' [Hq' Eq']]. rewrite node_left in Eq'. exists (2 * q'). split; [clear - Hq' Em1 Em2; lia|].
        rewrite Eq', EupL, <- Ev. reflexivity.
      * destruct (De3b v Hv) as [q' [Hq' Eq']]. unfold P in Eq'. rewrite node_right in Eq'. fold P in Eq'.
        exists (2 * q' + 1). split; [clear - Hq' Em1 Em2; lia|]. rewrite Eq', EupR, <- Ev. reflexivity.
Qed.
