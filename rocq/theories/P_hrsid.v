From Verif Require Import Base S_bits P_bits M_hrsid S_hrsid.

Definition B (x k : Z) : Z := b2z (Z.testbit x k).
Lemma B_range x k : 0 <= B x k <= 1. Proof. unfold B. destruct (Z.testbit x k); cbn; lia. Qed.
Definition ones (a : Z) : Z := at0 ones_in_nibble (Z.shiftr a 4) + at0 ones_in_nibble (Z.land a 15).
Definition bsum8 (g : Z -> Z) : Z := g 0 + g 1 + g 2 + g 3 + g 4 + g 5 + g 6 + g 7.

Lemma ones_sum a : is_byte a -> ones a = bsum8 (B a).
Proof.
  intros H. assert (K : forallb (fun a => ones a =? bsum8 (B a)) (zseq 0 256) = true) by (vm_compute; reflexivity).
  rewrite forallb_forall in K. apply Z.eqb_eq, K. apply zseq_In. unfold is_byte in H. lia.
Qed.
Lemma land_byte x m : is_byte x -> 0 <= m -> is_byte (Z.land x m).
Proof.
  intros [H1 H2] Hm. assert (E : Z.land x m = Z.land x m mod 2 ^ 8).
  { apply Z.bits_inj'. intros n Hn. rewrite Z.land_spec. destruct (Z_lt_le_dec n 8).
    - rewrite Z.mod_pow2_bits_low, Z.land_spec by lia. reflexivity.
    - rewrite Z.mod_pow2_bits_high by lia. replace x with (x mod 2 ^ 8) by (apply Z.mod_small; lia). rewrite Z.mod_pow2_bits_high by lia. reflexivity. }
  rewrite E. unfold is_byte. pose proof (Z.mod_pos_bound (Z.land x m) (2 ^ 8)). lia.
Qed.
Lemma B_land x m k : B (Z.land x m) k = if Z.testbit m k then B x k else 0.
Proof. unfold B. rewrite Z.land_spec. destruct (Z.testbit m k), (Z.testbit x k); reflexivity. Qed.
Lemma ones_land x m : is_byte x -> 0 <= m -> ones (Z.land x m) = bsum8 (fun k => if Z.testbit m k then B x k else 0).
Proof. intros H Hm. rewrite ones_sum by (apply land_byte; assumption). unfold bsum8. rewrite !B_land. reflexivity. Qed.
Lemma ones_range a : is_byte a -> 0 <= ones a <= 8.
Proof. intros H. rewrite ones_sum by exact H. unfold bsum8. pose proof (B_range a). pose proof (H0 0); pose proof (H0 1); pose proof (H0 2); pose proof (H0 3); pose proof (H0 4); pose proof (H0 5); pose proof (H0 6); pose proof (H0 7). lia. Qed.

Fixpoint msum (data : list Z) (off : Z) (mask : list Z) (n : nat) : Z :=
  match n with O => 0 | S m => msum data off mask m + ones (Z.land (at0 data (off + Z.of_nat m)) (at0 mask (Z.of_nat m))) end.

Lemma count_ok data off mask n : bytes data -> bytes mask -> 0 <= off -> off + Z.of_nat n <= zlen data -> Z.of_nat n <= zlen mask -> (n <= 14)%nat ->
  count_ones_under_mask data off mask n = Ok (msum data off mask n).
Proof.
  intros Hd Hm Ho L1 L2 Hn. unfold count_ones_under_mask.
  match goal with |- zfor _ _ ?f _ = _ => destruct (zfor_inv (fun i a => a = msum data off mask (Z.to_nat i) /\ 0 <= a <= 8 * i) f n 0 0) as (s & E & (K & _)) end.
  - split; [reflexivity|lia].
  - intros j s Hj (-> & Hr). rewrite (rd_at0 data) by lia. cbn [bind]. rewrite (rd_at0 mask) by lia. cbn [bind].
    set (a := Z.land (at0 data (off + j)) (at0 mask j)).
    assert (Ha : is_byte a) by (apply land_byte; [apply bytes_at0; exact Hd|pose proof (bytes_at0 mask j Hm) as Q; unfold is_byte in Q; lia]).
    assert (Hs : 0 <= Z.shiftr a 4 < 16) by (rewrite Z.shiftr_div_pow2 by lia; unfold is_byte in Ha; change (2 ^ 4) with 16; split; [apply Z.div_pos; lia|apply Z.div_lt_upper_bound; lia]).
    assert (Hl : 0 <= Z.land a 15 < 16) by (change 15 with (Z.ones 4); rewrite Z.land_ones by lia; apply Z.mod_pos_bound; lia).
    rewrite (rd_at0 ones_in_nibble) by (change (zlen ones_in_nibble) with 16; lia). cbn [bind].
    rewrite (rd_at0 ones_in_nibble) by (change (zlen ones_in_nibble) with 16; lia). cbn [bind].
    fold (ones a). pose proof (ones_range a Ha). rewrite u32_small by (unfold is_u32; lia). eexists. split; [reflexivity|].
    replace (Z.to_nat (j + 1)) with (S (Z.to_nat j)) by lia. cbn [msum]. rewrite Z2Nat.id by lia. fold a. split; lia.
  - rewrite E, K. do 2 f_equal. lia.
Qed.

(** the frame bits that carry the bits [js] of the channel *)
Definition table (f : list Z) : list Z := if pbit false f 34 || pbit false f 35 then gsm620_voiced_bitorder else gsm620_unvoiced_bitorder.
Definition zeros (f : list Z) (js : list Z) : Z := fold_right (fun j a => (1 - b2z (pbit false f (at0 (table f) j))) + a) 0 js.

Definition places (t js : list Z) : list (nat * Z) := map (fun j => (Z.to_nat (at0 t j / 8), 7 - at0 t j mod 8)) js.
Lemma zeros_places f t js : table f = t -> zeros f js = fold_right (fun x a => (1 - B (nth (fst x) f 0) (snd x)) + a) 0 (places t js).
Proof. intros E. unfold zeros. rewrite E. induction js as [|j js IH]; [reflexivity|]. cbn [fold_right places map fst snd]. fold (places t js). rewrite IH. reflexivity. Qed.

Lemma mode_land x : is_byte x -> (Z.land x 48 =? 0) = negb (Z.testbit x 5 || Z.testbit x 4).
Proof.
  intros H. assert (K : forallb (fun x => Bool.eqb (Z.land x 48 =? 0) (negb (Z.testbit x 5 || Z.testbit x 4))) (zseq 0 256) = true) by (vm_compute; reflexivity).
  rewrite forallb_forall in K. apply Bool.eqb_prop, K. apply zseq_In. unfold is_byte in H. lia.
Qed.


Ltac comp e := let v := eval vm_compute in e in change e with v.
Ltac counts f Hb Ht t m1 m2 :=
  let Hx := fresh in
  assert (Hx : forall n, is_byte (nth n f 0)) by (intros n; apply (bytes_at0 f (Z.of_nat n)) in Hb; unfold at0 in Hb; rewrite Nat2Z.id in Hb; exact Hb);
  rewrite (zeros_places f t codeword Ht), (zeros_places f t protected Ht);
  comp (places t codeword); comp (places t protected);
  cbn [msum]; unfold at0;
  repeat match goal with |- context [Z.to_nat ?e] => comp (Z.to_nat e) end;
  cbn [fold_right fst snd];
  repeat match goal with |- context [nth ?n m1 0] => comp (nth n m1 0) end;
  repeat match goal with |- context [nth ?n m2 0] => comp (nth n m2 0) end;
  repeat match goal with |- context [ones (Z.land (nth ?n f 0) ?m)] => rewrite (ones_land (nth n f 0) m (Hx n)) by lia end;
  unfold bsum8;
  repeat match goal with |- context [Z.testbit ?m ?k] => comp (Z.testbit m k) end;
  cbv iota; clear; split; ring.

Lemma counts_voiced f : bytes f -> table f = gsm620_voiced_bitorder ->
  msum f 4 sid_field_last10_mask 10 = 79 - zeros f codeword /\
  msum f 4 sid_field_last10_mask 10 - msum f 10 class2_mask_voiced 4 = 62 - zeros f protected.
Proof. intros Hb Ht. counts f Hb Ht gsm620_voiced_bitorder sid_field_last10_mask class2_mask_voiced. Qed.
Lemma counts_unvoiced f : bytes f -> table f = gsm620_unvoiced_bitorder ->
  msum f 0 sid_field_misordered 14 = 79 - zeros f codeword /\
  msum f 0 sid_field_misordered 14 - msum f 10 class2_mask_unvoiced 4 = 62 - zeros f protected.
Proof. intros Hb Ht. counts f Hb Ht gsm620_unvoiced_bitorder sid_field_misordered class2_mask_unvoiced. Qed.

Lemma zeros_range f js : 0 <= zeros f js <= zlen js.
Proof.
  unfold zeros. induction js as [|j js IH]; [cbn; unfold zlen; cbn; lia|]. cbn [fold_right]. rewrite zlen_cons.
  destruct (pbit false f (at0 (table f) j)); cbn [b2z]; lia.
Qed.

Lemma mode_table f : frame f -> (Z.land (at0 f 4) 48 =? 0) = negb (pbit false f 34 || pbit false f 35).
Proof. intros [_ Hb]. rewrite mode_land by (apply bytes_at0; exact Hb). reflexivity. Qed.

Lemma classify_ok f bci : frame f -> osmo_hr_sid_classify f bci =
  Ok (verdict (negb (pbit false f 34 || pbit false f 35)) bci (zeros f protected) (zeros f codeword), upgrade bci (zeros f codeword)).
Proof.
  intros F. pose proof F as [L Hb]. assert (Lz : zlen f = 14) by (unfold zlen; rewrite L; reflexivity).
  unfold osmo_hr_sid_classify. rewrite (rd_at0 f 4) by lia. cbn [bind]. rewrite (mode_table f F), negb_involutive.
  assert (HB : forall l, Forall (fun b => is_byteb b = true) l -> bytes l).
  { intros l. apply Forall_impl. intros a. unfold is_byteb, is_byte. lia. }
  assert (M1 : bytes sid_field_last10_mask) by (apply HB; repeat constructor).
  assert (M2 : bytes sid_field_misordered) by (apply HB; repeat constructor).
  assert (M3 : bytes class2_mask_voiced) by (apply HB; repeat constructor).
  assert (M4 : bytes class2_mask_unvoiced) by (apply HB; repeat constructor).
  pose proof (zeros_range f codeword) as R1. pose proof (zeros_range f protected) as R2.
  change (zlen codeword) with 79 in R1. change (zlen protected) with 62 in R2.
  assert (T : table f = if pbit false f 34 || pbit false f 35 then gsm620_voiced_bitorder else gsm620_unvoiced_bitorder) by reflexivity.
  unfold verdict, upgrade.
  destruct (pbit false f 34 || pbit false f 35).
  - destruct (counts_voiced f Hb T) as [C1 C2].
    rewrite (count_ok f 4 sid_field_last10_mask 10) by (try assumption; try (change (zlen sid_field_last10_mask) with 10); lia). cbn [bind].
    rewrite (count_ok f 10 class2_mask_voiced 4) by (try assumption; try (change (zlen class2_mask_voiced) with 4); lia). cbn [bind negb andb].
    rewrite C2, C1. rewrite (u32_small (62 - zeros f protected)) by (unfold is_u32; lia).
    replace (79 - (79 - zeros f codeword)) with (zeros f codeword) by lia. replace (62 - (62 - zeros f protected)) with (zeros f protected) by lia.
    rewrite !u32_small by (unfold is_u32; lia). 
    replace (zeros f protected <? 3) with (zeros f protected <=? 2) by lia.
    replace (zeros f codeword <? (if bci then 16 else 11)) with (zeros f codeword <=? (if bci then 15 else 10)) by (destruct bci; lia). reflexivity.
  - destruct (counts_unvoiced f Hb T) as [C1 C2].
    rewrite (count_ok f 0 sid_field_misordered 14) by (try assumption; try (change (zlen sid_field_misordered) with 14); lia). cbn [bind].
    rewrite (count_ok f 10 class2_mask_unvoiced 4) by (try assumption; try (change (zlen class2_mask_unvoiced) with 4); lia). cbn [bind negb andb].
    rewrite C2, C1. rewrite (u32_small (62 - zeros f protected)) by (unfold is_u32; lia).
    replace (79 - (79 - zeros f codeword)) with (zeros f codeword) by lia. replace (62 - (62 - zeros f protected)) with (zeros f protected) by lia.
    rewrite !u32_small by (unfold is_u32; lia). 
    replace (zeros f protected <? 3) with (zeros f protected <=? 2) by lia.
    replace (zeros f codeword <? (if bci then 16 else 11)) with (zeros f codeword <=? (if bci then 15 else 10)) by (destruct bci; lia).
    destruct (zeros f protected <=? 2); [reflexivity|]. destruct (zeros f codeword <=? (if bci then 15 else 10)); reflexivity.
Qed.

(** reordering *)
Lemma shr3 i : Z.shiftr i 3 = i / 8. Proof. rewrite Z.shiftr_div_pow2 by lia. reflexivity. Qed.
Lemma land7 i : Z.land i 7 = i mod 8. Proof. change 7 with (Z.ones 3). rewrite Z.land_ones by lia. reflexivity. Qed.

Lemma reassemble_ok b : bits b -> zlen b = 112 -> exists f, tch_hr_reassemble b = Ok f /\ frame f /\ forall i, 0 <= i < 112 -> pbit false f i = (at0 b i =? 1).
Proof.
  intros Hb L. unfold tch_hr_reassemble.
  match goal with |- context [zfor _ _ ?f ?s] => destruct (zfor_inv (fun i t => zlen t = 14 /\ bytes t /\ forall k, 0 <= k < 112 -> pbit false t k = (k <? i) && (at0 b k =? 1)) f 112 0 s) as (t & E & L' & B' & K) end.
  - split; [reflexivity|]. split; [apply Forall_forall; intros x Hx; apply repeat_spec in Hx; subst; unfold is_byte; lia|].
    intros k Hk. replace (k <? 0) with false by lia. unfold pbit. cbn [andb].
    replace (at0 (repeat 0 14) (k / 8)) with 0; [apply Z.bits_0|]. unfold at0. symmetry. apply nth_repeat.
  - intros j t Hj (Lt & Bt & K). rewrite shr3, land7. rewrite (rd_at0 b) by lia. cbn [bind]. rewrite (rd_at0 t) by lia. cbn [bind].
    rewrite wr_in by lia. eexists. split; [reflexivity|]. split; [rewrite zlen_upd; exact Lt|]. split; [apply Forall_upd; [exact Bt|apply u8_range]|].
    intros k Hk. rewrite pbit_upd by lia. destruct (Z.eqb_spec (k / 8) (j / 8)) as [Q|Q].
    + rewrite testbit_u8, Z.lor_spec, Z.shiftl_spec by lia. rewrite (testbit_bit (at0 b j)) by (apply bits_at0; exact Hb).
      specialize (K k Hk). unfold pbit in K. rewrite Q in K. rewrite K.
      replace (7 - k mod 8 <? 8) with true by lia.
      destruct (Z.eqb_spec (7 - k mod 8 - (7 - j mod 8)) 0).
      * assert (k = j) by lia. subst k. replace (j <? j) with false by lia. replace (j <? j + 1) with true by lia. reflexivity.
      * replace (k <? j + 1) with (k <? j) by lia. rewrite andb_false_l, orb_false_r. reflexivity.
    + rewrite K by lia. replace (k <? j + 1) with (k <? j) by lia. reflexivity.
  - exists t. split; [exact E|]. split; [split; [unfold zlen in L'; lia|exact B']|]. intros i Hi. rewrite K by lia. replace (i <? 0 + Z.of_nat 112) with true by lia. reflexivity.
Qed.

Lemma disassemble_ok b f : zlen b = 112 -> frame f -> exists b', tch_hr_disassemble b f = Ok b' /\ zlen b' = 112 /\ bits b' /\
  forall i, 0 <= i < 112 -> at0 b' i = b2z (pbit false f i).
Proof.
  intros L [Lf Hf]. assert (Lz : zlen f = 14) by (unfold zlen; rewrite Lf; reflexivity). unfold tch_hr_disassemble.
  match goal with |- context [zfor _ _ ?g ?s] => destruct (zfor_inv (fun i t => zlen t = 112 /\ forall k, 0 <= k < i -> at0 t k = b2z (pbit false f k)) g 112 0 s) as (t & E & L' & K) end.
  - split; [exact L|lia].
  - intros j t Hj (Lt & K). rewrite shr3, land7. rewrite (rd_at0 f) by lia. cbn [bind]. rewrite wr_in by lia. eexists. split; [reflexivity|].
    split; [rewrite zlen_upd; exact Lt|]. intros k Hk. rewrite at0_upd by lia. destruct (Z.eqb_spec k j) as [->|Q]; [|apply K; lia].
    unfold pbit. change 1 with (Z.ones 1). rewrite Z.land_ones by lia. change (2 ^ 1) with 2. rewrite <- Z.bit0_mod, Z.shiftr_spec by lia.
    replace (0 + (7 - j mod 8)) with (7 - j mod 8) by lia. reflexivity.
  - exists t. split; [exact E|]. split; [exact L'|]. assert (K' : forall i, 0 <= i < 112 -> at0 t i = b2z (pbit false f i)) by (intros; apply K; lia).
    split; [|exact K']. apply Forall_forall. intros x Hx. apply (In_nth _ _ 0) in Hx. destruct Hx as (n & Hn & <-).
    specialize (K' (Z.of_nat n) ltac:(unfold zlen in L'; lia)). unfold at0 in K'. rewrite Nat2Z.id in K'. rewrite K'. destruct (pbit false f (Z.of_nat n)); [right|left]; reflexivity.
Qed.

Definition perm (t : list Z) : Prop := zlen t = 112 /\ (forall i, 0 <= i < 112 -> 0 <= at0 t i < 112) /\ (forall i j, 0 <= i < 112 -> 0 <= j < 112 -> at0 t i = at0 t j -> i = j) /\
  (forall k, 0 <= k < 112 -> exists i, 0 <= i < 112 /\ at0 t i = k).
Lemma perm_by t : (zlen t =? 112) && forallb (fun i => (0 <=? at0 t i) && (at0 t i <? 112)) (zseq 0 112) &&
  forallb (fun i => forallb (fun j => negb (at0 t i =? at0 t j) || (i =? j)) (zseq 0 112)) (zseq 0 112) &&
  forallb (fun k => existsb (fun i => at0 t i =? k) (zseq 0 112)) (zseq 0 112) = true -> perm t.
Proof.
  rewrite !andb_true_iff, !forallb_forall. intros (((H1 & H2) & H3) & H4). split; [lia|]. split; [|split].
  - intros i Hi. specialize (H2 i ltac:(apply zseq_In; lia)). lia.
  - intros i j Hi Hj E. specialize (H3 i ltac:(apply zseq_In; lia)). rewrite forallb_forall in H3. specialize (H3 j ltac:(apply zseq_In; lia)). lia.
  - intros k Hk. specialize (H4 k ltac:(apply zseq_In; lia)). apply existsb_exists in H4. destruct H4 as (i & Hi & E). apply zseq_In in Hi. exists i. split; lia.
Qed.
Lemma perm_u : perm gsm620_unvoiced_bitorder. Proof. apply perm_by. vm_compute. reflexivity. Qed.
Lemma perm_v : perm gsm620_voiced_bitorder. Proof. apply perm_by. vm_compute. reflexivity. Qed.

Definition choose (lost : bool) := if lost then gsm620_unvoiced_bitorder else gsm620_voiced_bitorder.
Lemma perm_c l : perm (choose l). Proof. destruct l; [exact perm_u|exact perm_v]. Qed.

Lemma d_to_b_ok b d : zlen b = 112 -> zlen d = 112 -> bits d -> exists b', tch_hr_d_to_b b d = Ok b' /\ zlen b' = 112 /\ bits b' /\
  forall i, 0 <= i < 112 -> at0 b' (at0 (choose ((at0 d 93 =? 0) && (at0 d 94 =? 0))) i) = at0 d i.
Proof.
  intros Lb Ld Hd. unfold tch_hr_d_to_b. rewrite !(rd_at0 d) by lia. cbn [bind]. set (l := (at0 d 93 =? 0) && (at0 d 94 =? 0)).
  change (if l then gsm620_unvoiced_bitorder else gsm620_voiced_bitorder) with (choose l). destruct (perm_c l) as (P1 & P2 & P3 & P4). set (t := choose l) in *. clearbody t.
  match goal with |- context [zfor _ _ ?g ?s] => destruct (zfor_inv (fun i b' => zlen b' = 112 /\ forall k, 0 <= k < i -> at0 b' (at0 t k) = at0 d k) g 112 0 s) as (b' & E & L' & K) end.
  - split; [exact Lb|lia].
  - intros j b' Hj (L' & K). rewrite (rd_at0 t) by lia. cbn [bind]. rewrite (rd_at0 d) by lia. cbn [bind]. pose proof (P2 j ltac:(lia)). rewrite wr_in by lia.
    eexists. split; [reflexivity|]. split; [rewrite zlen_upd; exact L'|]. intros k Hk. pose proof (P2 k ltac:(lia)). rewrite at0_upd by lia.
    destruct (Z.eqb_spec (at0 t k) (at0 t j)) as [Q|Q]; [apply P3 in Q; [subst; reflexivity|lia|lia]|]. apply K. assert (k <> j) by congruence. lia.
  - exists b'. split; [exact E|]. split; [exact L'|]. assert (K' : forall i, 0 <= i < 112 -> at0 b' (at0 t i) = at0 d i) by (intros; apply K; lia). split; [|exact K'].
    apply Forall_forall. intros x Hx. apply (In_nth _ _ 0) in Hx. destruct Hx as (n & Hn & <-). destruct (P4 (Z.of_nat n) ltac:(unfold zlen in L'; lia)) as (i & Hi & Ei).
    specialize (K' i Hi). rewrite Ei in K'. unfold at0 at 1 in K'. rewrite Nat2Z.id in K'. rewrite K'. apply bits_at0. exact Hd.
Qed.

Lemma b_to_d_ok d b : zlen b = 112 -> zlen d = 112 -> bits b -> exists d', tch_hr_b_to_d d b = Ok d' /\ zlen d' = 112 /\ bits d' /\
  forall i, 0 <= i < 112 -> at0 d' i = at0 b (at0 (choose ((at0 b 34 =? 0) && (at0 b 35 =? 0))) i).
Proof.
  intros Lb Ld Hb. unfold tch_hr_b_to_d. rewrite !(rd_at0 b) by lia. cbn [bind]. set (l := (at0 b 34 =? 0) && (at0 b 35 =? 0)).
  change (if l then gsm620_unvoiced_bitorder else gsm620_voiced_bitorder) with (choose l). destruct (perm_c l) as (P1 & P2 & _). set (t := choose l) in *. clearbody t.
  match goal with |- context [zfor _ _ ?g ?s] => destruct (zfor_inv (fun i d' => zlen d' = 112 /\ forall k, 0 <= k < i -> at0 d' k = at0 b (at0 t k)) g 112 0 s) as (d' & E & L' & K) end.
  - split; [exact Ld|lia].
  - intros j d' Hj (L' & K). rewrite (rd_at0 t) by lia. cbn [bind]. pose proof (P2 j ltac:(lia)). rewrite (rd_at0 b) by lia. cbn [bind]. rewrite wr_in by lia.
    eexists. split; [reflexivity|]. split; [rewrite zlen_upd; exact L'|]. intros k Hk. rewrite at0_upd by lia.
    destruct (Z.eqb_spec k j) as [->|Q]; [reflexivity|]. apply K. lia.
  - exists d'. split; [exact E|]. split; [exact L'|]. assert (K' : forall i, 0 <= i < 112 -> at0 d' i = at0 b (at0 t i)) by (intros; apply K; lia). split; [|exact K'].
    apply Forall_forall. intros x Hx. apply (In_nth _ _ 0) in Hx. destruct Hx as (n & Hn & <-).
    specialize (K' (Z.of_nat n) ltac:(unfold zlen in L'; lia)). unfold at0 at 1 in K'. rewrite Nat2Z.id in K'. rewrite K'. apply bits_at0. exact Hb.
Qed.
