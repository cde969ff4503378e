(** Proofs about reception level statistics. *)
From Verif Require Import Base S_bits M_bits P_bits M_bitvec P_bitvec M_rxlev S_rxlev.
From Coq Require Import Sorted.

Lemma clamp l : 0 <= l -> (if NUM_RXLEVS <=? l then NUM_RXLEVS - 1 else l) = Z.min l 31.
Proof. intros. unfold NUM_RXLEVS. destruct (Z.leb_spec 32 l); lia. Qed.
Definition inv (h : list (Z * Z)) (st : list (list Z)) : Prop :=
  length st = 32%nat /\ forall i, 0 <= i < 32 -> exists b, rd st i = Ok b /\ zlen b = 128 /\ bytes b /\ forall a, 0 <= a -> (pbit false b a = true <-> measured h i a).

Lemma rd_nth (st : list (list Z)) i b : 0 <= i -> rd st i = Ok b <-> nth_error st (Z.to_nat i) = Some b.
Proof. intros H. unfold rd. destruct (Z.ltb_spec i 0); [lia|]. destruct (nth_error st (Z.to_nat i)); split; congruence. Qed.
Lemma reset_inv : inv [] rxlev_stat_reset.
Proof.
  split; [reflexivity|]. intros i Hi. exists (repeat 0 128). split.
  - apply rd_nth; [lia|]. unfold rxlev_stat_reset. change (Z.to_nat (NUM_ARFCNS / 8)) with 128%nat. change (Z.to_nat NUM_RXLEVS) with 32%nat.
    rewrite nth_error_repeat; [reflexivity|lia].
  - split; [reflexivity|]. split; [unfold bytes; apply Forall_forall; intros x X; apply repeat_spec in X; subst; unfold is_byte; lia|].
    intros a Ha. assert (Z0 : pbit false (repeat 0 128) a = false).
    { unfold pbit. assert (E : at0 (repeat 0 128) (a / 8) = 0).
      { unfold at0. destruct (Nat.lt_ge_cases (Z.to_nat (a / 8)) 128) as [L|L]; [apply nth_repeat|apply nth_overflow; rewrite repeat_length; exact L]. }
      try rewrite E. apply Z.testbit_0_l. }
    rewrite Z0. split; [discriminate|]. intros (_ & l & [] & _).
Qed.
Lemma input_inv h st a l : inv h st -> input_ok (a, l) -> exists st', rxlev_stat_input st a l = Ok st' /\ inv (h ++ [(a, l)]) st'.
Proof.
  intros (L & I) (Ha & Hl). cbn [fst snd] in *. unfold rxlev_stat_input. rewrite clamp by lia. set (k := Z.min l 31). assert (Hk : 0 <= k < 32) by (unfold k; lia).
  destruct (I k Hk) as (b & Eb & Lb & Bb & Pb). rewrite Eb. cbn [bind].
  assert (W : forall v, wr st k v = Ok (upd st (Z.to_nat k) v)).
  { intros v. unfold wr. destruct (Z.ltb_spec k 0); [lia|]. destruct (Z.leb_spec (Z.of_nat (length st)) k); [lia|reflexivity]. }
  rewrite W. eexists. split; [reflexivity|]. split; [rewrite upd_length; exact L|].
  assert (Meas : forall i x, measured (h ++ [(a, l)]) i x <-> measured h i x \/ (x = a /\ a < 1024 /\ k = Z.min i 31)).
  { intros i x. unfold measured. split.
    - intros (X & l' & In' & E). apply in_app_or in In'. destruct In' as [In'|[In'|[]]]; [left; split; [exact X|exists l'; auto]|]. injection In' as <- <-. right. unfold k. auto.
    - intros [(X & l' & In' & E)|(-> & X & E)].
      + split; [exact X|]. exists l'. split; [apply in_or_app; left; exact In'|exact E].
      + split; [exact X|]. exists l. split; [apply in_or_app; right; left; reflexivity|exact E]. }
  intros i Hi. destruct (Z.eq_dec i k) as [->|N].
  - eexists. split; [apply rd_nth; [lia|]; rewrite upd_nth_error; rewrite Nat.eqb_refl; destruct (Nat.ltb_spec (Z.to_nat k) (length st)); [reflexivity|lia]|].
    destruct (Z_lt_ge_dec a 1024) as [La|Ga].
    + destruct (set_bit_pos_ok (Bv 0 b) a ONE Bb) as (bv & E & _ & Ld & Bd & P); [unfold data_len; cbn [bdata]; lia|]. rewrite E. cbn [snd].
      unfold data_len in Ld. cbn [bdata] in Ld. split; [lia|]. split; [exact Bd|]. intros x Hx. rewrite (P x Hx), Meas. cbn [bdata]. replace (Z.min k 31) with k by lia.
      destruct (Z.eqb_spec x a) as [->|Nx].
      * change (bitval ONE a) with true. split; [intros _; right; auto|reflexivity].
      * rewrite (Pb x Hx). split; [auto|]. intros [K|(K & _)]; [exact K|contradiction].
    + rewrite set_bit_pos_out by (unfold data_len; cbn [bdata]; lia). cbn [snd bdata]. split; [exact Lb|]. split; [exact Bb|]. intros x Hx. rewrite (Pb x Hx), Meas.
      split; [auto|]. intros [K|(_ & K & _)]; [exact K|lia].
  - destruct (I i Hi) as (b' & Eb' & Lb' & Bb' & Pb'). exists b'. split.
    + apply rd_nth; [lia|]. rewrite upd_nth_error. destruct (Nat.eqb_spec (Z.to_nat k) (Z.to_nat i)) as [E|_]; [exfalso; lia|]. try (destruct (Nat.eqb_spec (Z.to_nat i) (Z.to_nat k)) as [E|_]; [exfalso; lia|]). apply rd_nth; [lia|exact Eb'].
    + split; [exact Lb'|]. split; [exact Bb'|]. intros x Hx. rewrite (Pb' x Hx), Meas. split; [auto|]. intros [K|(_ & _ & K)]; [exact K|lia].
Qed.
Lemma after_inv h : Forall input_ok h -> exists st, after h = Ok st /\ inv h st.
Proof.
  induction h as [|[a l] h IH] using rev_ind; intros F; [exists rxlev_stat_reset; split; [reflexivity|apply reset_inv]|].
  apply Forall_app in F. destruct F as [F1 F2]. inversion F2; subst. destruct (IH F1) as (st & E & I). destruct (input_inv h st a l I H1) as (st' & E' & I').
  exists st'. split; [|exact I']. unfold after in *. rewrite fold_left_app, E. cbn [fold_left bind fst snd]. exact E'.
Qed.
Lemma measured_min h l a : measured h (Z.min l 31) a <-> measured h l a.
Proof. unfold measured. replace (Z.min (Z.min l 31) 31) with (Z.min l 31) by lia. tauto. Qed.
Lemma next_ok h st level a : inv h st -> 0 <= level < 256 -> -32768 <= a <= 32767 -> exists r, rxlev_stat_get_next st level a = Ok r /\
  ((r = -1 /\ forall x, Z.max a (-1) < x -> ~ measured h level x) \/ (Z.max a (-1) < r < 1024 /\ measured h level r /\ forall x, Z.max a (-1) < x < r -> ~ measured h level x)).
Proof.
  intros (_ & I) Hl Ha. unfold rxlev_stat_get_next. rewrite clamp by lia.
  assert (Ea : (if a <? 0 then -1 else a) = Z.max a (-1)) by (destruct (Z.ltb_spec a 0); lia). rewrite Ea.
  destruct (I (Z.min level 31) ltac:(lia)) as (b & Eb & Lb & Bb & Pb). rewrite Eb. cbn [bind]. rewrite u32_small by (unfold is_u32; lia). eexists. split; [reflexivity|].
  set (n := Z.max a (-1) + 1). pose proof (find_bit_pos_ok (Bv 0 b) n ONE Bb) as K. unfold data_len in K. cbn [bdata] in K. rewrite Lb in K.
  specialize (K ltac:(lia) ltac:(unfold is_bit, ONE; auto) ltac:(unfold n; lia)). cbv zeta in K. set (r := bitvec_find_bit_pos (Bv 0 b) n ONE) in *. change (ONE =? 1) with true in K.
  assert (Q : forall x, 0 <= x -> measured h level x <-> pbit false b x = true) by (intros x Hx; rewrite (Pb x Hx); symmetry; apply measured_min).
  destruct K as [(-> & K)|(R & Pr & K)].
  - left. split; [reflexivity|]. intros x Hx M. assert (x < 1024) by (destruct M; lia). apply (K x); [unfold n; lia|]. apply Q; [lia|exact M].
  - right. assert (S : s16 r = r).
    { unfold s16. rewrite u16_small by (unfold is_u16, n in *; lia). cbv zeta. destruct (Z.ltb_spec r 32768); [reflexivity|unfold n in *; lia]. }
    rewrite S. split; [unfold n in R; lia|]. split; [apply Q; [lia|exact Pr]|].
    intros x Hx M. apply (K x); [unfold n; lia|]. apply Q; [lia|exact M].
Qed.
Lemma measured_nonneg h level x : Forall input_ok h -> measured h level x -> 0 <= x.
Proof. intros F (_ & l & I & _). rewrite Forall_forall in F. destruct (F _ I) as (K & _). cbn in K. lia. Qed.
Lemma dump_loop_ok h st level : Forall input_ok h -> inv h st -> 0 <= level < 256 -> forall fuel a, -1 <= a < 1024 -> (Z.to_nat (1024 - a) <= fuel)%nat ->
  exists l, dump_loop fuel st level a = Ok l /\ StronglySorted Z.lt l /\ Forall (Z.lt a) l /\ forall x, In x l <-> a < x /\ measured h level x.
Proof.
  intros F I Hl. induction fuel as [|fuel IH]; intros a Ha Hf; [lia|]. cbn [dump_loop].
  destruct (next_ok h st level a I Hl ltac:(lia)) as (r & E & K). rewrite E. cbn [bind]. replace (Z.max a (-1)) with a in K by lia. destruct K as [(-> & N)|(R & M & N)].
  - change (0 <=? -1) with false. cbv iota. exists []. split; [reflexivity|]. split; [constructor|]. split; [constructor|]. intros x. split; [intros []|]. intros (X & Mx). exact (N x X Mx).
  - destruct (Z.leb_spec 0 r); [|lia]. destruct (IH r ltac:(lia) ltac:(lia)) as (l & El & So & Fo & In'). rewrite El. cbn [bind]. exists (r :: l). split; [reflexivity|].
    split; [constructor; assumption|]. split; [constructor; [lia|]; eapply Forall_impl; [|exact Fo]; cbn; intros; lia|].
    intros x. cbn [In]. rewrite In'. split.
    + intros [<-|(X & Mx)]; [split; [lia|exact M]|split; [lia|exact Mx]].
    + intros (X & Mx). destruct (Z.lt_trichotomy x r) as [L|[->|G]]; [exfalso; exact (N x ltac:(lia) Mx)|left; reflexivity|right; split; [lia|exact Mx]].
Qed.
Lemma dump_levels_ok h st : Forall input_ok h -> inv h st -> forall n, (n <= 32)%nat -> exists d, dump_levels n st = Ok d /\
  map fst d = rev (zseq 0 n) /\ Forall (fun x => channels_of h (fst x) (snd x)) d.
Proof.
  intros F I. induction n as [|n IH]; intros Hn; [exists []; repeat split; constructor|]. destruct (IH ltac:(lia)) as (d & E & A & B). cbn [dump_levels].
  destruct (dump_loop_ok h st (Z.of_nat n) F I ltac:(lia) (Z.to_nat (NUM_ARFCNS + 1)) (-1) ltac:(lia) ltac:(unfold NUM_ARFCNS; lia)) as (l & El & So & _ & In').
  rewrite El. cbn [bind]. rewrite E. cbn [bind]. eexists. split; [reflexivity|]. split.
  - cbn [map fst]. rewrite A. assert (Z0 : forall s m, zseq s (S m) = zseq s m ++ [s + Z.of_nat m]).
    { intros s m. revert s. induction m as [|m IHm]; intros s; [cbn; f_equal; lia|]. change (zseq s (S (S m))) with (s :: zseq (s + 1) (S m)). rewrite IHm. cbn [zseq app]. do 3 f_equal. lia. }
    rewrite Z0, rev_app_distr. reflexivity.
  - constructor; [|exact B]. cbn [fst snd]. split; [exact So|]. intros a. rewrite In'. split; [tauto|]. intros M. split; [pose proof (measured_nonneg _ _ _ F M); lia|exact M].
Qed.
