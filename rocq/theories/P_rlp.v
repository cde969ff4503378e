(** Proofs about RLP: the check sequence. *)
From Verif Require Import Base S_crc16 S_crc M_crc P_crc P_crc16 S_rlp M_rlp.

Definition PREV := 0xAD85DD.
Definition PFWD := RLP_G - 2 ^ 24.
Definition ONES := 0xFFFFFF.
Definition RCODE := Crc 24 PFWD ONES ONES.
Lemma rcode_ok : code_ok 32 RCODE.
Proof. unfold code_ok, RCODE; cbn [cbits cpoly cinit crem]. vm_compute; repeat split; congruence. Qed.

(** the table in terms of eight shifts *)
Lemma tab_ok2 : forall x, 0 <= x < 256 -> rd rlp_fcs_table (Z.lxor x 255) = Ok (Z.lxor (shn 8 PREV x) 0xFF0000).
Proof.
  assert (K : forallb (fun x => match rd rlp_fcs_table (Z.lxor x 255) with Ok t => t =? Z.lxor (shn 8 PREV x) 0xFF0000 | _ => false end) (zseq 0 256) = true)
    by (vm_compute; reflexivity).
  intros x Hx. pose proof (forall_zseq _ 0 256%nat K x ltac:(lia)) as A. cbv beta in A.
  revert A. generalize (rd rlp_fcs_table (Z.lxor x 255)) (Z.lxor (shn 8 PREV x) 0xFF0000). clear K. intros [t| | |] y A; [|congruence ..].
  apply Z.eqb_eq in A. now rewrite A.
Qed.
Global Opaque rlp_fcs_table.
Lemma fcs_step b E : is_byte b -> 0 <= E < 2 ^ 24 ->
  (do t <- rd rlp_fcs_table (Z.lxor b (Z.land (Z.lxor E ONES) 255)) ;; Ok (Z.lxor (Z.shiftr (Z.lxor E ONES) 8) t)) =
  Ok (Z.lxor (fold_left (crc_bit PREV) (octet_bits b) E) ONES).
Proof.
  intros Hb HE. rewrite feed_octet, shn8 by assumption.
  assert (A : Z.lxor b (Z.land (Z.lxor E ONES) 255) = Z.lxor (Z.land (Z.lxor E b) 255) 255).
  { apply Z.bits_inj'. intros k Hk. rewrite !Z.lxor_spec, !Z.land_spec, !Z.lxor_spec. unfold ONES.
    change 255 with (Z.ones 8). change 16777215 with (Z.ones 24). rewrite !testbit_ones by lia.
    destruct (Z_lt_le_dec k 8).
    - replace (0 <=? k) with true by lia. replace (k <? 24) with true by lia. replace (k <? 8) with true by lia.
      destruct (Z.testbit b k), (Z.testbit E k); reflexivity.
    - rewrite (byte_testbit_above b) by auto. replace (k <? 8) with false by lia. rewrite !andb_false_r. reflexivity. }
  rewrite A, tab_ok2 by apply land255_range. cbn [bind]. f_equal.
  rewrite !Z.shiftr_lxor. rewrite (Z.shiftr_div_pow2 b) by lia. rewrite (Z.div_small b) by exact Hb.
  change (Z.shiftr ONES 8) with 0xFFFF. rewrite Z.lxor_0_r. set (t := shn 8 PREV _). clearbody t.
  rewrite !Z.lxor_assoc. f_equal. rewrite (Z.lxor_comm 65535), Z.lxor_assoc. reflexivity.
Qed.

(** the register with the order of its bits reversed *)
Definition refl (x y : Z) : Prop := 0 <= x < 2 ^ 24 /\ 0 <= y < 2 ^ 24 /\ forall k, 0 <= k < 24 -> Z.testbit y k = Z.testbit x (23 - k).
Lemma poly_refl : forall k, 0 <= k < 24 -> Z.testbit PFWD k = Z.testbit PREV (23 - k).
Proof.
  assert (K : forallb (fun k => Bool.eqb (Z.testbit PFWD k) (Z.testbit PREV (23 - k))) (zseq 0 24) = true) by (vm_compute; reflexivity).
  intros k Hk. apply Bool.eqb_prop. apply (forall_zseq _ 0 24%nat K). lia.
Qed.
Lemma prange : 0 <= PFWD < 2 ^ 24.
Proof. vm_compute; split; congruence. Qed.
Lemma refl_step x y b : is_bit b -> refl x y -> refl (crc_bit PREV x b) (stp 24 PFWD y b).
Proof.
  intros Hb (Hx & Hy & H). split; [|split].
  - unfold crc_bit. apply lxor_bound; [lia| |destruct (xorb _ _); unfold PREV; lia].
    rewrite Z.shiftr_div_pow2 by lia. split; [apply Z.div_pos; lia|]. apply Z.div_lt_upper_bound; lia.
  - apply stp_range; [lia|apply prange].
  - intros k Hk. unfold stp. rewrite T_bit by (try apply prange; lia). unfold crc_bit. rewrite (Z.lxor_spec (Z.shiftr x 1)), Z.shiftr_spec by lia.
    assert (B23 : forall m, 0 <= m < 23 -> Z.testbit (Z.lxor y (Z.shiftl b 23)) m = Z.testbit y m).
    { intros m Hm. rewrite Z.lxor_spec, Z.shiftl_spec_low by lia. apply xorb_false_r. }
    assert (TOP : Z.testbit (Z.lxor y (Z.shiftl b 23)) 23 = xorb (Z.odd x) (b =? 1)).
    { rewrite Z.lxor_spec, H, Z.shiftl_spec by lia. change (23 - 23) with 0. rewrite Z.bit0_odd. now rewrite testbit_bit0. }
    change (24 - 1) with 23. rewrite TOP. f_equal.
    + destruct (Z.leb_spec 1 k); cbn [andb].
      * replace (k <? 24) with true by lia. cbn [andb]. rewrite B23, H by lia. f_equal. lia.
      * replace k with 0 by lia. change (23 - 0 + 1) with 24. symmetry. apply testbit_above with 24; lia.
    + destruct (xorb _ _); cbn [andb]; [apply poly_refl; exact Hk|symmetry; apply Z.bits_0].
Qed.
Lemma refl_feed bs : bits bs -> forall x y, refl x y -> refl (fold_left (crc_bit PREV) bs x) (feed 24 PFWD y bs).
Proof.
  induction 1 as [|b bs Hb _ IH]; intros x y R; [exact R|]. cbn [fold_left feed]. apply IH. rewrite land_bit by assumption. now apply refl_step.
Qed.
Lemma refl_ones : refl ONES ONES.
Proof.
  split; [vm_compute; split; congruence|]. split; [vm_compute; split; congruence|]. intros k Hk. unfold ONES. change 16777215 with (Z.ones 24).
  rewrite !testbit_ones by lia. lia.
Qed.

Lemma lsb_bits_bits n x : bits (lsb_bits n x).
Proof. unfold lsb_bits. apply Forall_forall. intros b Hb. apply in_map_iff in Hb. destruct Hb as (k & <- & _). apply b2z_bit. Qed.
Lemma lsb_bits_length n x : length (lsb_bits n x) = n.
Proof. unfold lsb_bits. now rewrite map_length, zseq_length. Qed.
Lemma tx_bits_bits l : bits (tx_bits l).
Proof. unfold tx_bits. induction l as [|o l IH]; cbn [flat_map]; [constructor|]. apply Forall_app. split; [apply lsb_bits_bits|exact IH]. Qed.
Lemma tx_bits_length l : length (tx_bits l) = (8 * length l)%nat.
Proof. unfold tx_bits. induction l as [|o l IH]; [reflexivity|]. cbn [flat_map]. rewrite app_length, lsb_bits_length, IH. cbn [length]. lia. Qed.
Lemma tx_bits_app a b : tx_bits (a ++ b) = tx_bits a ++ tx_bits b.
Proof. apply flat_map_app. Qed.
Lemma at0_lsb n x k : 0 <= k < Z.of_nat n -> at0 (lsb_bits n x) k = b2z (Z.testbit x k).
Proof. intros H. unfold at0, lsb_bits. rewrite nth_map_zseq by lia. f_equal. f_equal. lia. Qed.

(** the function computes the register of the remainder, reversed *)
Lemma fcs_refl l n : bytes l -> 0 <= n <= zlen l ->
  exists f, rlp_fcs_compute l n = Ok f /\ refl (Z.lxor f ONES) (feed 24 PFWD ONES (tx_bits (firstn (Z.to_nat n) l))).
Proof.
  intros Hl Hn. unfold rlp_fcs_compute.
  destruct (zfor_inv (fun i s => refl (Z.lxor s ONES) (feed 24 PFWD ONES (tx_bits (firstn (Z.to_nat i) l))) /\ s = Z.lxor (Z.lxor s ONES) ONES)
    (fun i divider => do b <- rd l i ;; let input := Z.lxor b (Z.land divider 255) in
       do t <- rd rlp_fcs_table input ;; Ok (Z.lxor (Z.shiftr divider 8) t)) (Z.to_nat n) 0 0) as (s & E & HI & _).
  - split; [exact refl_ones|reflexivity].
  - intros j s Hj (R & Es). rewrite rd_at0 by lia. cbn [bind]. cbv zeta.
    pose proof (bytes_at0 l j Hl) as Hb. set (e := Z.lxor s ONES) in *. rewrite Es.
    assert (He : 0 <= e < 2 ^ 24) by (destruct R as (R1 & _); exact R1).
    rewrite fcs_step by assumption. eexists. split; [reflexivity|].
    replace (Z.to_nat (j + 1)) with (S (Z.to_nat j)) by lia.
    rewrite (firstn_snoc l (Z.to_nat j)) by (unfold zlen in *; lia). rewrite tx_bits_app, feed_app.
    split.
    + rewrite Z.lxor_assoc, Z.lxor_nilpotent, Z.lxor_0_r. unfold tx_bits at 2. cbn [flat_map]. rewrite app_nil_r.
      apply (refl_feed (lsb_bits 8 (at0 l j)) (lsb_bits_bits 8 _)). exact R.
    + rewrite Z.lxor_assoc, Z.lxor_nilpotent, Z.lxor_0_r. reflexivity.
  - exists s. split; [exact E|]. replace (0 + Z.of_nat (Z.to_nat n)) with n in HI by lia. exact HI.
Qed.
Lemma lxor_ones_range f : 0 <= Z.lxor f ONES < 2 ^ 24 -> 0 <= f < 2 ^ 24.
Proof.
  intros H. replace f with (Z.lxor (Z.lxor f ONES) ONES) by (rewrite Z.lxor_assoc, Z.lxor_nilpotent; apply Z.lxor_0_r).
  apply lxor_bound; [lia|exact H|unfold ONES; lia].
Qed.
Lemma ones_bit k : 0 <= k < 24 -> Z.testbit ONES k = true.
Proof. intros. unfold ONES. change 16777215 with (Z.ones 24). rewrite testbit_ones by lia. lia. Qed.
(** the CRC of the generic code *)
Lemma fcs_crc l n : bytes l -> 0 <= n <= zlen l ->
  exists f c, rlp_fcs_compute l n = Ok f /\ 0 <= f < 2 ^ 24 /\
    crc_compute 32 RCODE (tx_bits (firstn (Z.to_nat n) l)) (zlen (tx_bits (firstn (Z.to_nat n) l))) = Ok c /\ 0 <= c < 2 ^ 24 /\
    (forall k, 0 <= k < 24 -> Z.testbit c k = Z.testbit f (23 - k)).
Proof.
  intros Hl Hn. destruct (fcs_refl l n Hl Hn) as (f & E & R1 & R2 & R3). set (m := tx_bits _) in *.
  exists f, (Z.lxor (feed 24 PFWD ONES m) ONES). split; [exact E|]. split; [now apply lxor_ones_range|].
  rewrite crc_compute_ok by (try apply rcode_ok; pose proof (zlen_nonneg m); lia).
  replace (firstn (Z.to_nat (zlen m)) m) with m by (unfold zlen; rewrite Nat2Z.id, firstn_all; reflexivity).
  split; [reflexivity|]. split; [apply lxor_bound; [lia|exact R2|unfold ONES; lia]|].
  intros k Hk. rewrite Z.lxor_spec, R3, Z.lxor_spec, !ones_bit by lia. now destruct (Z.testbit f (23 - k)).
Qed.
Lemma poly_lsb f c : 0 <= c < 2 ^ 24 -> (forall k, 0 <= k < 24 -> Z.testbit c k = Z.testbit f (23 - k)) -> poly_of (lsb_bits 24 f) = c.
Proof.
  intros Hc H. pose proof (poly_of_bound (lsb_bits 24 f) (lsb_bits_bits 24 f)) as B.
  assert (L : zlen (lsb_bits 24 f) = 24) by (unfold zlen; now rewrite lsb_bits_length). rewrite L in B.
  apply Z.bits_inj'. intros k Hk. destruct (Z_lt_le_dec k 24).
  - pose proof (poly_of_at (lsb_bits 24 f) (lsb_bits_bits 24 f) (23 - k) ltac:(lia)) as P. rewrite L in P.
    replace (24 - 1 - (23 - k)) with k in P by lia. rewrite P, at0_lsb, H by lia. now destruct (Z.testbit f (23 - k)).
  - rewrite !(testbit_above _ 24) by lia. reflexivity.
Qed.
Lemma fcs_spec l n : bytes l -> 0 <= n <= zlen l ->
  exists f, rlp_fcs_compute l n = Ok f /\ 0 <= f < 2 ^ 24 /\ rlp_fcs_of (tx_bits (firstn (Z.to_nat n) l)) (lsb_bits 24 f).
Proof.
  intros Hl Hn. destruct (fcs_crc l n Hl Hn) as (f & c & E & Hf & Ec & Hc & HB). exists f. split; [exact E|]. split; [exact Hf|].
  split; [apply lsb_bits_bits|]. split; [apply lsb_bits_length|]. rewrite (poly_lsb f c Hc HB).
  set (m := tx_bits _) in *.
  destruct (crc_remainder 32 RCODE m (zlen m) rcode_ok ltac:(pose proof (zlen_nonneg m); lia) (tx_bits_bits _)) as (c' & Ec' & _ & G).
  rewrite Ec in Ec'. injection Ec' as <-.
  replace (firstn (Z.to_nat (zlen m)) m) with m in G by (unfold zlen; rewrite Nat2Z.id, firstn_all; reflexivity).
  exact G.
Qed.
(** acceptance in terms of the generic check *)
Lemma fcs_check l n f : bytes l -> 0 <= n <= zlen l -> 0 <= f < 2 ^ 24 ->
  (rlp_fcs_compute l n = Ok f <-> crc_check 32 RCODE (tx_bits (firstn (Z.to_nat n) l)) (zlen (tx_bits (firstn (Z.to_nat n) l))) (lsb_bits 24 f) = Ok 0).
Proof.
  intros Hl Hn Hf. destruct (fcs_crc l n Hl Hn) as (g & c & E & Hg & Ec & Hc & HB). set (m := tx_bits _) in *.
  assert (L : zlen (lsb_bits 24 f) = 24) by (unfold zlen; now rewrite lsb_bits_length).
  destruct (crc_check_ok 32 RCODE m (zlen m) (lsb_bits 24 f) rcode_ok ltac:(pose proof (zlen_nonneg m); lia)) as (c' & v & Ec' & Ev & Hv & Hiff);
    [cbn [cbits RCODE]; lia|].
  rewrite Ec in Ec'. injection Ec' as <-. rewrite E, Ev. cbn [cbits RCODE] in Hiff.
  assert (Q : g = f <-> v = 0).
  { rewrite Hiff. split.
    - intros -> k Hk. rewrite at0_lsb by lia. rewrite HB by lia. f_equal. f_equal. lia.
    - intros H. apply Z.bits_inj'. intros k Hk. destruct (Z_lt_le_dec k 24).
      + specialize (H k ltac:(lia)). rewrite at0_lsb, HB in H by lia. replace (23 - (24 - 1 - k)) with k in H by lia.
        destruct (Z.testbit f k), (Z.testbit g k); cbn in H; congruence.
      + rewrite !(testbit_above _ 24) by lia. reflexivity. }
  split; intros H; injection H as H; f_equal; apply Q; exact H.
Qed.
