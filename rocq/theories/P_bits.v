From Verif Require Import Base S_bits M_bits.

Lemma mod8 n : 0 <= n mod 8 < 8. Proof. lia. Qed.

Lemma pbit_upd lsb l i v j : 0 <= i < zlen l -> 0 <= j ->
  pbit lsb (upd l (Z.to_nat i) v) j =
  if j / 8 =? i then Z.testbit v (if lsb then j mod 8 else 7 - j mod 8) else pbit lsb l j.
Proof.
  intros. unfold pbit. rewrite at0_upd by lia. destruct (j / 8 =? i); auto.
Qed.

Lemma testbit_u8 x i : Z.testbit (u8 x) i = (i <? 8) && Z.testbit x i.
Proof.
  unfold u8. change 256 with (2 ^ 8).
  destruct (Z.ltb_spec i 8).
  - destruct (Z_lt_le_dec i 0); [rewrite !Z.testbit_neg_r by lia; auto|].
    rewrite Z.mod_pow2_bits_low by lia. reflexivity.
  - rewrite Z.mod_pow2_bits_high by lia. reflexivity.
Qed.

Lemma testbit_bit x i : is_bit x -> Z.testbit x i = (i =? 0) && (x =? 1).
Proof.
  intros [->| ->].
  - rewrite Z.bits_0. destruct (i =? 0); reflexivity.
  - rewrite testbit_1. destruct (i =? 0); reflexivity.
Qed.

(* ---------------- osmo_ubit2pbit ---------------- *)
Definition u2p_inv (out inp : list Z) (i : Z) (s : list Z * Z * Z) : Prop :=
  let '(o, pos, cur) := s in
  pos = i / 8 /\ zlen o = zlen out /\ is_byte cur /\
  (forall j, 0 <= j < 8 * (i / 8) -> pbit false o j = (at0 inp j =? 1)) /\
  (forall k, i / 8 <= k < zlen out -> at0 o k = at0 out k) /\
  (forall m, 0 <= m < 8 -> Z.testbit cur (7 - m) = (m <? i mod 8) && (at0 inp (8 * (i / 8) + m) =? 1)).

Lemma u2p_step out inp n i s :
  bits inp -> n <= zlen inp -> nbytes n <= zlen out -> 0 <= i < n ->
  u2p_inv out inp i s -> exists s', ubit2pbit_step inp i s = Ok s' /\ u2p_inv out inp (i + 1) s'.
Proof.
  destruct s as [[o pos] cur]. intros Hb Hn Ho Hi (-> & HL & Hc & Hd & Hu & Hk).
  unfold ubit2pbit_step. rewrite rd_at0 by lia. cbn [bind].
  set (c' := u8 (Z.lor cur (Z.shiftl (at0 inp i) (7 - i mod 8)))).
  assert (Hc' : forall m, 0 <= m < 8 -> Z.testbit c' (7 - m) = (m <? i mod 8 + 1) && (at0 inp (8 * (i / 8) + m) =? 1)).
  { intros m Hm. unfold c'. rewrite testbit_u8, Z.lor_spec, Z.shiftl_spec by lia.
    rewrite Hk by lia. rewrite testbit_bit by (apply bits_at0; auto).
    destruct (Z.eqb_spec (7 - m - (7 - i mod 8)) 0).
    - replace (8 * (i / 8) + m) with i by lia.
      replace (7 - m <? 8) with true by lia. replace (m <? i mod 8) with false by lia.
      replace (m <? i mod 8 + 1) with true by lia. reflexivity.
    - replace (7 - m <? 8) with true by lia. replace (m <? i mod 8 + 1) with (m <? i mod 8) by lia.
      rewrite andb_false_l, orb_false_r. reflexivity. }
  assert (Hcb : is_byte c') by apply u8_range.
  unfold nbytes in Ho. pose proof (mod8 i).
  destruct (Z.eqb_spec (i mod 8) 7) as [E|E].
  - rewrite wr_in by (rewrite HL; lia). cbn [bind]. eexists; split; [reflexivity|].
    unfold u2p_inv. split; [lia|]. split; [rewrite zlen_upd; auto|]. split; [unfold is_byte; lia|].
    split; [|split].
    + intros j Hj. rewrite pbit_upd by (try rewrite HL; lia).
      destruct (Z.eqb_spec (j / 8) (i / 8)).
      * rewrite Hc' by lia. replace (j mod 8 <? i mod 8 + 1) with true by lia.
        replace (8 * (i / 8) + j mod 8) with j by lia. reflexivity.
      * apply Hd. lia.
    + intros k Hk2. rewrite at0_upd by (try rewrite HL; lia).
      destruct (Z.eqb_spec k (i / 8)); [lia|]. apply Hu; lia.
    + intros m Hm. rewrite Z.bits_0. replace (m <? (i + 1) mod 8) with false by lia. reflexivity.
  - eexists; split; [reflexivity|].
    assert (E8 : (i + 1) / 8 = i / 8) by lia. assert (Em : (i + 1) mod 8 = i mod 8 + 1) by lia.
    unfold u2p_inv. rewrite E8, Em. repeat split; auto; apply Hcb.
Qed.

Lemma ubit2pbit_ok out inp n :
  bits inp -> 0 <= n <= zlen inp -> nbytes n <= zlen out ->
  exists o, osmo_ubit2pbit out inp n = Ok (o, nbytes n) /\ zlen o = zlen out /\
    (forall j, 0 <= j < 8 * nbytes n -> pbit false o j = (j <? n) && (at0 inp j =? 1)) /\
    (forall k, nbytes n <= k < zlen out -> at0 o k = at0 out k).
Proof.
  intros Hb Hn Ho. unfold osmo_ubit2pbit.
  destruct (zfor_inv (u2p_inv out inp) (ubit2pbit_step inp) (Z.to_nat n) 0 (out, 0, 0)) as (s & E & H).
  - unfold u2p_inv. change (0 / 8) with 0. repeat split; auto; try lia.
    intros m Hm. rewrite Z.bits_0. replace (m <? 0 mod 8) with false by lia. reflexivity.
  - intros j s Hj Hs. eapply u2p_step; eauto; lia.
  - rewrite E. destruct s as [[o pos] cur]. cbn [bind].
    replace (0 + Z.of_nat (Z.to_nat n)) with n in H by lia.
    destruct H as (-> & HL & Hc & Hd & Hu & Hk). unfold nbytes in *.
    destruct (Z.eqb_spec (n mod 8) 0) as [E0|E0]; cbn [negb].
    + replace ((n + 7) / 8) with (n / 8) by lia.
      eexists; split; [reflexivity|]. split; auto. split; auto.
      intros j Hj. rewrite Hd by lia. replace (j <? n) with true by lia. reflexivity.
    + rewrite wr_in by (rewrite HL; lia). cbn [bind].
      replace ((n + 7) / 8) with (n / 8 + 1) by lia.
      eexists; split; [reflexivity|]. split; [rewrite zlen_upd; auto|]. split.
      * intros j Hj. rewrite pbit_upd by (try rewrite HL; lia).
        destruct (Z.eqb_spec (j / 8) (n / 8)).
        -- rewrite Hk by lia. replace (8 * (n / 8) + j mod 8) with j by lia.
           replace (j mod 8 <? n mod 8) with (j <? n) by lia. reflexivity.
        -- rewrite Hd by lia. replace (j <? n) with true by lia. reflexivity.
      * intros k Hk2. rewrite at0_upd by (try rewrite HL; lia).
        destruct (Z.eqb_spec k (n / 8)); [lia|]. apply Hu; lia.
Qed.

(* ---------------- osmo_pbit2ubit ---------------- *)
Lemma bit_of_shiftr b k : 0 <= k -> Z.land (Z.shiftr b k) 1 = b2z (Z.testbit b k).
Proof.
  intros. change 1 with (Z.ones 1) at 1. rewrite Z.land_ones by lia. change (2 ^ 1) with 2.
  rewrite <- Z.bit0_mod, Z.shiftr_spec by lia. replace (0 + k) with k by lia.
  destruct (Z.testbit b k); reflexivity.
Qed.

(* after i whole bytes and k bits of the next one *)
Definition p2u_inv (out inp : list Z) (n c : Z) (s : list Z * Z * bool) : Prop :=
  let '(o, cur, brk) := s in
  cur = Z.min c n /\ brk = (n <=? c) /\ zlen o = zlen out /\
  (forall j, 0 <= j < cur -> at0 o j = b2z (pbit false inp j)) /\
  (forall j, cur <= j < zlen out -> at0 o j = at0 out j).

Lemma p2u_bit out inp n c i k s : 1 <= n -> n <= zlen out -> c = 8 * i + k -> 0 <= k < 8 -> 0 <= i ->
  p2u_inv out inp n c s -> exists s', pbit2ubit_bit n (at0 inp i) k s = Ok s' /\ p2u_inv out inp n (c + 1) s'.
Proof.
  intros Hn Ho -> Hk Hi. destruct s as [[o cur] brk]. intros (-> & -> & HL & Hd & Hu).
  unfold pbit2ubit_bit. destruct (Z.leb_spec n (8 * i + k)).
  - eexists; split; [reflexivity|]. unfold p2u_inv. split; [lia|]. split; [lia|]. split; [auto|]. split.
    + intros j Hj; apply Hd; lia.
    + intros j Hj; apply Hu; lia.
  - rewrite wr_in by (rewrite HL; lia). cbn [bind]. eexists; split; [reflexivity|].
    unfold p2u_inv. replace (Z.min (8 * i + k) n) with (8 * i + k) in * by lia.
    split; [lia|]. split; [lia|]. split; [rewrite zlen_upd; auto|]. split.
    + intros j Hj. rewrite at0_upd by (try rewrite HL; lia). destruct (Z.eqb_spec j (8 * i + k)).
      * subst. rewrite bit_of_shiftr by lia. unfold pbit.
        replace ((8 * i + k) / 8) with i by lia. replace ((8 * i + k) mod 8) with k by lia. reflexivity.
      * apply Hd. lia.
    + intros j Hj. rewrite at0_upd by (try rewrite HL; lia).
      destruct (Z.eqb_spec j (8 * i + k)); [lia|]. apply Hu; lia.
Qed.

Lemma pbit2ubit_ok out inp n :
  1 <= n -> n <= zlen out -> nbytes n <= zlen inp ->
  exists o, osmo_pbit2ubit out inp n = Ok (o, n) /\ zlen o = zlen out /\
    (forall j, 0 <= j < n -> at0 o j = b2z (pbit false inp j)) /\
    (forall j, n <= j < zlen out -> at0 o j = at0 out j).
Proof.
  intros Hn Ho Hi. unfold osmo_pbit2ubit, nbytes in *.
  destruct (zfor_inv (fun i s => p2u_inv out inp n (8 * i) s)
    (pbit2ubit_byte inp n) (Z.to_nat (n / 8 + 1)) 0 (out, 0, false)) as (s & E & H).
  - unfold p2u_inv. repeat split; auto; lia.
  - intros i s Hr Hs. unfold pbit2ubit_byte. destruct s as [[o cur] brk].
    destruct Hs as (Hc & Hb & Hs).
    destruct (Z.leb_spec n (8 * i)).
    + subst brk. eexists; split; [reflexivity|].
      destruct Hs as (HL & Hd & Hu). unfold p2u_inv. repeat split; auto; try lia.
    + subst brk. rewrite rd_at0 by lia. cbn [bind].
      destruct (zfor_inv (fun k s => p2u_inv out inp n (8 * i + k) s) (pbit2ubit_bit n (at0 inp i)) 8 0 (o, cur, false)) as (s & E & H1).
      * unfold p2u_inv. replace (8 * i + 0) with (8 * i) by lia. repeat split; try apply Hs; try lia.
      * intros k s Hk Hs1. eapply p2u_bit in Hs1; eauto; try lia.
        destruct Hs1 as (s' & E1 & H1). exists s'; split; auto.
        replace (8 * i + (k + 1)) with (8 * i + k + 1) by lia. auto.
      * exists s; split; auto. replace (8 * (i + 1)) with (8 * i + (0 + Z.of_nat 8)) by lia. auto.
  - rewrite E. destruct s as [[o cur] brk]. cbn [bind].
    destruct H as (Hc & _ & HL & Hd & Hu).
    replace cur with n in * by lia. eexists; split; [reflexivity|]. auto.
Qed.

(* num_bits = 0 still writes one element *)
Lemma pbit2ubit_zero b t inp i : osmo_pbit2ubit (b :: t) (i :: inp) 0 = Ok (b2z (Z.testbit i 7) :: t, 1).
Proof.
  unfold osmo_pbit2ubit. change (Z.to_nat (0 / 8 + 1)) with 1%nat.
  cbn [zfor pbit2ubit_byte]. change (rd (i :: inp) 0) with (Ok i). cbn [bind].
  cbn [zfor pbit2ubit_bit bind].
  change (wr (b :: t) 0 (Z.land (Z.shiftr i (7 - 0)) 1)) with (Ok (Z.land (Z.shiftr i (7 - 0)) 1 :: t)).
  cbn [bind]. rewrite bit_of_shiftr by lia. reflexivity.
Qed.

Lemma roundtrip out1 out2 inp n :
  bits inp -> 1 <= n <= zlen inp -> nbytes n <= zlen out1 -> n <= zlen out2 ->
  exists p, osmo_ubit2pbit out1 inp n = Ok (p, nbytes n) /\
  exists o, osmo_pbit2ubit out2 p n = Ok (o, n) /\
    firstn (Z.to_nat n) o = firstn (Z.to_nat n) inp /\
    skipn (Z.to_nat n) o = skipn (Z.to_nat n) out2.
Proof.
  intros Hb Hn H1 H2.
  destruct (ubit2pbit_ok out1 inp n) as (p & Ep & Lp & Dp & _); auto; try lia.
  exists p; split; auto.
  destruct (pbit2ubit_ok out2 p n) as (o & Eo & Lo & Do & Uo); auto; try lia.
  exists o; split; auto. split.
  - apply at0_ext.
    + rewrite !zlen_firstn; auto; unfold zlen in *; lia.
    + intros i Hi. rewrite zlen_firstn in Hi by (unfold zlen in *; lia).
      rewrite !at0_firstn by lia. replace (i <? n) with true by lia.
      rewrite Do by lia. rewrite Dp by (unfold nbytes; lia). replace (i <? n) with true by lia.
      cbn [andb]. symmetry. apply bit_b2z. apply bits_at0; auto.
  - apply at0_ext.
    + unfold zlen in *. rewrite !skipn_length. lia.
    + intros i Hi. assert (i < zlen out2 - n) by (unfold zlen in *; rewrite skipn_length in Hi; lia).
      rewrite !at0_skipn by lia. apply Uo. lia.
Qed.

(* ---------------- _ext variants ---------------- *)
Lemma land7 x : Z.land x 7 = x mod 8.
Proof. change 7 with (Z.ones 3). apply Z.land_ones; lia. Qed.
Lemma shiftr3 x : Z.shiftr x 3 = x / 8.
Proof. rewrite Z.shiftr_div_pow2 by lia. reflexivity. Qed.

Lemma set_clear_bit old v bn i : is_byte old -> 0 <= bn < 8 -> 0 <= i < 8 ->
  Z.testbit (u8 (if v : bool then Z.lor old (Z.shiftl 1 bn) else Z.land old (Z.lnot (Z.shiftl 1 bn)))) i
  = if i =? bn then v else Z.testbit old i.
Proof.
  intros. rewrite testbit_u8. replace (i <? 8) with true by lia. cbn [andb]. destruct v.
  - rewrite Z.lor_spec, testbit_shl1 by lia. destruct (i =? bn); [apply orb_true_r|apply orb_false_r].
  - rewrite Z.land_spec, Z.lnot_spec, testbit_shl1 by lia. destruct (i =? bn); cbn; [apply andb_false_r|apply andb_true_r].
Qed.

Lemma ubit2pbit_ext_ok out oo inp io n lsb :
  bytes out -> 0 <= oo -> 0 <= io -> 0 <= n -> oo + n < 2 ^ 32 -> io + n <= zlen inp -> io + n < 2 ^ 32 ->
  oo + n <= 8 * zlen out ->
  exists o, osmo_ubit2pbit_ext out oo inp io n lsb = Ok (o, s32 (Z.shiftr (u32 (oo + n - 1)) 3 + 1)) /\
    zlen o = zlen out /\ bytes o /\
    (forall j, 0 <= j < 8 * zlen out -> pbit lsb o j =
       if (oo <=? j) && (j <? oo + n) then negb (at0 inp (io + (j - oo)) =? 0) else pbit lsb out j).
Proof.
  intros Bo Hoo Hio Hn Ho1 Hi1 Hi2 Hcap. unfold osmo_ubit2pbit_ext.
  match goal with |- context [zfor _ _ ?f _] =>
  destruct (zfor_inv (fun i o => zlen o = zlen out /\ bytes o /\
    (forall j, 0 <= j < 8 * zlen out -> pbit lsb o j =
       if (oo <=? j) && (j <? oo + i) then negb (at0 inp (io + (j - oo)) =? 0) else pbit lsb out j))
    f (Z.to_nat n) 0 out) as (o & E & HL & Hb & H) end.
  - split; auto. split; auto. intros j Hj. replace ((oo <=? j) && (j <? oo + 0)) with false by lia. reflexivity.
  - intros i o Hi (HL & Hb & H).
    rewrite u32_small by (unfold is_u32; lia). rewrite u32_small by (unfold is_u32; lia).
    rewrite land7, shiftr3. rewrite rd_at0 by lia. cbn [bind].
    rewrite rd_at0 by (rewrite HL; lia). cbn [bind].
    rewrite wr_in by (rewrite HL; lia).
    eexists; split; [reflexivity|].
    split; [rewrite zlen_upd; auto|]. split; [apply Forall_upd; auto; apply u8_range|].
    intros j Hj. rewrite pbit_upd by (try rewrite HL; lia).
    destruct (Z.eqb_spec (j / 8) ((oo + i) / 8)) as [Ej|Ej].
    + set (sel := fun x => if lsb then x mod 8 else 7 - x mod 8).
      change (if lsb then (oo + i) mod 8 else 7 - (oo + i) mod 8) with (sel (oo + i)).
      change (if lsb then j mod 8 else 7 - j mod 8) with (sel j).
      rewrite set_clear_bit.
      2: apply bytes_at0; auto. 2,3: unfold sel; destruct lsb; lia.
      destruct (Z.eqb_spec (sel j) (sel (oo + i))) as [Es|Es].
      * assert (j = oo + i) by (unfold sel in Es; destruct lsb; lia). subst j.
        replace ((oo <=? oo + i) && (oo + i <? oo + (i + 1))) with true by lia.
        replace (io + (oo + i - oo)) with (io + i) by lia. reflexivity.
      * assert (j <> oo + i) by (intros ->; auto).
        replace ((oo <=? j) && (j <? oo + (i + 1))) with ((oo <=? j) && (j <? oo + i)) by lia.
        rewrite <- H by lia. unfold pbit. fold (sel j). rewrite Ej. reflexivity.
    + assert (j <> oo + i) by (intros ->; auto).
      replace ((oo <=? j) && (j <? oo + (i + 1))) with ((oo <=? j) && (j <? oo + i)) by lia.
      apply H; lia.
  - rewrite E. cbn [bind]. exists o. split; auto. split; auto. split; auto.
    intros j Hj. rewrite H by lia. replace (0 + Z.of_nat (Z.to_nat n)) with n by lia. reflexivity.
Qed.

Lemma land_bit_neq0 b bn : 0 <= bn -> negb (Z.land b (Z.shiftl 1 bn) =? 0) = Z.testbit b bn.
Proof.
  intros. destruct (Z.testbit b bn) eqn:E.
  - destruct (Z.eqb_spec (Z.land b (Z.shiftl 1 bn)) 0) as [H0|H0]; auto.
    assert (Z.testbit (Z.land b (Z.shiftl 1 bn)) bn = true).
    { rewrite Z.land_spec, E, testbit_shl1 by lia. rewrite Z.eqb_refl. reflexivity. }
    rewrite H0, Z.bits_0 in H1. discriminate.
  - destruct (Z.eqb_spec (Z.land b (Z.shiftl 1 bn)) 0) as [H0|H0]; auto.
    exfalso. apply H0. apply Z.bits_inj'. intros n Hn. rewrite Z.land_spec, testbit_shl1, Z.bits_0 by lia.
    destruct (Z.eqb_spec n bn); [subst; rewrite E; reflexivity|apply andb_false_r].
Qed.

Lemma pbit2ubit_ext_ok out oo inp io n lsb :
  0 <= oo -> 0 <= io -> 0 <= n -> oo + n < 2 ^ 31 -> io + n < 2 ^ 32 -> io + n <= 8 * zlen inp ->
  oo + n <= zlen out ->
  exists o, osmo_pbit2ubit_ext out oo inp io n lsb = Ok (o, oo + n) /\
    zlen o = zlen out /\
    (forall j, 0 <= j < zlen out -> at0 o j =
       if (oo <=? j) && (j <? oo + n) then b2z (pbit lsb inp (io + (j - oo))) else at0 out j).
Proof.
  intros Hoo Hio Hn Ho1 Hi1 Hi2 Hcap. unfold osmo_pbit2ubit_ext.
  match goal with |- context [zfor _ _ ?f _] =>
  destruct (zfor_inv (fun i o => zlen o = zlen out /\
    (forall j, 0 <= j < zlen out -> at0 o j =
       if (oo <=? j) && (j <? oo + i) then b2z (pbit lsb inp (io + (j - oo))) else at0 out j))
    f (Z.to_nat n) 0 out) as (o & E & HL & H) end.
  - split; auto. intros j Hj. replace ((oo <=? j) && (j <? oo + 0)) with false by lia. reflexivity.
  - intros i o Hi (HL & H).
    rewrite u32_small by (unfold is_u32; lia). rewrite u32_small by (unfold is_u32; lia).
    rewrite land7, shiftr3. rewrite rd_at0 by lia. cbn [bind].
    rewrite wr_in by (rewrite HL; lia).
    eexists; split; [reflexivity|].
    split; [rewrite zlen_upd; auto|].
    intros j Hj. rewrite at0_upd by (try rewrite HL; lia).
    destruct (Z.eqb_spec j (oo + i)) as [Ej|Ej].
    + subst j. replace ((oo <=? oo + i) && (oo + i <? oo + (i + 1))) with true by lia.
      replace (io + (oo + i - oo)) with (io + i) by lia.
      rewrite land_bit_neq0 by (destruct lsb; lia). reflexivity.
    + replace ((oo <=? j) && (j <? oo + (i + 1))) with ((oo <=? j) && (j <? oo + i)) by lia.
      apply H; lia.
  - rewrite E. cbn [bind]. exists o. split.
    + rewrite u32_small by (unfold is_u32; lia). replace (s32 (oo + n)) with (oo + n); [reflexivity|].
      symmetry; apply s32_small. unfold is_s32. lia.
    + split; auto.
      intros j Hj. rewrite H by lia. replace (0 + Z.of_nat (Z.to_nat n)) with n by lia. reflexivity.
Qed.

(* ---------------- soft bits ---------------- *)
Lemma ubit2sbit_ok out inp n : 0 <= n <= zlen inp -> n <= zlen out ->
  osmo_ubit2sbit out inp n = Ok (map (fun b => if b =? 0 then 127 else -127) (firstn (Z.to_nat n) inp) ++ skipn (Z.to_nat n) out).
Proof.
  intros Hn Ho. unfold osmo_ubit2sbit.
  rewrite zfor_ext with (g := fun i m => wr m i (if at0 inp i =? 0 then 127 else -127)).
  - rewrite (wr_loop (fun i => if at0 inp i =? 0 then 127 else -127)) by lia. do 2 f_equal.
    apply at0_ext.
    + rewrite !zlen_map, zlen_zseq, zlen_firstn'. lia.
    + intros i Hi. rewrite zlen_map, zlen_zseq in Hi.
      rewrite at0_map_zseq by lia. rewrite at0_map by (rewrite zlen_firstn'; lia).
      rewrite at0_firstn by lia. replace (i <? n) with true by lia. reflexivity.
  - intros j s Hj. rewrite rd_at0 by lia. cbn [bind]. destruct (at0 inp j =? 0); reflexivity.
Qed.

Lemma sbit2ubit_ok out inp n : 0 <= n <= zlen inp -> n <= zlen out ->
  osmo_sbit2ubit out inp n = Ok (map (fun b => if b <? 0 then 1 else 0) (firstn (Z.to_nat n) inp) ++ skipn (Z.to_nat n) out).
Proof.
  intros Hn Ho. unfold osmo_sbit2ubit.
  rewrite zfor_ext with (g := fun i m => wr m i (if at0 inp i <? 0 then 1 else 0)).
  - rewrite (wr_loop (fun i => if at0 inp i <? 0 then 1 else 0)) by lia. do 2 f_equal.
    apply at0_ext.
    + rewrite !zlen_map, zlen_zseq, zlen_firstn'. lia.
    + intros i Hi. rewrite zlen_map, zlen_zseq in Hi.
      rewrite at0_map_zseq by lia. rewrite at0_map by (rewrite zlen_firstn'; lia).
      rewrite at0_firstn by lia. replace (i <? n) with true by lia. reflexivity.
  - intros j s Hj. rewrite rd_at0 by lia. cbn [bind]. reflexivity.
Qed.

Lemma soft_roundtrip out1 out2 inp n : bits inp -> 0 <= n <= zlen inp -> n <= zlen out1 -> n <= zlen out2 ->
  exists s, osmo_ubit2sbit out1 inp n = Ok s /\
  osmo_sbit2ubit out2 s n = Ok (firstn (Z.to_nat n) inp ++ skipn (Z.to_nat n) out2).
Proof.
  intros Hb Hn H1 H2. rewrite ubit2sbit_ok by lia. eexists; split; [reflexivity|].
  rewrite sbit2ubit_ok; auto.
  - rewrite firstn_app_exact by (rewrite map_length, firstn_length; unfold zlen in *; lia).
    rewrite map_map. do 2 f_equal. rewrite <- map_id. apply map_ext_in.
    intros a Ha. assert (is_bit a).
    { apply (Forall_firstn _ (Z.to_nat n)) in Hb. rewrite Forall_forall in Hb. auto. }
    destruct H; subst; reflexivity.
  - rewrite zlen_app. unfold zlen in *. rewrite map_length, firstn_length, skipn_length. lia.
Qed.

(* ---------------- nibbles ---------------- *)
Lemma nib_of a b : is_byte a -> is_byte b ->
  u8 (Z.lor (Z.shiftl (Z.land a 15) 4) (Z.shiftr b 4)) = 16 * (a mod 16) + b / 16.
Proof.
  intros Ha Hb. unfold is_byte in *.
  change 15 with (Z.ones 4). rewrite Z.land_ones, Z.shiftr_div_pow2 by lia. change (2 ^ 4) with 16.
  rewrite Z.lor_comm, lor_shiftl_add by lia. unfold u8. change (2 ^ 4) with 16. lia.
Qed.
Lemma nib_lo a : is_byte a -> u8 (Z.shiftl (Z.land a 15) 4) = 16 * (a mod 16).
Proof.
  intros Ha. unfold is_byte in *.
  change 15 with (Z.ones 4). rewrite Z.land_ones, Z.shiftl_mul_pow2 by lia. unfold u8. change (2 ^ 4) with 16. lia.
Qed.

Lemma nib_upd l i v j : 0 <= i < zlen l -> 0 <= j ->
  nib (upd l (Z.to_nat i) v) j = if j / 2 =? i then (if j mod 2 =? 0 then v / 16 else v mod 16) else nib l j.
Proof. intros. unfold nib. rewrite at0_upd by lia. destruct (j / 2 =? i); auto. Qed.

Lemma nibble_right_ok out inp n :
  bytes inp -> 2 <= n -> n <= 2 * zlen inp -> n / 2 + 1 <= zlen out ->
  exists o, osmo_nibble_shift_right out inp n = Ok o /\ zlen o = zlen out /\
    nib o 0 = 0 /\ (forall j, 0 <= j < n -> nib o (j + 1) = nib inp j) /\
    (n mod 2 = 0 -> nib o (n + 1) = 0) /\
    (forall k, n / 2 + 1 <= k < zlen out -> at0 o k = at0 out k).
Proof.
  intros Hb Hn Hi Ho. unfold osmo_nibble_shift_right.
  destruct (Z.eqb_spec (n / 2) 0); [lia|].
  rewrite rd_at0 by lia. cbn [bind]. rewrite wr_in by lia. cbn [bind].
  set (o1 := upd out (Z.to_nat 0) (Z.shiftr (at0 inp 0) 4)).
  assert (Bi : forall k, is_byte (at0 inp k)) by (intros; apply bytes_at0; auto).
  assert (H0 : nib o1 0 = 0 /\ nib o1 1 = nib inp 0).
  { unfold o1. rewrite !nib_upd by lia. cbn [Z.div Z.eqb]. change (0 / 2) with 0. change (1 / 2) with 0.
    change (1 mod 2) with 1. change (0 mod 2) with 0. cbn [Z.eqb].
    rewrite Z.shiftr_div_pow2 by lia. specialize (Bi 0). unfold is_byte in Bi. unfold nib.
    change (0 / 2) with 0. change (0 mod 2) with 0. cbn [Z.eqb]. change (2 ^ 4) with 16. lia. }
  match goal with |- context [zfor _ _ ?f _] =>
  destruct (zfor_inv (fun i o => zlen o = zlen out /\ nib o 0 = 0 /\
      (forall j, 0 <= j < 2 * i - 1 -> nib o (j + 1) = nib inp j) /\
      (forall k, i <= k < zlen out -> at0 o k = at0 out k)) f (Z.to_nat (n / 2 - 1)) 1 o1) as (o2 & E & HL & Hz & Hd & Hu) end.
  - unfold o1. rewrite zlen_upd. fold o1. split; auto. split; [apply H0|]. split.
    + intros j Hj. replace j with 0 by lia. apply H0.
    + intros k Hk. unfold o1. rewrite at0_upd by lia. destruct (Z.eqb_spec k 0); [lia|auto].
  - intros i o Hr (HL & Hz & Hd & Hu). rewrite !rd_at0 by lia. cbn [bind]. rewrite wr_in by (rewrite HL; lia). rewrite nib_of by auto.
    eexists; split; [reflexivity|]. split; [rewrite zlen_upd; auto|]. split; [|split].
    + rewrite nib_upd by (try rewrite HL; lia). change (0 / 2) with 0. destruct (Z.eqb_spec 0 i); [lia|auto].
    + intros j Hj. rewrite nib_upd by (try rewrite HL; lia). destruct (Z.eqb_spec ((j + 1) / 2) i).
      * pose proof (Bi (i - 1)). pose proof (Bi i). unfold is_byte in *. unfold nib.
        destruct (Z.eqb_spec ((j + 1) mod 2) 0).
        -- replace (j / 2) with (i - 1) by lia. destruct (Z.eqb_spec (j mod 2) 0); lia.
        -- replace (j / 2) with i by lia. destruct (Z.eqb_spec (j mod 2) 0); lia.
      * apply Hd. lia.
    + intros k Hk. rewrite at0_upd by (try rewrite HL; lia). destruct (Z.eqb_spec k i); [lia|]. apply Hu; lia.
  - rewrite E. cbn [bind]. replace (1 + Z.of_nat (Z.to_nat (n / 2 - 1))) with (n / 2) in * by lia.
    assert (Hbit : Z.testbit n 0 = negb (n mod 2 =? 0)).
    { rewrite Z.bit0_odd. pose proof (Zmod_odd n). destruct (Z.odd n); lia. }
    rewrite Hbit. pose proof (Bi (n / 2 - 1)). pose proof (Bi (n / 2)). unfold is_byte in H, H1.
    destruct (Z.eqb_spec (n mod 2) 0); cbn [negb].
    + rewrite rd_at0 by lia. cbn [bind]. rewrite wr_in by (rewrite HL; lia). rewrite nib_lo by auto.
      eexists; split; [reflexivity|]. split; [rewrite zlen_upd; auto|]. split; [|split; [|split]].
      * rewrite nib_upd by (try rewrite HL; lia). change (0 / 2) with 0. destruct (Z.eqb_spec 0 (n / 2)); [lia|auto].
      * intros j Hj. rewrite nib_upd by (try rewrite HL; lia). destruct (Z.eqb_spec ((j + 1) / 2) (n / 2)).
        -- unfold nib. replace j with (n - 1) by lia. replace ((n - 1 + 1) mod 2) with 0 by lia.
           replace ((n - 1) mod 2) with 1 by lia. cbn [Z.eqb]. replace ((n - 1) / 2) with (n / 2 - 1) by lia. lia.
        -- apply Hd. lia.
      * intros _. rewrite nib_upd by (try rewrite HL; lia). destruct (Z.eqb_spec ((n + 1) / 2) (n / 2)); [|lia].
        replace ((n + 1) mod 2) with 1 by lia. cbn [Z.eqb]. lia.
      * intros k Hk. rewrite at0_upd by (try rewrite HL; lia). destruct (Z.eqb_spec k (n / 2)); [lia|]. apply Hu; lia.
    + rewrite !rd_at0 by lia. cbn [bind]. rewrite wr_in by (rewrite HL; lia). rewrite nib_of by auto.
      eexists; split; [reflexivity|]. split; [rewrite zlen_upd; auto|]. split; [|split; [|split]].
      * rewrite nib_upd by (try rewrite HL; lia). change (0 / 2) with 0. destruct (Z.eqb_spec 0 (n / 2)); [lia|auto].
      * intros j Hj. rewrite nib_upd by (try rewrite HL; lia). destruct (Z.eqb_spec ((j + 1) / 2) (n / 2)).
        -- unfold nib. destruct (Z.eqb_spec ((j + 1) mod 2) 0).
           ++ replace (j / 2) with (n / 2 - 1) by lia. destruct (Z.eqb_spec (j mod 2) 0); lia.
           ++ replace (j / 2) with (n / 2) by lia. destruct (Z.eqb_spec (j mod 2) 0); lia.
        -- apply Hd. lia.
      * intros; lia.
      * intros k Hk. rewrite at0_upd by (try rewrite HL; lia). destruct (Z.eqb_spec k (n / 2)); [lia|]. apply Hu; lia.
Qed.

Lemma nibble_left_ok out inp n :
  bytes inp -> 2 <= n -> n + 1 <= 2 * zlen inp -> nbytes (4 * n) <= zlen out ->
  exists o, osmo_nibble_shift_left_unal out inp n = Ok o /\ zlen o = zlen out /\
    (forall j, 0 <= j < n -> nib o j = nib inp (j + 1)) /\
    (n mod 2 = 1 -> nib o n = 0) /\
    (forall k, nbytes (4 * n) <= k < zlen out -> at0 o k = at0 out k).
Proof.
  intros Hb Hn Hi Ho. unfold osmo_nibble_shift_left_unal. unfold nbytes in *.
  destruct (Z.eqb_spec (n / 2) 0); [lia|].
  assert (Bi : forall k, is_byte (at0 inp k)) by (intros; apply bytes_at0; auto).
  match goal with |- context [zfor _ _ ?f _] =>
  destruct (zfor_inv (fun i o => zlen o = zlen out /\
      (forall j, 0 <= j < 2 * i -> nib o j = nib inp (j + 1)) /\
      (forall k, i <= k < zlen out -> at0 o k = at0 out k)) f (Z.to_nat (n / 2)) 0 out) as (o2 & E & HL & Hd & Hu) end.
  - split; auto. split; auto. intros; lia.
  - intros i o Hr (HL & Hd & Hu). rewrite !rd_at0 by lia. cbn [bind]. rewrite wr_in by (rewrite HL; lia). rewrite nib_of by auto.
    eexists; split; [reflexivity|]. split; [rewrite zlen_upd; auto|]. split.
    + intros j Hj. rewrite nib_upd by (try rewrite HL; lia). destruct (Z.eqb_spec (j / 2) i).
      * pose proof (Bi (i + 1)). pose proof (Bi i). unfold is_byte in *. unfold nib.
        destruct (Z.eqb_spec (j mod 2) 0).
        -- replace ((j + 1) / 2) with i by lia. destruct (Z.eqb_spec ((j + 1) mod 2) 0); lia.
        -- replace ((j + 1) / 2) with (i + 1) by lia. destruct (Z.eqb_spec ((j + 1) mod 2) 0); lia.
      * apply Hd. lia.
    + intros k Hk. rewrite at0_upd by (try rewrite HL; lia). destruct (Z.eqb_spec k i); [lia|]. apply Hu; lia.
  - rewrite E. cbn [bind]. replace (0 + Z.of_nat (Z.to_nat (n / 2))) with (n / 2) in * by lia.
    assert (Hbit : Z.testbit n 0 = negb (n mod 2 =? 0)).
    { rewrite Z.bit0_odd. pose proof (Zmod_odd n). destruct (Z.odd n); lia. }
    rewrite Hbit. pose proof (Bi (n / 2)). unfold is_byte in H.
    destruct (Z.eqb_spec (n mod 2) 0); cbn [negb].
    + eexists; split; [reflexivity|]. split; auto. split; [|split].
      * intros; apply Hd; lia.
      * intros; lia.
      * intros; apply Hu; lia.
    + rewrite rd_at0 by lia. cbn [bind]. rewrite wr_in by (rewrite HL; lia). rewrite nib_lo by auto.
      eexists; split; [reflexivity|]. split; [rewrite zlen_upd; auto|]. split; [|split].
      * intros j Hj. rewrite nib_upd by (try rewrite HL; lia). destruct (Z.eqb_spec (j / 2) (n / 2)).
        -- unfold nib. replace j with (n - 1) by lia. replace ((n - 1) mod 2) with 0 by lia.
           replace ((n - 1 + 1) mod 2) with 1 by lia. cbn [Z.eqb]. replace ((n - 1 + 1) / 2) with (n / 2) by lia. lia.
        -- apply Hd. lia.
      * intros _. rewrite nib_upd by (try rewrite HL; lia). rewrite Z.eqb_refl.
        replace (n mod 2) with 1 by lia. cbn [Z.eqb]. lia.
      * intros k Hk. rewrite at0_upd by (try rewrite HL; lia). destruct (Z.eqb_spec k (n / 2)); [lia|]. apply Hu; lia.
Qed.

(* ---------------- bit reversal ---------------- *)
Lemma testbit_u32 x i : Z.testbit (u32 x) i = (i <? 32) && Z.testbit x i.
Proof.
  unfold u32. change 4294967296 with (2 ^ 32).
  destruct (Z.ltb_spec i 32).
  - destruct (Z_lt_le_dec i 0); [rewrite !Z.testbit_neg_r by lia; auto|].
    rewrite Z.mod_pow2_bits_low by lia. reflexivity.
  - rewrite Z.mod_pow2_bits_high by lia. reflexivity.
Qed.

Lemma br_step_bit x m1 m2 s i : 0 <= s -> 0 <= i < 32 ->
  Z.testbit (br_step x m1 m2 s) i =
  (Z.testbit x (i - s) && Z.testbit m1 (i - s)) || (Z.testbit x (i + s) && Z.testbit m2 (i + s)).
Proof.
  intros. unfold br_step. rewrite Z.lor_spec, testbit_u32, Z.shiftl_spec, Z.shiftr_spec, !Z.land_spec by lia.
  replace (i <? 32) with true by lia. reflexivity.
Qed.

Ltac enum32 i :=
  let H := fresh in
  match goal with Hi : 0 <= i < 32 |- _ =>
    assert (H : In i (zseq 0 32)) by (apply zseq_In; cbn; lia);
    cbn in H; clear Hi;
    repeat (destruct H as [H|H]; [symmetry in H; subst i|]); try contradiction
  end.

Lemma br_bits x i : 0 <= i < 32 ->
  Z.testbit (br1 x) i = Z.testbit x (Z.lxor i 1) /\
  Z.testbit (br2 x) i = Z.testbit x (Z.lxor i 2) /\
  Z.testbit (br4 x) i = Z.testbit x (Z.lxor i 4) /\
  Z.testbit (br8 x) i = Z.testbit x (Z.lxor i 8) /\
  Z.testbit (br16 x) i = Z.testbit x (Z.lxor i 16).
Proof.
  intros Hi. unfold br1, br2, br4, br8, br16. rewrite !br_step_bit by lia.
  enum32 i; cbn [Z.sub Z.add Z.opp Z.pos_sub Z.succ_double Z.pred_double Z.double Pos.add Pos.succ Z.testbit Pos.testbit Z.lxor Pos.lxor Pos.pred_double Pos.pred_N Z.of_N Pos.Nsucc_double Pos.Ndouble N.succ_double N.double];
  rewrite ?andb_true_r, ?andb_false_r, ?orb_false_r, ?orb_false_l; repeat split.
Qed.

Lemma br_step_range x m1 m2 s : 0 <= s -> 0 <= m2 < 2 ^ 32 -> 0 <= x -> is_u32 (br_step x m1 m2 s).
Proof.
  intros. unfold is_u32. assert (0 <= br_step x m1 m2 s).
  { unfold br_step. apply Z.lor_nonneg. split; [pose proof (u32_range (Z.shiftl (Z.land x m1) s)); unfold is_u32 in *; lia|].
    apply Z.shiftr_nonneg. apply Z.land_nonneg. lia. }
  split; auto. change 4294967296 with (2 ^ 32). apply bits_bound; auto; try lia.
  intros m Hm. unfold br_step. rewrite Z.lor_spec, testbit_u32, Z.shiftr_spec, Z.land_spec by lia.
  replace (m <? 32) with false by lia. rewrite (testbit_above m2 32 (m + s)) by lia.
  rewrite andb_false_r. reflexivity.
Qed.

Lemma lxor_lt32 a b : 0 <= a < 32 -> 0 <= b < 32 -> 0 <= Z.lxor a b < 32.
Proof.
  intros. assert (0 <= Z.lxor a b) by (apply Z.lxor_nonneg; lia). split; auto.
  change 32 with (2 ^ 5). apply bits_bound; auto; try lia.
  intros m Hm. rewrite Z.lxor_spec, !(testbit_above _ 5) by lia. reflexivity.
Qed.

Lemma br_sel (f : Z -> Z) c k x i : 0 <= i < 32 -> 0 <= k < 32 -> 0 <= c < 32 ->
  (forall i, 0 <= i < 32 -> Z.testbit (f x) i = Z.testbit x (Z.lxor i c)) ->
  (Z.land k c = 0 \/ Z.land k c = c) ->
  Z.testbit (if negb (Z.land k c =? 0) then f x else x) i = Z.testbit x (Z.lxor i (Z.land k c)).
Proof.
  intros. destruct (Z.eqb_spec (Z.land k c) 0) as [E|E]; cbn [negb].
  - rewrite E, Z.lxor_0_r. reflexivity.
  - destruct H3 as [H3|H3]; [congruence|]. rewrite H3. auto.
Qed.

Lemma land_pow2_cases k n : 0 <= n -> Z.land k (2 ^ n) = 0 \/ Z.land k (2 ^ n) = 2 ^ n.
Proof.
  intros. destruct (Z.testbit k n) eqn:E; [right|left]; apply Z.bits_inj'; intros m Hm;
  rewrite Z.land_spec, ?Z.bits_0, testbit_pow2 by lia; destruct (Z.eqb_spec m n); subst; rewrite ?E, ?andb_false_r; auto.
Qed.

Lemma bit_reversal_bits x k i : 0 <= k < 32 -> 0 <= i < 32 ->
  Z.testbit (osmo_bit_reversal x k) i = Z.testbit x (Z.lxor i k).
Proof.
  intros Hk Hi. unfold osmo_bit_reversal.
  assert (Hl : forall c, 0 <= c < 32 -> 0 <= Z.land k c < 32).
  { intros c Hc. split; [apply Z.land_nonneg; lia|]. change 32 with (2 ^ 5). apply bits_bound; try lia.
    - apply Z.land_nonneg; lia.
    - intros m Hm. rewrite Z.land_spec, (testbit_above k 5 m) by lia. reflexivity. }
  rewrite (br_sel br16 16) by (try lia; try (intros; apply br_bits; lia); apply (land_pow2_cases k 4); lia).
  rewrite (br_sel br8 8) by (try lia; try (intros; apply br_bits; lia); try (apply (land_pow2_cases k 3); lia); repeat apply lxor_lt32; try lia; apply Hl; lia).
  rewrite (br_sel br4 4) by (try lia; try (intros; apply br_bits; lia); try (apply (land_pow2_cases k 2); lia); repeat apply lxor_lt32; try lia; apply Hl; lia).
  rewrite (br_sel br2 2) by (try lia; try (intros; apply br_bits; lia); try (apply (land_pow2_cases k 1); lia); repeat apply lxor_lt32; try lia; apply Hl; lia).
  rewrite (br_sel br1 1) by (try lia; try (intros; apply br_bits; lia); try (apply (land_pow2_cases k 0); lia); repeat apply lxor_lt32; try lia; apply Hl; lia).
  rewrite !Z.lxor_assoc. do 2 f_equal.
  clear Hl Hi. enum32 k; reflexivity.
Qed.

Lemma bit_reversal_range x k : is_u32 x -> is_u32 (osmo_bit_reversal x k).
Proof.
  intros. unfold osmo_bit_reversal.
  assert (G : forall f c y, (forall y, is_u32 y -> is_u32 (f y)) -> is_u32 y ->
      is_u32 (if negb (Z.land k c =? 0) then f y else y)).
  { intros f c y Hf Hy. destruct (negb _); auto. }
  assert (R : forall m1 m2 s y, 0 <= s -> 0 <= m2 < 2 ^ 32 -> is_u32 y -> is_u32 (br_step y m1 m2 s)).
  { intros. apply br_step_range; auto. unfold is_u32 in *; lia. }
  repeat apply G; auto; intros; apply R; auto; lia.
Qed.

Lemma u32_bits_ext a b : is_u32 a -> is_u32 b ->
  (forall i, 0 <= i < 32 -> Z.testbit a i = Z.testbit b i) -> a = b.
Proof.
  intros Ha Hb H. apply Z.bits_inj'. intros n Hn. unfold is_u32 in *. change 4294967296 with (2 ^ 32) in *.
  destruct (Z_lt_le_dec n 32); [apply H; lia|].
  rewrite !(testbit_above _ 32) by lia. reflexivity.
Qed.

Lemma bit_reversal_invol x k : is_u32 x -> 0 <= k < 32 -> osmo_bit_reversal (osmo_bit_reversal x k) k = x.
Proof.
  intros. apply u32_bits_ext; auto; [repeat apply bit_reversal_range; auto|].
  intros i Hi. rewrite !bit_reversal_bits by (auto; apply lxor_lt32; auto).
  rewrite Z.lxor_assoc, Z.lxor_nilpotent, Z.lxor_0_r. reflexivity.
Qed.

Lemma revbytebits_32_is x : osmo_revbytebits_32 x = osmo_bit_reversal x 7.
Proof. reflexivity. Qed.

Lemma revbytebits_8_bits x i : is_byte x -> 0 <= i < 8 ->
  Z.testbit (osmo_revbytebits_8 x) i = Z.testbit x (7 - i).
Proof.
  intros Hx Hi. unfold osmo_revbytebits_8.
  pose proof (forall_byte (fun x => forallb (fun i => Bool.eqb (Z.testbit (at0 flip_table x) i) (Z.testbit x (7 - i))) (zseq 0 8))
    ltac:(vm_compute; reflexivity) x Hx) as G.
  cbv beta in G. apply eqb_prop. apply (forall_zseq _ 0 8 G). lia.
Qed.

Lemma revbytebits_8_range x : is_byte x -> is_byte (osmo_revbytebits_8 x).
Proof.
  intros Hx. pose proof (forall_byte (fun x => is_byteb (osmo_revbytebits_8 x)) ltac:(vm_compute; reflexivity) x Hx) as G.
  cbv beta in G. unfold is_byteb, is_byte in *. lia.
Qed.

Lemma revbytebits_8_invol x : is_byte x -> osmo_revbytebits_8 (osmo_revbytebits_8 x) = x.
Proof.
  intros. apply byte_bits_ext; auto; [repeat apply revbytebits_8_range; auto|].
  intros i Hi. rewrite !revbytebits_8_bits by (auto; try lia; apply revbytebits_8_range; auto). f_equal. lia.
Qed.

Lemma revbytebits_buf_ok buf n : bytes buf -> 0 <= n <= zlen buf ->
  osmo_revbytebits_buf buf n = Ok (map osmo_revbytebits_8 (firstn (Z.to_nat n) buf) ++ skipn (Z.to_nat n) buf).
Proof.
  intros Hb Hn. unfold osmo_revbytebits_buf.
  match goal with |- zfor _ _ ?f _ = _ =>
  destruct (zfor_inv (fun i o => o = map osmo_revbytebits_8 (firstn (Z.to_nat i) buf) ++ skipn (Z.to_nat i) buf)
     f (Z.to_nat n) 0 buf) as (o & E & H) end.
  - reflexivity.
  - intros i o Hi ->. remember (map osmo_revbytebits_8 (firstn (Z.to_nat i) buf) ++ skipn (Z.to_nat i) buf) as o eqn:Eo.
    assert (Lo : zlen o = zlen buf).
    { subst o. rewrite zlen_app, zlen_map, zlen_firstn', zlen_skipn'. lia. }
    assert (Ao : forall k, 0 <= k < zlen buf -> at0 o k = if k <? i then osmo_revbytebits_8 (at0 buf k) else at0 buf k).
    { intros k Hk. subst o. rewrite at0_app by lia. rewrite zlen_map, zlen_firstn'.
      replace (Z.min (Z.max i 0) (zlen buf)) with i by lia. destruct (Z.ltb_spec k i).
      - rewrite at0_map by (rewrite zlen_firstn'; lia). rewrite at0_firstn by lia. replace (k <? i) with true by lia. reflexivity.
      - rewrite at0_skipn by lia. f_equal; lia. }
    rewrite rd_at0 by lia. cbn [bind]. rewrite Ao by lia. replace (i <? i) with false by lia.
    rewrite rd_at0. 2:{ change (zlen flip_table) with 256. apply (bytes_at0 buf i Hb). } cbn [bind].
    rewrite wr_in by lia. eexists; split; [reflexivity|].
    apply at0_ext.
    + rewrite zlen_upd, Lo, zlen_app, zlen_map, zlen_firstn', zlen_skipn'. lia.
    + intros k Hk. rewrite zlen_upd, Lo in Hk. rewrite at0_upd by lia. rewrite at0_app by lia.
      rewrite zlen_map, zlen_firstn'. replace (Z.min (Z.max (i + 1) 0) (zlen buf)) with (i + 1) by lia.
      destruct (Z.eqb_spec k i).
      * subst k. replace (i <? i + 1) with true by lia. rewrite at0_map by (rewrite zlen_firstn'; lia).
        rewrite at0_firstn by lia. replace (i <? i + 1) with true by lia. reflexivity.
      * rewrite Ao by lia. destruct (Z.ltb_spec k (i + 1)).
        -- replace (k <? i) with true by lia. rewrite at0_map by (rewrite zlen_firstn'; lia).
           rewrite at0_firstn by lia. replace (k <? i + 1) with true by lia. reflexivity.
        -- replace (k <? i) with false by lia. rewrite at0_skipn by lia. f_equal; lia.
  - rewrite E, H. replace (0 + Z.of_nat (Z.to_nat n)) with n by lia. reflexivity.
Qed.

Lemma revbytebits_32_bits x i : 0 <= i < 32 ->
  Z.testbit (osmo_revbytebits_32 x) i = Z.testbit x (8 * (i / 8) + (7 - i mod 8)).
Proof.
  intros. rewrite revbytebits_32_is, bit_reversal_bits by lia. f_equal.
  enum32 i; reflexivity.
Qed.
