(** Range encoding: the encoder as a whole and the round trip. *)
From Coq Require Import ZArith List Lia Bool Sorted.
From Verif Require Import Base S_range M_range P_range P_range3 P_range4 P_range5 P_range6.
Import ListNotations.
Open Scope Z_scope.

Definition others (f0 : Z) (l : list Z) : list Z := filter (fun a => negb (a =? f0)) l.
Definition rel (f0 : Z) (l : list Z) : list Z := map (fun a => (a - (f0 + 1)) mod 1024) (others f0 l).

Lemma firstn_upd_snoc (l : list Z) (n : nat) v : (n < length l)%nat -> firstn (S n) (upd l n v) = firstn n l ++ [v].
Proof.
  revert n. induction l as [|a l IH]; intros [|n] H; cbn in H; try lia; [reflexivity|].
  cbn [upd]. change (firstn (S (S n)) (a :: upd l n v)) with (a :: firstn (S n) (upd l n v)).
  rewrite IH by lia. reflexivity.
Qed.

Lemma filter_arfcns_ok l f0 : exists arr,
  filter_arfcns l f0 = Ok (arr, zlen (rel f0 l), b2z (mem f0 l)) /\ firstn (Z.to_nat (zlen (rel f0 l))) arr = rel f0 l.
Proof.
  pose (Inv := fun (i : Z) (s : list Z * Z * Z) => let '(arr, j, inc) := s in
    zlen arr = zlen l /\ j = zlen (rel f0 (firstn (Z.to_nat i) l)) /\ firstn (Z.to_nat j) arr = rel f0 (firstn (Z.to_nat i) l) /\
    j <= i /\ (forall k, i <= k < zlen l -> at0 arr k = at0 l k) /\ inc = b2z (mem f0 (firstn (Z.to_nat i) l))).
  unfold filter_arfcns.
  match goal with |- context[zfor ?nn ?i ?ff ?s0] => destruct (zfor_inv Inv ff nn i s0) as [[[arr j] inc] [Es Hs]] end.
  - cbn. repeat split; auto; lia.
  - intros i [[arr j] inc] Hi [Hz [Ej [Hf [Hji [Hr Hinc]]]]]. fold (zlen l) in Hi. rewrite Z.add_0_l in Hi. change (Z.of_nat (length l)) with (zlen l) in Hi.
    assert (Hj0 : 0 <= j) by (rewrite Ej; apply zlen_nonneg).
    rewrite rd_at0 by lia. cbn [bind]. rewrite Hr by lia.
    assert (Efs : firstn (Z.to_nat (i + 1)) l = firstn (Z.to_nat i) l ++ [at0 l i]).
    { replace (Z.to_nat (i + 1)) with (S (Z.to_nat i)) by lia. rewrite firstn_snoc; [reflexivity|]. unfold zlen in Hi. lia. }
    assert (Erel : rel f0 (firstn (Z.to_nat (i + 1)) l) = rel f0 (firstn (Z.to_nat i) l) ++ (if at0 l i =? f0 then [] else [(at0 l i - (f0 + 1)) mod 1024])).
    { rewrite Efs. unfold rel, others. rewrite filter_app, map_app. cbn [filter]. destruct (at0 l i =? f0); reflexivity. }
    assert (Emem : mem f0 (firstn (Z.to_nat (i + 1)) l) = mem f0 (firstn (Z.to_nat i) l) || (at0 l i =? f0)).
    { rewrite Efs, mem_app. cbn [mem existsb]. rewrite orb_false_r, Z.eqb_sym. reflexivity. }
    destruct (at0 l i =? f0).
    + eexists. split; [reflexivity|]. unfold Inv. rewrite Erel, app_nil_r, Emem, orb_true_r.
      repeat split; auto; try lia.
    + rewrite wr_in by lia. cbn [bind]. eexists. split; [reflexivity|]. unfold Inv. rewrite Erel, Emem, orb_false_r.
      rewrite cmod_mod by lia. split; [rewrite zlen_upd; exact Hz|]. split; [rewrite zlen_app, <- Ej; reflexivity|].
      split; [|split; [lia|]; split; [|exact Hinc]].
      * replace (Z.to_nat (j + 1)) with (S (Z.to_nat j)) by lia. rewrite firstn_upd_snoc by (unfold zlen in Hz, Hi; lia). rewrite Hf. reflexivity.
      * intros k Hk. rewrite at0_upd by lia. destruct (Z.eqb_spec k j); [lia|]. apply Hr. lia.
  - rewrite Es. rewrite Z.add_0_l in Hs. cbn in Hs. destruct Hs as [_ [Ej [Hf [_ [_ Hi]]]]].
    rewrite Nat2Z.id, firstn_all in *. exists arr. rewrite <- Ej, Hi. split; [reflexivity | exact Hf].
Qed.

(** what the W of an encoded set decode to *)
Lemma encoded_set e (n : nat) arr w W : 1 <= e <= 30 -> zlen arr <= Z.of_nat n ->
  enc_post e 0 0 arr (repeat 0 29) w ->
  (forall k, 1 <= k <= Z.of_nat n -> W k = at0 w (k - 1)) ->
  forall v, In v (range_freqs (2 ^ e) W n) <-> In (v - 1) arr.
Proof.
  intros He Hn [_ [Hfr [Hb HW]]] HWk v.
  assert (Nd : forall q, node 0 0 q = q) by (intros; unfold node; change (2 ^ Z.of_nat 0) with 1; lia).
  assert (Hz : forall k, zlen arr < k <= Z.of_nat n -> W k = 0).
  { intros k Hk. pose proof (zlen_nonneg arr). rewrite HWk by lia. rewrite Hfr; [apply at0_repeat0|lia|]. intros q Hq. rewrite Nd. lia. }
  assert (Hnz : forall k, 1 <= k <= zlen arr -> W k <> 0).
  { intros k Hk. rewrite HWk by lia. specialize (Hb k Hk). rewrite Nd in Hb. lia. }
  destruct (HW W) as [H1 H2]. { intros q Hq. rewrite Nd. apply HWk. lia. }
  rewrite Z.add_0_r in H1, H2. cbn [annexJ_up] in H1, H2.
  unfold range_freqs. rewrite in_map_iff. split.
  - intros [k [<- Hk]]. apply filter_In in Hk. destruct Hk as [Hk Hk0]. apply zseq_In in Hk.
    apply negb_true_iff, Z.eqb_neq in Hk0.
    destruct (Z.leb_spec k (zlen arr)) as [Hle|Hgt]; [|exfalso; apply Hk0, Hz; lia].
    destruct (H1 k ltac:(lia)) as [x [Hx Ex]]. rewrite Nd in Ex. rewrite Ex. replace (1 + x - 1) with x by lia. exact Hx.
  - intros Hx. destruct (H2 _ Hx) as [q [Hq Eq]]. rewrite Nd in Eq. exists q. split; [rewrite Eq; lia|].
    apply filter_In. split; [apply zseq_In; lia|]. apply negb_true_iff, Z.eqb_neq, Hnz, Hq.
Qed.

Lemma sorted_bounds l : StronglySorted Z.lt l -> forall x, In x l -> at0 l 0 <= x <= at0 l (zlen l - 1).
Proof.
  intros H. induction H as [|a l Hs IH Hf]; [intros x []|]. intros x [<- | Hx].
  - split; [reflexivity|]. rewrite zlen_cons. replace (1 + zlen l - 1) with (zlen l) by lia.
    destruct l as [|b l]; [reflexivity|]. rewrite zlen_cons.
    assert (In b (b :: l)) by (left; reflexivity). specialize (IH b H). rewrite zlen_cons in IH.
    rewrite at0_cons by (pose proof (zlen_nonneg l); lia).
    destruct (Z.eqb_spec (1 + zlen l) 0); [pose proof (zlen_nonneg l); lia|].
    rewrite Forall_forall in Hf. specialize (Hf b H). lia.
  - specialize (IH x Hx). rewrite Forall_forall in Hf. specialize (Hf x Hx). split; [cbn; lia|].
    pose proof (zlen_nonneg l). rewrite zlen_cons. replace (1 + zlen l - 1) with (zlen l) by lia.
    destruct l as [|b l]; [destruct Hx|]. rewrite zlen_cons in *. pose proof (zlen_nonneg l).
    rewrite at0_cons by lia. destruct (Z.eqb_spec (1 + zlen l) 0); [lia|]. lia.
Qed.

Lemma sorted_NoDup l : StronglySorted Z.lt l -> NoDup l.
Proof.
  induction 1 as [|a l Hs IH Hf]; constructor; [|exact IH]. intros Hin. rewrite Forall_forall in Hf. specialize (Hf a Hin). lia.
Qed.

Lemma NoDup_map_inj {A B} (g : A -> B) l : (forall x y, In x l -> In y l -> g x = g y -> x = y) -> NoDup l -> NoDup (map g l).
Proof.
  intros Hg H. induction H as [|a l Ha Hl IH]; cbn; constructor.
  - intros Hin. apply in_map_iff in Hin. destruct Hin as [y [E Hy]]. apply Ha.
    rewrite (Hg a y) ; [exact Hy | left; reflexivity | right; exact Hy | symmetry; exact E].
  - apply IH. intros x y Hx Hy. apply Hg; right; assumption.
Qed.

Lemma rel_ok f0 l R : 0 <= f0 < 1024 -> NoDup l -> (forall a, In a l -> f0 <= a <= f0 + R /\ a < 1024) -> 0 <= R ->
  NoDup (rel f0 l) /\ Forall (fun f => 0 <= f < R) (rel f0 l) /\ forall v, In v (rel f0 l) <-> In (v + f0 + 1) l /\ 0 <= v < 1024.
Proof.
  intros Hf Hn Hb HR.
  assert (Hg : forall a, In a (others f0 l) -> (a - (f0 + 1)) mod 1024 = a - (f0 + 1) /\ f0 < a <= f0 + R).
  { intros a Ha. apply filter_In in Ha. destruct Ha as [Ha Hne]. apply negb_true_iff, Z.eqb_neq in Hne. specialize (Hb a Ha).
    split; [apply Z.mod_small; lia|lia]. }
  split; [|split].
  - apply NoDup_map_inj; [|apply NoDup_filter, Hn]. intros x y Hx Hy. rewrite (proj1 (Hg x Hx)), (proj1 (Hg y Hy)). lia.
  - apply Forall_forall. intros v Hv. apply in_map_iff in Hv. destruct Hv as [a [<- Ha]]. destruct (Hg a Ha) as [-> H]. lia.
  - intros v. split.
    + intros Hv. apply in_map_iff in Hv. destruct Hv as [a [<- Ha]]. destruct (Hg a Ha) as [-> H].
      apply filter_In in Ha. destruct Ha as [Ha _]. replace (a - (f0 + 1) + f0 + 1) with a by lia. specialize (Hb a Ha). split; [exact Ha|lia].
    + intros [Hv Hr]. apply in_map_iff. exists (v + f0 + 1).
      assert (Ho : In (v + f0 + 1) (others f0 l)). { apply filter_In. split; [exact Hv|]. apply negb_true_iff, Z.eqb_neq. lia. }
      split; [rewrite (proj1 (Hg _ Ho)); lia | exact Ho].
Qed.

Lemma others_len f0 l : NoDup l -> zlen (others f0 l) = zlen l - b2z (mem f0 l).
Proof.
  intros H. induction H as [|a l Ha Hl IH]; [reflexivity|]. cbn [others filter mem existsb]. rewrite Z.eqb_sym. rewrite !zlen_cons.
  destruct (Z.eqb_spec f0 a) as [-> | Hne]; cbn [negb orb].
  - fold (others a l). rewrite IH. assert (mem a l = false) as ->. { destruct (mem a l) eqn:E; [|reflexivity]. apply mem_In in E. contradiction. }
    cbn [b2z]. lia.
  - rewrite zlen_cons. fold (others f0 l). fold (mem f0 l). rewrite IH. lia.
Qed.

(** header octets *)
Lemma orig_written c0 f0 cl : bytes cl -> 3 <= zlen cl -> 0 <= f0 < 1024 -> In c0 [140; 138; 136] ->
  exists cl', (do cl <- wr cl 0 c0 ;; write_orig_arfcn cl f0) = Ok cl' /\ bytes cl' /\ zlen cl' = zlen cl /\
    (forall p, 0 <= p < 7 -> sbit cl' p = Z.testbit c0 (7 - p)) /\ orig_arfcn cl' = f0.
Proof.
  intros Hb Hz Hf Hc. rewrite wr_in by lia. cbn [bind]. unfold write_orig_arfcn. rewrite rd_at0 by (rewrite zlen_upd; lia). cbn [bind].
  rewrite at0_upd by lia. rewrite Z.eqb_refl. rewrite !wr_in by (rewrite ?zlen_upd; lia). cbn [bind].
  rewrite wr_in by (rewrite ?zlen_upd; lia). cbn [bind]. rewrite wr_in by (rewrite ?zlen_upd; lia).
  assert (Hcb : is_byte c0) by (cbn in Hc; unfold is_byte; intuition lia).
  eexists. split; [reflexivity|]. split; [|split; [|split]].
  - repeat apply Forall_upd; try apply u8_range; assumption.
  - rewrite !zlen_upd. reflexivity.
  - intros p Hp. unfold sbit. assert (E : p / 8 = 0) by (apply Z.div_small; lia). assert (E' : p mod 8 = p) by (apply Z.mod_small; lia).
    rewrite E, E'. rewrite !at0_upd by (rewrite ?zlen_upd; lia). cbn [Z.eqb Z.to_nat]. rewrite u8_testbit by lia.
    rewrite Z.lor_spec, Z.land_spec. change 1 with (Z.ones 1). rewrite (Z.ones_spec_high 1 (7 - p)) by lia.
    rewrite andb_false_r, orb_false_r. reflexivity.
  - unfold orig_arfcn. rewrite (bfield_val _ 7 10 f0); [apply Z.mod_small; change (2 ^ Z.of_nat 10) with 1024; lia|].
    intros q Hq. change (Z.of_nat 10) with 10 in *. unfold sbit.
    assert (Hq' : q = 7 \/ 8 <= q < 16 \/ q = 16) by lia. destruct Hq' as [-> | [Hq' | ->]].
    + change (7 / 8) with 0. change (7 - 7 mod 8) with 0. change (7 + 10 - 1 - 7) with 9.
      rewrite !at0_upd by (rewrite ?zlen_upd; lia). cbn [Z.eqb Z.to_nat]. rewrite u8_testbit by lia. rewrite Z.lor_spec, Z.land_spec, Z.shiftr_spec by lia.
      cbn in Hc. destruct Hc as [<- | [<- | [<- | []]]]; rewrite andb_true_r; reflexivity.
    + assert (E : q / 8 = 1) by (symmetry; apply Z.div_unique with (r := q - 8); lia).
      assert (E' : q mod 8 = q - 8) by (symmetry; apply Z.mod_unique with (q := 1); lia).
      rewrite E, E'. rewrite !at0_upd by (rewrite ?zlen_upd; lia). cbn [Z.eqb Pos.eqb Z.to_nat]. rewrite u8_testbit by lia. rewrite Z.shiftr_spec by lia. f_equal. lia.
    + change (16 / 8) with 2. change (7 - 16 mod 8) with 7. change (7 + 10 - 1 - 16) with 0.
      rewrite !at0_upd by (rewrite ?zlen_upd; lia). cbn [Z.eqb Pos.eqb Z.to_nat]. rewrite u8_testbit by lia. rewrite Z.shiftl_spec by lia.
      rewrite Z.land_spec. change (7 - 7) with 0. change (Z.testbit 1 0) with true. apply andb_true_r.
Qed.

Lemma sbit_frame cl cl' n : (forall p, 0 <= p < n -> sbit cl' p = sbit cl p) -> forall p k, 0 <= p -> p + Z.of_nat k <= n -> bfield cl' p k = bfield cl p k.
Proof.
  intros H p k. revert p. induction k as [|k IH]; intros p Hp Hk; [reflexivity|]. cbn [bfield]. rewrite H by lia. rewrite (IH (p + 1)) by lia. reflexivity.
Qed.

Lemma enc_orig c0 f0 cl w (n : nat) top : bytes cl -> zlen cl = 16 -> 0 <= f0 < 1024 -> In c0 [140; 138; 136] ->
  Z.of_nat n <= zlen w -> 0 <= wwidth top (Z.of_nat n) -> wstart 17 top (Z.of_nat n + 1) <= 128 -> (1 <= n)%nat ->
  (forall k, 1 <= k <= Z.of_nat n -> 0 <= at0 w (k - 1) < 2 ^ wwidth top k) ->
  exists cl', (do cl <- wr cl 0 c0 ;; do cl <- write_orig_arfcn cl f0 ;; write_all_wn cl 2 1 w (Z.of_nat n) top) = Ok cl' /\
    bytes cl' /\ zlen cl' = 16 /\ (forall p, 0 <= p < 7 -> sbit cl' p = Z.testbit c0 (7 - p)) /\ orig_arfcn cl' = f0 /\
    forall k, 1 <= k <= Z.of_nat n -> W_of cl' 16 17 top k = at0 w (k - 1).
Proof.
  intros Hb Hz Hf Hc Hw Hww Hws Hn Hwk.
  destruct (orig_written c0 f0 cl Hb ltac:(lia) Hf Hc) as [cl1 [E1 [B1 [Z1 [S1 O1]]]]].
  destruct (wr cl 0 c0) as [cla| | |]; cbn [bind] in E1 |- *; try discriminate. rewrite E1. cbn [bind].
  destruct (write_all_ok cl1 2 1 w (Z.of_nat n) top) as [cl2 [E2 [B2 [Z2 [F2 V2]]]]]; try assumption; try lia.
  { change (8 * 2 + 1) with 17. lia. }
  exists cl2. split; [exact E2|]. split; [exact B2|]. split; [lia|]. split; [|split].
  - intros p Hp. rewrite F2 by lia. apply S1, Hp.
  - rewrite <- O1. unfold orig_arfcn. apply (sbit_frame cl1 cl2 17); [intros p Hp; apply F2; lia | lia | lia].
  - intros k Hk. unfold W_of.
    assert (Hle : wstart 17 top k + wwidth top k <= 128).
    { rewrite <- wstart_succ by lia. assert (wstart 17 top (k + 1) <= wstart 17 top (Z.of_nat n + 1)); [|lia].
      apply wstart_mono; [lia|]. intros j Hj. pose proof (wwidth_le top j (Z.of_nat n) ltac:(lia)). lia. }
    destruct (Z.leb_spec (wstart 17 top k + wwidth top k) (8 * 16)); [|lia].
    change (8 * 2 + 1) with 17 in V2. rewrite V2 by lia. apply Z.mod_small, Hwk, Hk.
Qed.

Lemma enc_1024_ok cl w inc : bytes cl -> zlen cl = 16 -> 16 <= zlen w -> 
  (forall k, 1 <= k <= 16 -> 0 <= at0 w (k - 1) < 2 ^ wwidth 10 k) ->
  exists cl', enc_1024 cl 0 (b2z inc) w = Ok cl' /\ bytes cl' /\ zlen cl' = 16 /\
    sbit cl' 0 = true /\ sbit cl' 1 = false /\ sbit cl' 4 = false /\ sbit cl' 5 = inc /\
    forall k, 1 <= k <= 16 -> W_of cl' 16 6 10 k = at0 w (k - 1).
Proof.
  intros Hb Hz Hw Hwk. unfold enc_1024. rewrite wr_in by lia. cbn [bind].
  set (c0 := u8 (Z.lor 128 (Z.shiftl (b2z inc) 2))).
  set (cl1 := upd cl (Z.to_nat 0) c0).
  assert (B1 : bytes cl1) by (apply Forall_upd; [exact Hb | apply u8_range]).
  assert (Z1 : zlen cl1 = 16) by (unfold cl1; rewrite zlen_upd; exact Hz).
  assert (C1 : at0 cl1 0 = c0) by (unfold cl1; rewrite at0_upd by lia; reflexivity).
  destruct (write_all_ok cl1 0 6 w 16 10) as [cl2 [E2 [B2 [Z2 [F2 V2]]]]]; try assumption; try lia.
  { vm_compute. discriminate. }
  { rewrite Z1. vm_compute. discriminate. }
  change (8 * 0 + 6) with 6 in *.
  exists cl2. split; [exact E2|]. split; [exact B2|]. split; [lia|].
  repeat split; try (rewrite F2 by lia; unfold sbit; cbn -[at0]; rewrite C1; unfold c0; destruct inc; reflexivity).
  intros k Hk. unfold W_of.
  assert (Hle : wstart 6 10 k + wwidth 10 k <= 128).
  { rewrite <- wstart_succ by lia. assert (wstart 6 10 (k + 1) <= wstart 6 10 17).
    - apply wstart_mono; [lia|]. intros j Hj. apply (wwidth_ok 10 j 17); [lia | vm_compute; discriminate | lia].
    - change (wstart 6 10 17) with 128 in *. lia. }
  destruct (Z.leb_spec (wstart 6 10 k + wwidth 10 k) (8 * 16)); [|lia].
  rewrite V2 by lia. apply Z.mod_small, Hwk, Hk.
Qed.

(** the W array of an encoded set *)
Lemma w_bounds e (n : nat) arr w : 1 <= e -> zlen arr <= Z.of_nat n -> enc_post e 0 0 arr (repeat 0 29) w ->
  (forall k, 1 <= k <= Z.of_nat n -> 0 <= wwidth e k) ->
  zlen w = 29 /\ forall k, 1 <= k <= Z.of_nat n -> 0 <= at0 w (k - 1) < 2 ^ wwidth e k.
Proof.
  intros He Hn [Hz [Hfr [Hb _]]] Hww. split; [rewrite Hz; reflexivity|]. intros k Hk.
  assert (Nd : forall q, node 0 0 q = q) by (intros; unfold node; change (2 ^ Z.of_nat 0) with 1; lia).
  destruct (Z.leb_spec k (zlen arr)).
  - specialize (Hb k ltac:(lia)). rewrite Nd in Hb. unfold wwidth. lia.
  - rewrite Hfr; [|lia|intros q Hq; rewrite Nd; lia]. rewrite at0_repeat0. pose proof (pow2_pos (wwidth e k) (Hww k Hk)). lia.
Qed.

Definition rc_spec (l : list Z) : Z :=
  let d := at0 l (zlen l - 1) - at0 l 0 in
  if (d <? 128) && (zlen l <=? 29) then 127
  else if (d <? 256) && (zlen l <=? 22) then 255
  else if (d <? 512) && (zlen l <=? 18) then 511
  else if zlen l <=? 17 then 1023 else -1.

Lemma enc_tree e arr : 1 <= e <= 30 -> NoDup arr -> Forall (fun f => 0 <= f < 2 ^ e - 1) arr -> zlen arr <= 29 ->
  exists w, range_enc_arfcns (2 ^ e - 1) arr (repeat 0 29) 0 = Ok (w, 0) /\ enc_post e 0 0 arr (repeat 0 29) w.
Proof.
  intros He Hn Hf Hl. unfold range_enc_arfcns. 
  apply (range_enc_ok (S (length arr)) e 0 0 arr (repeat 0 29)); try assumption; try lia.
  unfold node. change (2 ^ Z.of_nat 0) with 1. change (zlen (repeat 0 29)) with 29. lia.
Qed.

Lemma orig_trip e (n : nat) c0 l cl ml fr : 1 <= e <= 9 -> StronglySorted Z.lt l -> Forall (fun a => 0 <= a < 1024) l -> l <> [] ->
  at0 l (zlen l - 1) - at0 l 0 < 2 ^ e -> zlen l <= Z.of_nat n + 1 -> (1 <= n <= 28)%nat ->
  In c0 [140; 138; 136] -> bytes cl -> zlen cl = 16 -> wstart 17 e (Z.of_nat n + 1) <= 128 -> 0 <= wwidth e (Z.of_nat n) ->
  (forall cd, (forall p, 0 <= p < 7 -> sbit cd p = Z.testbit c0 (7 - p)) -> fmt_freqs cd 16 = (ml, fr cd)) ->
  (forall cd, fr cd = freqs_orig (2 ^ e) e n cd 16) -> ml <= 16 ->
  exists arr w cl', filter_arfcns l (at0 l 0) = Ok (arr, zlen (rel (at0 l 0) l), 1) /\
    range_enc_arfcns (2 ^ e - 1) (firstn (Z.to_nat (zlen (rel (at0 l 0) l))) arr) (repeat 0 29) 0 = Ok (w, 0) /\
    (do cl <- wr cl 0 c0 ;; do cl <- write_orig_arfcn cl (at0 l 0) ;; write_all_wn cl 2 1 w (Z.of_nat n) e) = Ok cl' /\
    zlen cl' = 16 /\ bytes cl' /\ exists s, fmt_freqs cl' 16 = (ml, s) /\ forall a, 0 <= a < 1024 -> mem a s = mem a l.
Proof.
  intros He Hs Hb Hne Hd Hln Hn Hc Hbc Hzc Hst Hww Hfmt Hfr Hml.
  destruct l as [|f0 t] eqn:El; [congruence|]. rewrite <- El in *. assert (Ef : at0 l 0 = f0) by (rewrite El; reflexivity). rewrite Ef in *.
  assert (Hin0 : In f0 l) by (rewrite El; left; reflexivity).
  assert (Hf0 : 0 <= f0 < 1024) by (rewrite Forall_forall in Hb; apply Hb, Hin0).
  pose proof (sorted_bounds l Hs) as Hsb. rewrite Ef in Hsb. pose proof (sorted_NoDup l Hs) as Hnd.
  assert (Hlb : forall a, In a l -> f0 <= a <= f0 + (2 ^ e - 1) /\ a < 1024).
  { intros a Ha. specialize (Hsb a Ha). rewrite Forall_forall in Hb. specialize (Hb a Ha). lia. }
  pose proof (pow2_pos e ltac:(lia)) as Hp2.
  destruct (rel_ok f0 l (2 ^ e - 1) Hf0 Hnd Hlb ltac:(lia)) as [R1 [R2 R3]].
  destruct (filter_arfcns_ok l f0) as [arr [E1 E2]].
  assert (Hm0 : mem f0 l = true) by (apply mem_In, Hin0). rewrite Hm0 in E1. cbn [b2z] in E1.
  assert (Hrl : zlen (rel f0 l) = zlen l - 1).
  { unfold rel. rewrite zlen_map, others_len by exact Hnd. rewrite Hm0. reflexivity. }
  destruct (enc_tree e (rel f0 l) ltac:(lia) R1 R2 ltac:(lia)) as [w [E3 Hpost]].
  assert (Hwk : forall k, 1 <= k <= Z.of_nat n -> 0 <= wwidth e k).
  { intros k Hk. pose proof (wwidth_le e k (Z.of_nat n) ltac:(lia)). lia. }
  destruct (w_bounds e n (rel f0 l) w ltac:(lia) ltac:(lia) Hpost Hwk) as [Zw Bw].
  destruct (enc_orig c0 f0 cl w n e Hbc Hzc Hf0 Hc ltac:(lia) Hww Hst ltac:(lia) Bw) as [cl' [E4 [B4 [Z4 [S4 [O4 W4]]]]]].
  exists arr, w, cl'. split; [exact E1|]. rewrite E2. split; [exact E3|]. split; [exact E4|]. split; [exact Z4|]. split; [exact B4|].
  exists (fr cl'). split; [apply Hfmt, S4|]. intros a Ha. rewrite Hfr. unfold freqs_orig. rewrite O4.
  pose proof (encoded_set e n (rel f0 l) w (W_of cl' 16 17 e) ltac:(lia) ltac:(lia) Hpost W4) as Hset.
  apply eq_true_iff_eq. rewrite !mem_In. cbn [In]. rewrite in_map_iff. split.
  - intros [<- | [v [Ev Hv]]]; [exact Hin0|]. apply Hset, R3 in Hv. destruct Hv as [Hv Hr]. replace (v - 1 + f0 + 1) with (f0 + v) in Hv by lia.
    rewrite Z.mod_small in Ev by (specialize (Hlb _ Hv); lia). rewrite <- Ev. exact Hv.
  - intros Hal. destruct (Z.eq_dec f0 a) as [-> | Hneq]; [left; reflexivity|]. right. exists (a - f0). specialize (Hlb a Hal).
    split; [rewrite Z.mod_small by lia; lia|]. apply Hset, R3. split; [|lia]. replace (a - f0 - 1 + f0 + 1) with a by lia. exact Hal.
Qed.

Theorem roundtrip l f0_old cl f mask q : StronglySorted Z.lt l -> Forall (fun a => 0 <= a < 1024) l -> l <> [] ->
  rc_spec l <> -1 -> ~ (rc_spec l = 1023 /\ zlen l = 17 /\ ~ In 0 l) ->
  bytes cl -> zlen cl = 16 -> zlen f = 1024 -> bytes f -> is_byte q -> Z.land 206 mask = 206 ->
  exists cl', encode_list l f0_old cl = Ok (Some cl') /\ zlen cl' = 16 /\
    decode_freq_list f cl' 16 mask q = Ok (marked f q l, 0).
Proof.
  intros Hs Hb Hne Hrc H17 Hbc Hzc Hzf Hbf Hq Hmask.
  assert (Hzl : 1 <= zlen l) by (destruct l; [congruence|]; rewrite zlen_cons; pose proof (zlen_nonneg l); lia).
  assert (Fin : forall cl' ml s, zlen cl' = 16 -> bytes cl' -> fmt_freqs cl' 16 = (ml, s) -> ml <= 16 -> (forall a, 0 <= a < 1024 -> mem a s = mem a l) ->
     decode_freq_list f cl' 16 mask q = Ok (marked f q l, 0)).
  { intros cl' ml s Hz' Hb' Hfmt Hml Hmem. pose proof (decode_ok f cl' 16 mask q Hb' Hz' ltac:(lia) Hzf Hbf Hq Hmask) as HD.
    rewrite Hfmt in HD. rewrite HD. destruct (Z.ltb_spec 16 ml); [lia|]. rewrite (marked_ext f q s l Hmem). reflexivity. }
  unfold encode_list, determine_range. destruct (Z.eqb_spec (zlen l) 0); [lia|]. rewrite !rd_at0 by lia. cbn [bind].
  unfold rc_spec in *. cbv zeta in Hrc, H17.
  pose proof (sorted_bounds l Hs) as Hsb.
  assert (Hd1024 : at0 l (zlen l - 1) - at0 l 0 < 1024).
  { rewrite Forall_forall in Hb. assert (Hi : forall i, 0 <= i < zlen l -> In (at0 l i) l).
    { intros i Hi. unfold at0. apply nth_In. unfold zlen in Hi. lia. }
    pose proof (Hb _ (Hi (zlen l - 1) ltac:(lia))). pose proof (Hb _ (Hi 0 ltac:(lia))). lia. }
  destruct ((at0 l (zlen l - 1) - at0 l 0 <? 128) && (zlen l <=? 29)) eqn:C1.
  { apply andb_true_iff in C1. destruct C1 as [C1 C1']. apply Z.ltb_lt in C1. apply Z.leb_le in C1'.
    assert (Hfm : forall cd, (forall p, 0 <= p < 7 -> sbit cd p = Z.testbit 140 (7 - p)) -> fmt_freqs cd 16 = (3, freqs_128 cd 16)).
    { intros cd H. unfold fmt_freqs. rewrite !H by lia. reflexivity. }
    destruct (orig_trip 7 28 140 l cl 3 (fun cd => freqs_128 cd 16) ltac:(lia) Hs Hb Hne C1 ltac:(lia) ltac:(lia)
      ltac:(left; reflexivity) Hbc Hzc ltac:(vm_compute; discriminate) ltac:(vm_compute; discriminate) Hfm ltac:(reflexivity) ltac:(lia))
      as [arr [w [cl' [E1 [E2 [E3 [E4 [E5 [s [E6 E7]]]]]]]]]].
    cbn [bind]. rewrite E1. cbn [bind]. change RANGE_128 with (2 ^ 7 - 1). rewrite E2. cbn [bind].
    change (2 ^ 7 - 1 =? RANGE_INVALID) with false. change (0 <? 0) with false. cbv iota. rewrite Z.eqb_refl. unfold enc_128. 
    change (Z.of_nat 28) with 28 in E3. rewrite E3. cbn [bind]. exists cl'. split; [reflexivity|]. split; [exact E4|]. exact (Fin cl' 3 s E4 E5 E6 ltac:(lia) E7). }
  destruct ((at0 l (zlen l - 1) - at0 l 0 <? 256) && (zlen l <=? 22)) eqn:C2.
  { clear C1. apply andb_true_iff in C2. destruct C2 as [C1 C1']. apply Z.ltb_lt in C1. apply Z.leb_le in C1'.
    assert (Hfm : forall cd, (forall p, 0 <= p < 7 -> sbit cd p = Z.testbit 138 (7 - p)) -> fmt_freqs cd 16 = (4, freqs_256 cd 16)).
    { intros cd H. unfold fmt_freqs. rewrite !H by lia. reflexivity. }
    destruct (orig_trip 8 21 138 l cl 4 (fun cd => freqs_256 cd 16) ltac:(lia) Hs Hb Hne C1 ltac:(lia) ltac:(lia)
      ltac:(right; left; reflexivity) Hbc Hzc ltac:(vm_compute; discriminate) ltac:(vm_compute; discriminate) Hfm ltac:(reflexivity) ltac:(lia))
      as [arr [w [cl' [E1 [E2 [E3 [E4 [E5 [s [E6 E7]]]]]]]]]].
    cbn [bind]. rewrite E1. cbn [bind]. change RANGE_256 with (2 ^ 8 - 1). rewrite E2. cbn [bind].
    change (2 ^ 8 - 1 =? RANGE_INVALID) with false. change (0 <? 0) with false. change (2 ^ 8 - 1 =? RANGE_128) with false. cbv iota. rewrite Z.eqb_refl. unfold enc_256. 
    change (Z.of_nat 21) with 21 in E3. rewrite E3. cbn [bind]. exists cl'. split; [reflexivity|]. split; [exact E4|]. exact (Fin cl' 4 s E4 E5 E6 ltac:(lia) E7). }
  destruct ((at0 l (zlen l - 1) - at0 l 0 <? 512) && (zlen l <=? 18)) eqn:C3.
  { clear C1 C2. apply andb_true_iff in C3. destruct C3 as [C1 C1']. apply Z.ltb_lt in C1. apply Z.leb_le in C1'.
    assert (Hfm : forall cd, (forall p, 0 <= p < 7 -> sbit cd p = Z.testbit 136 (7 - p)) -> fmt_freqs cd 16 = (4, freqs_512 cd 16)).
    { intros cd H. unfold fmt_freqs. rewrite !H by lia. reflexivity. }
    destruct (orig_trip 9 17 136 l cl 4 (fun cd => freqs_512 cd 16) ltac:(lia) Hs Hb Hne C1 ltac:(lia) ltac:(lia)
      ltac:(right; right; left; reflexivity) Hbc Hzc ltac:(vm_compute; discriminate) ltac:(vm_compute; discriminate) Hfm ltac:(reflexivity) ltac:(lia))
      as [arr [w [cl' [E1 [E2 [E3 [E4 [E5 [s [E6 E7]]]]]]]]]].
    cbn [bind]. rewrite E1. cbn [bind]. change RANGE_512 with (2 ^ 9 - 1). rewrite E2. cbn [bind].
    change (2 ^ 9 - 1 =? RANGE_INVALID) with false. change (0 <? 0) with false. change (2 ^ 9 - 1 =? RANGE_128) with false. change (2 ^ 9 - 1 =? RANGE_256) with false. cbv iota. rewrite Z.eqb_refl. unfold enc_512. 
    change (Z.of_nat 17) with 17 in E3. rewrite E3. cbn [bind]. exists cl'. split; [reflexivity|]. split; [exact E4|]. exact (Fin cl' 4 s E4 E5 E6 ltac:(lia) E7). }
  destruct (Z.leb_spec (zlen l) 17) as [C4 | C4]; [|congruence]. clear C1 C2 C3.
  destruct (Z.ltb_spec (at0 l (zlen l - 1) - at0 l 0) 1024) as [_ | ?]; [|lia]. cbn [andb bind].
  change (RANGE_1024 =? RANGE_INVALID) with false. cbv iota.
  pose proof (sorted_NoDup l Hs) as Hnd.
  destruct (filter_arfcns_ok l 0) as [arr [E1 E2]]. rewrite E1. cbn [bind]. rewrite E2.
  assert (Hlb : forall a, In a l -> 0 <= a <= 0 + (2 ^ 10 - 1) /\ a < 1024).
  { intros a Ha. rewrite Forall_forall in Hb. specialize (Hb a Ha). change (2 ^ 10) with 1024. lia. }
  destruct (rel_ok 0 l (2 ^ 10 - 1) ltac:(lia) Hnd Hlb ltac:(lia)) as [R1 [R2 R3]].
  assert (Hrl : zlen (rel 0 l) <= 16).
  { unfold rel. rewrite zlen_map, others_len by exact Hnd. destruct (mem 0 l) eqn:E0; cbn [b2z]; [lia|].
    assert (zlen l <> 17); [|lia]. intros E17. apply H17. split; [reflexivity|]. split; [exact E17|]. intros Hin. apply mem_In in Hin. congruence. }
  destruct (enc_tree 10 (rel 0 l) ltac:(lia) R1 R2 ltac:(lia)) as [w [E3 Hpost]].
  change RANGE_1024 with (2 ^ 10 - 1). rewrite E3. cbn [bind].
  change (0 <? 0) with false. change (2 ^ 10 - 1 =? RANGE_128) with false. change (2 ^ 10 - 1 =? RANGE_256) with false. change (2 ^ 10 - 1 =? RANGE_512) with false. cbv iota.
  destruct (w_bounds 10 16 (rel 0 l) w ltac:(lia) ltac:(lia) Hpost) as [Zw Bw].
  { intros k Hk. apply (wwidth_ok 10 k 17); [lia | vm_compute; discriminate | lia]. }
  destruct (enc_1024_ok cl w (mem 0 l) Hbc Hzc ltac:(lia) Bw) as [cl' [E4 [B4 [Z4 [S0 [S1 [S4 [S5 W4]]]]]]]].
  rewrite E4. cbn [bind]. exists cl'. split; [reflexivity|]. split; [exact Z4|].
  apply (Fin cl' 2 (freqs_1024 cl' 16) Z4 B4); [unfold fmt_freqs; rewrite S0, S1, S4; reflexivity | lia |].
  intros a Ha. pose proof (encoded_set 10 16 (rel 0 l) w (W_of cl' 16 6 10) ltac:(lia) ltac:(lia) Hpost W4) as Hset.
  apply eq_true_iff_eq. unfold freqs_1024. rewrite mem_app, orb_true_iff, !mem_In. rewrite S5. change 1024 with (2 ^ 10). rewrite (Hset a), (R3 (a - 1)).
  replace (a - 1 + 0 + 1) with a by lia. destruct (mem 0 l) eqn:E0.
  - apply mem_In in E0. cbn [mem existsb In]. split.
    + intros [H | [H _]]; [|exact H]. destruct H as [<- | []]. exact E0.
    + intros H. destruct (Z.eq_dec a 0) as [-> | Hn]; [left; left; reflexivity | right; split; [exact H | lia]].
  - cbn. split; [intros [H | [H _]]; [destruct H | exact H]|]. intros H. right. split; [exact H|].
    assert (a <> 0); [|lia]. intros ->. apply mem_In in H. congruence.
Qed.
