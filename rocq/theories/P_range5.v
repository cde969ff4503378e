(** Frequency list decoding. *)
From Coq Require Import ZArith List Lia Bool.
From Verif Require Import Base S_range M_range P_range3 P_range4.
Import ListNotations.
Open Scope Z_scope.

Lemma sbit_byte cd o j q : 0 <= j < 8 -> q = 8 * o + 7 - j -> sbit cd q = Z.testbit (at0 cd o) j.
Proof.
  intros Hj ->. unfold sbit. rewrite <- (Z.div_unique (8 * o + 7 - j) 8 o (7 - j)) by lia.
  rewrite <- (Z.mod_unique (8 * o + 7 - j) 8 o (7 - j)) by lia. f_equal. ring.
Qed.

Lemma bfield_app cd a b : forall p, bfield cd p (a + b) = bfield cd p a * 2 ^ Z.of_nat b + bfield cd (p + Z.of_nat a) b.
Proof.
  induction a as [|a IH]; intros p; cbn [bfield Nat.add].
  - cbn. f_equal. lia.
  - rewrite IH. rewrite Nat2Z.inj_add, Z.pow_add_r by lia.
    replace (p + 1 + Z.of_nat a) with (p + Z.of_nat (S a)) by lia. ring.
Qed.

Lemma piece_val cd o lsb nb : 0 <= lsb -> 0 <= nb -> lsb + nb <= 8 ->
  Z.land (Z.shiftr (at0 cd o) lsb) (2 ^ nb - 1) = bfield cd (8 * o + 8 - lsb - nb) (Z.to_nat nb).
Proof.
  intros H1 H2 H3. rewrite (bfield_val _ _ _ (Z.shiftr (at0 cd o) lsb)).
  - rewrite Z2Nat.id by lia. replace (2 ^ nb - 1) with (Z.ones nb) by (rewrite Z.ones_equiv; lia).
    apply Z.land_ones. lia.
  - rewrite Z2Nat.id by lia. intros q Hq. rewrite Z.shiftr_spec by lia. apply sbit_byte; lia.
Qed.

Fixpoint pieces_ok (pos n : Z) (ps : list (Z * Z * Z * Z)) : bool :=
  match ps with
  | [] => n =? 0
  | (o, lsb, nb, sh) :: t =>
    (pos =? 8 * o + 8 - lsb - nb) && (0 <=? lsb) && (0 <=? nb) && (lsb + nb <=? 8) && (sh =? n - nb) &&
    (0 <=? o) && (0 <=? sh) && (1 <=? nb) && pieces_ok (pos + nb) (n - nb) t
  end.
Lemma pieces_nonneg ps : forall pos n, pieces_ok pos n ps = true -> 0 <= n.
Proof.
  induction ps as [|[[[o lsb] nb] sh] t IH]; intros pos n H; cbn [pieces_ok] in H.
  - apply Z.eqb_eq in H. lia.
  - rewrite !andb_true_iff in H. destruct H as [H1 H2]. apply IH in H2. lia.
Qed.
Lemma rd_fld_ok cd ps : forall pos n acc, pieces_ok pos n ps = true -> pos + n <= 8 * zlen cd ->
  rd_fld cd ps acc = Ok (Z.lor acc (bfield cd pos (Z.to_nat n))).
Proof.
  induction ps as [|[[[o lsb] nb] sh] t IH]; intros pos n acc H Hl; cbn [pieces_ok rd_fld] in *.
  - apply Z.eqb_eq in H. subst. cbn. rewrite Z.lor_0_r. reflexivity.
  - rewrite !andb_true_iff in H. destruct H as [[[[[[[[H1 H2] H3] H4] H5] H6] H7] H8] H9].
    apply Z.eqb_eq in H1, H5. apply Z.leb_le in H2, H3, H4, H6, H7, H8.
    pose proof (pieces_nonneg _ _ _ H9) as Hn.
    rewrite rd_at0 by lia. cbn [bind]. rewrite (IH (pos + nb) (n - nb)) by (assumption || lia).
    f_equal. rewrite <- Z.lor_assoc. f_equal. rewrite piece_val by lia. rewrite <- H1.
    replace (Z.to_nat n) with (Z.to_nat nb + Z.to_nat (n - nb))%nat by lia.
    rewrite bfield_app, !Z2Nat.id by lia. subst sh. rewrite Z.lor_comm.
    rewrite lor_shiftl_add; [ring | lia |].
    pose proof (bfield_bound cd (pos + nb) (Z.to_nat (n - nb))). rewrite Z2Nat.id in * by lia. assumption.
Qed.

(** the tables against the layout: entry k is the field of W(k), present from its last octet on *)
Definition entry_ok (base top : Z) (ml0 : Z) (e : Z * Z * list (Z * Z * Z * Z)) : bool :=
  let '(k, ml, ps) := e in
  let n := wwidth top k in let pos := wstart base top k in
  pieces_ok pos n ps && (0 <=? n) && (n <=? 16) &&
  (if ml <=? ml0 then pos + n <=? 8 * ml0 else (pos + n <=? 8 * ml) && (8 * (ml - 1) <? pos + n)).

Fixpoint fields_from (k : Z) (tab : list (Z * Z * list (Z * Z * Z * Z))) : bool :=
  match tab with [] => true | (k', _, _) :: t => (k' =? k) && fields_from (k + 1) t end.

Lemma load_w_ok cd len base top ml0 : forall tab k0 w,
  bytes cd -> zlen cd = len -> ml0 <= len ->
  forallb (entry_ok base top ml0) tab = true -> fields_from k0 tab = true ->
  0 <= k0 -> k0 + zlen tab <= zlen w ->
  exists w', load_w cd len tab w = Ok w' /\ zlen w' = zlen w /\
    (forall k, 0 <= k -> k < k0 \/ k0 + zlen tab <= k -> at0 w' k = at0 w k) /\
    (forall k, k0 <= k < k0 + zlen tab -> at0 w' k =
       if wstart base top k + wwidth top k <=? 8 * len then bfield cd (wstart base top k) (Z.to_nat (wwidth top k)) else at0 w k).
Proof.
  induction tab as [|[[k ml] ps] t IH]; intros k0 w Hb Hc Hml He Hk Hk0 Hl.
  - exists w. split; [reflexivity|]. split; [reflexivity|]. split; [auto|]. intros k Hkk. rewrite zlen_nil in Hkk. lia.
  - cbn [load_w forallb fields_from] in *. apply andb_true_iff in He. destruct He as [He Het].
    apply andb_true_iff in Hk. destruct Hk as [Ek Hk]. apply Z.eqb_eq in Ek. subst k.
    rewrite zlen_cons in *. pose proof (zlen_nonneg t) as Hzt.
    unfold entry_ok in He. rewrite !andb_true_iff in He. destruct He as [[[Hp Hn0] Hn16] Hm].
    apply Z.leb_le in Hn0, Hn16.
    assert (Hcase : (len <? ml) = negb (wstart base top k0 + wwidth top k0 <=? 8 * len)).
    { destruct (Z.leb_spec ml ml0).
      - apply Z.leb_le in Hm. destruct (Z.ltb_spec len ml); [lia|].
        destruct (Z.leb_spec (wstart base top k0 + wwidth top k0) (8 * len)); [reflexivity|lia].
      - apply andb_true_iff in Hm. destruct Hm as [Hm1 Hm2]. apply Z.leb_le in Hm1. apply Z.ltb_lt in Hm2.
        destruct (Z.ltb_spec len ml), (Z.leb_spec (wstart base top k0 + wwidth top k0) (8 * len)); try reflexivity; lia. }
    rewrite Hcase. destruct (Z.leb_spec (wstart base top k0 + wwidth top k0) (8 * len)) as [Hin | Hout]; cbn [negb].
    + rewrite (rd_fld_ok cd ps (wstart base top k0) (wwidth top k0)) by (assumption || lia).
      cbn [bind]. rewrite Z.lor_0_l. rewrite wr_in by lia. cbn [bind].
      assert (Eu : u16 (bfield cd (wstart base top k0) (Z.to_nat (wwidth top k0))) = bfield cd (wstart base top k0) (Z.to_nat (wwidth top k0))).
      { apply u16_small. pose proof (bfield_bound cd (wstart base top k0) (Z.to_nat (wwidth top k0))) as B.
        rewrite Z2Nat.id in B by lia. pose proof (Z.pow_le_mono_r 2 (wwidth top k0) 16 ltac:(lia) ltac:(lia)).
        change (2 ^ 16) with 65536 in *. unfold is_u16. lia. }
      rewrite Eu.
      destruct (IH (k0 + 1) (upd w (Z.to_nat k0) (bfield cd (wstart base top k0) (Z.to_nat (wwidth top k0))))) as [w' [E [Z' [F V]]]];
        try assumption; try lia; [rewrite zlen_upd; lia|].
      exists w'. rewrite zlen_upd in Z'. split; [exact E|]. split; [exact Z'|]. split.
      * intros k Hk1 Hk2. rewrite F by lia. rewrite at0_upd by lia. destruct (Z.eqb_spec k k0); [lia|reflexivity].
      * intros k Hk1. destruct (Z.eq_dec k k0) as [-> | Hne].
        -- rewrite F by lia. rewrite at0_upd by lia. rewrite Z.eqb_refl.
           destruct (Z.leb_spec (wstart base top k0 + wwidth top k0) (8 * len)); [reflexivity|lia].
        -- rewrite V by lia. rewrite at0_upd by lia. destruct (Z.eqb_spec k k0); [lia|reflexivity].
    + destruct (IH (k0 + 1) w) as [w' [E [Z' [F V]]]]; try assumption; try lia.
      exists w'. split; [exact E|]. split; [exact Z'|]. split.
      * intros k Hk1 Hk2. apply F; lia.
      * intros k Hk1. destruct (Z.eq_dec k k0) as [-> | Hne].
        -- rewrite F by lia. destruct (Z.leb_spec (wstart base top k0 + wwidth top k0) (8 * len)); [lia|reflexivity].
        -- apply V. lia.
Qed.

(** expressions *)
Fixpoint jpath (R : Z) (l : nat) (b : Z) (acc : list (Z * Z * Z)) : list (Z * Z * Z) :=
  match l with
  | O => acc
  | S m =>
    let J := 2 ^ Z.of_nat l in
    if 2 * (J + b) <? 3 * J
    then jpath R m b ((J + b - J / 2, R / J, 2 * R / J - 1) :: acc)
    else jpath R m (b - J / 2) ((J + b - J, 0, 2 * R / J - 1) :: acc)
  end.

Lemma smod_ok a m : 1 <= m -> - m < a -> smod a m = (a - 1) mod m + 1.
Proof.
  intros Hm Ha. unfold smod.
  pose proof (Z.quot_rem' a m) as E. pose proof (Z.rem_bound_abs a m ltac:(lia)) as B.
  destruct (Z.leb_spec (Z.rem a m) 0).
  - replace (a - 1) with (Z.rem a m + m - 1 + (a ÷ m - 1) * m) by lia. rewrite Z.mod_add by lia.
    rewrite Z.mod_small by lia. lia.
  - replace (a - 1) with (Z.rem a m - 1 + (a ÷ m) * m) by lia. rewrite Z.mod_add by lia. rewrite Z.mod_small by lia. lia.
Qed.

Lemma eval_jpath e w W k (l : nat) : forall b acc N,
  Z.of_nat l <= e -> 0 <= b < 2 ^ Z.of_nat l -> 2 ^ Z.of_nat l + b < zlen w -> 1 <= N ->
  (forall i, 1 <= i < zlen w -> at0 w i = W i /\ 0 <= W i) ->
  eval_form w acc k = Ok N ->
  eval_form w (jpath (2 ^ e) l b acc) k = Ok (annexJ_up (2 ^ e) W l b N).
Proof.
  induction l as [|m IH]; intros b acc N Hl Hb Hz HN HW He; [exact He|].
  cbn [jpath annexJ_up]. set (J := 2 ^ Z.of_nat (S m)) in *.
  assert (EJ : J = 2 * 2 ^ Z.of_nat m) by (unfold J; rewrite Nat2Z.inj_succ, Z.pow_succ_r by lia; reflexivity).
  assert (Hm : 0 < 2 ^ Z.of_nat m) by (apply pow2_pos; lia).
  assert (EJ2 : J / 2 = 2 ^ Z.of_nat m) by (rewrite EJ, Z.mul_comm; apply Z.div_mul; lia).
  assert (Ec : 2 ^ e / J = 2 ^ (e - Z.of_nat (S m))) by (apply div_pow2; lia).
  assert (E2c : 2 * 2 ^ e / J = 2 * 2 ^ (e - Z.of_nat (S m))).
  { rewrite <- (p2S e) by lia. unfold J. rewrite div_pow2 by lia. rewrite <- (p2S (e - Z.of_nat (S m))) by lia. f_equal. lia. }
  rewrite E2c, Ec, EJ2. set (c := 2 ^ (e - Z.of_nat (S m))) in *.
  assert (Hc : 1 <= c) by (unfold c; pose proof (pow2_pos (e - Z.of_nat (S m)) ltac:(lia)); lia).
  destruct (Z.ltb_spec (2 * (J + b)) (3 * J)) as [Hlt | Hge].
  - destruct (HW (J + b - 2 ^ Z.of_nat m) ltac:(lia)) as [EW PW].
    rewrite <- (Z.add_comm 1 (_ mod _)).
    apply IH; try assumption; try lia.
    cbn [eval_form]. rewrite He. cbn [bind]. rewrite rd_at0 by lia. cbn [bind]. rewrite EW.
      f_equal. rewrite smod_ok by lia. rewrite Z.add_comm. f_equal.
      replace (N + W (J + b - 2 ^ Z.of_nat m) + c - 2) with (W (J + b - 2 ^ Z.of_nat m) - c + N - 1 + 1 * (2 * c - 1)) by ring.
      symmetry. apply Z.mod_add. lia.
  - destruct (HW (J + b - J) ltac:(lia)) as [EW PW].
    rewrite <- (Z.add_comm 1 (_ mod _)).
    apply IH; try assumption; try lia.
    cbn [eval_form]. rewrite He. cbn [bind]. rewrite rd_at0 by lia. cbn [bind]. rewrite EW.
      f_equal. rewrite smod_ok by lia. rewrite Z.add_comm. f_equal. f_equal. ring.
Qed.

(** annexJ values stay in 1 .. R - 1 *)
Lemma annexJ_up_bound e W (l : nat) : forall b N, Z.of_nat l <= e -> 1 <= N <= 2 ^ (e - Z.of_nat l) - 1 ->
  1 <= annexJ_up (2 ^ e) W l b N <= 2 ^ e - 1.
Proof.
  induction l as [|m IH]; intros b N Hl HN; cbn [annexJ_up]; [rewrite Z.sub_0_r in HN; exact HN|].
  set (J := 2 ^ Z.of_nat (S m)).
  assert (E2c : 2 * 2 ^ e / J = 2 ^ (e - Z.of_nat m)).
  { rewrite <- (p2S e) by lia. unfold J. rewrite div_pow2 by lia. f_equal. lia. }
  rewrite E2c.
  assert (Hc : 2 <= 2 ^ (e - Z.of_nat m)).
  { pose proof (Z.pow_le_mono_r 2 1 (e - Z.of_nat m) ltac:(lia) ltac:(lia)). change (2 ^ 1) with 2 in *. lia. }
  destruct (_ <? _); apply IH; try lia;
    match goal with |- context[?a mod ?b] => pose proof (Z.mod_pos_bound a b ltac:(lia)) end; lia.
Qed.
