From Verif Require Import Base M_tlv S_tlv.

Lemma type_eqb_eq a b : type_eqb a b = true <-> a = b.
Proof. split; [destruct a, b; cbn; intros; congruence|intros ->; destruct b; reflexivity]. Qed.
Lemma rd_app_mid (a b : list Z) i : 0 <= i < zlen b -> rd (a ++ b) (zlen a + i) = Ok (at0 b i).
Proof.
  intros H. rewrite rd_at0 by (rewrite zlen_app; pose proof (zlen_nonneg a); lia). rewrite at0_app by (pose proof (zlen_nonneg a); lia).
  replace (zlen a + i <? zlen a) with false by lia. do 2 f_equal. lia.
Qed.
Lemma rd_here (a b : list Z) x : rd (a ++ x :: b) (zlen a) = Ok x.
Proof. replace (zlen a) with (zlen a + 0) by lia. rewrite rd_app_mid by (rewrite zlen_cons; pose proof (zlen_nonneg b); lia). reflexivity. Qed.
Lemma zslice_mid (a v b : list Z) o n : o = zlen a -> n = zlen v -> zslice (a ++ v ++ b) o n = v.
Proof.
  intros -> ->. unfold zslice, slice, zlen. rewrite !Nat2Z.id. rewrite skipn_app_exact by reflexivity. apply firstn_app_exact. reflexivity.
Qed.
Lemma byte_split x : is_byte x -> Z.land x 240 = 16 * (x / 16) /\ Z.shiftr x 4 = x / 16 /\ Z.land x 127 = x mod 128 /\ (Z.land x 128 =? 0) = (x <? 128).
Proof.
  intros H. assert (A : Z.land x 240 =? 16 * (x / 16) = true) by (revert x H; apply (forall_byte (fun x => Z.land x 240 =? 16 * (x / 16))); vm_compute; reflexivity).
  assert (B : Bool.eqb (Z.land x 128 =? 0) (x <? 128) = true) by (revert x H A; intros x H _; revert x H; apply (forall_byte (fun x => Bool.eqb (Z.land x 128 =? 0) (x <? 128))); vm_compute; reflexivity).
  apply eqb_prop in B. repeat split; try assumption; [lia|rewrite Z.shiftr_div_pow2 by lia; reflexivity|].
  change 127 with (Z.ones 7). rewrite Z.land_ones by lia. reflexivity.
Qed.
Lemma be16 h l : is_byte h -> is_byte l -> u16 (Z.lor (Z.shiftl h 8) l) = 256 * h + l.
Proof.
  intros H L. rewrite Z.lor_comm, lor_shiftl_add by (change (2 ^ 8) with 256; unfold is_byte in *; lia). change (2 ^ 8) with 256. unfold u16, is_byte in *. lia.
Qed.
Lemma at0_0 x (l : list Z) : at0 (x :: l) 0 = x. Proof. reflexivity. Qed.
Lemma at0_1 x y (l : list Z) : at0 (x :: y :: l) 1 = y. Proof. reflexivity. Qed.
Lemma at0_2 x y z (l : list Z) : at0 (x :: y :: z :: l) 2 = z. Proof. reflexivity. Qed.
Lemma split_at (l : list Z) n : 0 <= n <= zlen l -> exists v r, l = v ++ r /\ zlen v = n.
Proof.
  intros H. exists (firstn (Z.to_nat n) l), (skipn (Z.to_nat n) l). split; [symmetry; apply firstn_skipn|]. rewrite zlen_firstn'. lia.
Qed.

(* one element parsed at the end of pre *)
Definition good (pre buf : list Z) def (x : Z * Z * Z * Z) : Prop :=
  let '(n, t, o, len) := x in
  exists e r v, buf = e ++ r /\ ie def e t v /\ n = zlen e /\ len = zlen v /\ zslice (pre ++ buf) o len = v /\ zlen pre <= o /\ o + len <= zlen pre + n.

Ltac goodv t v r hd :=
  exists (hd ++ v), r, v.

Lemma parse_end_good pre buf def hd v r n t vl o : buf = hd ++ v ++ r -> ie def (hd ++ v) t v -> n = zlen (hd ++ v) -> o = zlen pre + zlen hd -> vl = zlen v ->
  parse_end (zlen buf) n t o vl = Ok (n, t, o, vl) /\ good pre buf def (n, t, o, vl).
Proof.
  intros -> I -> -> ->. unfold parse_end. rewrite !zlen_app. pose proof (zlen_nonneg r). replace (_ <? _) with false by lia. split; [reflexivity|].
  exists (hd ++ v), r, v. rewrite !zlen_app. pose proof (zlen_nonneg hd). pose proof (zlen_nonneg v). repeat split; try lia; try assumption.
  - rewrite <- app_assoc. reflexivity.
  - rewrite app_assoc. apply zslice_mid; [rewrite zlen_app; lia|reflexivity].
Qed.

Ltac isbyte H := inversion H; subst.
Ltac sv := cbn [app]; repeat f_equal; lia.
Lemma parse_one_spec pre buf def : bytes buf -> (forall t, 0 <= snd (def t) < 256) ->
  (exists x, tlv_parse_one def (pre ++ buf) (zlen pre) (zlen buf) = Ok x /\ good pre buf def x) \/
  (exists c, tlv_parse_one def (pre ++ buf) (zlen pre) (zlen buf) = Err c /\ In c [-1; -2; -3]).
Proof.
  intros B F. unfold tlv_parse_one. destruct buf as [|t b]; [right; exists (-1); split; [reflexivity|cbn; tauto]|].
  assert (LB : zlen (t :: b) = 1 + zlen b) by apply zlen_cons. pose proof (zlen_nonneg b) as NB.
  replace (zlen (t :: b) <? 1) with false by lia.
  replace (rd (pre ++ t :: b) (zlen pre)) with (Ok t) by (symmetry; replace (zlen pre) with (zlen pre + 0) by lia; rewrite rd_app_mid by lia; reflexivity).
  cbn [bind]. inversion B as [|? ? Bt Bb]; subst. destruct (byte_split t Bt) as (E1 & E2 & E3 & E4). rewrite E1, E2.
  destruct (type_eqb (fst (def (t / 16))) TYPE_SINGLE_TV) eqn:H1.
  { left. eexists. split; [reflexivity|]. exists [t], b, [t]. repeat split; try reflexivity; try lia; first [apply ie_half; apply type_eqb_eq; exact H1|apply (zslice_mid pre [t] b); reflexivity|cbn; lia]. }
  assert (N1 : fst (def (t / 16)) <> TYPE_SINGLE_TV) by (intros X; apply type_eqb_eq in X; congruence).
  destruct ((t >? 15) && type_eqb (fst (def (16 * (t / 16)))) TYPE_SINGLE_TV) eqn:H2.
  { apply andb_true_iff in H2 as [H2 H3]. left. eexists. split; [reflexivity|]. exists [t], b, [t]. repeat split; try reflexivity; try lia; first [apply ie_half_old; [exact N1|lia|apply type_eqb_eq; exact H3]|apply (zslice_mid pre [t] b); reflexivity|cbn; lia]. }
  assert (NH : ~ half def t).
  { intros [X|[X Y]]; [congruence|]. apply type_eqb_eq in Y. rewrite Y in H2. replace (t >? 15) with true in H2 by lia. discriminate. }
  assert (PT : forall (gan : bool), (if gan then fst (def t) = TYPE_vTvLV_GAN else fst (def t) = TYPE_TLV) -> (if gan then at0 b 0 < 128 else True) ->
    (exists x, parse_tlv (pre ++ t :: b) (zlen pre) (zlen (t :: b)) t = Ok x /\ good pre (t :: b) def x) \/ (exists c, parse_tlv (pre ++ t :: b) (zlen pre) (zlen (t :: b)) t = Err c /\ In c [-1; -2; -3])).
  { intros gan T G. unfold parse_tlv. destruct (zlen (t :: b) <? 2) eqn:L2; [right; exists (-1); split; [reflexivity|cbn; tauto]|].
    rewrite rd_app_mid by lia. cbn [bind]. destruct b as [|l b]; [cbn in L2; lia|]. rewrite at0_1. cbn in G. pose proof (zlen_nonneg b). rewrite !zlen_cons in L2. inversion Bb as [|? ? Bl Bb']; subst.
    rewrite u16_small by (unfold is_u16, is_byte in *; lia).
    destruct (Z_le_gt_dec l (zlen b)) as [LE|GT].
    - left. destruct (split_at b l) as (v & r & -> & V); [unfold is_byte in *; lia|]. eexists. apply parse_end_good with (hd := [t; l]) (v := v) (r := r); [reflexivity| |cbn [app]; rewrite !zlen_cons; lia|cbn; lia|lia].
      rewrite <- V. destruct gan; [apply ie_GAN1; try assumption; rewrite V; exact G|apply ie_TLV; try assumption; unfold is_byte in *; lia].
    - right. exists (-2). unfold parse_end. rewrite !zlen_cons. replace (_ <? _) with true by lia. split; [reflexivity|cbn; tauto]. }
  assert (P16 : forall (tv : bool), (if tv then fst (def t) = TYPE_TvLV else fst (def t) = TYPE_TL16V) -> (if tv then at0 b 0 < 128 else True) ->
    (exists x, parse_tl16v (pre ++ t :: b) (zlen pre) (zlen (t :: b)) t = Ok x /\ good pre (t :: b) def x) \/ (exists c, parse_tl16v (pre ++ t :: b) (zlen pre) (zlen (t :: b)) t = Err c /\ In c [-1; -2; -3])).
  { intros tv T G. unfold parse_tl16v. destruct (zlen (t :: b) <? 3) eqn:L2; [right; exists (-1); split; [reflexivity|cbn; tauto]|].
    rewrite !rd_app_mid by lia. cbn [bind]. destruct b as [|h [|l b]]; [cbn in L2; lia|cbn in L2; lia|]. rewrite at0_1, at0_2. cbn in G. pose proof (zlen_nonneg b). rewrite !zlen_cons in L2. inversion Bb as [|? ? Bh Bb']; subst. inversion Bb' as [|? ? Bl Bb'']; subst.
    cbv zeta. rewrite be16 by assumption.
    destruct (Z_le_gt_dec (256 * h + l) (zlen b)) as [LE|GT].
    - left. destruct (split_at b (256 * h + l)) as (v & r & -> & V); [unfold is_byte in *; lia|]. eexists. apply parse_end_good with (hd := [t; h; l]) (v := v) (r := r); [reflexivity| |cbn [app]; rewrite !zlen_cons; lia|cbn; lia|lia].
      replace h with (zlen v / 256) by (unfold is_byte in *; lia). replace l with (zlen v mod 256) by (unfold is_byte in *; lia).
      destruct tv; [apply ie_TvLV2; try assumption; unfold is_byte in *; lia|apply ie_TL16V; try assumption; unfold is_byte in *; lia].
    - right. exists (-2). unfold parse_end. rewrite !zlen_cons. replace (_ <? _) with true by lia. split; [reflexivity|cbn; tauto]. }
  assert (BAD : forall n o l, zlen (t :: b) < n -> exists c, parse_end (zlen (t :: b)) n t o l = Err c /\ In c [-1; -2; -3]).
  { intros n o l L. exists (-2). unfold parse_end. replace (_ <? _) with true by lia. split; [reflexivity|cbn; tauto]. }
  destruct (fst (def t)) eqn:T; try (right; exists (-3); split; [reflexivity|cbn; tauto]).
  - (* FIXED *) destruct (Z_le_gt_dec (snd (def t)) (zlen b)) as [LE|GT]; [|right; apply BAD; lia].
    destruct (split_at b (snd (def t))) as (v & r & -> & V); [specialize (F t); lia|]. left. eexists. apply parse_end_good with (hd := [t]) (v := v) (r := r); [reflexivity|apply ie_FIXED; assumption|cbn [app]; rewrite zlen_cons; lia|cbn; lia|lia].
  - (* T *) left. unfold parse_end. replace (_ <? _) with false by lia. eexists. split; [reflexivity|]. exists [t], b, []. repeat split; try lia; try reflexivity. apply ie_T; assumption.
  - (* TV *) destruct b as [|x b]; [right; apply BAD; cbn; lia|]. left. eexists. apply parse_end_good with (hd := [t]) (v := [x]) (r := b); [reflexivity|apply ie_TV; assumption|reflexivity|cbn; lia|reflexivity].
  - apply (PT false); [reflexivity|exact I].
  - apply (P16 false); [reflexivity|exact I].
  - (* TvLV *) destruct (zlen (t :: b) <? 2) eqn:L2; [right; exists (-1); split; [reflexivity|cbn; tauto]|].
    rewrite rd_app_mid by lia. cbn [bind]. destruct b as [|l b]; [cbn in L2; lia|]. rewrite at0_1. inversion Bb as [|? ? Bl Bb']; subst.
    destruct (byte_split l Bl) as (F1 & F2 & F3 & F4). rewrite F4. destruct (l <? 128) eqn:HL; cbn [negb]; [apply (P16 true); [reflexivity|cbn; lia]|].
    rewrite F3. destruct (Z_le_gt_dec (l mod 128) (zlen b)) as [LE|GT]; [|right; apply BAD; rewrite !zlen_cons; lia].
    destruct (split_at b (l mod 128)) as (v & r & -> & V); [lia|]. left. eexists. apply parse_end_good with (hd := [t; l]) (v := v) (r := r); [reflexivity| |cbn [app]; rewrite !zlen_cons; lia|cbn; lia|lia].
    replace l with (128 + zlen v) by (unfold is_byte in *; lia). apply ie_TvLV1; try assumption. lia.
  - (* GAN *) destruct (zlen (t :: b) <? 2) eqn:L2; [right; exists (-1); split; [reflexivity|cbn; tauto]|].
    rewrite rd_app_mid by lia. cbn [bind]. destruct b as [|h b]; [cbn in L2; lia|]. rewrite at0_1. inversion Bb as [|? ? Bh Bb']; subst.
    destruct (byte_split h Bh) as (F1 & F2 & F3 & F4). rewrite F4. destruct (h <? 128) eqn:HL; cbn [negb]; [apply (PT true); [reflexivity|cbn; lia]|].
    destruct (zlen (t :: h :: b) <? 3) eqn:L3; [right; exists (-1); split; [reflexivity|cbn; tauto]|].
    rewrite rd_app_mid by (rewrite !zlen_cons in *; lia). cbn [bind]. destruct b as [|l b]; [cbn in L3; lia|]. rewrite at0_2. inversion Bb' as [|? ? Bl Bb'']; subst.
    cbv zeta. rewrite F3, be16 by (unfold is_byte in *; lia).
    destruct (Z_le_gt_dec (256 * (h mod 128) + l) (zlen b)) as [LE|GT]; [|right; apply BAD; rewrite !zlen_cons; lia].
    destruct (split_at b (256 * (h mod 128) + l)) as (v & r & -> & V); [unfold is_byte in *; lia|]. left. eexists. apply parse_end_good with (hd := [t; h; l]) (v := v) (r := r); [reflexivity| |cbn [app]; rewrite !zlen_cons; lia|cbn; lia|lia].
    replace h with (128 + zlen v / 256) by (unfold is_byte in *; lia). replace l with (zlen v mod 256) by (unfold is_byte in *; lia). apply ie_GAN2; try assumption. unfold is_byte in *; lia.
Qed.
Lemma app_zlen_inj (a b c d : list Z) : zlen a = zlen c -> a ++ b = c ++ d -> a = c /\ b = d.
Proof.
  intros L E. assert (a = c) by (apply (f_equal (firstn (length a))) in E; rewrite firstn_app_exact in E by reflexivity; rewrite firstn_app_exact in E by (unfold zlen in L; lia); exact E).
  subst. split; [reflexivity|]. apply app_inv_head in E. exact E.
Qed.
Lemma ie_fun def e t v e' t' v' r r' : ie def e t v -> ie def e' t' v' -> e ++ r = e' ++ r' -> e = e' /\ t = t' /\ v = v' /\ r = r'.
Proof.
  intros A B E. 
  assert (G : e = e' /\ t = t' /\ v = v').
  { destruct A; destruct B; cbn [app] in E;
    match type of E with ?x :: _ = ?y :: _ => assert (HX : x = y) by (injection E; intros; assumption) end; subst;
    try congruence;
    try (match goal with H : ~ half _ _ |- _ => exfalso; apply H; clear H; first [left; assumption|right; split; assumption] end);
    apply (f_equal (@tl Z)) in E; cbn [tl] in E;
    first
    [ repeat split; congruence
    | match type of E with ?x :: _ = ?y :: _ => is_var x; is_var y; injection E as -> _; repeat split; reflexivity end
    | exfalso; match type of E with ?a :: _ = ?b :: _ => assert (HY : a = b) by (injection E; intros; assumption); pose proof (zlen_nonneg v); pose proof (zlen_nonneg v0); lia end
    | assert (HL : zlen v = zlen v0) by congruence; destruct (app_zlen_inj _ _ _ _ HL E) as [-> _]; repeat split; reflexivity
    | assert (HL : zlen v = zlen v0) by (match type of E with ?a :: ?b :: _ = ?c :: ?d :: _ => assert (a = c /\ b = d) by (injection E; intros; split; assumption); lia end);
      apply (f_equal (@tl Z)) in E; cbn [tl] in E; apply (f_equal (@tl Z)) in E; cbn [tl] in E;
      destruct (app_zlen_inj _ _ _ _ HL E) as [-> _]; repeat split; reflexivity
    | assert (HL : zlen v = zlen v0) by (match type of E with ?a :: _ = ?c :: _ => assert (a = c) by (injection E; intros; assumption); lia end);
      apply (f_equal (@tl Z)) in E; cbn [tl] in E;
      destruct (app_zlen_inj _ _ _ _ HL E) as [-> _]; repeat split; reflexivity ]. }
  destruct G as (-> & -> & ->). repeat split. apply app_inv_head in E. exact E.
Qed.
Lemma no_err pre buf def e r t v c : bytes buf -> (forall t, 0 <= snd (def t) < 256) -> buf = e ++ r -> ie def e t v ->
  tlv_parse_one def (pre ++ buf) (zlen pre) (zlen buf) <> Err c.
Proof.
  intros B F -> I. assert (Bt : forall x b, e ++ r = x :: b -> is_byte x) by (intros x b E; rewrite E in B; inversion B; assumption).
  assert (S0 : forall x b, e ++ r = x :: b -> ~ half def x -> tlv_parse_one def (pre ++ e ++ r) (zlen pre) (zlen (e ++ r)) =
    match fst (def x) with
    | TYPE_T => parse_end (zlen (x :: b)) 1 x (zlen pre) 0
    | TYPE_TV => parse_end (zlen (x :: b)) 2 x (zlen pre + 1) 1
    | TYPE_FIXED => parse_end (zlen (x :: b)) (snd (def x) + 1) x (zlen pre + 1) (snd (def x))
    | TYPE_TLV => parse_tlv (pre ++ x :: b) (zlen pre) (zlen (x :: b)) x
    | TYPE_vTvLV_GAN =>
      if zlen (x :: b) <? 2 then Err (-1) else
      do l <- rd (pre ++ x :: b) (zlen pre + 1) ;;
      if negb (Z.land l 128 =? 0) then
        if zlen (x :: b) <? 3 then Err (-1) else
        do l2 <- rd (pre ++ x :: b) (zlen pre + 2) ;;
        let ol := u16 (Z.lor (Z.shiftl (Z.land l 127) 8) l2) in
        parse_end (zlen (x :: b)) (ol + 3) x (zlen pre + 3) ol
      else parse_tlv (pre ++ x :: b) (zlen pre) (zlen (x :: b)) x
    | TYPE_TvLV =>
      if zlen (x :: b) <? 2 then Err (-1) else
      do l <- rd (pre ++ x :: b) (zlen pre + 1) ;;
      if negb (Z.land l 128 =? 0) then parse_end (zlen (x :: b)) (Z.land l 127 + 2) x (zlen pre + 2) (Z.land l 127)
      else parse_tl16v (pre ++ x :: b) (zlen pre) (zlen (x :: b)) x
    | TYPE_TL16V => parse_tl16v (pre ++ x :: b) (zlen pre) (zlen (x :: b)) x
    | _ => Err (-3)
    end).
  { intros x b E NH. specialize (Bt x b E). rewrite E. unfold tlv_parse_one. pose proof (zlen_nonneg b). replace (zlen (x :: b) <? 1) with false by (rewrite zlen_cons; lia).
    replace (rd (pre ++ x :: b) (zlen pre)) with (Ok x) by (symmetry; replace (zlen pre) with (zlen pre + 0) by lia; rewrite rd_app_mid by (rewrite zlen_cons; lia); reflexivity).
    cbn [bind]. destruct (byte_split x Bt) as (E1 & E2 & _). rewrite E1, E2.
    destruct (type_eqb (fst (def (x / 16))) TYPE_SINGLE_TV) eqn:H1; [exfalso; apply NH; left; apply type_eqb_eq; exact H1|].
    destruct ((x >? 15) && type_eqb (fst (def (16 * (x / 16)))) TYPE_SINGLE_TV) eqn:H2; [exfalso; apply NH; right; apply andb_true_iff in H2 as [H2 H3]; apply type_eqb_eq in H3; split; [lia|exact H3]|]. reflexivity. }
  assert (PE : forall bl n x o l, n <= bl -> parse_end bl n x o l <> Err c) by (intros; unfold parse_end; replace (_ <? _) with false by lia; discriminate).
  assert (RD : forall (b : list Z) i, 0 <= i < zlen b -> rd (pre ++ b) (zlen pre + i) = Ok (at0 b i)) by (intros; apply rd_app_mid; lia).
  pose proof (zlen_nonneg r) as NR. pose proof (zlen_nonneg v) as NV.
  assert (B1 : forall x y b, e ++ r = x :: y :: b -> is_byte y) by (intros x y b E; rewrite E in B; inversion B as [|? ? ? B']; inversion B'; assumption).
  assert (B2 : forall x y z b, e ++ r = x :: y :: z :: b -> is_byte z) by (intros x y z b E; rewrite E in B; inversion B as [|? ? ? B']; inversion B' as [|? ? ? B'']; inversion B''; assumption).
  destruct I as [o H|o H H0 H1|t NH T|t x NH T|t v NH T L|t v NH T L|t v NH T L|t v NH T L|t v NH T L|t v NH T L|t v NH T L]; cbn [app] in *.
  - specialize (Bt o r eq_refl). destruct (byte_split o Bt) as (E1 & E2 & _). unfold tlv_parse_one. replace (zlen (o :: r) <? 1) with false by (rewrite zlen_cons; lia).
    replace (rd (pre ++ o :: r) (zlen pre)) with (Ok o) by (symmetry; replace (zlen pre) with (zlen pre + 0) by lia; rewrite RD by (rewrite zlen_cons; lia); reflexivity).
    cbn [bind]. rewrite E2, H. cbn. discriminate.
  - specialize (Bt o r eq_refl). destruct (byte_split o Bt) as (E1 & E2 & _). unfold tlv_parse_one. replace (zlen (o :: r) <? 1) with false by (rewrite zlen_cons; lia).
    replace (rd (pre ++ o :: r) (zlen pre)) with (Ok o) by (symmetry; replace (zlen pre) with (zlen pre + 0) by lia; rewrite RD by (rewrite zlen_cons; lia); reflexivity).
    cbn [bind]. rewrite E1, E2, H1. replace (o >? 15) with true by lia. cbn. destruct (type_eqb _ _); discriminate.
  - rewrite (S0 _ _ eq_refl NH), T. apply PE. rewrite zlen_cons; lia.
  - rewrite (S0 _ _ eq_refl NH), T. apply PE. rewrite !zlen_cons; lia.
  - rewrite (S0 _ _ eq_refl NH), T. apply PE. rewrite !zlen_cons, zlen_app; lia.
  - rewrite (S0 _ _ eq_refl NH), T. unfold parse_tlv. rewrite RD by (rewrite !zlen_cons, zlen_app; lia). rewrite at0_1, !zlen_cons, zlen_app. replace (_ <? 2) with false by lia. cbn [bind]. rewrite u16_small by (unfold is_u16; lia). apply PE. lia.
  - rewrite (S0 _ _ eq_refl NH), T. unfold parse_tl16v. rewrite !RD by (rewrite !zlen_cons, zlen_app; lia). rewrite at0_1, at0_2, !zlen_cons, zlen_app. replace (_ <? 3) with false by lia. cbn [bind]. cbv zeta. rewrite be16 by (unfold is_byte; lia). apply PE. lia.
  - rewrite (S0 _ _ eq_refl NH), T. rewrite RD by (rewrite !zlen_cons, zlen_app; lia). rewrite at0_1, !zlen_cons, zlen_app. replace (_ <? 2) with false by lia. cbn [bind]. 
    destruct (byte_split (128 + zlen v)) as (_ & _ & E3 & E4); [unfold is_byte; lia|]. rewrite E3, E4. replace (_ <? 128) with false by lia. cbn [negb]. apply PE. lia.
  - rewrite (S0 _ _ eq_refl NH), T. rewrite RD by (rewrite !zlen_cons, zlen_app; lia). rewrite at0_1, !zlen_cons, zlen_app. replace (_ <? 2) with false by lia. cbn [bind]. 
    destruct (byte_split (zlen v / 256)) as (_ & _ & E3 & E4); [unfold is_byte; lia|]. rewrite E4. replace (_ <? 128) with true by lia. cbn [negb].
    unfold parse_tl16v. rewrite !RD by (rewrite !zlen_cons, zlen_app; lia). rewrite at0_1, at0_2. replace (_ <? 3) with false by lia. cbn [bind]. cbv zeta. rewrite be16 by (unfold is_byte; lia). apply PE. lia.
  - rewrite (S0 _ _ eq_refl NH), T. rewrite RD by (rewrite !zlen_cons, zlen_app; lia). rewrite at0_1, !zlen_cons, zlen_app. replace (_ <? 2) with false by lia. cbn [bind]. 
    destruct (byte_split (zlen v)) as (_ & _ & E3 & E4); [unfold is_byte; lia|]. rewrite E4. replace (_ <? 128) with true by lia. cbn [negb].
    unfold parse_tlv. rewrite RD by (rewrite !zlen_cons, zlen_app; lia). rewrite at0_1. replace (_ <? 2) with false by lia. cbn [bind]. rewrite u16_small by (unfold is_u16; lia). apply PE. lia.
  - rewrite (S0 _ _ eq_refl NH), T. rewrite !RD by (rewrite !zlen_cons, zlen_app; lia). rewrite at0_1, at0_2, !zlen_cons, zlen_app. replace (_ <? 2) with false by lia. cbn [bind]. 
    destruct (byte_split (128 + zlen v / 256)) as (_ & _ & E3 & E4); [unfold is_byte; lia|]. rewrite E3, E4. replace (_ <? 128) with false by lia. cbn [negb].
    replace (_ <? 3) with false by lia. cbn [bind]. cbv zeta. rewrite be16 by (unfold is_byte; lia). apply PE. lia.
Qed.
(* both directions *)
Lemma parse_one_iff pre buf def : bytes buf -> (forall t, 0 <= snd (def t) < 256) ->
  (forall e r t v, buf = e ++ r -> ie def e t v -> exists o, tlv_parse_one def (pre ++ buf) (zlen pre) (zlen buf) = Ok (zlen e, t, o, zlen v) /\
     zslice (pre ++ buf) o (zlen v) = v /\ zlen pre <= o /\ o + zlen v <= zlen pre + zlen e) /\
  ((forall e r t v, buf = e ++ r -> ~ ie def e t v) -> exists c, tlv_parse_one def (pre ++ buf) (zlen pre) (zlen buf) = Err c /\ In c [-1; -2; -3]).
Proof.
  intros B F. destruct (parse_one_spec pre buf def B F) as [([[[n t] o] len] & E & (e & r & v & -> & I & -> & -> & Z1 & O1 & O2))|(c & E & C)].
  - split.
    + intros e' r' t' v' Q I'. destruct (ie_fun _ _ _ _ _ _ _ _ _ I I' Q) as (-> & -> & -> & ->). exists o. repeat split; assumption.
    + intros N. exfalso. apply (N e r t v eq_refl I).
  - split; [|intros _; exists c; split; assumption]. intros e r t v Q I. exfalso. exact (no_err pre buf def e r t v c B F Q I E).
Qed.
Lemma ie_len def e t v : ie def e t v -> 1 <= zlen e.
Proof. intros I. destruct I; rewrite zlen_cons; match goal with |- 1 <= 1 + zlen ?l => pose proof (zlen_nonneg l) end; lia. Qed.

(* storing *)
Definition agree (mem : list Z) (dec : list tlv_parsed) (l : list (Z * list Z)) : Prop :=
  forall i t, (i < length dec)%nat -> value mem (nth i dec empty_parsed t) = as_entry (nth_error (occurrences t l) i).
Lemma store_length dec t e : length (store dec t e) = length dec.
Proof. induction dec as [|d r IH]; [reflexivity|]. cbn [store]. destruct (fst (d t)); cbn [length]; congruence. Qed.
Lemma store_other dec t e t' : t' <> t -> forall i, nth i (store dec t e) empty_parsed t' = nth i dec empty_parsed t'.
Proof.
  intros N. induction dec as [|d r IH]; intros i; [reflexivity|]. cbn [store]. destruct (fst (d t)).
  - destruct i; [reflexivity|]. cbn [nth]. apply IH.
  - destruct i; [|reflexivity]. cbn [nth]. unfold set_entry. replace (t' =? t) with false by lia. reflexivity.
Qed.
Lemma nth_error_nil {A} i : nth_error (@nil A) i = None. Proof. destruct i; reflexivity. Qed.
Lemma store_same mem t o n : forall dec L, (forall i, (i < length dec)%nat -> value mem (nth i dec empty_parsed t) = as_entry (nth_error L i)) ->
  n = zlen (zslice mem o n) -> forall i, (i < length dec)%nat -> value mem (nth i (store dec t (Some o, n)) empty_parsed t) = as_entry (nth_error (L ++ [zslice mem o n]) i).
Proof.
  induction dec as [|d r IH]; intros L H HZ i Hi; [cbn in Hi; lia|]. cbn [store]. pose proof (H 0%nat ltac:(cbn; lia)) as H0. cbn [nth] in H0. unfold value in H0.
  destruct (fst (d t)) eqn:D.
  - destruct L as [|x L]; [discriminate|]. destruct i as [|i].
    + cbn [nth app nth_error] in *. unfold value. rewrite D. exact H0.
    + cbn [nth app nth_error]. apply IH; [|exact HZ|cbn in Hi; lia]. intros j Hj. apply (H (S j)). cbn; lia.
  - destruct L as [|x L]; [|discriminate]. destruct i as [|i]; cbn [nth app nth_error].
    + unfold set_entry, value. rewrite Z.eqb_refl. cbn [fst snd as_entry option_map]. rewrite <- HZ. reflexivity.
    + rewrite nth_error_nil. specialize (H (S i) Hi). cbn [nth] in H. rewrite H, nth_error_nil. reflexivity.
Qed.
Lemma occ_app t a b : occurrences t (a ++ b) = occurrences t a ++ occurrences t b.
Proof. unfold occurrences. rewrite filter_app, map_app. reflexivity. Qed.
Lemma store_agree mem dec l t v o n : agree mem dec l -> zslice mem o n = v -> n = zlen v -> agree mem (store dec t (Some o, n)) (l ++ [(t, v)]).
Proof.
  intros A Z ZN i t' Hi. rewrite store_length in Hi. rewrite occ_app. unfold occurrences at 2. cbn [filter fst map snd]. destruct (Z.eqb_spec t t') as [<-|N].
  - cbn [map snd]. rewrite <- Z. apply store_same; [intros j Hj; apply A; exact Hj|rewrite Z; exact ZN|exact Hi].
  - cbn [map]. rewrite app_nil_r. rewrite store_other by congruence. apply A. exact Hi.
Qed.
Lemma empty_agree mem n : agree mem (repeat empty_parsed n) [].
Proof. intros i t H. unfold occurrences. cbn. rewrite nth_error_nil. rewrite repeat_length in H. rewrite nth_repeat by exact H || idtac. reflexivity. Qed.
Lemma ies_split def b1 l1 : ies def b1 l1 -> forall b2 l, ies def (b1 ++ b2) l -> exists l2, ies def b2 l2 /\ l = l1 ++ l2.
Proof.
  intros I1. induction I1 as [|e t v r l1 IE I1 IH]; intros b2 l I; [exists l; split; [exact I|reflexivity]|].
  rewrite <- app_assoc in I. remember (e ++ r ++ b2) as w eqn:W. destruct I as [|e' t' v' r' l' IE' I'].
  - exfalso. pose proof (ie_len _ _ _ _ IE). destruct e; [cbn in *; lia|discriminate].
  - destruct (ie_fun _ _ _ _ _ _ _ _ _ IE IE' (eq_sym W)) as (-> & -> & -> & <-). destruct (IH _ _ I') as (l2 & A & ->). exists l2. split; [exact A|reflexivity].
Qed.
Definition no_ie def (b : list Z) : Prop := forall e r t v, b = e ++ r -> ~ ie def e t v.
Lemma loop_spec def : (forall t, 0 <= snd (def t) < 256) -> forall fuel pre buf dec l num, bytes buf -> (length buf <= fuel)%nat -> agree (pre ++ buf) dec l ->
  exists rc dec' b1 b2 l', parse_loop fuel def (pre ++ buf) (zlen (pre ++ buf)) dec (zlen pre) num = Ok (rc, dec') /\ length dec' = length dec /\
    buf = b1 ++ b2 /\ ies def b1 l' /\ agree (pre ++ buf) dec' (l ++ l') /\
    (b2 = [] /\ rc = num + zlen l' \/ b2 <> [] /\ no_ie def b2 /\ In rc [-1; -2; -3]).
Proof.
  intros F. induction fuel as [|f IH]; intros pre buf dec l num B L A.
  - destruct buf; [|cbn in L; lia]. cbn [parse_loop]. rewrite zlen_app, zlen_nil. replace (_ <? _) with false by lia.
    exists num, dec, [], [], []. rewrite (app_nil_r l). split; [reflexivity|]. split; [reflexivity|]. split; [reflexivity|]. split; [constructor|]. split; [exact A|]. left. split; [reflexivity|cbn; lia].
  - destruct buf as [|x b].
    { cbn [parse_loop]. rewrite zlen_app, zlen_nil. replace (_ <? _) with false by lia.
      exists num, dec, [], [], []. rewrite (app_nil_r l). split; [reflexivity|]. split; [reflexivity|]. split; [reflexivity|]. split; [constructor|]. split; [exact A|]. left. split; [reflexivity|cbn; lia]. }
    set (buf := x :: b) in *. assert (NB : 0 < zlen buf) by (unfold buf; rewrite zlen_cons; pose proof (zlen_nonneg b); lia).
    cbn [parse_loop]. rewrite zlen_app. replace (zlen pre <? zlen pre + zlen buf) with true by lia. replace (zlen pre + zlen buf - zlen pre) with (zlen buf) by lia.
    destruct (parse_one_spec pre buf def B F) as [([[[n t] o] len] & E & (e & r & v & Q & I & -> & -> & Z1 & O1 & O2))|(c & E & C)]; rewrite E.
    + pose proof (ie_len _ _ _ _ I) as LE. destruct (IH (pre ++ e) r (store dec t (Some o, zlen v)) (l ++ [(t, v)]) (num + 1)) as (rc & dec' & b1 & b2 & l' & E' & LD & Q' & I' & A' & D).
      * rewrite Q in B. apply Forall_app in B. tauto.
      * rewrite Q, app_length in L. unfold zlen in LE. lia.
      * rewrite <- app_assoc, <- Q. apply store_agree; [assumption..|reflexivity].
      * rewrite <- app_assoc, <- Q in E', A'. rewrite !zlen_app in E'. 
        exists rc, dec', (e ++ b1), b2, ((t, v) :: l'). rewrite <- !app_assoc in A'. cbn [app] in A'. rewrite store_length in LD. repeat split; try assumption.
        -- rewrite Q, Q', app_assoc. reflexivity.
        -- constructor; assumption.
        -- rewrite zlen_cons. destruct D as [[D1 D2]|D]; [left; split; [exact D1|lia]|right; exact D].
    + exists c, dec, [], buf, []. rewrite (app_nil_r l). split; [reflexivity|]. split; [reflexivity|]. split; [reflexivity|]. split; [constructor|]. split; [exact A|]. right. split; [unfold buf; discriminate|]. split; [|exact C].
      intros e r t v Q I. exact (no_err pre buf def e r t v c B F Q I E).
Qed.
Lemma store_lv_store dec t e : (match dec with [] => True | d :: r => fst (d t) = None \/ r = [] end) -> store_lv dec t e = store dec t e.
Proof.
  destruct dec as [|d r]; [reflexivity|]. unfold store_lv. cbn [existsb store]. destruct (fst (d t)) eqn:D; [|reflexivity]. intros [X| ->]; [discriminate|reflexivity].
Qed.
Lemma parse_lv_spec pre buf tag dec l num : bytes buf -> agree (pre ++ buf) dec l -> (tag <> 0 -> match dec with [] => True | d :: r => fst (d tag) = None \/ r = [] end) ->
  (exists r l' dec', lead tag buf r l' /\ parse_lv (pre ++ buf) (zlen (pre ++ buf)) tag dec (zlen pre) num = Ok (inl (dec', zlen pre + (zlen buf - zlen r), num + zlen l')) /\
      length dec' = length dec /\ agree (pre ++ buf) dec' (l ++ l') /\ (exists b, buf = b ++ r) /\ (forall t, t <> tag -> nth 0 dec' empty_parsed t = nth 0 dec empty_parsed t)) \/
  ((forall r l', ~ lead tag buf r l') /\ (buf <> [] /\ parse_lv (pre ++ buf) (zlen (pre ++ buf)) tag dec (zlen pre) num = Ok (inr (-2, dec)) \/
      tag <> 0 /\ buf = [] /\ parse_lv (pre ++ buf) (zlen (pre ++ buf)) tag dec (zlen pre) num = UB)).
Proof.
  intros B A S. unfold parse_lv. destruct (Z.eqb_spec tag 0) as [T|T].
  { left. exists buf, [], dec. rewrite (app_nil_r l). split; [constructor; assumption|]. split; [rewrite zlen_nil; rewrite !Z.sub_diag, !Z.add_0_r; reflexivity|]. split; [reflexivity|]. split; [exact A|]. split; [exists []; reflexivity|intros; reflexivity]. }
  rewrite zlen_app. pose proof (zlen_nonneg buf). replace (zlen pre >? zlen pre + zlen buf) with false by lia. destruct buf as [|n b].
  { right. split; [intros r l' X; inversion X; subst; congruence|]. right. rewrite app_nil_r. rewrite rd_out by lia. repeat split; assumption. }
  rewrite rd_here.
  cbn [bind]. cbv zeta. inversion B as [|? ? Bn Bb]; subst. unfold is_byte in Bn. rewrite u16_small by (unfold is_u16; lia). rewrite zlen_cons in *.
  destruct (zlen pre + (n + 1) >? zlen pre + (1 + zlen b)) eqn:G.
  - right. split; [|left; split; [discriminate|reflexivity]]. intros r l' X. inversion X; subst; [congruence|]. rewrite zlen_app in *. pose proof (zlen_nonneg r). lia.
  - left. destruct (split_at b n) as (v & r & -> & V); [lia|]. subst n. rewrite zlen_app in *. exists r, [(tag, v)], (store dec tag (Some (zlen pre + 1), zlen v)).
    rewrite store_lv_store by (apply S; exact T). split; [apply lead_lv; [exact T|lia]|]. split; [rewrite zlen_cons, zlen_nil; replace (zlen pre + (1 + (zlen v + zlen r) - zlen r)) with (zlen pre + (zlen v + 1)) by lia; rewrite Z.add_0_r; reflexivity|]. split; [apply store_length|]. split.
    + apply store_agree; [exact A| |reflexivity]. change (zlen v :: v ++ r) with ([zlen v] ++ v ++ r). rewrite app_assoc. apply zslice_mid; [rewrite zlen_app; reflexivity|reflexivity].
    + split; [exists (zlen v :: v); reflexivity|]. intros t N. apply store_other. exact N.
Qed.
Lemma lead_fun tag b r l r' l' : lead tag b r l -> lead tag b r' l' -> r = r' /\ l = l'.
Proof.
  intros A B. inversion A; subst; inversion B; subst; try congruence; [split; reflexivity|].
  match goal with H : _ ++ _ = _ ++ _ |- _ => apply app_zlen_inj in H as [-> ->]; [split; reflexivity|congruence] end.
Qed.
Definition overread (lv1 lv2 : Z) (buf : list Z) : Prop := lv1 <> 0 /\ buf = [] \/ lv2 <> 0 /\ exists l, lead lv1 buf [] l.
Lemma parse2_spec n def buf lv1 lv2 : bytes buf -> (forall t, 0 <= snd (def t) < 256) -> lv1 <> lv2 \/ lv1 = 0 \/ (n <= 1)%nat ->
  (exists l dec, message def lv1 lv2 buf l /\ tlv_parse2 n def buf lv1 lv2 = Ok (zlen l, dec) /\ length dec = n /\ agree buf dec l /\ ~ overread lv1 lv2 buf) \/
  ((forall l, ~ message def lv1 lv2 buf l) /\ ~ overread lv1 lv2 buf /\ exists c dec, tlv_parse2 n def buf lv1 lv2 = Ok (c, dec) /\ In c [-1; -2; -3] /\ length dec = n) \/
  ((forall l, ~ message def lv1 lv2 buf l) /\ overread lv1 lv2 buf /\ tlv_parse2 n def buf lv1 lv2 = UB).
Proof.
  intros B F HN. unfold tlv_parse2. set (dec := repeat empty_parsed n). assert (LD : length dec = n) by apply repeat_length.
  destruct (parse_lv_spec [] buf lv1 dec [] 0 B (empty_agree _ n)) as [(r1 & l1 & d1 & L1 & E1 & LD1 & A1 & (b1 & Q1) & O1)|(N1 & D)].
  { intros _. unfold dec. destruct n; [exact I|]. cbn. left; reflexivity. }
  2:{ right. destruct D as [[NB E]|(T & -> & E)]; cbn [app] in E; change (zlen (@nil Z)) with 0 in E.
    - left. assert (M : forall l, ~ message def lv1 lv2 buf l) by (intros l (r1 & r2 & l1 & l2 & l3 & X & _); exact (N1 _ _ X)). split; [exact M|]. split.
      + intros [[_ X]|(_ & l & X)]; [congruence|exact (N1 _ _ X)].
      + rewrite E. cbn [bind]. exists (-2), dec. repeat split; [cbn; tauto|exact LD].
    - right. split; [intros l (r1 & r2 & l1 & l2 & l3 & X & _); exact (N1 _ _ X)|]. split; [left; split; [exact T|reflexivity]|]. change (zlen (@nil Z)) with 0. rewrite E. reflexivity. }
  cbn [app] in *. change (zlen (@nil Z)) with 0 in *. rewrite E1. cbn [bind]. clear E1.
  assert (Br1 : bytes r1) by (rewrite Q1 in B; apply Forall_app in B; tauto).
  assert (H0 : zlen buf - zlen r1 = zlen b1) by (rewrite Q1, zlen_app; lia). rewrite !Z.add_0_l, H0.
  assert (Hlv2 : lv2 <> 0 -> match d1 with [] => True | d :: r => fst (d lv2) = None \/ r = [] end).
  { intros T2. destruct d1 as [|d r]; [exact I|]. destruct n as [|[|n]]; [cbn in LD1; lia|right; destruct r; [reflexivity|cbn in LD1, LD; lia]|]. left.
    destruct (Z.eq_dec lv1 lv2) as [->|NE].
    - destruct HN as [X|[X|X]]; [congruence|congruence|lia].
    - specialize (O1 lv2 ltac:(congruence)). cbn [nth] in O1. rewrite O1. reflexivity. }
  destruct (parse_lv_spec b1 r1 lv2 d1 l1 (zlen l1) Br1) as [(r2 & l2 & d2 & L2 & E2 & LD2 & A2 & (b2 & Q2) & O2)|(N2 & D)]; [rewrite <- Q1; exact A1|exact Hlv2| |].
  2:{ right. rewrite <- Q1 in D. destruct D as [[NB E]|(T & R & E)].
    - left. assert (M : forall l, ~ message def lv1 lv2 buf l).
      { intros l (r1' & r2 & l1' & l2 & l3 & X & Y & _). destruct (lead_fun _ _ _ _ _ _ L1 X) as [<- <-]. exact (N2 _ _ Y). }
      split; [exact M|]. split.
      + intros [[X Y]|(X & l & Y)].
        * rewrite Y in L1. inversion L1; congruence.
        * destruct (lead_fun _ _ _ _ _ _ L1 Y) as [Z _]. congruence.
      + rewrite E. cbn [bind]. exists (-2), d1. repeat split; [cbn; tauto|congruence].
    - right. subst r1. split; [|split].
      + intros l (r1' & r2 & l1' & l2 & l3 & X & Y & _). destruct (lead_fun _ _ _ _ _ _ L1 X) as [<- <-]. exact (N2 _ _ Y).
      + right. split; [exact T|]. exists l1. exact L1.
      + rewrite E. reflexivity. }
  rewrite <- Q1 in E2, A2. rewrite E2. cbn [bind]. clear E2.
  assert (H2 : zlen b1 + (zlen r1 - zlen r2) = zlen (b1 ++ b2)) by (rewrite Q2, !zlen_app; lia). rewrite H2.
  assert (Q : buf = (b1 ++ b2) ++ r2) by (rewrite Q1, Q2, app_assoc; reflexivity).
  assert (NO : ~ overread lv1 lv2 buf).
  { intros [[X Y]|(X & l & Y)].
    - rewrite Y in L1. inversion L1; congruence.
    - destruct (lead_fun _ _ _ _ _ _ L1 Y) as [Z _]. subst r1. inversion L2; congruence. }
  destruct (loop_spec def F (length buf) (b1 ++ b2) r2 d2 (l1 ++ l2) (zlen l1 + zlen l2)) as (rc & dec' & c1 & c2 & l' & E & LD' & Qc & I & A & D).
  { rewrite Q2 in Br1. apply Forall_app in Br1. tauto. }
  { rewrite Q, app_length. lia. }
  { rewrite <- Q. exact A2. }
  rewrite <- Q in E, A. rewrite E. destruct D as [[-> ->]|(NE & NI & C)].
  - left. rewrite app_nil_r in Qc. subst c1. exists ((l1 ++ l2) ++ l'), dec'. rewrite !zlen_app. repeat split; try assumption; try congruence.
    exists r1, r2, l1, l2, l'. repeat split; try assumption. rewrite app_assoc. reflexivity.
  - right. left. split; [|split; [exact NO|exists rc, dec'; repeat split; [exact C|congruence]]].
    intros l (r1' & r2' & l1' & l2' & l3 & X & Y & W & _). destruct (lead_fun _ _ _ _ _ _ L1 X) as [<- <-]. destruct (lead_fun _ _ _ _ _ _ L2 Y) as [<- <-].
    subst r2. destruct (ies_split _ _ _ I _ _ W) as (l4 & I4 & _). remember c2 as w eqn:Hw. destruct I4 as [|e t v r l4 IE4 I4]; [congruence|]. exact (NI e r t v eq_refl IE4).
Qed.
Lemma put_ok n l : n = zlen l -> put n l = Ok l.
Proof. intros ->. unfold put. rewrite Z.eqb_refl. reflexivity. Qed.
Lemma val_copy_all v : val_copy v (zlen v) = Ok v.
Proof. unfold val_copy. rewrite Z.ltb_irrefl. f_equal. apply firstn_all2. unfold zlen. lia. Qed.
Lemma len_split n : 0 <= n < 65536 -> u8 (Z.shiftr n 8) = n / 256 /\ Z.land n 255 = n mod 256.
Proof. intros H. rewrite Z.shiftr_div_pow2 by lia. change (2 ^ 8) with 256. split; [unfold u8; apply Z.mod_small; lia|apply land_255]. Qed.
Lemma encode_one_ie def t v : 0 <= t < 256 -> 0 <= snd (def t) < 256 -> encodable def t v ->
  exists e, tlv_encode_one (fst (def t)) t (zlen v) v = Ok e /\ bytes e /\ ie def e t (received def t v).
Proof.
  intros Ht Fx [Bv H]. unfold received. pose proof (zlen_nonneg v). destruct (fst (def t)) eqn:T; try contradiction; cbn [tlv_encode_one].
  - destruct H as [NH L]. rewrite val_copy_all. cbn [bind]. rewrite put_ok by (rewrite zlen_cons; unfold u32; rewrite Z.mod_small; lia). eexists. split; [reflexivity|]. split; [constructor; assumption|apply ie_FIXED; assumption].
  - destruct H as [NH ->]. rewrite put_ok by reflexivity. eexists. split; [reflexivity|]. split; [constructor; [assumption|constructor]|apply ie_T; assumption].
  - destruct H as [NH L]. destruct v as [|x [|y v]]; [cbn in L; lia| |rewrite !zlen_cons in L; pose proof (zlen_nonneg v); lia]. cbn [bind rd]. change (rd [x] 0) with (Ok x). cbn [bind]. rewrite put_ok by reflexivity.
    eexists. split; [reflexivity|]. split; [constructor; assumption|apply ie_TV; assumption].
  - destruct H as [NH L]. rewrite u8_small by (unfold is_byte; lia). cbv zeta. rewrite val_copy_all. cbn [bind]. rewrite put_ok by (rewrite !zlen_cons; lia). eexists. split; [reflexivity|].
    split; [repeat (constructor; [unfold is_byte; lia|]); assumption|apply ie_TLV; assumption].
  - destruct H as [NH L]. rewrite u16_small by (unfold is_u16; lia). cbv zeta. rewrite val_copy_all. cbn [bind]. destruct (len_split (zlen v)) as [-> ->]; [lia|]. rewrite put_ok by (rewrite !zlen_cons; lia). eexists. split; [reflexivity|].
    split; [repeat (constructor; [unfold is_byte; lia|]); assumption|apply ie_TL16V; assumption].
  - destruct H as [NH L]. rewrite u16_small by (unfold is_u16; lia). cbv zeta. rewrite val_copy_all. cbn [bind]. destruct (len_split (zlen v)) as [-> ->]; [lia|]. unfold TVLV_GROSS_LEN. destruct (zlen v <=? 127) eqn:G.
    + assert (LO : Z.lor (u8 (zlen v)) 128 = 128 + zlen v).
      { rewrite u8_small by (unfold is_byte; lia). change 128 with (Z.shiftl 1 7) at 1. rewrite lor_shiftl_add by (change (2 ^ 7) with 128; lia). lia. }
      rewrite LO, u16_small by (unfold is_u16; lia). rewrite put_ok by (rewrite !zlen_cons; lia). eexists. split; [reflexivity|].
      split; [repeat (constructor; [unfold is_byte; lia|]); assumption|apply ie_TvLV1; try assumption; lia].
    + rewrite u16_small by (unfold is_u16; lia). rewrite put_ok by (rewrite !zlen_cons; lia). eexists. split; [reflexivity|].
      split; [repeat (constructor; [unfold is_byte; lia|]); assumption|apply ie_TvLV2; assumption].
  - destruct H as [Lt NE]. destruct v as [|x v]; [congruence|]. change (rd (x :: v) 0) with (Ok x). cbn [bind]. rewrite put_ok by reflexivity. rewrite at0_0.
    assert (E : u8 (Z.lor (Z.shiftl t 4) (Z.land x 15)) = 16 * t + x mod 16).
    { change 15 with (Z.ones 4). rewrite Z.land_ones by lia. change (2 ^ 4) with 16. rewrite Z.lor_comm, lor_shiftl_add by (change (2 ^ 4) with 16; lia). change (2 ^ 4) with 16. unfold u8. lia. }
    rewrite E. eexists. split; [reflexivity|]. split; [constructor; [unfold is_byte; lia|constructor]|].
    replace t with ((16 * t + x mod 16) / 16) at 2 by lia. apply ie_half. replace ((16 * t + x mod 16) / 16) with t by lia. exact T.
  - destruct H as (NH & L & Lt). rewrite u16_small by (unfold is_u16; lia). cbv zeta. rewrite val_copy_all. cbn [bind]. unfold VTVLV_GAN_GROSS_LEN, vt_gan. replace (t >? 127) with false by lia.
    rewrite (u8_small t) by (unfold is_byte; lia). destruct (zlen v <=? 127) eqn:G.
    + replace (zlen v >? 127) with false by lia. rewrite u8_small by (unfold is_byte; lia). rewrite u16_small by (unfold is_u16; lia). cbn [app]. rewrite put_ok by (rewrite !zlen_cons; lia). eexists. split; [reflexivity|].
      split; [repeat (constructor; [unfold is_byte; lia|]); assumption|apply ie_GAN1; try assumption; lia].
    + replace (zlen v >? 127) with true by lia. destruct (len_split (zlen v)) as [_ ->]; [lia|].
      assert (LO : u8 (Z.lor 128 (Z.shiftr (zlen v) 8)) = 128 + zlen v / 256).
      { rewrite Z.shiftr_div_pow2 by lia. change (2 ^ 8) with 256. change 128 with (Z.shiftl 1 7) at 1. rewrite Z.lor_comm, lor_shiftl_add by (change (2 ^ 7) with 128; lia). change (2 ^ 7) with 128. unfold u8. rewrite Z.mod_small; lia. }
      rewrite LO, u16_small by (unfold is_u16; lia). cbn [app]. rewrite put_ok by (rewrite !zlen_cons; lia). eexists. split; [reflexivity|].
      split; [repeat (constructor; [unfold is_byte; lia|]); assumption|apply ie_GAN2; assumption].
Qed.
(* the elements of a set, in a given order *)
Definition elements (def : tlv_definition) (tp : tlv_values) (order : list Z) : list (Z * list Z) :=
  flat_map (fun t => match tp t with Some v => [(t, received def t v)] | None => [] end) order.
Lemma encode_ordered_ies def tp order : (forall t, 0 <= snd (def t) < 256) -> Forall (fun t => 0 <= t < 256) order -> (forall t v, In t order -> tp t = Some v -> encodable def t v) ->
  exists e, tlv_encode_ordered def tp order = Ok e /\ bytes e /\ ies def e (elements def tp order).
Proof.
  intros F O E. induction order as [|t r IH]; [exists []; repeat split; constructor|]. inversion O as [|? ? Ht Or]; subst.
  destruct IH as (e & E1 & B1 & I1); [exact Or|intros; apply E; [right|]; assumption|]. cbn [tlv_encode_ordered elements flat_map]. fold (elements def tp r). destruct (tp t) as [v|] eqn:T.
  - destruct (encode_one_ie def t v Ht (F t)) as (a & E2 & B2 & I2); [apply E; [left; reflexivity|exact T]|]. rewrite E2, E1. cbn [bind]. exists (a ++ e). split; [reflexivity|].
    split; [apply Forall_app; split; assumption|]. cbn [app]. constructor; assumption.
  - exists e. repeat split; assumption.
Qed.
Lemma occ_elements def tp t order : NoDup order -> occurrences t (elements def tp order) = if in_dec Z.eq_dec t order then match tp t with Some v => [received def t v] | None => [] end else [].
Proof.
  intros N. induction order as [|x r IH]; [reflexivity|]. inversion N as [|? ? NI Nr]; subst. cbn [elements flat_map]. fold (elements def tp r). rewrite occ_app, IH by exact Nr.
  assert (H : occurrences t (match tp x with Some v => [(x, received def x v)] | None => [] end) = if Z.eq_dec x t then match tp t with Some v => [received def t v] | None => [] end else []).
  { destruct (Z.eq_dec x t) as [->|NE]; [destruct (tp t)|destruct (tp x)]; unfold occurrences; cbn; try reflexivity; [rewrite Z.eqb_refl; reflexivity|replace (x =? t) with false by lia; reflexivity]. }
  rewrite H. destruct (in_dec Z.eq_dec t (x :: r)) as [I|I]; destruct (in_dec Z.eq_dec t r) as [I'|I']; destruct (Z.eq_dec x t) as [->|NE]; try contradiction; try reflexivity.
  - apply app_nil_r.
  - exfalso. destruct I; congruence.
  - exfalso. apply I. right; exact I'.
  - exfalso. apply I. left; reflexivity.
Qed.
Lemma seq_NoDup n : forall a, NoDup (zseq a n).
Proof. induction n as [|n IH]; intros a; cbn [zseq]; constructor; [rewrite zseq_In; lia|apply IH]. Qed.
Lemma ies_nil_inv def l : ies def [] l -> l = [].
Proof. intros I. inversion I as [|e ? ? ? ? IE ? K]; [reflexivity|]. pose proof (ie_len _ _ _ _ IE) as L. destruct e; [rewrite zlen_nil in L; lia|discriminate]. Qed.
Lemma message_fun def lv1 lv2 buf l l' : message def lv1 lv2 buf l -> message def lv1 lv2 buf l' -> l = l'.
Proof.
  intros (r1 & r2 & a & b & c & X & Y & W & ->) (r1' & r2' & a' & b' & c' & X' & Y' & W' & ->).
  destruct (lead_fun _ _ _ _ _ _ X X') as [<- <-]. destruct (lead_fun _ _ _ _ _ _ Y Y') as [<- <-].
  destruct (ies_split _ _ _ W [] c') as (l2 & I2 & ->); [rewrite app_nil_r; exact W'|]. rewrite (ies_nil_inv _ _ I2), app_nil_r. reflexivity.
Qed.
