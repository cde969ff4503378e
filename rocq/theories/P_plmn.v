From Verif Require Import Base Lib Str S_num M_num P_num P_num2 S_plmn M_plmn P_numtext.

Lemma lor4 x y : 0 <= x < 16 -> 0 <= y < 16 -> u8 (Z.lor x (Z.shiftl y 4)) = x + 16 * y.
Proof. intros. rewrite lor_shiftl_add by (change (2 ^ 4) with 16; lia). change (2 ^ 4) with 16. rewrite u8_small by (unfold is_byte; lia). lia. Qed.
Lemma land15 x : Z.land x 15 = x mod 16.
Proof. change 15 with (Z.ones 4). rewrite Z.land_ones by lia. reflexivity. Qed.
Lemma shr4 x : Z.shiftr x 4 = x / 16.
Proof. rewrite Z.shiftr_div_pow2 by lia. reflexivity. Qed.
Lemma land240 x : is_byte x -> (Z.land x 240 =? 240) = (x / 16 =? 15).
Proof. intros H. pose proof (forall_byte (fun x => Bool.eqb (Z.land x 240 =? 240) (x / 16 =? 15)) ltac:(vm_compute; reflexivity) x H) as G. apply eqb_prop in G. exact G. Qed.

Lemma to_bcd_digits a b c : 0 <= a <= 9 -> 0 <= b <= 9 -> 0 <= c <= 9 -> to_bcd (100 * a + 10 * b + c) = (a, b, c).
Proof. intros. unfold to_bcd. f_equal; [f_equal|]; lia. Qed.

Lemma plmn_to_bcd_3 c1 c2 c3 n1 n2 n3 f : is_digit c1 -> is_digit c2 -> is_digit c3 -> is_digit n1 -> is_digit n2 -> is_digit n3 ->
  n1 <> 0 \/ f = true ->
  osmo_plmn_to_bcd (mkplmn (100 * c1 + 10 * c2 + c3) (100 * n1 + 10 * n2 + n3) f) = plmn_octets c1 c2 c3 n1 n2 n3.
Proof.
  unfold is_digit. intros. unfold osmo_plmn_to_bcd. cbn [mcc mnc mnc3]. rewrite !to_bcd_digits by lia.
  replace ((100 * n1 + 10 * n2 + n3 >? 99) || f) with true by (destruct H5 as [H5 | ->]; [|rewrite orb_true_r; reflexivity]; destruct (100 * n1 + 10 * n2 + n3 >? 99) eqn:E; [reflexivity|lia]).
  rewrite !lor4 by lia. reflexivity.
Qed.
Lemma plmn_to_bcd_2 c1 c2 c3 n1 n2 : is_digit c1 -> is_digit c2 -> is_digit c3 -> is_digit n1 -> is_digit n2 ->
  osmo_plmn_to_bcd (mkplmn (100 * c1 + 10 * c2 + c3) (10 * n1 + n2) false) = plmn_octets c1 c2 c3 n1 n2 15.
Proof.
  unfold is_digit. intros. unfold osmo_plmn_to_bcd. cbn [mcc mnc mnc3]. replace (10 * n1 + n2) with (100 * 0 + 10 * n1 + n2) by lia. rewrite !to_bcd_digits by lia.
  replace ((100 * 0 + 10 * n1 + n2 >? 99) || false) with false by (rewrite orb_false_r; lia).
  rewrite !lor4 by lia. reflexivity.
Qed.
Lemma plmn_from_bcd c1 c2 c3 n1 n2 n3 : is_digit c1 -> is_digit c2 -> is_digit c3 -> is_digit n1 -> is_digit n2 -> is_digit n3 \/ n3 = 15 ->
  osmo_plmn_from_bcd (c1 + 16 * c2) (c3 + 16 * n3) (n1 + 16 * n2) =
  if n3 =? 15 then mkplmn (100 * c1 + 10 * c2 + c3) (10 * n1 + n2) false else mkplmn (100 * c1 + 10 * c2 + c3) (100 * n1 + 10 * n2 + n3) true.
Proof.
  unfold is_digit. intros. unfold osmo_plmn_from_bcd. rewrite land240 by (unfold is_byte; lia). rewrite !land15, !shr4.
  replace ((c3 + 16 * n3) / 16) with n3 by lia. replace ((c1 + 16 * c2) mod 16) with c1 by lia. replace ((c1 + 16 * c2) / 16) with c2 by lia.
  replace ((c3 + 16 * n3) mod 16) with c3 by lia. replace ((n1 + 16 * n2) mod 16) with n1 by lia. replace ((n1 + 16 * n2) / 16) with n2 by lia.
  unfold u16. rewrite !Z.mod_small by lia. destruct (n3 =? 15); f_equal; lia.
Qed.

Lemma split3 x : 0 <= x <= 999 -> exists a b c, is_digit a /\ is_digit b /\ is_digit c /\ x = 100 * a + 10 * b + c.
Proof. intros. exists (x / 100), (x / 10 mod 10), (x mod 10). unfold is_digit. lia. Qed.
Lemma split2 x : 0 <= x <= 99 -> exists b c, is_digit b /\ is_digit c /\ x = 10 * b + c.
Proof. intros. exists (x / 10), (x mod 10). unfold is_digit. lia. Qed.

Lemma plmn_round p : 0 <= mcc p <= 999 -> 0 <= mnc p <= 999 ->
  exists b0 b1 b2, osmo_plmn_to_bcd p = [b0; b1; b2] /\ osmo_plmn_from_bcd b0 b1 b2 = mkplmn (mcc p) (mnc p) (mnc3 p || (mnc p >? 99)).
Proof.
  destruct p as [c n f]. cbn [mcc mnc mnc3]. intros Hc Hn. destruct (split3 c Hc) as (c1 & c2 & c3 & ? & ? & ? & ->).
  destruct (f || (n >? 99)) eqn:E.
  - destruct (split3 n Hn) as (n1 & n2 & n3 & ? & ? & ? & ->).
    rewrite plmn_to_bcd_3; try assumption.
    + eexists _, _, _. split; [reflexivity|]. rewrite plmn_from_bcd by tauto. unfold is_digit in *. replace (n3 =? 15) with false by lia. reflexivity.
    + unfold is_digit in *. destruct f; [auto|]. left. cbn [orb] in E. lia.
  - apply orb_false_iff in E as [-> E]. destruct (split2 n ltac:(lia)) as (n1 & n2 & ? & ? & ->). rewrite plmn_to_bcd_2; try assumption.
    eexists _, _, _. split; [reflexivity|]. rewrite plmn_from_bcd by tauto. reflexivity.
Qed.
(* every PLMN structure, in range or not: numbers are reduced modulo 1000 *)
Lemma to_bcd_mod x : 0 <= x -> to_bcd x = to_bcd (x mod 1000).
Proof.
  intros. assert (E : exists q r, 0 <= q /\ 0 <= r < 1000 /\ x = 1000 * q + r) by (exists (x / 1000), (x mod 1000); lia).
  destruct E as (q & r & Hq & Hr & ->). replace ((1000 * q + r) mod 1000) with r by lia. unfold to_bcd.
  replace ((1000 * q + r) / 10) with (100 * q + r / 10) by lia. replace ((100 * q + r / 10) / 10) with (10 * q + r / 10 / 10) by lia.
  f_equal; [f_equal|]; lia.
Qed.

(* --- ordering --- *)
Lemma lex_app a b x y : length a = length b -> lex (a ++ [x]) (b ++ [y]) = then_cmp (lex a b) x y.
Proof.
  revert b; induction a as [|p a IH]; intros [|q b] L; cbn [length] in L; try lia.
  - cbn [app lex]. unfold then_cmp. cbn [Z.eqb negb]. rewrite Z.gtb_ltb. destruct (x <? y), (y <? x); reflexivity.
  - cbn [app lex]. rewrite IH by lia. destruct (p <? q); [reflexivity|]. destruct (q <? p); reflexivity.
Qed.
Lemma lex_rng a : forall b, lex a b = -1 \/ lex a b = 0 \/ lex a b = 1.
Proof. induction a as [|p a IH]; intros [|q b]; cbn [lex]; auto. destruct (p <? q); auto. destruct (q <? p); auto. Qed.
Lemma lex_anti a : forall b, lex b a = - lex a b.
Proof. induction a as [|p a IH]; intros [|q b]; cbn [lex]; auto. destruct (Z.ltb_spec p q), (Z.ltb_spec q p); try lia; auto. Qed.
Lemma lex_zero a : forall b, length a = length b -> lex a b = 0 <-> a = b.
Proof.
  induction a as [|p a IH]; intros [|q b] L; cbn [length lex] in *; try lia; [tauto|].
  destruct (Z.ltb_spec p q); [split; [lia|intros E; injection E; lia]|]. destruct (Z.ltb_spec q p); [split; [lia|intros E; injection E; lia]|].
  rewrite IH by lia. split; [intros ->; f_equal; lia|intros E; injection E; auto].
Qed.
Lemma lex_trans a : forall b c, length a = length b -> length b = length c -> lex a b <= 0 -> lex b c <= 0 -> lex a c <= 0.
Proof.
  induction a as [|p a IH]; intros [|q b] [|r c] L1 L2; cbn [length lex] in *; try lia.
  destruct (Z.ltb_spec p q), (Z.ltb_spec q r), (Z.ltb_spec q p), (Z.ltb_spec r q), (Z.ltb_spec p r), (Z.ltb_spec r p); try lia.
  intros. eapply IH; [| |eassumption|eassumption]; lia.
Qed.
Lemma lex_order {A} (cmp : A -> A -> Z) key n : (forall a, length (key a) = n) -> (forall a b, cmp a b = lex (key a) (key b)) -> total_order cmp key.
Proof.
  intros L E. unfold total_order. split; [exact E|]. split; [intros; rewrite E; apply lex_rng|].
  split; [intros; rewrite !E; apply lex_anti|]. split; [intros a b c; rewrite !E; apply lex_trans; rewrite !L; reflexivity|].
  intros; rewrite E. apply lex_zero. rewrite !L. reflexivity.
Qed.
Lemma plmn_cmp_lex a b : osmo_plmn_cmp a b = lex (plmn_key a) (plmn_key b).
Proof.
  unfold osmo_plmn_cmp, osmo_mnc_cmp, plmn_key. cbn [lex]. destruct (Z.ltb_spec (mcc a) (mcc b)); [reflexivity|].
  destruct (Z.ltb_spec (mcc b) (mcc a)); [replace (mcc a >? mcc b) with true by lia; reflexivity|]. replace (mcc a >? mcc b) with false by lia.
  destruct (Z.ltb_spec (mnc a) (mnc b)); [reflexivity|].
  destruct (Z.ltb_spec (mnc b) (mnc a)); [replace (mnc a >? mnc b) with true by lia; reflexivity|]. replace (mnc a >? mnc b) with false by lia.
  replace (mnc b) with (mnc a) by lia. destruct (mnc a <? 100); destruct (mnc3 a), (mnc3 b); reflexivity.
Qed.
Lemma plmn_key_len p : length (plmn_key p) = 3%nat. Proof. reflexivity. Qed.
Lemma lai_cmp_lex a b : osmo_lai_cmp a b = lex (lai_key a) (lai_key b).
Proof. unfold osmo_lai_cmp, lai_key. rewrite lex_app by reflexivity. rewrite plmn_cmp_lex. reflexivity. Qed.
Lemma rai_cmp_lex a b : osmo_rai_cmp a b = lex (rai_key a) (rai_key b).
Proof. unfold osmo_rai_cmp, rai_key. rewrite lex_app by reflexivity. rewrite lai_cmp_lex. reflexivity. Qed.
Lemma cgi_cmp_lex a b : osmo_cgi_cmp a b = lex (cgi_key a) (cgi_key b).
Proof. unfold osmo_cgi_cmp, cgi_key. rewrite lex_app by reflexivity. rewrite lai_cmp_lex. reflexivity. Qed.
Lemma cgi_ps_cmp_lex a b : osmo_cgi_ps_cmp a b = lex (cgi_ps_key a) (cgi_ps_key b).
Proof. unfold osmo_cgi_ps_cmp, cgi_ps_key. rewrite lex_app by reflexivity. rewrite rai_cmp_lex. reflexivity. Qed.
Lemma rnc_cmp_lex a b : osmo_rnc_id_cmp a b = lex (rnc_key a) (rnc_key b).
Proof. unfold osmo_rnc_id_cmp, rnc_key. rewrite lex_app by reflexivity. rewrite plmn_cmp_lex. reflexivity. Qed.
Lemma mme_cmp_lex a b : osmo_mme_id_cmp a b = lex (mme_key a) (mme_key b).
Proof.
  unfold osmo_mme_id_cmp, mme_key. cbn [lex]. destruct (Z.ltb_spec (group_id a) (group_id b)); [reflexivity|].
  destruct (Z.ltb_spec (group_id b) (group_id a)); [replace (group_id a >? group_id b) with true by lia; reflexivity|]. replace (group_id a >? group_id b) with false by lia.
  destruct (Z.ltb_spec (mme_code a) (mme_code b)); [reflexivity|].
  destruct (Z.ltb_spec (mme_code b) (mme_code a)); [replace (mme_code a >? mme_code b) with true by lia; reflexivity|]. replace (mme_code a >? mme_code b) with false by lia. reflexivity.
Qed.
Lemma lex_app2 a b c d : length a = length b -> lex (a ++ c) (b ++ d) = if negb (lex a b =? 0) then lex a b else lex c d.
Proof.
  revert b; induction a as [|p a IH]; intros [|q b] L; cbn [length] in L; try lia; [reflexivity|].
  cbn [app lex]. rewrite IH by lia. destruct (p <? q); [reflexivity|]. destruct (q <? p); reflexivity.
Qed.
Lemma gummei_cmp_lex a b : osmo_gummei_cmp a b = lex (gummei_key a) (gummei_key b).
Proof. unfold osmo_gummei_cmp, gummei_key. rewrite lex_app2 by reflexivity. rewrite plmn_cmp_lex, mme_cmp_lex. reflexivity. Qed.

(* --- digits --- *)
Lemma n_digits_loop_spec s : forall len max, 0 <= len <= max ->
  n_digits_loop s len max =
  if forallb isdigit (firstn (Z.to_nat (max - len)) s) then Some (len + Z.min (zlen s) (max - len), skipn (Z.to_nat (max - len)) s) else None.
Proof.
  induction s as [|c s IH]; intros len max H; cbn [n_digits_loop].
  - rewrite firstn_nil, skipn_nil. cbn [forallb]. change (zlen (@nil Z)) with 0. f_equal. f_equal. lia.
  - destruct (Z.ltb_spec len max).
    + replace (Z.to_nat (max - len)) with (S (Z.to_nat (max - (len + 1)))) by lia. cbn [firstn forallb skipn].
      destruct (isdigit c); cbn [negb andb]; [|reflexivity]. rewrite IH by lia. destruct (forallb _ _); [|reflexivity]. rewrite zlen_cons. f_equal. f_equal. pose proof (zlen_nonneg s). lia.
    + replace (max - len) with 0 by lia. cbn [Z.to_nat firstn forallb skipn]. f_equal. f_equal. pose proof (zlen_nonneg (c :: s)). lia.
Qed.
Lemma is_n_digits_spec s mn mx : 0 <= mn <= mx -> is_n_digits s mn mx = true <-> (mn <= zlen s <= mx /\ Forall dchar s).
Proof.
  intros H. unfold is_n_digits. rewrite n_digits_loop_spec by lia. rewrite Z.add_0_l, Z.sub_0_r. pose proof (zlen_nonneg s).
  assert (FD : forall l, forallb isdigit l = true <-> Forall dchar l).
  { intros l. rewrite forallb_forall, Forall_forall. unfold isdigit, dchar. split; intros G x Hx; specialize (G x Hx); cbv beta in *; lia. }
  destruct (Z_le_gt_dec (zlen s) mx) as [L|L].
  - rewrite firstn_all2, skipn_all2 by (unfold zlen in L; lia). rewrite Z.min_l by lia.
    destruct (forallb isdigit s) eqn:E.
    + apply FD in E. destruct (Z.ltb_spec (zlen s) mn); split; try tauto; try discriminate; lia.
    + split; [discriminate|]. intros [_ F]. apply FD in F. congruence.
  - split; [|lia]. destruct (forallb isdigit (firstn (Z.to_nat mx) s)); [|discriminate]. destruct (_ <? mn); [discriminate|].
    destruct (skipn (Z.to_nat mx) s) eqn:E; [|discriminate]. apply (f_equal (@length Z)) in E. rewrite skipn_length in E. unfold zlen in L. cbn [length] in E. lia.
Qed.

Lemma dchar_ascii s : Forall dchar s -> exists ds, Forall is_digit ds /\ s = ascii ds.
Proof.
  intros F. exists (map (fun c => c - 48) s). split.
  - apply Forall_map. eapply Forall_impl; [|exact F]. unfold dchar, is_digit. intros; lia.
  - unfold ascii. rewrite map_map. rewrite <- (map_id s) at 1. apply map_ext. intros; lia.
Qed.
Lemma imei_valid_spec s : (exists b, osmo_imei_str_valid s true = Ok b) /\
  (osmo_imei_str_valid s true = Ok true <-> exists ds, zlen ds = 15 /\ Forall is_digit ds /\ s = ascii ds /\ luhn_valid ds).
Proof.
  unfold osmo_imei_str_valid. destruct (is_n_digits s 15 15) eqn:E.
  - apply is_n_digits_spec in E; [|lia]. destruct E as [L F]. destruct (dchar_ascii s F) as (ds & Fd & ->).
    assert (Ld : zlen ds = 15) by (unfold ascii in L; rewrite zlen_map in L; lia).
    destruct ds as [|d d14 _] using rev_ind; [change (zlen (@nil Z)) with 0 in Ld; lia|].
    rewrite zlen_app in Ld. change (zlen [d]) with 1 in Ld. apply Forall_app in Fd as [F14 F1]. inversion F1 as [|? ? Hd _]; subst.
    assert (E2 : ascii (d14 ++ [d]) = ascii d14 ++ [d + 48]) by (unfold ascii; rewrite map_app; reflexivity).
    assert (E14 : zlen (ascii d14) = 14) by (unfold ascii; rewrite zlen_map; lia).
    destruct (luhn_spec d14 [d + 48] F14 ltac:(lia)) as (c & Hc & EL & V & U). rewrite E2.
    replace (zlen d14) with 14 in EL by lia. rewrite EL. cbn [bind].
    assert (R : rd (ascii d14 ++ [d + 48]) 14 = Ok (d + 48)).
    { rewrite rd_at0 by (rewrite zlen_app, E14; change (zlen [d + 48]) with 1; lia). f_equal. unfold at0. rewrite app_nth2; unfold zlen in E14; [|lia]. replace (Z.to_nat 14 - length (ascii d14))%nat with 0%nat by lia. reflexivity. }
    rewrite R. cbn [bind]. split; [eexists; reflexivity|]. split.
    + intros Q. injection Q as Q. assert (c = d) by lia. subst c. exists (d14 ++ [d]). rewrite zlen_app. change (zlen [d]) with 1. split; [lia|]. split; [apply Forall_app; auto|]. split; [symmetry; exact E2|exact V].
    + intros (ds & L15 & Fds & Eds & Vds). f_equal. assert (ds = d14 ++ [d]).
      { assert (Inj : forall a b, ascii a = ascii b -> a = b).
        { induction a as [|x a IHa]; intros [|y b] Q; cbn in Q; try discriminate; auto. injection Q as Q1 Q2. f_equal; [lia|apply IHa; exact Q2]. }
        apply Inj. rewrite <- Eds. symmetry. exact E2. }
      subst ds. specialize (U d Hd Vds). subst. lia.
  - split; [eexists; reflexivity|]. split; [discriminate|]. intros (ds & L & F & -> & _). exfalso.
    assert (is_n_digits (ascii ds) 15 15 = true); [|congruence]. apply is_n_digits_spec; [lia|]. unfold ascii. rewrite zlen_map. split; [lia|].
    apply Forall_map. eapply Forall_impl; [|exact F]. unfold dchar, is_digit. intros; lia.
Qed.

(* --- names --- *)
Definition no_dash (c : Z) : Prop := c <> 45.
Lemma sep_inj a b x y : Forall no_dash a -> Forall no_dash b -> a ++ [45] ++ x = b ++ [45] ++ y -> a = b /\ x = y.
Proof.
  revert b; induction a as [|p a IH]; intros [|q b] Fa Fb E; cbn [app] in E.
  - injection E as E. auto.
  - injection E as E1 E2. inversion Fb; subst. unfold no_dash in *. congruence.
  - injection E as E1 E2. inversion Fa; subst. unfold no_dash in *. congruence.
  - injection E as E1 E2. inversion Fa; inversion Fb; subst. destruct (IH b) as [I1 I2]; auto. subst. auto.
Qed.
Lemma dec_no_dash n : u16v n -> Forall no_dash (dec n).
Proof. intros H. unfold u16v in H. eapply Forall_impl; [|apply dec_dchar; lia]. unfold dchar, no_dash. intros; lia. Qed.
Lemma hex_no_dash n : u16v n -> Forall no_dash (hex n).
Proof.
  intros H. unfold u16v in H. unfold hex. destruct (ndig_spec 16 20 ltac:(lia) n ltac:(lia) ltac:(lia)) as (_ & I2 & _).
  apply Forall_map. eapply Forall_impl; [|exact I2]. cbv beta. intros d Hd. unfold dig_char, no_dash. destruct (d <? 10); lia.
Qed.
Lemma pad_no_dash w s : Forall no_dash s -> Forall no_dash (pad0 w s).
Proof. apply pad0_Forall. unfold no_dash. lia. Qed.
Lemma dec_inj a b : u16v a -> u16v b -> dec a = dec b -> a = b.
Proof. unfold u16v. intros Ha Hb E. rewrite <- (strval_dec0 a), <- (strval_dec0 b) by lia. rewrite E. reflexivity. Qed.
Lemma pad_dec_inj w a v b : u16v a -> u16v b -> pad0 w (dec a) = pad0 v (dec b) -> a = b.
Proof. unfold u16v. intros Ha Hb E. rewrite <- (strval_dec w a), <- (strval_dec v b) by lia. rewrite E. reflexivity. Qed.
Lemma pad_hex_inj w a b : u16v a -> u16v b -> pad0 w (hex a) = pad0 w (hex b) -> a = b.
Proof. unfold u16v. intros Ha Hb E. rewrite <- (strval_hex w a), <- (strval_hex w b) by lia. rewrite E. reflexivity. Qed.
Lemma dec16_len n : u16v n -> 1 <= zlen (dec n) <= 5.
Proof.
  unfold u16v. intros H. pose proof (dec_len n 5 ltac:(lia) ltac:(lia)). pose proof (dec_nonempty n ltac:(lia)). unfold zlen. destruct (dec n); [congruence|cbn [length] in *; lia].
Qed.
Lemma hex16_len n : u16v n -> zlen (hex n) <= 4.
Proof. unfold u16v. intros H. pose proof (hex_len n 4 ltac:(lia) ltac:(lia)). unfold zlen. lia. Qed.
Lemma pad_zlen w s : zlen (pad0 w s) = Z.max (Z.of_nat w) (zlen s).
Proof. unfold zlen. rewrite pad0_len. lia. Qed.

Lemma mnc_name_inj a f b g : u16v a -> u16v b -> osmo_mnc_name a f = osmo_mnc_name b g <-> (a = b /\ (if (a <? 100) && f then 1 else 0) = (if (b <? 100) && g then 1 else 0)).
Proof.
  intros Ha Hb. unfold osmo_mnc_name. split.
  - intros E. assert (a = b) by (apply (pad_dec_inj _ _ _ _ Ha Hb E)). subst b. split; [reflexivity|].
    destruct (Z.ltb_spec a 100); [|reflexivity]. cbn [andb]. unfold u16v in *. pose proof (dec_len a 2 ltac:(lia) ltac:(lia)).
    apply (f_equal (@length Z)) in E. rewrite !pad0_len in E. destruct f, g; auto; lia.
  - intros [<- E]. destruct (Z.ltb_spec a 100); cbn [andb] in E.
    + destruct f, g; try lia; reflexivity.
    + unfold u16v in *. pose proof (dec_len_lower a 2 ltac:(lia) ltac:(lia)). unfold pad0.
      replace ((if f then 3 else 2) - length (dec a))%nat with 0%nat by (destruct f; lia). replace ((if g then 3 else 2) - length (dec a))%nat with 0%nat by (destruct g; lia). reflexivity.
Qed.
Lemma mnc_no_dash a f : u16v a -> Forall no_dash (osmo_mnc_name a f).
Proof. intros. apply pad_no_dash, dec_no_dash; auto. Qed.
Lemma mcc_no_dash a : u16v a -> Forall no_dash (osmo_mcc_name a).
Proof. intros. apply pad_no_dash, dec_no_dash; auto. Qed.
Lemma snoc_eq (a b : list Z) x y : a ++ [x] = b ++ [y] <-> a = b /\ x = y.
Proof. split; [apply app_inj_tail|]. intros [-> ->]. reflexivity. Qed.
Lemma list3_eq (a b c d e f : Z) : [a; b; c] = [d; e; f] <-> a = d /\ b = e /\ c = f.
Proof. split; [intros E; injection E; auto|intros (-> & -> & ->); reflexivity]. Qed.

(* a PLMN name followed by more *)
Lemma plmn_name_tail p q x y : wf_plmn p -> wf_plmn q ->
  osmo_plmn_name p ++ [45] ++ x = osmo_plmn_name q ++ [45] ++ y <-> plmn_key p = plmn_key q /\ x = y.
Proof.
  intros [Hp1 Hp2] [Hq1 Hq2]. unfold osmo_plmn_name, plmn_key. rewrite <- !app_assoc. rewrite list3_eq. split.
  - intros E. apply sep_inj in E as [E1 E]; try (apply mcc_no_dash; assumption). apply sep_inj in E as [E2 E3]; try (apply mnc_no_dash; assumption).
    apply mnc_name_inj in E2; try assumption. apply pad_dec_inj in E1; try assumption. tauto.
  - intros [(E1 & E2 & E3) ->]. rewrite E1. assert (M : osmo_mnc_name (mnc p) (mnc3 p) = osmo_mnc_name (mnc q) (mnc3 q)) by (apply mnc_name_inj; tauto). rewrite M. reflexivity.
Qed.
Lemma plmn_name_inj p q : wf_plmn p -> wf_plmn q -> osmo_plmn_name p = osmo_plmn_name q <-> plmn_key p = plmn_key q.
Proof.
  intros Hp Hq. pose proof (plmn_name_tail p q [] [] Hp Hq) as T. split.
  - intros E. apply T. rewrite E. reflexivity.
  - intros E. assert (E' : plmn_key p = plmn_key q /\ @nil Z = []) by auto. apply T in E'. apply app_inj_tail in E'. tauto.
Qed.
Lemma plmn_name_len p : wf_plmn p -> zlen (osmo_plmn_name p) <= 11.
Proof.
  intros [H1 H2]. unfold osmo_plmn_name, osmo_mcc_name, osmo_mnc_name. rewrite !zlen_app, !pad_zlen. change (zlen [45]) with 1. pose proof (dec16_len _ H1). pose proof (dec16_len _ H2). destruct (mnc3 p); lia.
Qed.
Lemma names_plmn : names wf_plmn osmo_plmn_name plmn_key 16.
Proof. split; [intros a H; pose proof (plmn_name_len a H); lia|apply plmn_name_inj]. Qed.
Lemma names_lai : names wf_lai osmo_lai_name lai_key 32.
Proof.
  split.
  - intros a [H1 H2]. unfold osmo_lai_name. rewrite !zlen_app. change (zlen [45]) with 1. pose proof (plmn_name_len _ H1). pose proof (dec16_len _ H2). lia.
  - intros a b [H1 H2] [H3 H4]. unfold osmo_lai_name, lai_key. rewrite snoc_eq, plmn_name_tail by assumption. split; intros [E1 E2]; (split; [exact E1|]); [apply dec_inj; assumption|rewrite E2; reflexivity].
Qed.
Lemma u8_u16v x : 0 <= x < 256 -> u16v x. Proof. unfold u16v. lia. Qed.
Lemma names_rai : names wf_rai osmo_rai_name2 rai_key 32.
Proof.
  split.
  - intros a [[H1 H2] H3]. apply u8_u16v in H3. unfold osmo_rai_name2. rewrite !zlen_app. change (zlen [45]) with 1. pose proof (plmn_name_len _ H1). pose proof (dec16_len _ H2). pose proof (dec16_len _ H3). lia.
  - intros a b [[H1 H2] H3] [[G1 G2] G3]. apply u8_u16v in H3, G3. unfold osmo_rai_name2, rai_key, lai_key. rewrite !snoc_eq, plmn_name_tail by assumption. split.
    + intros [E1 E2]. apply sep_inj in E2 as [E2 E3]; try (apply dec_no_dash; assumption). apply dec_inj in E2, E3; auto.
    + intros [[E1 E2] E3]. rewrite E2, E3. auto.
Qed.
Lemma names_cgi : names wf_cgi osmo_cgi_name cgi_key 32.
Proof.
  split.
  - intros a [H1 H2]. unfold osmo_cgi_name, osmo_lai_name. destruct H1 as [H1 H3]. rewrite !zlen_app. change (zlen [45]) with 1. pose proof (plmn_name_len _ H1). pose proof (dec16_len _ H2). pose proof (dec16_len _ H3). lia.
  - intros a b [[H1 H2] H3] [[G1 G2] G3].
    assert (N : forall c, osmo_cgi_name c = osmo_plmn_name (lai_plmn (cgi_lai c)) ++ [45] ++ (dec (lac (cgi_lai c)) ++ [45] ++ dec (cell_identity c))) by (intros c; unfold osmo_cgi_name, osmo_lai_name; rewrite <- !app_assoc; reflexivity).
    rewrite !N. unfold cgi_key, lai_key. rewrite !snoc_eq, plmn_name_tail by assumption. split.
    + intros [E1 E2]. apply sep_inj in E2 as [E2 E3]; try (apply dec_no_dash; assumption). apply dec_inj in E2, E3; auto.
    + intros [[E1 E2] E3]. rewrite E2, E3. auto.
Qed.
Lemma names_rnc : names wf_rnc osmo_rnc_id_name rnc_key 32.
Proof.
  split.
  - intros a [H1 H2]. unfold osmo_rnc_id_name. rewrite !zlen_app. change (zlen [45]) with 1. pose proof (plmn_name_len _ H1). pose proof (dec16_len _ H2). lia.
  - intros a b [H1 H2] [H3 H4]. unfold osmo_rnc_id_name, rnc_key. rewrite snoc_eq, plmn_name_tail by assumption. split; intros [E1 E2]; (split; [exact E1|]); [apply dec_inj; assumption|rewrite E2; reflexivity].
Qed.
Lemma names_cgi_ps : names wf_cgi_ps osmo_cgi_ps_name cgi_ps_key 32.
Proof.
  split.
  - intros a [[[H1 H2] H3] H4]. apply u8_u16v in H3. unfold osmo_cgi_ps_name, osmo_rai_name2. rewrite !zlen_app. change (zlen [45]) with 1. pose proof (plmn_name_len _ H1). pose proof (dec16_len _ H2). pose proof (dec16_len _ H3). pose proof (dec16_len _ H4). lia.
  - intros a b [[[H1 H2] H3] H4] [[[G1 G2] G3] G4]. apply u8_u16v in H3, G3.
    assert (N : forall c, osmo_cgi_ps_name c = osmo_plmn_name (lai_plmn (rai_lac (cgi_ps_rai c))) ++ [45] ++ (dec (lac (rai_lac (cgi_ps_rai c))) ++ [45] ++ (dec (rac (cgi_ps_rai c)) ++ [45] ++ dec (ps_cell_identity c)))) by (intros c; unfold osmo_cgi_ps_name, osmo_rai_name2; rewrite <- !app_assoc; reflexivity).
    rewrite !N. unfold cgi_ps_key, rai_key, lai_key. rewrite !snoc_eq, plmn_name_tail by assumption. split.
    + intros [E1 E2]. apply sep_inj in E2 as [E2 E3]; try (apply dec_no_dash; assumption). apply sep_inj in E3 as [E3 E4]; try (apply dec_no_dash; assumption). apply dec_inj in E2, E3, E4; auto.
    + intros [[[E1 E2] E3] E4]. rewrite E2, E3, E4. auto.
Qed.
Lemma names_gummei : names wf_gummei osmo_gummei_name gummei_key 32.
Proof.
  split.
  - intros a (H1 & H2 & H3). apply u8_u16v in H3. unfold osmo_gummei_name. rewrite !zlen_app, !pad_zlen. change (zlen [45]) with 1. pose proof (plmn_name_len _ H1). pose proof (hex16_len _ H2). pose proof (hex16_len _ H3). lia.
  - intros a b (H1 & H2 & H3) (G1 & G2 & G3). apply u8_u16v in H3, G3. unfold osmo_gummei_name, gummei_key, mme_key. rewrite plmn_name_tail by assumption. split.
    + intros [E1 E2]. apply sep_inj in E2 as [E2 E3]; try (apply pad_no_dash, hex_no_dash; assumption). apply pad_hex_inj in E2, E3; try assumption. rewrite E1, E2, E3. reflexivity.
    + intros E. assert (E' : plmn_key (gummei_plmn a) = plmn_key (gummei_plmn b) /\ [group_id (gummei_mme a); mme_code (gummei_mme a)] = [group_id (gummei_mme b); mme_code (gummei_mme b)]).
      { unfold plmn_key in *. cbn [app] in E. injection E. intros. split; congruence. }
      destruct E' as [E1 E2]. injection E2 as E2 E3. rewrite E2, E3. auto.
Qed.

(* --- MNC strings --- *)
Lemma c_digit10 c : c_digit 10 c = if isdigit c then Some (c - 48) else None.
Proof.
  unfold c_digit, isdigit. destruct ((48 <=? c) && (c <=? 57)) eqn:E; [replace (c - 48 <? 10) with true by lia; reflexivity|].
  destruct ((65 <=? c) && (c <=? 90)) eqn:E2; [replace (c - 55 <? 10) with false by lia; reflexivity|].
  destruct ((97 <=? c) && (c <=? 122)) eqn:E3; [replace (c - 87 <? 10) with false by lia; reflexivity|]. reflexivity.
Qed.
Lemma char_dig_digit c : isdigit c = true -> char_dig c = c - 48.
Proof. unfold isdigit, char_dig. intros. replace (c <? 58) with true by lia. reflexivity. Qed.
Lemma not_space c : isdigit c = true -> c_isspace c = false /\ (c =? 45) = false /\ (c =? 43) = false.
Proof. unfold isdigit, c_isspace. intros. lia. Qed.

Lemma mnc_from_str_spec s : 
  osmo_mnc_from_str s = if (1 <=? zlen s) && (zlen s <=? 3) && forallb isdigit s then (0, Some (strval 10 s, zlen s =? 3)) else (-22, None).
Proof.
  unfold osmo_mnc_from_str. destruct s as [|a s]; [reflexivity|]. cbn [hd forallb].
  rewrite zlen_cons. pose proof (zlen_nonneg s).
  replace (1 <=? 1 + zlen s) with true by lia. cbn [andb].
  destruct (isdigit a) eqn:Da; cbn [negb orb andb]; [|rewrite andb_false_r; reflexivity].
  destruct (1 + zlen s >? 3) eqn:L3; [replace (1 + zlen s <=? 3) with false by lia; reflexivity|]. replace (1 + zlen s <=? 3) with true by lia. cbn [andb].
  destruct (not_space a Da) as (N1 & N2 & N3).
  assert (E : strtoll (a :: s) 10 = (let '(v, m) := c_digits 10 0 (a :: s) in if m =? 0 then (0, 0, 0) else if v <? LLONG_MIN then (LLONG_MIN, ERANGE, 0 + m) else if LLONG_MAX <? v then (LLONG_MAX, ERANGE, 0 + m) else (v, 0, 0 + m))).
  { unfold strtoll. cbn [Z.ltb Z.eqb Z.compare orb skip_ws]. rewrite N1, N2, N3. cbn [andb]. reflexivity. }
  unfold osmo_str_to_int, osmo_str_to_int64. rewrite E. clear E.
  assert (Ra : 48 <= a <= 57) by (unfold isdigit in Da; lia).
  destruct s as [|b [|c [|d s]]]; [| | |rewrite !zlen_cons in L3; pose proof (zlen_nonneg s); lia].
  - cbn [c_digits]. rewrite c_digit10, Da. change (zlen [a]) with 1. change (1 + zlen (@nil Z)) with 1. cbn [Z.add Z.eqb Pos.add Pos.eqb forallb].
    unfold strval. cbn [map num]. rewrite char_dig_digit by assumption. unfold LLONG_MIN, LLONG_MAX.
    replace (0 * 10 + (a - 48)) with (a - 48) by lia.
    replace (a - 48 <? -9223372036854775808) with false by lia. replace (9223372036854775807 <? a - 48) with false by lia. cbn [negb Z.eqb Pos.eqb].
    replace ((a - 48 <? 0) || (999 <? a - 48)) with false by lia. replace (a - 48 <? -2147483648) with false by lia. replace (2147483647 <? a - 48) with false by lia.
    cbn [Z.eqb Z.gtb Z.ltb Z.compare]. unfold u16. rewrite Z.mod_small by lia. reflexivity.
  - change (zlen [a; b]) with 2. change (1 + zlen [b]) with 2. cbn [c_digits forallb]. rewrite !c_digit10, Da.
    destruct (isdigit b) eqn:Db; cbn [andb].
    + assert (Rb : 48 <= b <= 57) by (unfold isdigit in Db; lia).
      cbn [Z.add Z.eqb Pos.add Pos.eqb].
      unfold strval. cbn [map num]. rewrite !char_dig_digit by assumption. unfold LLONG_MIN, LLONG_MAX.
      replace ((0 * 10 + (a - 48)) * 10 + (b - 48)) with (10 * a + b - 528) by lia. set (v := 10 * a + b - 528). assert (Hv : 0 <= v <= 99) by (subst v; lia). clearbody v.
      replace (v <? -9223372036854775808) with false by lia. replace (9223372036854775807 <? v) with false by lia. cbn [negb Z.eqb Pos.eqb].
      replace ((v <? 0) || (999 <? v)) with false by lia. replace (v <? -2147483648) with false by lia. replace (2147483647 <? v) with false by lia.
      cbn [Z.eqb Z.gtb Z.ltb Z.compare]. unfold u16. rewrite Z.mod_small by lia. reflexivity.
    + cbn [Z.add Z.eqb Pos.add Pos.eqb]. unfold LLONG_MIN, LLONG_MAX. replace (0 * 10 + (a - 48)) with (a - 48) by lia.
      replace (a - 48 <? -9223372036854775808) with false by lia. replace (9223372036854775807 <? a - 48) with false by lia. cbn [negb Z.eqb Pos.eqb].
      replace (a - 48 <? -2147483648) with false by lia. replace (2147483647 <? a - 48) with false by lia. reflexivity.
  - change (zlen [a; b; c]) with 3. change (1 + zlen [b; c]) with 3. cbn [c_digits forallb]. rewrite !c_digit10, Da.
    destruct (isdigit b) eqn:Db; cbn [andb].
    + assert (Rb : 48 <= b <= 57) by (unfold isdigit in Db; lia). destruct (isdigit c) eqn:Dc; cbn [andb].
      * assert (Rc : 48 <= c <= 57) by (unfold isdigit in Dc; lia).
        cbn [Z.add Z.eqb Pos.add Pos.succ Pos.eqb].
        unfold strval. cbn [map num]. rewrite !char_dig_digit by assumption. unfold LLONG_MIN, LLONG_MAX.
        set (v := ((0 * 10 + (a - 48)) * 10 + (b - 48)) * 10 + (c - 48)). assert (Hv : 0 <= v <= 999) by (subst v; lia). clearbody v.
        replace (v <? -9223372036854775808) with false by lia. replace (9223372036854775807 <? v) with false by lia. cbn [negb Z.eqb Pos.eqb].
        replace ((v <? 0) || (999 <? v)) with false by lia. replace (v <? -2147483648) with false by lia. replace (2147483647 <? v) with false by lia.
        cbn [Z.eqb Z.gtb Z.ltb Z.compare]. unfold u16. rewrite Z.mod_small by lia. reflexivity.
      * cbn [Z.add Z.eqb Pos.add Pos.succ Pos.eqb]. unfold LLONG_MIN, LLONG_MAX. set (v := (0 * 10 + (a - 48)) * 10 + (b - 48)). assert (Hv : 0 <= v <= 999) by (subst v; lia). clearbody v.
        replace (v <? -9223372036854775808) with false by lia. replace (9223372036854775807 <? v) with false by lia. cbn [negb Z.eqb Pos.eqb].
        replace (v <? -2147483648) with false by lia. replace (2147483647 <? v) with false by lia. reflexivity.
    + cbn [Z.add Z.eqb Pos.add Pos.eqb]. unfold LLONG_MIN, LLONG_MAX. replace (0 * 10 + (a - 48)) with (a - 48) by lia.
      replace (a - 48 <? -9223372036854775808) with false by lia. replace (9223372036854775807 <? a - 48) with false by lia. cbn [negb Z.eqb Pos.eqb].
      replace (a - 48 <? -2147483648) with false by lia. replace (2147483647 <? a - 48) with false by lia. reflexivity.
Qed.

Lemma mnc_name_str m f : 0 <= m <= 999 -> osmo_mnc_from_str (osmo_mnc_name m f) = (0, Some (m, f || (m >? 99))).
Proof.
  intros H. rewrite mnc_from_str_spec. unfold osmo_mnc_name. rewrite strval_dec by lia. rewrite pad_zlen.
  assert (L : zlen (dec m) <= 3) by (pose proof (dec_len m 3 ltac:(lia) ltac:(lia)); unfold zlen; lia).
  assert (F : forallb isdigit (pad0 (if f then 3 else 2) (dec m)) = true).
  { apply forallb_forall. intros x Hx. assert (D : Forall dchar (pad0 (if f then 3%nat else 2%nat) (dec m))) by (apply pad0_Forall; [unfold dchar; lia|apply dec_dchar; lia]).
    rewrite Forall_forall in D. specialize (D x Hx). unfold dchar, isdigit in *. lia. }
  rewrite F. destruct (m >? 99) eqn:E.
  - pose proof (dec_len_lower m 2 ltac:(lia) ltac:(lia)). unfold zlen in *. rewrite orb_true_r.
    replace (Z.max _ _) with 3 by (destruct f; lia). reflexivity.
  - pose proof (dec_len m 2 ltac:(lia) ltac:(lia)). unfold zlen in *. rewrite orb_false_r.
    destruct f; [replace (Z.max _ _) with 3 by lia|replace (Z.max _ _) with 2 by lia]; reflexivity.
Qed.

(* --- domains --- *)
Lemma lit_app l s : lit l (l ++ s) = Some s.
Proof. induction l; cbn [lit app]; [reflexivity|]. rewrite Z.eqb_refl. assumption. Qed.
Lemma c_digits_le base s : forall acc, 0 <= snd (c_digits base acc s) <= zlen s.
Proof.
  induction s as [|c s IH]; intros acc; cbn [c_digits]; [cbn; unfold zlen; cbn; lia|]. rewrite zlen_cons. pose proof (zlen_nonneg s).
  destruct (c_digit base c) as [d|]; [|cbn [snd]; lia]. specialize (IH (acc * base + d)). destruct (c_digits base (acc * base + d) s). cbn [snd] in *. lia.
Qed.
Lemma scan_app base w x v rest : length x = w -> x <> [] -> c_isspace (hd 0 x) = false -> scan_u base w x = Some (v, []) -> scan_u base w (x ++ rest) = Some (v, rest).
Proof.
  intros L N S E. destruct x as [|c x]; [congruence|]. cbn [hd] in S. unfold scan_u in *. cbn [skip_ws app] in *. rewrite S in *.
  replace (c :: x ++ rest) with ((c :: x) ++ rest) by reflexivity. rewrite (firstn_app_exact (c :: x) rest w (eq_sym L)).
  rewrite firstn_all2 in E by lia.
  destruct (if c =? 45 then (true, x) else if c =? 43 then (false, x) else (false, c :: x)) as [neg f1] eqn:F1.
  assert (L1 : (length f1 <= length (c :: x))%nat) by (destruct (c =? 45); [injection F1 as _ <-; cbn [length]; lia|]; destruct (c =? 43); injection F1 as _ <-; cbn [length]; lia).
  set (f2 := if (base =? 16) && hex_prefix f1 then skipn 2 f1 else f1) in *.
  assert (L2 : (length f2 <= length f1)%nat) by (subst f2; destruct ((base =? 16) && hex_prefix f1); [rewrite skipn_length|]; lia).
  pose proof (c_digits_le base f2 0) as K. destruct (c_digits base 0 f2) as [vv k]. cbn [snd] in K. destruct (k =? 0); [discriminate|]. remember (length (c :: x) - length f2 + Z.to_nat k)%nat as j eqn:Ej. injection E as E1 E2. rewrite E1. f_equal. f_equal.
  assert (J : (j <= length (c :: x))%nat) by (unfold zlen in K; lia).
  assert (J' : j = length (c :: x)) by (apply (f_equal (@length Z)) in E2; rewrite skipn_length in E2; change (length (@nil Z)) with 0%nat in E2; lia).
  rewrite J'. rewrite skipn_app, skipn_all, Nat.sub_diag. reflexivity.
Qed.
Definition scan_ok (base : Z) (w : nat) (f : Z -> list Z) (n : Z) : bool :=
  Nat.eqb (length (f n)) w && negb (c_isspace (hd 0 (f n))) && negb (hd 0 (f n) =? 0) && match scan_u base w (f n) with Some (v, []) => v =? n | _ => false end.
Lemma scan_ok_app base w f n rest : scan_ok base w f n = true -> scan_u base w (f n ++ rest) = Some (n, rest).
Proof.
  unfold scan_ok. intros H. apply andb_prop in H as [H H4]. apply andb_prop in H as [H H3]. apply andb_prop in H as [H1 H2].
  apply Nat.eqb_eq in H1. apply scan_app; auto.
  - intros E. rewrite E in H3. discriminate.
  - destruct (c_isspace _); auto; discriminate.
  - destruct (scan_u base w (f n)) as [[v [|? ?]]|]; try discriminate. apply Z.eqb_eq in H4. subst. reflexivity.
Qed.
Lemma scan_ok_pad base w fuel n : 2 <= base <= 16 -> (0 < w)%nat -> (0 < fuel)%nat -> 0 <= n < base ^ Z.of_nat w -> (w <= fuel)%nat ->
  scan_ok base w (fun n => pad0 w (map dig_char (ndig base fuel n))) n = true.
Proof.
  intros Hb Hw Hf Hn Hwf. assert (Hn' : 0 <= n < base ^ Z.of_nat fuel).
  { pose proof (Z.pow_le_mono_r base (Z.of_nat w) (Z.of_nat fuel) ltac:(lia) ltac:(lia)). lia. }
  destruct (pad_digits base fuel w n Hb Hf Hn') as (F & H & N).
  assert (L : length (pad0 w (map dig_char (ndig base fuel n))) = w).
  { rewrite pad0_len, map_length. pose proof (ndig_len base fuel ltac:(lia) n w Hn Hw). lia. }
  unfold scan_ok. rewrite L, Nat.eqb_refl. rewrite (scan_digits base w _ Hb L N F), H, Z.eqb_refl.
  destruct (pad0 w (map dig_char (ndig base fuel n))) as [|c t]; [congruence|]. cbn [hd]. inversion_clear F as [|? ? Hc _].
  pose proof (isd_not_special _ _ Hc) as (S1 & _). change (c_isspace c) with (is_space c). rewrite S1. destruct (Z.eqb_spec c 0) as [-> |]; [|reflexivity].
  destruct Hc as (d & Hd & _). discriminate.
Qed.
Lemma scan_dec3 n rest : 0 <= n <= 999 -> scan_u 10 3 (pad0 3 (dec n) ++ rest) = Some (n, rest).
Proof. intros H. apply (scan_ok_app 10 3 (fun n => pad0 3 (dec n))). apply scan_ok_pad; lia. Qed.
Lemma scan_hex2 n rest : 0 <= n < 256 -> scan_u 16 2 (pad0 2 (hex n) ++ rest) = Some (n, rest).
Proof. intros H. apply (scan_ok_app 16 2 (fun n => pad0 2 (hex n))). apply scan_ok_pad; lia. Qed.
Lemma scan_hex4 n rest : u16v n -> scan_u 16 4 (pad0 4 (hex n) ++ rest) = Some (n, rest).
Proof. intros H. unfold u16v in H. apply (scan_ok_app 16 4 (fun n => pad0 4 (hex n))). apply scan_ok_pad; lia. Qed.
Lemma u16_id n : u16v n -> u16 n = n. Proof. unfold u16v, u16. intros. apply Z.mod_small. lia. Qed.
Lemma dec3_len n : 0 <= n <= 999 -> zlen (pad0 3 (dec n)) = 3.
Proof. intros. rewrite pad_zlen. pose proof (dec_len n 3 ltac:(lia) ltac:(lia)). unfold zlen. lia. Qed.
Lemma some_inj {A} (a b : A) : Some a = Some b -> a = b. Proof. congruence. Qed.
Lemma home_domain p : wf_plmn p ->
  (osmo_gen_home_network_domain p = None <-> mcc p > 999 \/ mnc p > 999) /\
  (forall d, osmo_gen_home_network_domain p = Some d -> zlen d = 33 /\ osmo_parse_home_network_domain d = Some (mkplmn (mcc p) (mnc p) false)).
Proof.
  intros [H1 H2]. unfold osmo_gen_home_network_domain. destruct (Z.gtb_spec (mcc p) 999); [split; [split; [lia|auto]|discriminate]|]. destruct (Z.gtb_spec (mnc p) 999); [split; [split; [lia|auto]|discriminate]|].
  split; [split; [discriminate|lia]|]. intros d E. apply some_inj in E. subst d. unfold u16v in H1, H2. split.
  - rewrite !zlen_app, !dec3_len by lia. reflexivity.
  - unfold osmo_parse_home_network_domain. rewrite lit_app, scan_dec3 by lia. rewrite lit_app, scan_dec3 by lia. rewrite !u16_id by (unfold u16v; lia). reflexivity.
Qed.
Lemma mme_domain g : wf_gummei g ->
  (osmo_gen_mme_domain g = None <-> mcc (gummei_plmn g) > 999 \/ mnc (gummei_plmn g) > 999) /\
  (forall d, osmo_gen_mme_domain g = Some d -> zlen d = 54 /\ osmo_parse_mme_domain d = Some (mkgummei (mkplmn (mcc (gummei_plmn g)) (mnc (gummei_plmn g)) false) (gummei_mme g))).
Proof.
  intros (H1 & H2 & H3). destruct (home_domain _ H1) as [D1 D2]. unfold osmo_gen_mme_domain. destruct (osmo_gen_home_network_domain (gummei_plmn g)) as [d|] eqn:E; [|split; [tauto|discriminate]].
  split; [split; [discriminate|intros X; apply D1 in X; discriminate]|]. intros d' F. apply some_inj in F. subst d'. destruct (D2 d eq_refl) as [L _]. unfold u16v in H2. split.
  - rewrite !zlen_app, L, !pad_zlen. pose proof (hex_len (mme_code (gummei_mme g)) 2 ltac:(lia) ltac:(lia)). pose proof (hex_len (group_id (gummei_mme g)) 4 ltac:(lia) ltac:(lia)).
    change (zlen (bs "mmec")) with 4. change (zlen (bs ".mmegi")) with 6. change (zlen (bs ".mme.")) with 5. unfold zlen. lia.
  - unfold osmo_parse_mme_domain. rewrite lit_app, scan_hex2 by lia. rewrite lit_app, scan_hex4 by (unfold u16v; lia).
    unfold osmo_gen_home_network_domain in E. destruct (Z.gtb_spec (mcc (gummei_plmn g)) 999); [discriminate|]. destruct (Z.gtb_spec (mnc (gummei_plmn g)) 999); [discriminate|]. apply some_inj in E. subst d.
    destruct H1 as [H1 H1']. unfold u16v in *.
    change (bs ".mme.epc.mnc") with (bs ".mme." ++ bs "epc.mnc"). rewrite (app_assoc (bs ".mme.")), lit_app, scan_dec3 by lia. rewrite lit_app, scan_dec3 by lia.
    rewrite !u16_id by (unfold u16v; lia). unfold u8. rewrite Z.mod_small by lia. destruct (gummei_mme g). reflexivity.
Qed.
