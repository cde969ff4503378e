(* T_plmn.v - C27, C47: PLMN codes and the identities of TS 23.003 *)
From Verif Require Import Base Str S_num M_num M_plmn S_plmn P_plmn.

(* the three octets of TS 24.008 *)
Theorem C27_to_bcd : forall c1 c2 c3 n1 n2 n3 three, is_digit c1 -> is_digit c2 -> is_digit c3 -> is_digit n1 -> is_digit n2 -> is_digit n3 ->
  let mc := 100 * c1 + 10 * c2 + c3 in
  (n1 <> 0 \/ three = true ->
   osmo_plmn_to_bcd (mkplmn mc (100 * n1 + 10 * n2 + n3) three) = plmn_octets c1 c2 c3 n1 n2 n3) /\
  osmo_plmn_to_bcd (mkplmn mc (10 * n1 + n2) false) = plmn_octets c1 c2 c3 n1 n2 15.
Proof. intros. split; [intros; apply plmn_to_bcd_3; assumption|apply plmn_to_bcd_2; assumption]. Qed.
Print Assumptions C27_to_bcd.

Theorem C27_from_bcd : forall c1 c2 c3 n1 n2 n3, is_digit c1 -> is_digit c2 -> is_digit c3 -> is_digit n1 -> is_digit n2 -> is_digit n3 \/ n3 = 15 ->
  osmo_plmn_from_bcd (c1 + 16 * c2) (c3 + 16 * n3) (n1 + 16 * n2) =
  if n3 =? 15 then mkplmn (100 * c1 + 10 * c2 + c3) (10 * n1 + n2) false else mkplmn (100 * c1 + 10 * c2 + c3) (100 * n1 + 10 * n2 + n3) true.
Proof. exact plmn_from_bcd. Qed.
Print Assumptions C27_from_bcd.

Theorem C27_round_trip : forall p, 0 <= mcc p <= 999 -> 0 <= mnc p <= 999 ->
  exists b0 b1 b2, osmo_plmn_to_bcd p = [b0; b1; b2] /\
    osmo_plmn_from_bcd b0 b1 b2 = mkplmn (mcc p) (mnc p) (mnc3 p || (mnc p >? 99)).
Proof. exact plmn_round. Qed.
Print Assumptions C27_round_trip.

(* two PLMN in range have the same octets exactly when they compare equal *)
Theorem C27_octets_equal_iff_cmp : forall p q, 0 <= mcc p <= 999 -> 0 <= mnc p <= 999 -> 0 <= mcc q <= 999 -> 0 <= mnc q <= 999 ->
  (osmo_plmn_to_bcd p = osmo_plmn_to_bcd q <-> osmo_plmn_cmp p q = 0).
Proof.
  intros p q P1 P2 Q1 Q2. destruct (lex_order _ _ 3%nat plmn_key_len plmn_cmp_lex) as (_ & _ & _ & _ & Z0). rewrite Z0.
  destruct (plmn_round p P1 P2) as (a0 & a1 & a2 & Ea & Da). destruct (plmn_round q Q1 Q2) as (b0 & b1 & b2 & Eb & Db).
  rewrite Ea, Eb. split.
  - intros E. injection E as -> -> ->. rewrite Da in Db. injection Db as E1 E2 E3. unfold plmn_key. rewrite E1, E2 in *.
    destruct (mnc q <? 100) eqn:L; [|reflexivity]. replace (mnc q >? 99) with false in E3 by lia. rewrite !orb_false_r in E3. rewrite E3. reflexivity.
  - unfold plmn_key. intros E. injection E as E1 E2 E3. destruct p as [c m f], q as [c' m' f']. cbn [mcc mnc mnc3] in *. subst c' m'.
    rewrite <- Ea, <- Eb. destruct (m <? 100) eqn:L.
    + destruct f, f'; cbn [andb] in E3; try lia; reflexivity.
    + unfold osmo_plmn_to_bcd. cbn [mcc mnc mnc3]. replace (m >? 99) with true by lia. reflexivity.
Qed.
Print Assumptions C27_octets_equal_iff_cmp.

(* every structure value: what the octets carry is the numbers modulo 1000 *)
Theorem C27_out_of_range : forall c n f, 0 <= c -> 0 <= n ->
  osmo_plmn_to_bcd (mkplmn c n f) = osmo_plmn_to_bcd (mkplmn (c mod 1000) (n mod 1000) (f || (n >? 99))).
Proof.
  intros c n f Hc Hn. unfold osmo_plmn_to_bcd. cbn [mcc mnc mnc3]. rewrite (to_bcd_mod c Hc), (to_bcd_mod n Hn).
  destruct (to_bcd (c mod 1000)) as [[c0 c1] c2]. destruct (to_bcd (n mod 1000)) as [[n0 n1] n2].
  destruct (n >? 99) eqn:E; cbn [orb]; [rewrite !orb_true_r; reflexivity|]. rewrite orb_false_r.
  rewrite Z.mod_small by lia. rewrite E. reflexivity.
Qed.
Print Assumptions C27_out_of_range.
Theorem C27_injective_beyond_999_refuted : exists p q, wf_plmn p /\ wf_plmn q /\ osmo_plmn_cmp p q <> 0 /\ osmo_plmn_to_bcd p = osmo_plmn_to_bcd q.
Proof. exists (mkplmn 1001 5 false), (mkplmn 1 5 false). split; [split; unfold u16v; cbn; lia|]. split; [split; unfold u16v; cbn; lia|]. split; [vm_compute; discriminate|reflexivity]. Qed.
Print Assumptions C27_injective_beyond_999_refuted.

(* the comparison functions are total orders: lexicographic on (MCC, MNC, MNC digits, ...), 0 exactly for equal identities *)
Theorem C27_plmn_order : total_order osmo_plmn_cmp plmn_key. Proof. exact (lex_order _ _ 3%nat plmn_key_len plmn_cmp_lex). Qed.
Print Assumptions C27_plmn_order.
Theorem C27_lai_order : total_order osmo_lai_cmp lai_key. Proof. refine (lex_order _ _ 4%nat _ lai_cmp_lex). reflexivity. Qed.
Print Assumptions C27_lai_order.
Theorem C27_rai_order : total_order osmo_rai_cmp rai_key. Proof. refine (lex_order _ _ 5%nat _ rai_cmp_lex). reflexivity. Qed.
Print Assumptions C27_rai_order.
Theorem C27_cgi_order : total_order osmo_cgi_cmp cgi_key. Proof. refine (lex_order _ _ 5%nat _ cgi_cmp_lex). reflexivity. Qed.
Print Assumptions C27_cgi_order.
Theorem C27_cgi_ps_order : total_order osmo_cgi_ps_cmp cgi_ps_key. Proof. refine (lex_order _ _ 6%nat _ cgi_ps_cmp_lex). reflexivity. Qed.
Print Assumptions C27_cgi_ps_order.
Theorem C27_rnc_order : total_order osmo_rnc_id_cmp rnc_key. Proof. refine (lex_order _ _ 4%nat _ rnc_cmp_lex). reflexivity. Qed.
Print Assumptions C27_rnc_order.
Theorem C27_gummei_order : total_order osmo_gummei_cmp gummei_key. Proof. refine (lex_order _ _ 5%nat _ gummei_cmp_lex). reflexivity. Qed.
Print Assumptions C27_gummei_order.
Example C27_nonvacuous :
  osmo_plmn_to_bcd (mkplmn 262 42 false) = [98; 242; 36] /\ osmo_plmn_to_bcd (mkplmn 262 42 true) = [98; 34; 64] /\
  osmo_plmn_from_bcd 98 242 36 = mkplmn 262 42 false /\ osmo_plmn_cmp (mkplmn 262 42 false) (mkplmn 262 42 true) = -1 /\
  osmo_plmn_cmp (mkplmn 262 420 false) (mkplmn 262 420 true) = 0 /\ is_digit 2 /\ plmn_octets 2 6 2 4 2 15 = [98; 242; 36].
Proof. unfold is_digit. repeat split; try reflexivity; lia. Qed.

(* printed names fit their static buffers and print alike exactly what compares equal, whatever the member values *)
Theorem C47_plmn_name : names wf_plmn osmo_plmn_name plmn_key 16. Proof. exact names_plmn. Qed.
Print Assumptions C47_plmn_name.
Theorem C47_lai_name : names wf_lai osmo_lai_name lai_key 32. Proof. exact names_lai. Qed.
Print Assumptions C47_lai_name.
Theorem C47_rai_name2 : names wf_rai osmo_rai_name2 rai_key 32. Proof. exact names_rai. Qed.
Print Assumptions C47_rai_name2.
Theorem C47_cgi_name : names wf_cgi osmo_cgi_name cgi_key 32. Proof. exact names_cgi. Qed.
Print Assumptions C47_cgi_name.
Theorem C47_cgi_ps_name : names wf_cgi_ps osmo_cgi_ps_name cgi_ps_key 32. Proof. exact names_cgi_ps. Qed.
Print Assumptions C47_cgi_ps_name.
Theorem C47_rnc_id_name : names wf_rnc osmo_rnc_id_name rnc_key 32. Proof. exact names_rnc. Qed.
Print Assumptions C47_rnc_id_name.
Theorem C47_gummei_name : names wf_gummei osmo_gummei_name gummei_key 32. Proof. exact names_gummei. Qed.
Print Assumptions C47_gummei_name.

(* osmo_mnc_from_str: accepts exactly one to three decimal digits *)
Theorem C47_mnc_from_str : forall s,
  (fst (osmo_mnc_from_str s) = 0 <-> 1 <= zlen s <= 3 /\ Forall dchar s) /\
  (1 <= zlen s <= 3 -> Forall dchar s -> osmo_mnc_from_str s = (0, Some (strval 10 s, zlen s =? 3))) /\
  (fst (osmo_mnc_from_str s) <> 0 -> osmo_mnc_from_str s = (-22, None)).
Proof.
  intros s. assert (FB : forallb isdigit s = true <-> Forall dchar s).
  { rewrite forallb_forall, Forall_forall. split; intros H x Hx; specialize (H x Hx); unfold isdigit, dchar in *; lia. }
  rewrite mnc_from_str_spec. destruct (forallb isdigit s) eqn:F.
  - rewrite andb_true_r. destruct (Z.leb_spec 1 (zlen s)), (Z.leb_spec (zlen s) 3); cbn [andb fst]; intuition; try lia; try discriminate.
  - rewrite andb_false_r. cbn [fst]. assert (~ Forall dchar s) by (intros X; apply FB in X; discriminate). intuition; try discriminate.
Qed.
Print Assumptions C47_mnc_from_str.
Theorem C47_mnc_round_trip : forall m f, 0 <= m <= 999 -> osmo_mnc_from_str (osmo_mnc_name m f) = (0, Some (m, f || (m >? 99))).
Proof. exact mnc_name_str. Qed.
Print Assumptions C47_mnc_round_trip.

Theorem C47_imsi_valid : forall s, osmo_imsi_str_valid s = true <-> 6 <= zlen s <= 15 /\ Forall dchar s.
Proof. intros s. apply is_n_digits_spec. lia. Qed.
Print Assumptions C47_imsi_valid.
Theorem C47_msisdn_valid : forall s, osmo_msisdn_str_valid s = true <-> 1 <= zlen s <= 15 /\ Forall dchar s.
Proof. intros s. apply is_n_digits_spec. lia. Qed.
Print Assumptions C47_msisdn_valid.
Theorem C47_imei14_valid : forall s, osmo_imei_str_valid s false = Ok true <-> zlen s = 14 /\ Forall dchar s.
Proof.
  intros s. unfold osmo_imei_str_valid. pose proof (is_n_digits_spec s 14 14 ltac:(lia)) as H. destruct (is_n_digits s 14 14).
  - split; [intros _|reflexivity]. destruct (proj1 H eq_refl). split; [lia|assumption].
  - split; [discriminate|]. intros [L F]. exfalso. assert (false = true) by (apply H; split; [lia|assumption]). discriminate.
Qed.
Print Assumptions C47_imei14_valid.
(* with the fifteenth digit, the IMEI must satisfy the Luhn condition; no read outside the string in any case *)
Theorem C47_imei15_valid : forall s, (exists b, osmo_imei_str_valid s true = Ok b) /\
  (osmo_imei_str_valid s true = Ok true <-> exists ds, zlen ds = 15 /\ Forall is_digit ds /\ s = ascii ds /\ luhn_valid ds).
Proof. exact imei_valid_spec. Qed.
Print Assumptions C47_imei15_valid.

(* home network domain: 33 characters, refused exactly for numbers above 999, parsed back to the same MCC and MNC *)
Theorem C47_home_domain : forall p, wf_plmn p ->
  (osmo_gen_home_network_domain p = None <-> mcc p > 999 \/ mnc p > 999) /\
  (forall d, osmo_gen_home_network_domain p = Some d -> zlen d = 33 /\ osmo_parse_home_network_domain d = Some (mkplmn (mcc p) (mnc p) false)).
Proof. exact home_domain. Qed.
Print Assumptions C47_home_domain.
Theorem C47_mme_domain : forall g, wf_gummei g ->
  (osmo_gen_mme_domain g = None <-> mcc (gummei_plmn g) > 999 \/ mnc (gummei_plmn g) > 999) /\
  (forall d, osmo_gen_mme_domain g = Some d -> zlen d = 54 /\
     osmo_parse_mme_domain d = Some (mkgummei (mkplmn (mcc (gummei_plmn g)) (mnc (gummei_plmn g)) false) (gummei_mme g))).
Proof. exact mme_domain. Qed.
Print Assumptions C47_mme_domain.
(* MME group domain: 47 characters; refused exactly when the home domain is; the text identifies the group and the network *)
Theorem C47_mme_group_domain : forall gi p, u16v gi -> wf_plmn p ->
  (osmo_gen_mme_group_domain gi p = None <-> mcc p > 999 \/ mnc p > 999) /\
  forall d, osmo_gen_mme_group_domain gi p = Some d -> zlen d = 47 /\
    forall gi' p', u16v gi' -> wf_plmn p' -> osmo_gen_mme_group_domain gi' p' = Some d -> gi' = gi /\ mcc p' = mcc p /\ mnc p' = mnc p.
Proof.
  intros gi p Hg Hp. destruct (home_domain _ Hp) as [D1 D2]. unfold osmo_gen_mme_group_domain at 1 2.
  destruct (osmo_gen_home_network_domain p) as [d|] eqn:E; [|split; [tauto|discriminate]].
  split; [split; [discriminate|intros X; apply D1 in X; discriminate]|]. intros d' F. apply some_inj in F. subst d'. destruct (D2 d eq_refl) as [L P]. split.
  - rewrite !zlen_app, L, !pad_zlen. unfold u16v in Hg. pose proof (hex_len gi 4 ltac:(lia) ltac:(lia)).
    change (zlen (bs "mmegi")) with 5. change (zlen (bs ".mme.")) with 5. unfold zlen. lia.
  - intros gi' p' Hg' Hp' F. unfold osmo_gen_mme_group_domain in F. destruct (osmo_gen_home_network_domain p') as [d'|] eqn:E'; [|discriminate].
    apply some_inj in F. apply app_inv_head in F.
    assert (S1 : scan_u 16 4 (pad0 4 (hex gi') ++ bs ".mme." ++ d') = Some (gi', bs ".mme." ++ d')) by (apply scan_hex4; auto).
    rewrite F, scan_hex4 in S1 by auto. injection S1 as -> <-.
    destruct (home_domain _ Hp') as [_ D2']. destruct (D2' d E') as [_ P']. rewrite P in P'. injection P' as -> ->. auto.
Qed.
Print Assumptions C47_mme_group_domain.
(* the parser is not the inverse in the other direction: it accepts texts no generator makes *)
Theorem C47_domain_parser_exact_refuted : exists s p, osmo_parse_home_network_domain s = Some p /\ osmo_gen_home_network_domain p <> Some s.
Proof. exists (bs "epc.mnc 1.mcc262.evil"), (mkplmn 262 1 false). split; [vm_compute; reflexivity|vm_compute; discriminate]. Qed.
Print Assumptions C47_domain_parser_exact_refuted.
Theorem C47_domain_keeps_mnc_length_refuted : exists p d q, wf_plmn p /\ osmo_gen_home_network_domain p = Some d /\ osmo_parse_home_network_domain d = Some q /\ osmo_plmn_cmp p q <> 0.
Proof. exists (mkplmn 262 1 true). eexists _, _. split; [split; unfold u16v; cbn; lia|]. split; [reflexivity|]. split; [vm_compute; reflexivity|vm_compute; discriminate]. Qed.
Print Assumptions C47_domain_keeps_mnc_length_refuted.
Example C47_nonvacuous :
  osmo_cgi_name (mkcgi (mklai (mkplmn 262 42 true) 23) 5) = bs "262-042-23-5" /\
  osmo_gen_home_network_domain (mkplmn 262 42 false) = Some (bs "epc.mnc042.mcc262.3gppnetwork.org") /\
  osmo_gen_mme_domain (mkgummei (mkplmn 262 42 false) (mkmme 4660 171)) = Some (bs "mmecab.mmegi1234.mme.epc.mnc042.mcc262.3gppnetwork.org") /\
  osmo_imei_str_valid (bs "490154203237518") true = Ok true /\ osmo_imei_str_valid (bs "490154203237517") true = Ok false /\
  wf_plmn (mkplmn 262 42 true).
Proof. repeat split; try (vm_compute; reflexivity); cbn; lia. Qed.
