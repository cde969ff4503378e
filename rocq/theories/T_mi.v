(* T_mi.v - C57: Mobile Identities *)
From Verif Require Import Base S_hex M_hex Lib P_hex T_hex S_mi M_mi P_mi.

(* encoding writes exactly the coding of TS 24.008 and leaves the rest of the buffer alone; what is refused and how *)
Theorem C57_encode : forall buf ty s pad t hex, ~ In 0 s -> len_ok ty (zlen s) -> bytes buf -> zlen buf < 2147483648 ->
  let n := (zlen s + 2) / 2 in
  osmo_mobile_identity_encoded_len (Some (mkmid ty (s ++ 0 :: pad) t)) = Ok (n, zlen s) /\
  (zlen buf < n -> osmo_mobile_identity_encode_buf buf (mkmid ty (s ++ 0 :: pad) t) hex = Err (if zlen buf =? 0 then -5 else -28)) /\
  (n <= zlen buf -> Forall (valid_digit hex) s -> osmo_mobile_identity_encode_buf buf (mkmid ty (s ++ 0 :: pad) t) hex = Ok (mi_octets ty (map hexdigit s) ++ skipn (Z.to_nat n) buf, n)) /\
  (n <= zlen buf -> ~ Forall (valid_digit hex) s -> osmo_mobile_identity_encode_buf buf (mkmid ty (s ++ 0 :: pad) t) hex = Err (-22)).
Proof. intros buf ty s pad t hex N L B LB n. split; [apply encoded_len_ok; auto|]. exact (encode_digits buf ty s pad t hex N L B LB). Qed.
Print Assumptions C57_encode.
Theorem C57_encode_tmsi : forall buf s t hex, is_u32 t ->
  osmo_mobile_identity_encode_buf buf (mkmid 4 s t) hex = if zlen buf =? 0 then Err (-5) else if zlen buf <? 5 then Err (-28) else Ok (tmsi_octets t ++ skipn 5 buf, 5).
Proof. exact encode_tmsi. Qed.
Print Assumptions C57_encode_tmsi.
(* any other length or type is refused *)
Theorem C57_encode_refuses : forall buf ty s pad t hex, ~ In 0 s -> 1 <= zlen buf -> ty <> 4 -> ~ len_ok ty (zlen s) ->
  osmo_mobile_identity_encode_buf buf (mkmid ty (s ++ 0 :: pad) t) hex = Err (if (1 <=? ty) && (ty <=? 3) then -22 else -95).
Proof.
  intros buf ty s pad t hex N L T K. unfold osmo_mobile_identity_encode_buf. replace (zlen buf =? 0) with false by lia. destruct ((1 <=? ty) && (ty <=? 3)) eqn:E.
  - rewrite encoded_len_bad by (auto; lia). reflexivity.
  - unfold osmo_mobile_identity_encoded_len. cbn [mi_type]. replace (ty =? 4) with false by lia. replace (ty =? 1) with false by lia. replace (ty =? 2) with false by lia. replace (ty =? 3) with false by lia. reflexivity.
Qed.
Print Assumptions C57_encode_refuses.

(* decoding accepts exactly the codings, and yields what was coded; anything else leaves no identity *)
Theorem C57_decode : forall m hex, bytes m ->
  (exists ty ds pad, len_ok ty (zlen ds) /\ Forall (digit_ok hex) ds /\ m = mi_octets ty ds /\
     osmo_mobile_identity_decode m (zlen m) hex = Ok (0, mkmid ty (map bcd_char ds ++ 0 :: pad) 0)) \/
  (exists t, is_u32 t /\ m = tmsi_octets t /\ osmo_mobile_identity_decode m (zlen m) hex = Ok (0, mkmid 4 (repeat 0 17) t)) \/
  (osmo_mobile_identity_decode m (zlen m) hex = Ok (if (1 <=? zlen m) && negb ((1 <=? at0 m 0 mod 8) && (at0 m 0 mod 8 <=? 4)) then -22 else -74, mkmid 0 (repeat 0 17) 0) /\
   ~ (exists ty ds, len_ok ty (zlen ds) /\ Forall (digit_ok hex) ds /\ m = mi_octets ty ds) /\ ~ (exists t, is_u32 t /\ m = tmsi_octets t)).
Proof.
  intros m hex B. destruct m as [|x m].
  { right. right. split; [reflexivity|]. split; [|intros (t & _ & E); discriminate E]. intros (ty & ds & L & _ & E). apply len_ok_ty in L. assert (Q : zlen (mi_octets ty ds) = 0) by (rewrite <- E; reflexivity). rewrite mi_octets_len in Q. lia. }
  assert (L : 1 <= zlen (x :: m)) by (rewrite zlen_cons; pose proof (zlen_nonneg m); lia). set (l := x :: m) in *. pose proof (decode_gen l [] hex) as G. rewrite app_nil_r in G. specialize (G B L). rewrite G.
  assert (Bad : forall r, decode_as l hex = Ok (r, mi_none) -> r <> 0 -> ~ (exists ty ds, len_ok ty (zlen ds) /\ Forall (digit_ok hex) ds /\ l = mi_octets ty ds) /\ ~ (exists t, is_u32 t /\ l = tmsi_octets t)).
  { intros r E N. split.
    - intros (ty & ds & L1 & F & Em). rewrite Em in E. assert (Fn : Forall nib ds) by (eapply Forall_impl; [|exact F]; intros; eapply digit_nib; eauto). rewrite decode_as_digits in E by auto.
      rewrite (proj2 (existsb_digit hex ds Fn) F) in E. injection E as E _. lia.
    - intros (t & Ht & Em). rewrite Em, decode_as_tmsi in E by auto. injection E as E _. lia. }
  destruct (decode_as_inv l hex B L) as [(ty & ds & H1 & H2 & H3 & H4)|[H|[[E H]|[E H]]]].
  - left. pose proof (len_ok_ty _ _ H1) as [T Ls]. assert (R : repeat 0 (Z.to_nat (str_size ty - zlen ds)) = 0 :: repeat 0 (Z.to_nat (str_size ty - zlen ds - 1))).
    { replace (Z.to_nat (str_size ty - zlen ds)) with (S (Z.to_nat (str_size ty - zlen ds - 1))); [reflexivity|]. unfold str_size, len_ok in *. destruct (ty =? 3) eqn:E3; lia. }
    exists ty, ds, (repeat 0 (Z.to_nat (str_size ty - zlen ds - 1))). split; auto. split; auto. split; auto. rewrite H4. unfold good. rewrite R. reflexivity.
  - right. left. exact H.
  - right. right. split; [|eapply Bad; [exact E|discriminate]]. rewrite E. replace ((1 <=? zlen l) && _) with false by lia. reflexivity.
  - right. right. split; [|eapply Bad; [exact E|discriminate]]. rewrite E. replace ((1 <=? zlen l) && _) with true by lia. reflexivity.
Qed.
Print Assumptions C57_decode.

(* round trip: decimal (with allow_hex: hexadecimal) digits come back, in upper case *)
Theorem C57_roundtrip : forall buf ty s pad t hex, ~ In 0 s -> len_ok ty (zlen s) -> bytes buf -> (zlen s + 2) / 2 <= zlen buf < 2147483648 -> Forall (valid_digit hex) s ->
  exists buf' n pad', osmo_mobile_identity_encode_buf buf (mkmid ty (s ++ 0 :: pad) t) hex = Ok (buf', n) /\
    osmo_mobile_identity_decode buf' n hex = Ok (0, mkmid ty (map (fun c => bcd_char (hexdigit c)) s ++ 0 :: pad') 0).
Proof.
  intros buf ty s pad t hex N L B Lb V. destruct (encode_digits buf ty s pad t hex N L B ltac:(lia)) as (_ & E & _). rewrite E by (auto; lia). set (ds := map hexdigit s). set (n := (zlen s + 2) / 2).
  assert (Ld : zlen ds = zlen s) by apply zlen_map. assert (Fd : Forall (digit_ok hex) ds) by (unfold ds; rewrite Forall_map; eapply Forall_impl; [|exact V]; intros; apply valid_nib; auto).
  assert (Fn : Forall nib ds) by (eapply Forall_impl; [|exact Fd]; intros; eapply digit_nib; eauto). pose proof (len_ok_ty _ _ L) as [T Ls].
  assert (Lm : zlen (mi_octets ty ds) = n) by (rewrite mi_octets_len, Ld; reflexivity).
  exists (mi_octets ty ds ++ skipn (Z.to_nat n) buf), n, (repeat 0 (Z.to_nat (str_size ty - zlen s - 1))). split; [reflexivity|]. rewrite <- Lm. rewrite decode_gen.
  - rewrite <- Ld in L. rewrite decode_as_digits by auto. rewrite (proj2 (existsb_digit hex ds Fn) Fd). unfold good. rewrite Ld. unfold ds. rewrite map_map.
    replace (Z.to_nat (str_size ty - zlen s)) with (S (Z.to_nat (str_size ty - zlen s - 1))); [reflexivity|]. rewrite Ld in L. unfold str_size, len_ok in *. destruct (ty =? 3) eqn:E3; lia.
  - apply Forall_app. split; [apply mi_bytes; auto; lia|apply Forall_skipn; auto].
  - lia.
Qed.
Print Assumptions C57_roundtrip.
Theorem C57_roundtrip_tmsi : forall buf s t hex, is_u32 t -> bytes buf -> 5 <= zlen buf ->
  exists buf', osmo_mobile_identity_encode_buf buf (mkmid 4 s t) hex = Ok (buf', 5) /\ osmo_mobile_identity_decode buf' 5 hex = Ok (0, mkmid 4 (repeat 0 17) t).
Proof.
  intros buf s t hex H B L. rewrite encode_tmsi by auto. replace (zlen buf =? 0) with false by lia. replace (zlen buf <? 5) with false by lia. eexists. split; [reflexivity|].
  change 5 with (zlen (tmsi_octets t)). rewrite decode_gen; [apply decode_as_tmsi; auto| |unfold tmsi_octets; rewrite !zlen_cons, zlen_nil; lia].
  apply Forall_app. split; [|apply Forall_skipn; auto]. unfold is_u32 in H. unfold tmsi_octets. repeat (constructor; [red; lia|]). constructor.
Qed.
Print Assumptions C57_roundtrip_tmsi.

(* Complete Layer 3 messages: any octets are safe to look at; the identity found is the one the message carries, and only
   messages that carry one give one *)
Theorem C57_l3 : forall l3 hex, bytes l3 ->
  (forall m, carries l3 m -> 1 <= zlen m -> osmo_mobile_identity_decode_from_l3_buf l3 hex = osmo_mobile_identity_decode m (zlen m) hex) /\
  exists rc mi, osmo_mobile_identity_decode_from_l3_buf l3 hex = Ok (rc, mi) /\
    (rc < 0 /\ mi_type mi = 0 \/ rc = 0 /\ exists m, carries l3 m /\ osmo_mobile_identity_decode m (zlen m) hex = Ok (0, mi)).
Proof. intros l3 hex B. split; [intros m C L; apply carries_decode; auto|apply l3_only; auto]. Qed.
Print Assumptions C57_l3.

(* comparison is a total order whose equality is sameness of type and value *)
Definition text (mi : mid) (s : list Z) : Prop := exists pad, mi_str mi = s ++ 0 :: pad /\ ~ In 0 s /\ bytes s /\ zlen s < (if mi_type mi =? 3 then 17 else 16).
Definition wellformed (mi : mid) : Prop := mi_type mi = 4 \/ 1 <= mi_type mi <= 3 /\ exists s, text mi s.
Definition same (a b : mid) : Prop := mi_type a = mi_type b /\ (mi_type a = 4 -> mi_tmsi a = mi_tmsi b) /\ (mi_type a <> 4 -> exists s, text a s /\ text b s).
Definition key (mi : mid) (k : list Z) : Prop := mi_type mi = 4 /\ k = [4; mi_tmsi mi] \/ 1 <= mi_type mi <= 3 /\ exists s, text mi s /\ k = mi_type mi :: s.
Lemma cmp_key a b ka kb : key a ka -> key b kb -> osmo_mobile_identity_cmp (Some a) (Some b) = Ok (lex ka kb).
Proof.
  intros Ka Kb. unfold osmo_mobile_identity_cmp, osmo_cmp.
  assert (Ha : exists sa, ka = mi_type a :: sa) by (destruct Ka as [[E ->]|(_ & s & _ & ->)]; rewrite ?E; eauto). assert (Hb : exists sb, kb = mi_type b :: sb) by (destruct Kb as [[E ->]|(_ & s & _ & ->)]; rewrite ?E; eauto).
  destruct Ha as [sa ->], Hb as [sb ->]. cbn [lex]. destruct (mi_type a <? mi_type b) eqn:E1; [reflexivity|]. destruct (mi_type b <? mi_type a) eqn:E2; [reflexivity|]. cbn [Z.eqb negb]. assert (Et : mi_type a = mi_type b) by lia.
  destruct Ka as [[E [= Ea]]|(Ta & s & (p & P1 & P2 & P3 & P4) & [= ->])].
  - rewrite E. cbn [Z.eqb Pos.eqb]. destruct Kb as [[E' [= Eb]]|(Tb & _)]; [|lia]. subst sa sb. cbn [lex]. reflexivity.
  - destruct Kb as [[E' _]|(Tb & s' & (q & Q1 & Q2 & Q3 & Q4) & [= ->])]; [lia|]. replace (mi_type a =? 4) with false by lia. rewrite P1, Q1. unfold zlen in *. rewrite <- Et in Q4.
    destruct (mi_type a =? 3) eqn:E3.
    + replace ((mi_type a =? 1) || (mi_type a =? 2)) with false by lia. apply strncmp_lex; auto; lia.
    + replace ((mi_type a =? 1) || (mi_type a =? 2)) with true by lia. apply strncmp_lex; auto; lia.
Qed.
Lemma wf_key a : wellformed a -> exists k, key a k.
Proof. intros [H|(H & s & T)]; [exists [4; mi_tmsi a]; left; auto|exists (mi_type a :: s); right; eauto]. Qed.
Lemma text_unique a s s' : text a s -> text a s' -> s = s'.
Proof. intros (p & P1 & P2 & _) (q & Q1 & Q2 & _). pose proof (cstr_app s p P2). pose proof (cstr_app s' q Q2). congruence. Qed.
Theorem C57_cmp : forall a b c, wellformed a -> wellformed b -> wellformed c ->
  exists x, osmo_mobile_identity_cmp (Some a) (Some b) = Ok x /\ (x = -1 \/ x = 0 \/ x = 1) /\ (x = 0 <-> same a b) /\
    osmo_mobile_identity_cmp (Some b) (Some a) = Ok (- x) /\
    (x = -1 -> osmo_mobile_identity_cmp (Some b) (Some c) = Ok (-1) -> osmo_mobile_identity_cmp (Some a) (Some c) = Ok (-1)).
Proof.
  intros a b c Wa Wb Wc. destruct (wf_key a Wa) as [ka Ka], (wf_key b Wb) as [kb Kb], (wf_key c Wc) as [kc Kc]. exists (lex ka kb). rewrite (cmp_key a b ka kb), (cmp_key b a kb ka), (cmp_key b c kb kc), (cmp_key a c ka kc) by auto.
  split; auto. split; [apply lex_sign|]. split; [|split; [f_equal; apply lex_opp|intros X Y; injection Y as Y; f_equal; eapply lex_trans; eauto]].
  rewrite lex_eq. split.
  - intros E. subst kb. destruct Ka as [[Ea E]|(Ta & s & Ts & E)], Kb as [[Eb F]|(Tb & s' & Ts' & F)]; subst ka.
    + injection F as F. split; [congruence|]. split; [auto|contradiction || congruence].
    + injection F as F _. lia.
    + injection F as F _. lia.
    + injection F as F1 F2. subst s'. split; auto. split; [lia|eauto].
  - intros (E1 & E2 & E3). destruct Ka as [[Ea ->]|(Ta & s & Ts & ->)], Kb as [[Eb ->]|(Tb & s' & Ts' & ->)]; try lia.
    + rewrite E2 by auto. reflexivity.
    + destruct E3 as (u & U1 & U2); [lia|]. rewrite (text_unique a s u), (text_unique b s' u) by auto. rewrite E1. reflexivity.
Qed.
Print Assumptions C57_cmp.

(* contrary to its documentation, a failed decode leaves tmsi = 0, not GSM_RESERVED_TMSI (0xffffffff) *)
Theorem C57_reserved_tmsi_refuted : exists mi, osmo_mobile_identity_decode [244; 1; 2; 3] 4 false = Ok (-74, mi) /\ mi_tmsi mi = 0.
Proof. eexists. split; [reflexivity|reflexivity]. Qed.
Print Assumptions C57_reserved_tmsi_refuted.

(* IMSI 901700000012345 (odd), IMEI 35123456789012 (even, filler), hexadecimal digits, a paging response and a detach *)
Example C57_nonvacuous :
  let imsi := [57; 48; 49; 55; 48; 48; 48; 48; 48; 48; 49; 50; 51; 52; 53] in let imei := [51; 53; 49; 50; 51; 52; 53; 54; 55; 56; 57; 48; 49; 50] in
  len_ok 1 (zlen imsi) /\ len_ok 2 (zlen imei) /\ Forall (valid_digit false) imsi /\ wellformed (mkmid 1 (imsi ++ [0]) 0) /\
  osmo_mobile_identity_encode_buf (repeat 170 9) (mkmid 1 (imsi ++ [0]) 0) false = Ok ([153; 16; 7; 0; 0; 16; 50; 84; 170], 8) /\
  osmo_mobile_identity_encode_buf (repeat 170 9) (mkmid 2 (imei ++ [0; 0]) 0) false = Ok ([50; 21; 50; 84; 118; 152; 16; 242; 170], 8) /\
  osmo_mobile_identity_encode_buf (repeat 170 9) (mkmid 1 [97; 49; 50; 51; 52; 53; 0] 0) true = Ok ([161; 33; 67; 245; 170; 170; 170; 170; 170], 4) /\
  osmo_mobile_identity_decode [50; 21; 50; 84; 118; 152; 16; 226] 8 true = Ok (-74, mkmid 0 (repeat 0 17) 0) /\
  carries [6; 39; 0; 3; 51; 25; 130; 5; 244; 1; 2; 3; 4] [244; 1; 2; 3; 4] /\
  osmo_mobile_identity_decode_from_l3_buf [6; 39; 0; 3; 51; 25; 130; 5; 244; 1; 2; 3; 4] false = Ok (0, mkmid 4 (repeat 0 17) 16909060) /\
  osmo_mobile_identity_decode_from_l3_buf [5; 65; 48; 4; 161; 33; 67; 245] true = Ok (0, mkmid 1 ([65; 49; 50; 51; 52; 53] ++ repeat 0 10) 0).
Proof.
  cbv zeta. split; [left; vm_compute; split; [reflexivity|split; discriminate]|]. split; [right; left; vm_compute; auto|].
  split; [repeat (constructor; [eexists; split; [reflexivity|right; lia]|]); constructor|].
  split. { right. split; [cbn; lia|]. exists [57; 48; 49; 55; 48; 48; 48; 48; 48; 48; 49; 50; 51; 52; 53], []. split; [reflexivity|]. split; [cbn; lia|]. split; [repeat (constructor; [red; lia|]); constructor|reflexivity]. }
  split; [vm_compute; reflexivity|]. split; [vm_compute; reflexivity|]. split; [vm_compute; reflexivity|]. split; [vm_compute; reflexivity|].
  split; [apply (PagResp 6 0 [51; 25; 130] [244; 1; 2; 3; 4] []); [reflexivity|vm_compute; discriminate]|]. split; vm_compute; reflexivity.
Qed.
