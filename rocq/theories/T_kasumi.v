(* T_kasumi.v - C52: KASUMI, A5/3, A5/4, GEA3 and GEA4 *)
From Verif Require Import Base M_a5 M_kasumi S_kasumi P_kasumi.

(* the code's key expansion and block function compute the published KASUMI (S_kasumi) for every 16-octet key and every 64-bit block *)
Theorem C52_kasumi : forall key block, length key = 16%nat -> Forall (fun b => 0 <= b < 256) key -> 0 <= block < 2 ^ 64 ->
  (do k <- kasumi_key_expand key ;; kasumi block k) = Ok (KASUMI (round_keys key) block).
Proof. intros key block L B H. destruct (expand_ok key L B) as (k & -> & G & R). cbn [bind]. rewrite <- R. apply kasumi_ok; auto. Qed.
Print Assumptions C52_kasumi.

(* for every key it permutes the 64-bit blocks *)
Theorem C52_permutation : forall key, length key = 16%nat -> Forall (fun b => 0 <= b < 256) key ->
  (forall a, 0 <= a < 2 ^ 64 -> 0 <= KASUMI (round_keys key) a < 2 ^ 64) /\
  (forall a b, 0 <= a < 2 ^ 64 -> 0 <= b < 2 ^ 64 -> KASUMI (round_keys key) a = KASUMI (round_keys key) b -> a = b) /\
  (forall c, 0 <= c < 2 ^ 64 -> exists a, 0 <= a < 2 ^ 64 /\ KASUMI (round_keys key) a = c).
Proof.
  intros key L B. destruct (expand_ok key L B) as (k & _ & G & R). rewrite <- R. split; [|split].
  - intros a Ha. apply kasumi_ok; auto.
  - intros a b Ha Hb. apply KASUMI_inj; auto. apply rks_wrk; auto.
  - intros c Hc. apply KASUMI_surj; auto. apply rks_wrk; auto.
Qed.
Print Assumptions C52_permutation.

(* the key stream core writes exactly the octets that hold cl bits, each being the octet of the published stream, and nothing else *)
Theorem C52_kgcore : forall ca cb cc cd ck co cl, length ck = 16%nat -> Forall (fun b => 0 <= b < 256) ck ->
  0 <= ca < 256 -> 0 <= cb < 32 -> 0 <= cc < 2 ^ 32 -> 0 <= cd < 2 -> 0 <= cl < 65536 -> (cl + 7) / 8 <= zlen co ->
  exists co', kasumi_kgcore ca cb cc cd ck co cl = Ok co' /\ zlen co' = zlen co /\
    (forall j, 0 <= j < (cl + 7) / 8 -> at0 co' j = ks_octet ca cb cc cd ck j) /\
    (forall j, (cl + 7) / 8 <= j -> at0 co' j = at0 co j).
Proof. intros. apply kgcore_ok; auto. split; auto. Qed.
Print Assumptions C52_kgcore.

(* A5/4: downlink gets bits 0..113 and uplink bits 114..227 of the stream for the frame, whatever the stack held before, whichever is wanted *)
Theorem C52_a5_4 : forall g_ul g_dl ck fn dl ul, length ck = 16%nat -> Forall (fun b => 0 <= b < 256) ck ->
  zlen g_ul = 32 -> Forall (fun b => 0 <= b < 256) g_ul -> zlen g_dl = 32 -> 0 <= fn < 2715648 ->
  osmo_a5 g_ul g_dl 4 ck fn dl ul = Ok (if dl then Some (a54_bits ck fn 0) else None, if ul then Some (a54_bits ck fn 114) else None).
Proof. intros. unfold osmo_a5. cbn [Z.eqb Pos.eqb]. apply a5_4_ok; auto. split; auto. Qed.
Print Assumptions C52_a5_4.
(* A5/3: the same with the 8-octet key taken twice *)
Theorem C52_a5_3 : forall g_ul g_dl kc fn dl ul, length kc = 8%nat -> Forall (fun b => 0 <= b < 256) kc ->
  zlen g_ul = 32 -> Forall (fun b => 0 <= b < 256) g_ul -> zlen g_dl = 32 -> 0 <= fn < 2715648 ->
  osmo_a5 g_ul g_dl 3 kc fn dl ul = Ok (if dl then Some (a54_bits (kc ++ kc) fn 0) else None, if ul then Some (a54_bits (kc ++ kc) fn 114) else None).
Proof.
  intros g_ul g_dl kc fn dl ul L B. intros. unfold osmo_a5. cbn [Z.eqb Pos.eqb]. unfold a5_3. destruct (c4_ok kc L B) as [-> K]. cbn [bind]. apply a5_4_ok; auto.
Qed.
Print Assumptions C52_a5_3.
(* the other algorithm numbers: 0 gives zeros, 1 and 2 the algorithms of C39, anything else is refused *)
Theorem C52_a5_dispatch : forall g_ul g_dl n key fn dl ul,
  (n = 0 -> osmo_a5 g_ul g_dl n key fn dl ul = Ok (if dl then Some (repeat 0 114) else None, if ul then Some (repeat 0 114) else None)) /\
  (n = 1 -> osmo_a5 g_ul g_dl n key fn dl ul = a5_1 key fn dl ul) /\
  (n = 2 -> osmo_a5 g_ul g_dl n key fn dl ul = a5_2 key fn dl ul) /\
  (n < 0 \/ 4 < n -> osmo_a5 g_ul g_dl n key fn dl ul = Err (-95)).
Proof.
  intros. repeat split; intros H; try (subst n; reflexivity). unfold osmo_a5.
  destruct (Z.eqb_spec n 0), (Z.eqb_spec n 1), (Z.eqb_spec n 2), (Z.eqb_spec n 3), (Z.eqb_spec n 4); try lia. reflexivity.
Qed.
Print Assumptions C52_a5_dispatch.

(* GEA4 / GEA3: len octets of the stream for the given input value and direction; octets behind them are not touched (up to 8191 octets) *)
Theorem C52_gea4_partial : forall out len ck iv dir, length ck = 16%nat -> Forall (fun b => 0 <= b < 256) ck ->
  0 <= iv < 2 ^ 32 -> 0 <= dir < 2 -> 0 <= len < 8192 -> len <= zlen out ->
  exists o, gea4 out len ck iv dir = Ok o /\ zlen o = zlen out /\
    (forall j, 0 <= j < len -> at0 o j = ks_octet 0xFF 0 iv dir ck j) /\ (forall j, len <= j -> at0 o j = at0 out j).
Proof.
  intros out len ck iv dir L B Hi Hd Hl Ho. unfold gea4. rewrite u16_small by (unfold is_u16; lia).
  assert (E : (len * 8 + 7) / 8 = len) by lia. destruct (kgcore_ok 0xFF 0 iv dir ck out (len * 8)) as (o & H); try lia. { split; auto. }
  rewrite E in H. exists o. exact H.
Qed.
Print Assumptions C52_gea4_partial.
Theorem C52_gea3_partial : forall out len kc iv dir, length kc = 8%nat -> Forall (fun b => 0 <= b < 256) kc ->
  0 <= iv < 2 ^ 32 -> 0 <= dir < 2 -> 0 <= len < 8192 -> len <= zlen out ->
  exists o, gea3 out len kc iv dir = Ok o /\ zlen o = zlen out /\
    (forall j, 0 <= j < len -> at0 o j = ks_octet 0xFF 0 iv dir (kc ++ kc) j) /\ (forall j, len <= j -> at0 o j = at0 out j).
Proof.
  intros out len kc iv dir L B Hi Hd Hl Ho. unfold gea3. destruct (c4_ok kc L B) as [-> [K1 K2]]. cbn [bind]. apply C52_gea4_partial; auto.
Qed.
Print Assumptions C52_gea3_partial.
(* what is missing: a request for 8192 octets (len is a uint16_t) succeeds and writes nothing, because the bit count wraps at 16 bits *)
Theorem C52_gea_wrap_refuted : forall out ck iv dir, length ck = 16%nat -> Forall (fun b => 0 <= b < 256) ck -> 0 <= iv < 2 ^ 32 -> 0 <= dir < 2 ->
  exists o, gea4 out 8192 ck iv dir = Ok o /\ zlen o = zlen out /\ forall j, 0 <= j -> at0 o j = at0 out j.
Proof.
  intros out ck iv dir L B Hi Hd. unfold gea4. change (u16 (8192 * 8)) with 0.
  destruct (kgcore_ok 0xFF 0 iv dir ck out 0) as (o & E & Lo & _ & V); try lia; [split; auto|change ((0 + 7) / 8) with 0; unfold zlen; lia|].
  exists o. split; auto.
Qed.
Print Assumptions C52_gea_wrap_refuted.

(* the published KASUMI test data (3GPP TS 35.203 set 1) meet the hypotheses *)
Example C52_nonvacuous :
  let key := [0x2B; 0xD6; 0x45; 0x9F; 0x82; 0xC5; 0xB3; 0x00; 0x95; 0x2C; 0x49; 0x10; 0x48; 0x81; 0xFF; 0x48] in
  length key = 16%nat /\ Forall (fun b => 0 <= b < 256) key /\ KASUMI (round_keys key) 0xEA024714AD5C4D84 = 0xDF1F9B251C0BF45F /\
  (do k <- kasumi_key_expand key ;; kasumi 0xEA024714AD5C4D84 k) = Ok 0xDF1F9B251C0BF45F.
Proof.
  split; [reflexivity|]. split; [repeat (apply Forall_cons; [lia|]); apply Forall_nil|]. split; vm_compute; reflexivity.
Qed.
