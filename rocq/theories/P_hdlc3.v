From Coq Require Import ZArith List Lia Bool.
From Verif Require Import Base Lib S_crc16 S_hdlc M_bits M_crc16 M_hdlc P_bits P_crc P_crc16 P_hdlc P_hdlc2.
Import ListNotations.
Open Scope Z_scope.

(** * Encoder: octets being built *)
Definition pb (cb : Z) (n : nat) : list Z := rev (lb n cb).
Lemma lb_mod : forall n c k, Z.of_nat n <= k -> lb n (c mod 2 ^ k) = lb n c.
Proof.
  induction n as [|n IH]; intros c k H; [reflexivity|]. cbn [lb]. rewrite Z.mod_pow2_bits_low by lia. f_equal.
  rewrite Z.shiftr_div_pow2 by lia. rewrite Z.shiftr_div_pow2 by lia. change (2 ^ 1) with 2.
  replace (c mod 2 ^ k / 2) with ((c / 2) mod 2 ^ (k - 1)); [apply IH; lia|].
  replace (2 ^ k) with (2 * 2 ^ (k - 1)) by (rewrite <- Z.pow_succ_r by lia; f_equal; lia).
  assert (0 < 2 ^ (k - 1)) by (apply Z.pow_pos_nonneg; lia). rewrite Z.rem_mul_r by lia.
  replace (c mod 2 + 2 * ((c / 2) mod 2 ^ (k - 1))) with (c mod 2 + ((c / 2) mod 2 ^ (k - 1)) * 2) by lia.
  rewrite Z.div_add by lia. rewrite (Z.div_small (c mod 2)) by (apply Z.mod_pos_bound; lia). lia.
Qed.
Definition shb (cb b : Z) : Z := if b =? 1 then u8 (u8 (Z.shiftl cb 1) + 1) else u8 (Z.shiftl cb 1).
Lemma shb_eq cb b : is_bit b -> shb cb b = (2 * cb + b) mod 2 ^ 8.
Proof.
  intros Hb. unfold shb, u8. change (2 ^ 8) with 256. rewrite Z.shiftl_mul_pow2 by lia. change (2 ^ 1) with 2.
  destruct Hb as [-> | ->]; cbn [Z.eqb Pos.eqb]; [f_equal; lia|]. rewrite Z.add_mod_idemp_l by lia. f_equal. lia.
Qed.
Lemma pb_shb cb b n : is_bit b -> (n < 8)%nat -> pb (shb cb b) (S n) = pb cb n ++ [b].
Proof.
  intros Hb Hn. unfold pb. rewrite shb_eq by assumption. rewrite lb_mod by lia. cbn [lb rev].
  f_equal; [f_equal|f_equal].
  - f_equal. rewrite Z.shiftr_div_pow2 by lia. change (2 ^ 1) with 2. replace (2 * cb + b) with (b + cb * 2) by lia. rewrite Z.div_add by lia. destruct Hb as [-> | ->]; reflexivity.
  - rewrite Z.bit0_odd. rewrite Z.odd_add, Z.odd_mul. destruct Hb as [-> | ->]; reflexivity.
Qed.
Lemma shb_byte cb b : is_byte (shb cb b).
Proof. unfold shb. destruct (b =? 1); apply u8_range. Qed.
Lemma pb_8 cb : pb cb 8 = rev (octet_bits cb).
Proof. unfold pb. now rewrite lb_8. Qed.
Definition emitted (cfg : hcfg) (o : Z) : Z := if h_brev cfg then o else osmo_revbytebits_8 o.
Lemma emitted_bits cfg o : is_byte o -> line_bits (h_brev cfg) [emitted cfg o] = rev (octet_bits o) /\ is_byte (emitted cfg o).
Proof.
  intros Ho. unfold emitted. rewrite line_bits_cons. cbn [line_bits flat_map]. rewrite app_nil_r. destruct (h_brev cfg); [auto|].
  rewrite octet_bits_rev by assumption. split; [reflexivity|]. now apply revbytebits_8_range.
Qed.
Lemma emit_ok cfg cap out o : zlen out < cap -> emit cfg cap out o = Ok (out ++ [emitted cfg o]).
Proof. intros H. unfold emit. destruct (Z.ltb_spec (zlen out) cap); [reflexivity|lia]. Qed.

Definition obs (cfg : hcfg) (out : list Z) (cb : Z) (db : nat) : list Z := line_bits (h_brev cfg) out ++ pb cb db.
Lemma tail_bit cfg cap bs b1 db st crc cb sr ff rcv clo ds out b : h_adapt56 cfg = false -> is_bit b -> (db < 8)%nat ->
  zlen out + ds <= cap -> 1 <= ds -> bytes out ->
  exists out' ds' db', enc_tail cfg cap (E bs b1 (Z.of_nat db + 1) st crc (shb cb b) sr ff rcv clo) ds out
      = Ok (E bs b1 (Z.of_nat db') st crc (shb cb b) sr ff rcv clo, ds', out') /\
    (db' < 8)%nat /\ (db' = if Nat.eqb db 7 then 0%nat else S db) /\ obs cfg out' (shb cb b) db' = obs cfg out cb db ++ [b] /\ bytes out' /\
    zlen out' + ds' = zlen out + ds /\ 8 * ds' - Z.of_nat db' = 8 * ds - Z.of_nat db - 1 /\ 0 <= ds'.
Proof.
  intros A Hb Hdb HC HD HB. unfold enc_tail. rewrite A. cbn [andb]. destruct (Z.eqb_spec (Z.of_nat db + 1) 8) as [E|E].
  - rewrite emit_ok by lia. cbn [bind]. exists (out ++ [emitted cfg (shb cb b)]), (ds - 1), 0%nat. split; [reflexivity|].
    assert (db = 7%nat) by lia. subst db. destruct (emitted_bits cfg (shb cb b) (shb_byte cb b)) as [E1 E2]. split; [lia|]. split; [reflexivity|]. split.
    + unfold obs. rewrite line_bits_app, E1. rewrite <- pb_8, pb_shb by (auto; lia). unfold pb at 2. cbn [lb rev]. rewrite app_nil_r, app_assoc. reflexivity.
    + split; [apply Forall_app; split; [assumption|constructor; [exact E2|constructor]]|]. rewrite zlen_app. change (zlen [_]) with 1. lia.
  - exists out, ds, (S db). replace (Z.of_nat (S db)) with (Z.of_nat db + 1) by lia. split; [reflexivity|]. split; [lia|]. split; [destruct (Nat.eqb_spec db 7); lia|]. split.
    + unfold obs. rewrite pb_shb by (auto; lia). now rewrite app_assoc.
    + split; [assumption|]. lia.
Qed.

(** * Encoder invariant *)
Definition sf (b1 : Z) (l : list Z) : list Z := if b1 =? 5 then 0 :: stuff 0 l else stuff (Z.to_nat b1) l.
Lemma sf_5 l : sf 5 l = 0 :: sf 0 l.
Proof. reflexivity. Qed.
Lemma sf_1 b1 l : 0 <= b1 < 5 -> sf b1 (1 :: l) = 1 :: sf (b1 + 1) l.
Proof.
  intros H. unfold sf. destruct (Z.eqb_spec b1 5); [lia|]. cbn [stuff]. change (1 =? 1) with true. cbn match.
  destruct (Nat.eqb_spec (Z.to_nat b1) 4) as [E|E]; destruct (Z.eqb_spec (b1 + 1) 5); try lia; [reflexivity|]. do 2 f_equal. lia.
Qed.
Lemma sf_0 b1 l : 0 <= b1 < 5 -> sf b1 (0 :: l) = 0 :: sf 0 l.
Proof. intros H. unfold sf. destruct (Z.eqb_spec b1 5); [lia|]. reflexivity. Qed.
Definition fcsof (c : Z) : list Z := let r := Z.lxor c 65535 in [r mod 256; r / 256].
Definition pend (src : list Z) : list (list Z) := match src with [] => [] | _ => [src] end.
Definition frame_ok (f : list Z) : Prop := bytes f /\ 2 <= zlen f.
Definition cut (clo : bool) (src : list Z) : list Z := if clo then [] else src.
Inductive einv (cfg : hcfg) (pre out : list Z) (acc : list (list Z)) : enc -> list Z -> Prop :=
| e_ff : forall fs db b1 crc cb sr rcv clo src,
    (db <= 8)%nat -> (db = 8%nat -> cb = 126 /\ clo = false) -> is_byte cb ->
    hdlc_line (map with_fcs fs) (pre ++ line_bits (h_brev cfg) out ++ rb (at0 xfast_flag_value (Z.of_nat db)) db) ->
    acc = fs ++ pend src -> Forall frame_ok (pend src) ->
    einv cfg pre out acc (E 0 b1 (Z.of_nat db) SEND_FAST_FLAG crc cb sr (at0 xfast_flag_value (Z.of_nat db)) rcv clo) src
| e_data : forall fs bs b1 db crc cb sr ff clo src,
    (db < 8)%nat -> (bs <= 8)%nat -> 0 <= b1 <= 5 -> is_byte cb -> is_byte sr -> 0 <= crc < 65536 ->
    bytes src -> (clo = false -> src <> []) ->
    hdlc_line (map with_fcs fs) (pre ++ obs cfg out cb db ++ sf b1 (lb bs sr ++ flat_map octet_bits (cut clo src ++
       fcsof (crc_octets POLY_CCITT_REV crc ((if Nat.eqb bs 8 then [sr] else []) ++ cut clo src)))) ++ flag) ->
    acc = fs ++ pend (cut (negb clo) src) -> Forall frame_ok (pend (cut (negb clo) src)) ->
    einv cfg pre out acc (E (Z.of_nat bs) b1 (Z.of_nat db) SEND_DATA crc cb sr ff true clo) src
| e_crc1 : forall fs bs b1 db crc cb sr ff rcv src,
    (db < 8)%nat -> (1 <= bs <= 8)%nat -> 0 <= b1 <= 5 -> is_byte cb -> 0 <= crc < 65536 ->
    hdlc_line (map with_fcs fs) (pre ++ obs cfg out cb db ++ sf b1 (lb bs sr ++ octet_bits (Z.shiftr crc 8)) ++ flag) ->
    acc = fs ++ pend src -> Forall frame_ok (pend src) ->
    einv cfg pre out acc (E (Z.of_nat bs) b1 (Z.of_nat db) SEND_CRC1 crc cb sr ff rcv true) src
| e_crc2 : forall fs bs b1 db crc cb sr ff rcv src,
    (db < 8)%nat -> (1 <= bs <= 8)%nat -> 0 <= b1 <= 5 -> is_byte cb ->
    hdlc_line (map with_fcs fs) (pre ++ obs cfg out cb db ++ sf b1 (lb bs sr) ++ flag) ->
    acc = fs ++ pend src -> Forall frame_ok (pend src) ->
    einv cfg pre out acc (E (Z.of_nat bs) b1 (Z.of_nat db) SEND_CRC2 crc cb sr ff rcv true) src
| e_clos : forall fs bs b1 db crc cb sr ff rcv src,
    (db < 8)%nat -> (1 <= bs <= 8)%nat -> 0 <= b1 <= 5 -> is_byte cb -> (b1 = 5 -> bs = 8%nat) ->
    sr = Z.shiftr 126 (8 - Z.of_nat bs) -> pb cb (8 - bs) = firstn (8 - bs) flag ->
    hdlc_line (map with_fcs fs) (pre ++ obs cfg out cb db ++ sf b1 [] ++ lb bs sr) ->
    acc = fs ++ pend src -> Forall frame_ok (pend src) ->
    einv cfg pre out acc (E (Z.of_nat bs) b1 (Z.of_nat db) SEND_CLOSING_FLAG crc cb sr ff rcv true) src.

Lemma fcs_fcsof f : fcs f = fcsof (crc_octets POLY_CCITT_REV 65535 f).
Proof. reflexivity. Qed.
(** Loading does not disturb the invariant (outside the idle state). *)
Lemma load_inv cfg pre out acc h src : h_adapt56 cfg = false -> einv cfg pre out acc h src -> e_st h <> SEND_FAST_FLAG ->
  exists h1 src1, enc_load cfg h src = (h1, src1) /\ einv cfg pre out acc h1 src1 /\ 1 <= e_bs h1 /\ e_st h1 <> SEND_FAST_FLAG /\ e_db h1 = e_db h.
Proof.
  intros A I NF. destruct I as [fs db b1 crc cb sr rcv clo src Hdb H8 Hcb HL HA HF|fs bs b1 db crc cb sr ff clo src Hdb Hbs Hb1 Hcb Hsr Hcrc HS HC HL HA HF
    |fs bs b1 db crc cb sr ff rcv src Hdb Hbs Hb1 Hcb Hcrc HL HA HF|fs bs b1 db crc cb sr ff rcv src Hdb Hbs Hb1 Hcb HL HA HF
    |fs bs b1 db crc cb sr ff rcv src Hdb Hbs Hb1 Hcb H5 Hsr Hpb HL HA HF].
  - now elim NF.
  - unfold enc_load. destruct (Z.eqb_spec (Z.of_nat bs) 0) as [EQ|EQ].
    + assert (bs = 0%nat) by lia. subst bs. cbn [lb app Nat.eqb] in HL. destruct clo.
      * exists (E 8 b1 (Z.of_nat db) SEND_CRC1 (Z.lxor crc 65535) cb (Z.land (Z.lxor crc 65535) 255) ff true true), src.
        split; [destruct src; reflexivity|]. cbn [cut negb app crc_octets] in *. cbn [e_bs e_st e_db]. split; [|split; [lia|split; [discriminate|reflexivity]]].
        change 8 with (Z.of_nat 8) at 1. apply e_crc1 with (fs := fs); auto; try lia.
        { change 65536 with (2 ^ 16). apply P_crc.lxor_bound; change (2 ^ 16) with 65536; lia. }
        rewrite lb_8. rewrite land255. unfold fcsof in HL. cbn [crc_octets flat_map fold_left] in HL. rewrite app_nil_r in HL.
        rewrite Z.shiftr_div_pow2 by lia. exact HL.
      * destruct src as [|o t]; [now elim (HC eq_refl)|]. assert (Ho : is_byte o) by now inversion HS. assert (Ht : bytes t) by now inversion HS.
        exists (E 8 b1 (Z.of_nat db) SEND_DATA crc cb o ff true (if zlen t =? 0 then true else false)), t.
        split; [reflexivity|]. cbn [e_bs e_st e_db]. split; [|split; [lia|split; [discriminate|reflexivity]]].
        change 8 with (Z.of_nat 8) at 1. cbn [cut negb pend] in *.
        assert (CT : cut (if zlen t =? 0 then true else false) t = t).
        { destruct t; [reflexivity|]. rewrite zlen_cons. pose proof (zlen_nonneg t). destruct (Z.eqb_spec (1 + zlen t) 0); [lia|reflexivity]. }
        assert (CN : cut (negb (if zlen t =? 0 then true else false)) t = []).
        { destruct t; [reflexivity|]. rewrite zlen_cons. pose proof (zlen_nonneg t). destruct (Z.eqb_spec (1 + zlen t) 0); [lia|reflexivity]. }
        apply e_data with (fs := fs); auto; try lia.
        -- destruct t; [intros K; discriminate K|intros _ K; discriminate K].
        -- rewrite CT, lb_8. cbn [Nat.eqb]. cbn [app flat_map] in *. exact HL.
        -- rewrite CN. exact HA.
        -- rewrite CN. exact HF.
    + exists (E (Z.of_nat bs) b1 (Z.of_nat db) SEND_DATA crc cb sr ff true clo), src. split; [reflexivity|]. cbn [e_bs e_st e_db]. split; [|split; [lia|split; [discriminate|reflexivity]]]. apply e_data with (fs := fs); auto.
  - unfold enc_load. destruct (Z.eqb_spec (Z.of_nat bs) 0) as [EQ|EQ]; [lia|]. eexists _, src. split; [reflexivity|]. cbn [e_bs e_st e_db]. split; [|split; [lia|split; [discriminate|reflexivity]]]. now apply e_crc1 with (fs := fs).
  - unfold enc_load. destruct (Z.eqb_spec (Z.of_nat bs) 0) as [EQ|EQ]; [lia|]. eexists _, src. split; [reflexivity|]. cbn [e_bs e_st e_db]. split; [|split; [lia|split; [discriminate|reflexivity]]]. now apply e_crc2 with (fs := fs).
  - unfold enc_load. destruct (Z.eqb_spec (Z.of_nat bs) 0) as [EQ|EQ]; [lia|]. eexists _, src. split; [reflexivity|]. cbn [e_bs e_st e_db]. split; [|split; [lia|split; [discriminate|reflexivity]]]. now apply e_clos with (fs := fs).
Qed.

(** upper bound on the bits still to be sent when the frame has been taken completely *)
Definition five (b1 : Z) : Z := if b1 =? 5 then 1 else 0.
Definition rho (h : enc) : Z :=
  match e_st h with
  | SEND_DATA => 2 * (e_bs h + 16) + 8 + five (e_b1 h)
  | SEND_CRC1 => 2 * (e_bs h + 8) + 8 + five (e_b1 h)
  | SEND_CRC2 => 2 * e_bs h + 8 + five (e_b1 h)
  | SEND_CLOSING_FLAG => e_bs h + five (e_b1 h)
  | _ => 0
  end.
Lemma app3 {A} (p o : list A) b r : p ++ o ++ b :: r = p ++ (o ++ [b]) ++ r.
Proof. now rewrite <- app_assoc. Qed.
Lemma lb_cons n sr : (1 <= n)%nat -> lb n sr = b2z (Z.testbit sr 0) :: lb (n - 1) (Z.shiftr sr 1).
Proof. intros H. destruct n; [lia|]. cbn [lb]. now replace (S n - 1)%nat with n by lia. Qed.
(** after a bit [b] of data, CRC or closing flag *)
Definition next1 (b1 b : Z) : Z := if b =? 1 then b1 + 1 else 0.
Lemma sf_cons b1 b l : 0 <= b1 < 5 -> is_bit b -> sf b1 (b :: l) = b :: sf (next1 b1 b) l.
Proof. intros H [-> | ->]; [now apply sf_0|now apply sf_1]. Qed.
Lemma next1_range b1 b : 0 <= b1 < 5 -> 0 <= next1 b1 b <= 5.
Proof. unfold next1. destruct (b =? 1); lia. Qed.
Lemma five_range b : 0 <= five b <= 1.
Proof. unfold five. destruct (b =? 5); lia. Qed.
Lemma five_no b : 0 <= b < 5 -> five b = 0.
Proof. unfold five. destruct (Z.eqb_spec b 5); lia. Qed.

Definition stepped (cfg : hcfg) (cap : Z) (pre : list Z) (acc : list (list Z)) (h : enc) (src : list Z) (ds : Z) (out : list Z) : Prop :=
  exists h2 ds2 out2 h3 ds3 out3,
    enc_switch cfg cap h src ds out = Ok (h2, ds2, out2) /\ enc_tail cfg cap h2 ds2 out2 = Ok (h3, ds3, out3) /\
    einv cfg pre out3 acc h3 src /\ zlen out3 + ds3 <= cap /\ bytes out3 /\ 0 <= ds3 /\
    8 * ds3 - e_db h3 <= 8 * ds - e_db h - 1 /\
    (e_st h3 = SEND_FAST_FLAG \/ (rho h3 < rho h /\ 8 * ds3 - e_db h3 = 8 * ds - e_db h - 1)) /\ e_db h3 <> 8.

Lemma step_data cfg cap pre acc h src ds out : h_adapt56 cfg = false ->
  einv cfg pre out acc h src -> e_st h = SEND_DATA -> 1 <= e_bs h -> 1 <= ds -> zlen out + ds <= cap -> bytes out -> stepped cfg cap pre acc h src ds out.
Proof.
  intros A I ST BS DS CAP OB.
  destruct I as [|fs bs b1 db crc cb sr ff clo src Hdb Hbs Hb1 Hcb Hsr Hcrc HS HC HL HA HF| | |]; cbn [e_st] in ST; try discriminate ST.
  cbn [e_bs] in BS. unfold stepped, enc_switch.
  destruct (Z.eqb_spec b1 5) as [E5|E5].
  - subst b1. destruct (tail_bit cfg cap (Z.of_nat bs) 0 db SEND_DATA crc cb sr ff true clo ds out 0 A ltac:(left; reflexivity) Hdb CAP DS OB)
      as (out' & ds' & db' & T1 & T2 & _ & T3 & T4 & T5 & T6 & T7). change (shb cb 0) with (u8 (Z.shiftl cb 1)) in T1.
    eexists _, ds, out, _, ds', out'. split; [reflexivity|]. split; [exact T1|]. rewrite sf_5 in HL. cbn [app] in HL. rewrite app3, <- T3 in HL.
    split; [apply e_data with (fs := fs); auto; try lia; apply u8_range|]. unfold rho, five. cbn [e_db e_st e_bs e_b1]. change (0 =? 5) with false. change (5 =? 5) with true. cbn match.
    repeat split; auto; lia.
  - set (b := b2z (Z.testbit sr 0)). assert (Hb : is_bit b) by apply b2z_bit.
    set (crc' := if Z.of_nat bs =? 8 then osmo_crc16_ccitt_byte crc sr else crc).
    destruct (tail_bit cfg cap (Z.of_nat bs - 1) (next1 b1 b) db SEND_DATA crc' cb (Z.shiftr sr 1) ff true clo ds out b A Hb Hdb CAP DS OB)
      as (out' & ds' & db' & T1 & T2 & _ & T3 & T4 & T5 & T6 & T7).
    exists (E (Z.of_nat bs - 1) (next1 b1 b) (Z.of_nat db + 1) SEND_DATA crc' (shb cb b) (Z.shiftr sr 1) ff true clo), ds, out.
    eexists _, ds', out'. split; [unfold b, shb, next1; destruct (Z.testbit sr 0); reflexivity|]. split; [exact T1|].
    assert (Ebs : Z.of_nat bs - 1 = Z.of_nat (bs - 1)) by lia. rewrite Ebs.
    assert (RN : 0 <= next1 b1 b <= 5) by (apply next1_range; lia).
    assert (Esr : is_byte (Z.shiftr sr 1)) by (unfold is_byte in *; rewrite Z.shiftr_div_pow2 by lia; change (2 ^ 1) with 2; lia).
    assert (Ecrc : 0 <= crc' < 65536) by (unfold crc'; destruct (_ =? 8); [now apply crc_byte_range|assumption]).
    rewrite (lb_cons bs) in HL by lia. fold b in HL. cbn [app] in HL. rewrite sf_cons in HL by (auto; lia). cbn [app] in HL. rewrite app3, <- T3 in HL.
    assert (EC : crc_octets POLY_CCITT_REV crc' ((if Nat.eqb (bs - 1) 8 then [Z.shiftr sr 1] else []) ++ cut clo src) = crc_octets POLY_CCITT_REV crc ((if Nat.eqb bs 8 then [sr] else []) ++ cut clo src)).
    { destruct (Nat.eqb_spec (bs - 1) 8); [lia|]. unfold crc'. destruct (Nat.eqb_spec bs 8), (Z.eqb_spec (Z.of_nat bs) 8); try lia.
      rewrite ccitt_byte_ok by (auto; lia). now rewrite (crc_octets_app _ crc [sr]). }
    split; [apply e_data with (fs := fs); auto; try lia; [apply shb_byte|rewrite EC; exact HL]|].
    unfold rho. cbn [e_db e_st e_bs e_b1]. rewrite (five_no b1) by lia. pose proof (five_range (next1 b1 b)).
    repeat split; auto; try lia; right; split; lia.
Qed.
Lemma step_crc1 cfg cap pre acc h src ds out : h_adapt56 cfg = false ->
  einv cfg pre out acc h src -> e_st h = SEND_CRC1 -> 1 <= ds -> zlen out + ds <= cap -> bytes out -> stepped cfg cap pre acc h src ds out.
Proof.
  intros A I ST DS CAP OB.
  destruct I as [| |fs bs b1 db crc cb sr ff rcv src Hdb Hbs Hb1 Hcb Hcrc HL HA HF| |]; cbn [e_st] in ST; try discriminate ST.
  unfold stepped, enc_switch.
  destruct (Z.eqb_spec b1 5) as [E5|E5].
  - subst b1. destruct (tail_bit cfg cap (Z.of_nat bs) 0 db SEND_CRC1 crc cb sr ff rcv true ds out 0 A ltac:(left; reflexivity) Hdb CAP DS OB)
      as (out' & ds' & db' & T1 & T2 & _ & T3 & T4 & T5 & T6 & T7). change (shb cb 0) with (u8 (Z.shiftl cb 1)) in T1.
    eexists _, ds, out, _, ds', out'. split; [reflexivity|]. split; [exact T1|]. rewrite sf_5 in HL. cbn [app] in HL. rewrite app3, <- T3 in HL.
    split; [apply e_crc1 with (fs := fs); auto; try lia; apply u8_range|]. unfold rho, five. cbn [e_db e_st e_bs e_b1]. change (0 =? 5) with false. change (5 =? 5) with true. cbn match.
    repeat split; auto; lia.
  - set (b := b2z (Z.testbit sr 0)). assert (Hb : is_bit b) by apply b2z_bit.
    assert (RN : 0 <= next1 b1 b <= 5) by (apply next1_range; lia).
    rewrite (lb_cons bs) in HL by lia. fold b in HL. cbn [app] in HL. rewrite sf_cons in HL by (auto; lia). cbn [app] in HL. rewrite app3 in HL.
    assert (EB : (if Z.testbit sr 0 then u8 (u8 (Z.shiftl cb 1) + 1) else u8 (Z.shiftl cb 1)) = shb cb b) by (unfold b, shb; destruct (Z.testbit sr 0); reflexivity).
    assert (EN : (if Z.testbit sr 0 then b1 + 1 else 0) = next1 b1 b) by (unfold b, next1; destruct (Z.testbit sr 0); reflexivity).
    rewrite EB, EN. destruct (Z.eqb_spec (Z.of_nat bs - 1) 0) as [E0|E0].
    + destruct (tail_bit cfg cap 8 (next1 b1 b) db SEND_CRC2 crc cb (Z.shiftr crc 8) ff rcv true ds out b A Hb Hdb CAP DS OB)
        as (out' & ds' & db' & T1 & T2 & _ & T3 & T4 & T5 & T6 & T7).
      eexists _, ds, out, _, ds', out'. split; [reflexivity|]. split; [exact T1|]. rewrite <- T3 in HL.
      replace (bs - 1)%nat with 0%nat in HL by lia. cbn [lb app] in HL. rewrite <- lb_8 in HL.
      split; [change 8 with (Z.of_nat 8) at 1; apply e_crc2 with (fs := fs); auto; try lia; apply shb_byte|].
      unfold rho. cbn [e_db e_st e_bs e_b1]. rewrite (five_no b1) by lia. pose proof (five_range (next1 b1 b)).
      repeat split; auto; try lia; right; split; lia.
    + destruct (tail_bit cfg cap (Z.of_nat bs - 1) (next1 b1 b) db SEND_CRC1 crc cb (Z.shiftr sr 1) ff rcv true ds out b A Hb Hdb CAP DS OB)
        as (out' & ds' & db' & T1 & T2 & _ & T3 & T4 & T5 & T6 & T7).
      eexists _, ds, out, _, ds', out'. split; [reflexivity|]. split; [exact T1|]. rewrite <- T3 in HL.
      assert (Ebs : Z.of_nat bs - 1 = Z.of_nat (bs - 1)) by lia. rewrite Ebs.
      split; [apply e_crc1 with (fs := fs); auto; try lia; apply shb_byte|].
      unfold rho. cbn [e_db e_st e_bs e_b1]. rewrite (five_no b1) by lia. pose proof (five_range (next1 b1 b)).
      repeat split; auto; try lia; right; split; lia.
Qed.
Lemma step_crc2 cfg cap pre acc h src ds out : h_adapt56 cfg = false ->
  einv cfg pre out acc h src -> e_st h = SEND_CRC2 -> 1 <= ds -> zlen out + ds <= cap -> bytes out -> stepped cfg cap pre acc h src ds out.
Proof.
  intros A I ST DS CAP OB.
  destruct I as [| | |fs bs b1 db crc cb sr ff rcv src Hdb Hbs Hb1 Hcb HL HA HF|]; cbn [e_st] in ST; try discriminate ST.
  unfold stepped, enc_switch.
  destruct (Z.eqb_spec b1 5) as [E5|E5].
  - subst b1. destruct (tail_bit cfg cap (Z.of_nat bs) 0 db SEND_CRC2 crc cb sr ff rcv true ds out 0 A ltac:(left; reflexivity) Hdb CAP DS OB)
      as (out' & ds' & db' & T1 & T2 & _ & T3 & T4 & T5 & T6 & T7). change (shb cb 0) with (u8 (Z.shiftl cb 1)) in T1.
    eexists _, ds, out, _, ds', out'. split; [reflexivity|]. split; [exact T1|]. rewrite sf_5 in HL. cbn [app] in HL. rewrite app3, <- T3 in HL.
    split; [apply e_crc2 with (fs := fs); auto; try lia; apply u8_range|]. unfold rho, five. cbn [e_db e_st e_bs e_b1]. change (0 =? 5) with false. change (5 =? 5) with true. cbn match.
    repeat split; auto; lia.
  - set (b := b2z (Z.testbit sr 0)). assert (Hb : is_bit b) by apply b2z_bit.
    assert (RN : 0 <= next1 b1 b <= 5) by (apply next1_range; lia).
    rewrite (lb_cons bs) in HL by lia. fold b in HL. rewrite sf_cons in HL by (auto; lia). cbn [app] in HL. rewrite app3 in HL.
    assert (EB : (if Z.testbit sr 0 then u8 (u8 (Z.shiftl cb 1) + 1) else u8 (Z.shiftl cb 1)) = shb cb b) by (unfold b, shb; destruct (Z.testbit sr 0); reflexivity).
    assert (EN : (if Z.testbit sr 0 then b1 + 1 else 0) = next1 b1 b) by (unfold b, next1; destruct (Z.testbit sr 0); reflexivity).
    rewrite EB, EN. destruct (Z.eqb_spec (Z.of_nat bs - 1) 0) as [E0|E0].
    + destruct (tail_bit cfg cap 8 (next1 b1 b) db SEND_CLOSING_FLAG crc cb 126 ff rcv true ds out b A Hb Hdb CAP DS OB)
        as (out' & ds' & db' & T1 & T2 & _ & T3 & T4 & T5 & T6 & T7).
      eexists _, ds, out, _, ds', out'. split; [reflexivity|]. split; [exact T1|]. rewrite <- T3 in HL.
      replace (bs - 1)%nat with 0%nat in HL by lia. cbn [lb] in HL. change flag with (lb 8 126) in HL.
      split; [change 8 with (Z.of_nat 8) at 1; apply e_clos with (fs := fs); auto; try lia; try apply shb_byte; reflexivity|].
      unfold rho. cbn [e_db e_st e_bs e_b1]. rewrite (five_no b1) by lia. pose proof (five_range (next1 b1 b)).
      repeat split; auto; try lia; right; split; lia.
    + destruct (tail_bit cfg cap (Z.of_nat bs - 1) (next1 b1 b) db SEND_CRC2 crc cb (Z.shiftr sr 1) ff rcv true ds out b A Hb Hdb CAP DS OB)
        as (out' & ds' & db' & T1 & T2 & _ & T3 & T4 & T5 & T6 & T7).
      eexists _, ds, out, _, ds', out'. split; [reflexivity|]. split; [exact T1|]. rewrite <- T3 in HL.
      assert (Ebs : Z.of_nat bs - 1 = Z.of_nat (bs - 1)) by lia. rewrite Ebs.
      split; [apply e_crc2 with (fs := fs); auto; try lia; apply shb_byte|].
      unfold rho. cbn [e_db e_st e_bs e_b1]. rewrite (five_no b1) by lia. pose proof (five_range (next1 b1 b)).
      repeat split; auto; try lia; right; split; lia.
Qed.
Lemma sf_nil b1 : b1 <> 5 -> sf b1 [] = [].
Proof. intros H. unfold sf. destruct (Z.eqb_spec b1 5); [lia|]. reflexivity. Qed.
Lemma pb_prefix n cb : (n <= 8)%nat -> pb cb 8 = flag -> pb cb n = rev (firstn n (rev flag)).
Proof.
  intros Hn H. unfold pb in *. apply (f_equal (@rev Z)) in H. rewrite rev_involutive in H. f_equal. rewrite <- H.
  clear H. revert cb Hn. assert (G : forall m k cb, (k <= m)%nat -> lb k cb = firstn k (lb m cb)).
  { induction m as [|m IH]; intros k cb K; destruct k; try lia; try reflexivity. cbn [lb firstn]. f_equal. apply IH. lia. }
  intros cb Hn. now apply G.
Qed.
Lemma step_clos cfg cap pre acc h src ds out : h_adapt56 cfg = false -> h_dchannel cfg = false ->
  einv cfg pre out acc h src -> e_st h = SEND_CLOSING_FLAG -> 1 <= ds -> zlen out + ds <= cap -> bytes out -> stepped cfg cap pre acc h src ds out.
Proof.
  intros A DC I ST DS CAP OB.
  destruct I as [| | | |fs bs b1 db crc cb sr ff rcv src Hdb Hbs Hb1 Hcb H5 Hsr Hpb HL HA HF]; cbn [e_st] in ST; try discriminate ST.
  unfold stepped, enc_switch.
  destruct (Z.eqb_spec b1 5) as [E5|E5].
  - subst b1. destruct (tail_bit cfg cap (Z.of_nat bs) 0 db SEND_CLOSING_FLAG crc cb sr ff rcv true ds out 0 A ltac:(left; reflexivity) Hdb CAP DS OB)
      as (out' & ds' & db' & T1 & T2 & _ & T3 & T4 & T5 & T6 & T7). change (shb cb 0) with (u8 (Z.shiftl cb 1)) in T1.
    eexists _, ds, out, _, ds', out'. split; [reflexivity|]. split; [exact T1|]. rewrite sf_5 in HL. cbn [app] in HL. rewrite app3, <- T3 in HL.
    rewrite (H5 eq_refl) in *.
    split; [apply e_clos with (fs := fs); auto; try lia; apply u8_range|]. unfold rho, five. cbn [e_db e_st e_bs e_b1]. change (0 =? 5) with false. change (5 =? 5) with true. cbn match.
    repeat split; auto; lia.
  - set (b := b2z (Z.testbit sr 0)). assert (Hb : is_bit b) by apply b2z_bit.
    rewrite sf_nil in HL by assumption. cbn [app] in HL. rewrite (lb_cons bs) in HL by lia. fold b in HL. rewrite app3 in HL.
    assert (EB : (if Z.testbit sr 0 then u8 (u8 (Z.shiftl cb 1) + 1) else u8 (Z.shiftl cb 1)) = shb cb b) by (unfold b, shb; destruct (Z.testbit sr 0); reflexivity).
    assert (Hpb' : pb (shb cb b) (8 - (bs - 1)) = firstn (8 - (bs - 1)) flag).
    { replace (8 - (bs - 1))%nat with (S (8 - bs)) by lia. rewrite pb_shb by (auto; lia). rewrite Hpb. unfold b. rewrite Hsr. clear - Hbs.
      destruct bs as [|bs]; [lia|]. do 8 (destruct bs as [|bs]; [reflexivity|]). lia. }
    rewrite EB. destruct (Z.eqb_spec (Z.of_nat bs - 1) 0) as [E0|E0].
    + rewrite (rd_at0 xfast_flag_value) by (change (zlen xfast_flag_value) with 9; lia). cbn [bind]. rewrite DC, A.
      destruct (tail_bit cfg cap 0 b1 db SEND_FAST_FLAG crc cb (Z.shiftr sr 1) (at0 xfast_flag_value (Z.of_nat db + 1)) false true (Z.min ds 1) out b A Hb Hdb ltac:(lia) ltac:(lia) OB)
        as (out' & ds' & db' & T1 & T2 & TD & T3 & T4 & T5 & T6 & T7).
      eexists _, (Z.min ds 1), out, _, ds', out'. split; [reflexivity|]. split; [exact T1|]. rewrite <- T3 in HL.
      replace (bs - 1)%nat with 0%nat in * by lia. cbn [lb] in HL. rewrite app_nil_r in HL. change (8 - 0)%nat with 8%nat in Hpb'. change (firstn 8 flag) with flag in Hpb'.
      assert (EF : at0 xfast_flag_value (Z.of_nat db + 1) = at0 xfast_flag_value (Z.of_nat db')).
      { rewrite TD. destruct (Nat.eqb_spec db 7) as [-> |]; [reflexivity|]. f_equal. lia. }
      rewrite EF. split.
      * apply e_ff with (fs := fs); auto; try lia; [apply shb_byte|].
        unfold obs in HL. rewrite (pb_prefix db') in HL by (auto; lia).
        replace (rb (at0 xfast_flag_value (Z.of_nat db')) db') with (rev (firstn db' (rev flag))); [exact HL|].
        clear - T2. do 8 (destruct db' as [|db']; [reflexivity|]). lia.
      * cbn [e_db e_st]. repeat split; auto; lia.
    + destruct (tail_bit cfg cap (Z.of_nat bs - 1) b1 db SEND_CLOSING_FLAG crc cb (Z.shiftr sr 1) ff rcv true ds out b A Hb Hdb CAP DS OB)
        as (out' & ds' & db' & T1 & T2 & _ & T3 & T4 & T5 & T6 & T7).
      eexists _, ds, out, _, ds', out'. split; [reflexivity|]. split; [exact T1|]. rewrite <- T3 in HL.
      assert (Ebs : Z.of_nat bs - 1 = Z.of_nat (bs - 1)) by lia. rewrite Ebs. split.
      * apply e_clos with (fs := fs); auto; try lia; [apply shb_byte| |].
        { rewrite Hsr. rewrite Z.shiftr_shiftr by lia. f_equal. lia. }
        rewrite sf_nil by assumption. exact HL.
      * unfold rho. cbn [e_db e_st e_bs e_b1]. rewrite (five_no b1) by lia. repeat split; auto; try lia; right; split; lia.
Qed.

(** the idle state *)
Definition wt (h : enc) : Z := match e_st h with SEND_FAST_FLAG => if e_clo h then 2 else 1 | _ => 0 end.
Definition room (h : enc) (src : list Z) (ds : Z) : Prop := 1 <= ds /\ (e_db h = 8 -> src = [] -> 2 <= ds).
Lemma with_fcs_bytes f : bytes f -> bytes (with_fcs f).
Proof. intros H. apply Forall_app. split; [assumption|apply fcs_bytes]. Qed.
Lemma step_ff cfg cap pre acc h src ds out : h_adapt56 cfg = false ->
  einv cfg pre out acc h src -> e_st h = SEND_FAST_FLAG -> room h src ds -> zlen out + ds <= cap -> bytes out ->
  exists h1 src1 h2 ds2 out2 h3 ds3 out3,
    enc_load cfg h src = (h1, src1) /\ enc_switch cfg cap h1 src1 ds out = Ok (h2, ds2, out2) /\ enc_tail cfg cap h2 ds2 out2 = Ok (h3, ds3, out3) /\
    einv cfg pre out3 acc h3 src1 /\ zlen out3 + ds3 <= cap /\ bytes out3 /\ 0 <= ds3 /\
    3 * (8 * ds3 - e_db h3) + wt h3 < 3 * (8 * ds - e_db h) + wt h /\ (src = [] -> src1 = [] /\ e_st h3 = SEND_FAST_FLAG) /\ (0 < ds3 -> e_db h3 <> 8).
Proof.
  intros A I ST (DS & DS2) CAP OB.
  destruct I as [fs db b1 crc cb sr rcv clo src Hdb H8 Hcb HL HA HF| | | |]; cbn [e_st] in ST; try discriminate ST.
  set (ff := at0 xfast_flag_value (Z.of_nat db)) in *. cbn [e_db] in DS2.
  assert (Hff : is_byte ff) by (unfold ff; clear - Hdb; do 9 (destruct db as [|db]; [vm_compute; split; [discriminate|reflexivity]|]); lia).
  destruct src as [|o t].
  - (* idle *)
    destruct (Z.eq_dec (Z.of_nat db) 8) as [EQ|EQ].
    + eexists _, []. unfold enc_load. change (0 =? 0) with true. cbn match.
      do 6 eexists. split; [reflexivity|]. unfold enc_switch. change (zlen [] =? 0) with true. cbn match. rewrite emit_ok by lia. cbn [bind]. split; [reflexivity|].
      unfold enc_tail. rewrite A. cbn [andb]. destruct (emitted_bits cfg ff Hff) as [M1 M2].
      destruct (Z.eqb_spec (Z.of_nat db) 8); [|lia].
      assert (db = 8%nat) by lia. subst db. destruct (H8 eq_refl) as [-> ->]. specialize (DS2 eq_refl eq_refl).
      rewrite emit_ok by (rewrite zlen_app; change (zlen [_]) with 1; lia). cbn [bind]. split; [reflexivity|].
      destruct (emitted_bits cfg 126 Hcb) as [N1 N2]. split.
      * change 0 with (Z.of_nat 0) at 2. change ff with (at0 xfast_flag_value (Z.of_nat 0)) in *. apply e_ff with (fs := fs); auto; try lia.
        change (rb (at0 xfast_flag_value (Z.of_nat 8)) 8) with flag in HL. rewrite !line_bits_app, M1, N1. change (rev (octet_bits (at0 xfast_flag_value (Z.of_nat 0)))) with flag. change (rev (octet_bits 126)) with flag.
        change (rb (at0 xfast_flag_value (Z.of_nat 0)) 0) with (@nil Z). rewrite app_nil_r. rewrite app_assoc in HL |- *.
        apply hl_flag in HL. rewrite <- !app_assoc in *. exact HL.
      * cbn [e_db e_st]. unfold wt. cbn [e_st e_clo]. rewrite !zlen_app. change (zlen [emitted cfg ff]) with 1. change (zlen [emitted cfg 126]) with 1.
        change (Z.of_nat 8) with 8. repeat split; auto; try lia. apply Forall_app. split; [apply Forall_app; split; [assumption|]|]; constructor; auto.
    + eexists _, []. unfold enc_load. change (0 =? 0) with true. cbn match.
      do 6 eexists. split; [reflexivity|]. unfold enc_switch. change (zlen [] =? 0) with true. cbn match. rewrite emit_ok by lia. cbn [bind]. split; [reflexivity|].
      unfold enc_tail. rewrite A. cbn [andb]. destruct (emitted_bits cfg ff Hff) as [M1 M2].
      destruct (Z.eqb_spec (Z.of_nat db) 8); [lia|].
      split; [reflexivity|]. split.
      * apply e_ff with (fs := fs); auto; try lia.
        fold ff. rewrite line_bits_app, M1. rewrite <- rb_8.
        replace ((line_bits (h_brev cfg) out ++ rb ff 8) ++ rb ff db) with ((line_bits (h_brev cfg) out ++ rb ff db) ++ flag).
        { apply hl_flag in HL. rewrite <- !app_assoc in *. exact HL. }
        rewrite <- !app_assoc. f_equal. unfold ff. assert (Hd : (db < 8)%nat) by lia. clear - Hd. do 8 (destruct db as [|db]; [reflexivity|]). lia.
      * cbn [e_db e_st]. unfold wt. cbn [e_st e_clo]. rewrite !zlen_app. change (zlen [emitted cfg ff]) with 1.
        repeat split; auto; try lia; [|destruct clo; lia]. apply Forall_app. split; [assumption|]. constructor; auto.
  - cbn [pend] in *. destruct clo.
    + (* one more pass *)
      assert (N8 : db <> 8%nat) by (intros K; destruct (H8 K); discriminate).
      exists (E 0 b1 (Z.of_nat db) SEND_FAST_FLAG crc cb sr ff rcv true), (o :: t), (E 0 b1 (Z.of_nat db) SEND_FAST_FLAG crc cb sr ff rcv false), ds, out.
      eexists _, ds, out. split; [reflexivity|]. split.
      { unfold enc_switch. rewrite zlen_cons. pose proof (zlen_nonneg t). destruct (Z.eqb_spec (1 + zlen t) 0); [lia|]. reflexivity. }
      unfold enc_tail. rewrite A. cbn [andb]. destruct (Z.eqb_spec (Z.of_nat db) 8) as [EQ|EQ]; [lia|]. split; [reflexivity|].
      split; [apply e_ff with (fs := fs); auto; lia|]. unfold wt. cbn [e_db e_st e_clo]. repeat split; auto; try lia; discriminate.
    + (* a new frame *)
      inversion HF as [|? ? [FB FL] _]. subst x l. assert (Ho : is_byte o) by now inversion FB. assert (Ht : bytes t) by now inversion FB.
      rewrite zlen_cons in FL.
      exists (E 8 b1 (Z.of_nat db) SEND_FAST_FLAG crc cb o ff rcv false), t.
      set (cb' := Z.shiftr ff (8 - Z.of_nat db)).
      exists (E 8 0 (Z.of_nat db) SEND_DATA 65535 cb' o ff true false), ds, out.
      assert (PB : pb cb' db = rb ff db) by (unfold cb', ff; clear - Hdb; do 9 (destruct db as [|db]; [reflexivity|]); lia).
      assert (CB : is_byte cb') by (unfold cb', ff; clear - Hdb; do 9 (destruct db as [|db]; [vm_compute; split; [discriminate|reflexivity]|]); lia).
      assert (HL2 : hdlc_line (map with_fcs (fs ++ [o :: t])) (pre ++ (line_bits (h_brev cfg) out ++ pb cb' db) ++ body (with_fcs (o :: t)) ++ flag)).
      { rewrite PB. rewrite map_app. cbn [map]. rewrite app_assoc. apply hl_body; [exact HL|now apply with_fcs_bytes|discriminate]. }
      assert (BD : body (with_fcs (o :: t)) = sf 0 (lb 8 o ++ flat_map octet_bits (cut false t ++ fcsof (crc_octets POLY_CCITT_REV 65535 ((if Nat.eqb 8 8 then [o] else []) ++ cut false t))))).
      { rewrite lb_8. reflexivity. }
      rewrite BD in HL2. clear BD.
      destruct (Z.eq_dec (Z.of_nat db) 8) as [EQ|EQ].
      * do 3 eexists. split.
        { unfold enc_load. change (0 =? 0) with true. cbn match. destruct (Z.eqb_spec (zlen t) 0); [lia|reflexivity]. }
        split. { unfold enc_switch. destruct (Z.eqb_spec (zlen t) 0); [lia|reflexivity]. }
        unfold enc_tail. rewrite A. cbn [andb]. destruct (Z.eqb_spec (Z.of_nat db) 8); [|lia].
        rewrite emit_ok by lia. cbn [bind]. split; [reflexivity|]. destruct (emitted_bits cfg cb' CB) as [M1 M2]. assert (db = 8%nat) by lia. subst db. split.
        -- change 8 with (Z.of_nat 8) at 1. change (E (Z.of_nat 8) 0 0) with (E (Z.of_nat 8) 0 (Z.of_nat 0)). apply e_data with (fs := fs ++ [o :: t]); auto; try lia.
           { intros _ K. subst t. change (zlen []) with 0 in FL. lia. }
           { unfold obs. rewrite line_bits_app, M1, <- pb_8. unfold pb at 2. cbn [lb rev]. rewrite app_nil_r. exact HL2. }
           { cbn [negb cut pend]. now rewrite app_nil_r. }
           { constructor. }
        -- unfold wt. cbn [e_db e_st]. cbn [e_clo]. rewrite zlen_app. change (zlen [emitted cfg cb']) with 1. change (Z.of_nat 8) with 8. repeat split; auto; try lia; try discriminate.
           apply Forall_app. split; [assumption|]. constructor; auto.
      * do 3 eexists. split.
        { unfold enc_load. change (0 =? 0) with true. cbn match. destruct (Z.eqb_spec (zlen t) 0); [lia|reflexivity]. }
        split. { unfold enc_switch. destruct (Z.eqb_spec (zlen t) 0); [lia|reflexivity]. }
        unfold enc_tail. rewrite A. cbn [andb]. destruct (Z.eqb_spec (Z.of_nat db) 8); [lia|].
        split; [reflexivity|]. split.
        -- change 8 with (Z.of_nat 8) at 1. apply e_data with (fs := fs ++ [o :: t]); auto; try lia.
           { intros _ K. subst t. change (zlen []) with 0 in FL. lia. }
           { cbn [negb cut pend]. now rewrite app_nil_r. }
           { constructor. }
        -- unfold wt. cbn [e_db e_st]. cbn [e_clo]. repeat split; auto; try lia; discriminate.
Qed.
