From Coq Require Import ZArith List Lia Bool.
From Verif Require Import Base Lib S_crc16 S_hdlc M_bits M_crc16 M_hdlc P_bits P_crc16 P_hdlc.
Import ListNotations.
Open Scope Z_scope.

Lemma dpush_octet o b1 sr crc rcv acc : is_byte o -> is_byte sr ->
  fold_left dpush (octet_bits o) (R b1 0 sr crc rcv acc) = R b1 0 o (osmo_crc16_ccitt_byte crc o) true (acc ++ [o]).
Proof.
  intros Ho Hs. pose proof (fold_shin8 o sr Hs Ho) as F. unfold octet_bits in *. cbn [map fold_left] in *.
  assert (E : forall db x b, 0 <= db < 7 -> dpush (R b1 db x crc rcv acc) b = R b1 (db + 1) (shin x b) crc rcv acc).
  { intros db x b D. unfold dpush, push. cbn [r_db r_b1 r_sr r_crc r_rcv r_acc]. destruct (Z.eqb_spec (db + 1) 8); [lia|reflexivity]. }
  do 7 (rewrite E by lia). unfold dpush, push. cbn [r_db r_b1 r_sr r_crc r_rcv r_acc]. rewrite F. reflexivity.
Qed.
Lemma dpush_octs : forall x b1 sr crc rcv acc, bytes x -> is_byte sr -> 0 <= crc < 65536 ->
  exists sr', is_byte sr' /\ fold_left dpush (flat_map octet_bits x) (R b1 0 sr crc rcv acc)
    = R b1 0 sr' (crc_octets POLY_CCITT_REV crc x) (if x then rcv else true) (acc ++ x).
Proof.
  induction x as [|o x IH]; intros b1 sr crc rcv acc HX HS HC.
  { exists sr. split; [assumption|]. cbn [flat_map fold_left]. now rewrite app_nil_r. }
  inversion HX as [|? ? Ho Hx]; subst. cbn [flat_map]. rewrite fold_left_app, dpush_octet by assumption.
  destruct (IH b1 o (osmo_crc16_ccitt_byte crc o) true (acc ++ [o]) Hx Ho (step_range crc o HC)) as (sr' & S1 & S2).
  exists sr'. split; [assumption|]. rewrite S2. rewrite ccitt_byte_ok by (auto; lia). change (o :: x) with ([o] ++ x).
  rewrite crc_octets_app, <- app_assoc. destruct x; reflexivity.
Qed.
Lemma flat_len x : zlen (flat_map octet_bits x) = 8 * zlen x.
Proof. induction x as [|o x IH]; [reflexivity|]. cbn [flat_map]. rewrite zlen_app, IH, zlen_cons. change (zlen (octet_bits o)) with 8. lia. Qed.
Lemma flag_run dsize m sr crc rcv acc : (m <= 4)%nat -> zlen acc <= dsize ->
  rrun (R (Z.of_nat m) 0 sr crc rcv acc) flag = (rreset, revent (R 6 6 0 crc rcv acc)) /\ okrun dsize (R (Z.of_nat m) 0 sr crc rcv acc) flag.
Proof.
  intros Hm HA. assert (E : rstep (R (Z.of_nat m) 0 sr crc rcv acc) 0 = (R 0 1 (shin sr 0) crc rcv acc, [])).
  { unfold rstep. cbn [r_b1]. change (0 =? 1) with false. cbn match. destruct (Z.eqb_spec (Z.of_nat m) 5); [lia|]. destruct (Z.eqb_spec (Z.of_nat m) 6); [lia|]. reflexivity. }
  set (s0 := R (Z.of_nat m) 0 sr crc rcv acc) in *. set (s1 := R 0 1 (shin sr 0) crc rcv acc) in *.
  set (s2 := R 1 2 (shin (r_sr s1) 1) crc rcv acc). assert (E2 : rstep s1 1 = (s2, [])) by reflexivity.
  set (s3 := R 2 3 (shin (r_sr s2) 1) crc rcv acc). assert (E3 : rstep s2 1 = (s3, [])) by reflexivity.
  set (s4 := R 3 4 (shin (r_sr s3) 1) crc rcv acc). assert (E4 : rstep s3 1 = (s4, [])) by reflexivity.
  set (s5 := R 4 5 (shin (r_sr s4) 1) crc rcv acc). assert (E5 : rstep s4 1 = (s5, [])) by reflexivity.
  set (s6 := R 5 6 (shin (r_sr s5) 1) crc rcv acc). assert (E6 : rstep s5 1 = (s6, [])) by reflexivity.
  set (s7 := R 6 6 (r_sr s6) crc rcv acc). assert (E7 : rstep s6 1 = (s7, [])) by reflexivity.
  assert (E8 : rstep s7 0 = (rreset, revent (R 6 6 0 crc rcv acc))) by reflexivity.
  assert (A0 : r_b1 s0 <> 6) by (cbn [s0 r_b1]; lia).
  split.
  - unfold flag. cbn [rrun]. rewrite E, E2, E3, E4, E5, E6, E7, E8. cbn [app]. now rewrite app_nil_r.
  - assert (ZA : 0 <= dsize) by (pose proof (zlen_nonneg acc); lia).
    unfold flag. cbn [okrun]. rewrite E. cbn [fst]. rewrite E2. cbn [fst]. rewrite E3. cbn [fst]. rewrite E4. cbn [fst]. rewrite E5. cbn [fst]. rewrite E6. cbn [fst]. rewrite E7. cbn [fst]. rewrite E8. cbn [fst].
    cbn [s1 s2 s3 s4 s5 s6 s7 r_b1 r_acc rreset]. change (zlen []) with 0. unfold is_bit.
    repeat (split; [first [lia | intros [? ?]; lia | assumption]|]). exact Logic.I.
Qed.
Lemma revent_verdict x : bytes x -> x <> [] -> revent (R 6 6 0 (crc_octets POLY_CCITT_REV 65535 x) true x) = verdict x.
Proof.
  intros HX NE. unfold revent, verdict. cbn [r_rcv r_acc r_crc]. destruct (Z.ltb_spec (zlen x) 2) as [L|L]; [reflexivity|].
  set (n := (length x - 2)%nat). assert (L2 : length (skipn n x) = 2%nat) by (rewrite skipn_length; unfold n, zlen in *; lia).
  pose proof (firstn_skipn n x) as FS. assert (B : bytes (firstn n x) /\ bytes (skipn n x)) by now apply bytes_split.
  destruct B as [B1 B2]. pose proof (fcs_good _ _ B1 B2 L2) as G. rewrite FS in G.
  destruct (list_eq_dec Z.eq_dec (skipn n x) (fcs (firstn n x))) as [E|E].
  - apply G in E. rewrite E. cbn [Z.eqb Pos.eqb negb]. destruct (Z.eqb_spec (zlen x) 2); [reflexivity|].
    do 3 f_equal. unfold n, zlen. lia.
  - destruct (Z.eqb_spec (crc_octets POLY_CCITT_REV 65535 x) 61624) as [E2|E2]; cbn [negb]; [|reflexivity]. exfalso. apply E, G, E2.
Qed.
Definition fresh : rst := R 0 0 0 0 false [].
Lemma line_run dsize xs l : hdlc_line xs l -> Forall (fun x => zlen x <= dsize) xs -> 0 <= dsize ->
  rrun fresh l = (rreset, flat_map verdict xs) /\ okrun dsize fresh l.
Proof.
  intros H. induction H as [|xs l H IH|xs l x H IH HB NE]; intros F Z0.
  - exact (flag_run dsize 0 0 0 false [] ltac:(lia) Z0).
  - destruct (IH F Z0) as [I1 I2]. rewrite rrun_app, okrun_app, I1. cbn [fst].
    destruct (flag_run dsize 0 0 65535 false [] ltac:(lia) Z0) as [J1 J2]. change (R (Z.of_nat 0) 0 0 65535 false []) with rreset in *. rewrite J1.
    cbn [revent r_rcv]. rewrite app_nil_r. auto.
  - apply Forall_app in F. destruct F as [F1 F2]. inversion F2 as [|? ? F3 _]; subst. destruct (IH F1 Z0) as [I1 I2].
    rewrite rrun_app, okrun_app, I1. cbn [fst]. rewrite rrun_app, okrun_app. unfold body.
    destruct (stuff_run dsize (flat_map octet_bits x) rreset 0 (octs_bits x) eq_refl ltac:(lia) ltac:(cbn; lia)) as (m & M1 & M2 & M3).
    { unfold fits. cbn [rreset r_acc r_db]. rewrite flat_len. change (zlen []) with 0. replace (0 + 8 * zlen x) with (zlen x * 8) by lia. rewrite Z.div_mul; lia. }
    destruct (dpush_octs x 0 0 65535 false [] HB ltac:(unfold is_byte; lia) ltac:(lia)) as (sr' & S1 & S2).
    change (R 0 0 0 65535 false []) with rreset in S2. rewrite S2 in M2. rewrite M2. cbn [fst app set_b1 r_db r_sr r_crc r_rcv r_acc] in *.
    replace (if x then false else true) with true in * by (destruct x; [now elim NE|reflexivity]). unfold set_b1. cbn [r_db r_sr r_crc r_rcv r_acc].
    destruct (flag_run dsize m sr' (crc_octets POLY_CCITT_REV 65535 x) true x M1 F3) as [J1 J2]. rewrite J1. rewrite revent_verdict by assumption.
    rewrite flat_map_app. cbn [flat_map app]. rewrite app_nil_r. auto.
Qed.
Lemma line_bits_len brev l : zlen (line_bits brev l) = 8 * zlen l.
Proof.
  induction l as [|o l IH]; [reflexivity|]. rewrite line_bits_cons, zlen_app, IH, zlen_cons. destruct brev; [unfold zlen; rewrite rev_length|]; change (length (octet_bits o)) with 8%nat; change (zlen (octet_bits o)) with 8; lia.
Qed.
Lemma sim_init dsize dst : zlen dst = dsize -> sim dsize rcv_init dst fresh.
Proof.
  intros H. pose proof (zlen_nonneg dst). unfold rcv_init, fresh. change 0 with (Z.of_nat 0) at 1. apply sim_data; auto; try lia.
  - unfold is_byte. lia.
  - change (zlen []) with 0. lia.
  - split; cbn; [lia|]. split; [lia|]. split; [auto|lia].
Qed.
(** Whatever the segmentation, the decoder reports what is between the flags, in order; everything up
    to the last but eight bits of the octets consumed has been reported. *)
Lemma decode_line cfg dsize dst xs l t octets pend lens :
  h_adapt56 cfg = false -> zlen dst = dsize -> bytes octets ->
  hdlc_line xs l -> hdlc_line xs (l ++ t) -> Forall (fun x => zlen x <= dsize) xs ->
  line_bits (h_brev cfg) octets ++ pend = l ++ t -> 8 + zlen pend <= zlen t ->
  exists ev h2 rest, dec_hist cfg dsize rcv_init octets dst lens = Ok (ev, h2, rest) /\
    (exists ev2, flat_map verdict xs = ev ++ ev2) /\
    (rest = [] -> ev = flat_map verdict xs).
Proof.
  intros A HD HB HL HLT F E LT. pose proof (zlen_nonneg dst). assert (Z0 : 0 <= dsize) by lia.
  destruct (line_run dsize xs _ HLT F Z0) as [RA OA]. destruct (line_run dsize xs _ HL F Z0) as [RL _].
  rewrite <- E in OA, RA. apply okrun_app in OA. destruct OA as [OA _].
  destruct (hist_sim cfg dsize A lens rcv_init octets dst fresh (sim_init dsize dst HD) HB OA) as (ev & h2 & rest & used & H1 & H2 & H3 & H4).
  change (left_bits rcv_init) with (@nil Z) in H2. cbn [app] in H2.
  exists ev, h2, rest. split; [exact H1|]. rewrite H2 in *. rewrite <- app_assoc in *. split.
  - rewrite rrun_app in RA. destruct (rrun fresh used) as [sa ea]. cbn [snd] in H3. subst ea. destruct (rrun sa _) as [sb eb]. injection RA as _ <-. eexists. reflexivity.
  - intros ->. cbn [line_bits flat_map app] in E. rewrite app_nil_r in E, RA.
    (* used covers l *)
    assert (LU : (length l <= length used)%nat).
    { apply (f_equal zlen) in E. rewrite !zlen_app in E. unfold left_bits, zlen in E. rewrite rb_length in E. unfold zlen in LT. lia. }
    assert (U : exists u2, used = l ++ u2).
    { exists (skipn (length l) used). apply (f_equal (firstn (length l))) in E. rewrite !firstn_app in E. rewrite firstn_all, Nat.sub_diag in E. cbn [firstn] in E. rewrite app_nil_r in E.
      replace (length l - length used)%nat with 0%nat in E by lia. cbn [firstn] in E. rewrite app_nil_r in E. rewrite <- E at 1. symmetry. apply firstn_skipn. }
    destruct U as [u2 ->]. rewrite rrun_app, RL in H3. rewrite rrun_app in RA. rewrite rrun_app, RL in RA.
    destruct (rrun rreset u2) as [sc ec]. cbn [snd] in H3. destruct (rrun sc _) as [sd ed]. injection RA as _ RA. subst ev.
    apply (f_equal (@length _)) in RA. rewrite !app_length in RA. destruct ec; [now rewrite app_nil_r|cbn [length] in RA; lia].
Qed.
