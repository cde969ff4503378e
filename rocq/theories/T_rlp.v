(** C62: Radio Link Protocol frames.  Model: M_rlp.v.  Specification: S_rlp.v (TS 24.022, bits in order of transmission). *)
From Verif Require Import Base S_crc M_crc P_crc S_rlp M_rlp P_rlp P_rlp2 P_rlp3.

(** The check sequence function is the FCS of TS 24.022 of any octet string: complement of the remainder modulo G. *)
Theorem C62_fcs : forall l n, bytes l -> 0 <= n <= zlen l ->
  exists f, rlp_fcs_compute l n = Ok f /\ 0 <= f < 2 ^ 24 /\ rlp_fcs_of (tx_bits (firstn (Z.to_nat n) l)) (lsb_bits 24 f).
Proof. exact fcs_spec. Qed.
Print Assumptions C62_fcs.

(** The specification leaves no choice: 24 bits are the FCS of a bit string for at most one value. *)
Theorem C62_fcs_unique : forall m f g, 0 <= f < 2 ^ 24 -> 0 <= g < 2 ^ 24 ->
  rlp_fcs_of m (lsb_bits 24 f) -> rlp_fcs_of m (lsb_bits 24 g) -> f = g.
Proof.
  intros m f g Hf Hg (_ & _ & A) (_ & _ & B).
  pose proof (gfrem_unique _ RLP_G 24 _ _ ltac:(lia) ltac:(vm_compute; split; congruence) A B) as E.
  assert (E2 : poly_of (lsb_bits 24 f) = poly_of (lsb_bits 24 g)).
  { apply (f_equal (fun z => Z.lxor z (Z.ones 24))) in E. rewrite !Z.lxor_assoc, Z.lxor_nilpotent, !Z.lxor_0_r in E. exact E. }
  assert (L : forall x, zlen (lsb_bits 24 x) = 24) by (intros; unfold zlen; now rewrite lsb_bits_length).
  apply Z.bits_inj'. intros k Hk. destruct (Z_lt_le_dec k 24); [|rewrite !(testbit_above _ 24) by lia; reflexivity].
  pose proof (poly_of_at (lsb_bits 24 f) (lsb_bits_bits 24 f) k ltac:(rewrite L; lia)) as P.
  pose proof (poly_of_at (lsb_bits 24 g) (lsb_bits_bits 24 g) k ltac:(rewrite L; lia)) as Q.
  rewrite L in P, Q. rewrite E2, Q, !at0_lsb in P by lia. destruct (Z.testbit f k), (Z.testbit g k); cbn in P; congruence.
Qed.
Print Assumptions C62_fcs_unique.

(** Every frame of a known type that fits is encoded as TS 24.022 lays it out: header, information padded with zeros,
    FCS; nothing behind the frame is touched. *)
Theorem C62_encode : forall out size f s ns nr payload, rlp_typed f -> bytes out -> (size = 30 \/ size = 72) -> size <= zlen out ->
  r_version f < 2 ->
  (let info := zslice (r_info f) 0 (r_info_len f) in
   (r_ftype f = FT_U /\ s = 0 /\ ns = 63 /\ nr = r_u f /\ payload = (if r_u f =? U_FT_XID then info else [])) \/
   (r_ftype f = FT_S /\ s = r_s f /\ ns = 62 /\ nr = r_nr f /\ payload = []) \/
   (r_ftype f = FT_IS /\ s = r_s f /\ ns = r_ns f /\ nr = r_nr f /\ payload = info)) ->
  (payload = [] \/ r_info_len f <= size - 5) ->
  exists out' check, rlp_encode out size f = Ok (size, out') /\ zlen out' = zlen out /\ bytes out' /\
    skipn (Z.to_nat size) out' = skipn (Z.to_nat size) out /\
    let covered := rlp_header (b2z (r_cr f)) s ns (b2z (r_pf f)) nr ++ tx_bits payload ++ repeat 0 (8 * Z.to_nat (size - 5 - zlen payload)) in
    tx_bits (firstn (Z.to_nat size) out') = covered ++ check /\ rlp_fcs_of covered check.
Proof.
  intros out size f s ns nr pl Ht Ho Hs Hsz Hv Hc Hfit.
  assert (E : s = hdr_s f /\ ns = hdr_ns f /\ nr = hdr_nr f /\ pl = payload f /\ (r_ftype f = FT_U \/ r_ftype f = FT_S \/ r_ftype f = FT_IS)).
  { cbv zeta in Hc. unfold hdr_s, hdr_ns, hdr_nr, payload, has_info. destruct Hc as [(T & -> & -> & -> & ->)|[(T & -> & -> & -> & ->)|(T & -> & -> & -> & ->)]]; rewrite T;
      cbn [Z.eqb Pos.eqb FT_U FT_S FT_IS orb andb]; auto 10. }
  destruct E as (-> & -> & -> & -> & Ty). clear Hc.
  assert (HL : has_info f = true -> r_info_len f <= size - 5).
  { intros HI. destruct Hfit as [P|P]; [|exact P]. destruct Ht as (_ & _ & _ & _ & _ & _ & L & U). unfold is_u16 in U. unfold payload in P. rewrite HI in P.
    destruct (Z.le_gt_cases (r_info_len f) 0); [lia|]. exfalso. apply (f_equal (@length Z)) in P. unfold zslice, slice in P. rewrite firstn_length, skipn_length, L in P. cbn [length] in P. lia. }
  destruct (enc_ok out size f Ht Ho Hs Hsz Hv Ty HL) as (c & Ec & Hc & BB & BL & EE).
  pose proof Ht as (_ & Hu & Hss & Hns & Hnr & _). unfold is_u16 in *.
  assert (N1 : 0 <= hdr_s f) by (unfold hdr_s; destruct (_ =? _); lia).
  assert (N2 : 0 <= hdr_ns f) by (unfold hdr_ns; destruct (_ =? _); [lia|destruct (_ =? _); lia]).
  assert (N3 : 0 <= hdr_nr f) by (unfold hdr_nr; destruct (_ =? _); lia).
  assert (CB : tx_bits (body_of size f) = rlp_header (b2z (r_cr f)) (hdr_s f) (hdr_ns f) (b2z (r_pf f)) (hdr_nr f) ++ tx_bits (payload f) ++ repeat 0 (8 * Z.to_nat (size - 5 - zlen (payload f)))).
  { unfold body_of, frame_body. change (hd0 ?a ?b ?c :: hd1 ?d ?e ?g :: ?r) with ([hd0 a b c; hd1 d e g] ++ r). rewrite !tx_bits_app, header_bits by assumption. do 2 f_equal.
    clear. induction (Z.to_nat (size - 5 - zlen (payload f))) as [|n IH]; [reflexivity|]. cbn [repeat]. change (0 :: repeat 0 n) with ([0] ++ repeat 0 n). rewrite tx_bits_app, IH.
    replace (8 * S n)%nat with (8 + 8 * n)%nat by lia. reflexivity. }
  eexists. exists (lsb_bits 24 c). split; [exact EE|].
  assert (FL : zlen (fcs_octets c) = 3) by reflexivity.
  split; [rewrite !zlen_app, BL, FL; unfold zlen; rewrite skipn_length; unfold zlen in Hsz; lia|].
  split; [apply Forall_app; split; [exact BB|apply Forall_app; split; [apply fcs_octets_bytes|apply Forall_skipn; exact Ho]]|].
  split; [rewrite app_assoc; apply skipn_app_exact; rewrite app_length; unfold zlen in *; lia|].
  cbv zeta. rewrite <- CB. split.
  - rewrite app_assoc. rewrite firstn_app_exact by (rewrite app_length; unfold zlen in *; lia). rewrite tx_bits_app. f_equal. apply fcs_octets_bits.
  - destruct (fcs_spec (body_of size f) (size - 3) BB ltac:(lia)) as (c' & Ec' & _ & F). rewrite Ec in Ec'. injection Ec' as <-.
    replace (firstn (Z.to_nat (size - 3)) (body_of size f)) with (body_of size f) in F; [exact F|]. symmetry. apply firstn_all2. unfold zlen in BL. lia.
Qed.
Print Assumptions C62_encode.

(** Everything else is refused: version 2 and later, any other frame size, an unknown type, too much information. *)
Theorem C62_encode_refuses : forall out size f,
  (2 <= r_version f -> rlp_encode out size f = Err ENOTSUP) /\
  (r_version f < 2 -> size <> 30 -> size <> 72 -> rlp_encode out size f = Err EINVAL) /\
  (r_version f < 2 -> (size = 30 \/ size = 72) -> size <= zlen out ->
   (~ In (r_ftype f) [FT_U; FT_S; FT_IS] \/ (r_ftype f = FT_IS \/ r_ftype f = FT_U /\ r_u f = U_FT_XID) /\ size - 5 < r_info_len f) ->
   rlp_encode out size f = Err EINVAL).
Proof.
  intros out size f. unfold rlp_encode. split; [|split].
  - intros H. now rewrite (proj2 (Z.leb_le _ _)) by lia.
  - intros H A B. rewrite (proj2 (Z.leb_gt _ _)) by lia. now replace (negb (size =? 30) && negb (size =? 72)) with true by lia.
  - intros H Hs Hl HC. rewrite (proj2 (Z.leb_gt _ _)) by lia. replace (negb (size =? 30) && negb (size =? 72)) with false by lia.
    rewrite memset_ok by assumption. cbn [bind].
    assert (A : forall (b : bool) a c t v i, (i = 0 \/ i = 1) -> exists a' c', (if b then or_byte (a :: c :: t) i v else Ok (a :: c :: t)) = Ok (a' :: c' :: t)).
    { intros [|] a c t v i [-> | ->]; [rewrite or0|rewrite or1| |]; eauto. }
    destruct (A (r_cr f) 0 0 (repeat 0 (Z.to_nat (size - 2)) ++ skipn (Z.to_nat size) out) 1 0 ltac:(lia)) as (a' & c' & ->). cbn [bind].
    match goal with |- context [or_byte (?a :: ?c :: ?t) 1 2] => destruct (A (r_pf f) a c t 2 1 ltac:(lia)) as (a2 & c2 & ->) end. cbn [bind].
    destruct HC as [HC|[HC HL]].
    + cbn [In] in HC. replace (r_ftype f =? FT_U) with false by (symmetry; apply Z.eqb_neq; intros E; apply HC; auto).
      replace (r_ftype f =? FT_S) with false by (symmetry; apply Z.eqb_neq; intros E; apply HC; auto).
      replace (r_ftype f =? FT_IS) with false by (symmetry; apply Z.eqb_neq; intros E; apply HC; auto). reflexivity.
    + destruct HC as [HC|[HC HX]]; rewrite HC; unfold FT_U, FT_S, FT_IS; cbn [Z.eqb Pos.eqb].
      * now rewrite (proj2 (Z.ltb_lt _ _)) by lia.
      * rewrite HX. cbn [Z.eqb Pos.eqb U_FT_XID]. now rewrite (proj2 (Z.ltb_lt _ _)) by lia.
Qed.
Print Assumptions C62_encode_refuses.

(** Every octet string of a frame's size is decoded, field by field as TS 24.022 lays the frame out. *)
Theorem C62_decode : forall version data size, bytes data -> (size = 30 \/ size = 72) -> size <= zlen data -> 0 <= version < 2 ->
  exists f s ns nr, rlp_decode version data size = Ok f /\ r_version f = version /\ 0 <= s < 4 /\ 0 <= ns < 64 /\ 0 <= nr < 64 /\
    tx_bits (firstn 2 data) = rlp_header (b2z (r_cr f)) s ns (b2z (r_pf f)) nr /\
    0 <= r_fcs f < 2 ^ 24 /\ tx_bits (zslice data (size - 3) 3) = lsb_bits 24 (r_fcs f) /\
    let all_info := r_info_len f = size - 5 /\ firstn (Z.to_nat (size - 5)) (r_info f) = zslice data 2 (size - 5) /\ rlp_typed f in
    let no_info := r_info_len f = 0 /\ rlp_typed f in
    (ns = 63 -> r_ftype f = FT_U /\ r_u f = nr mod 32 /\ if nr mod 32 =? U_FT_XID then all_info else no_info) /\
    (ns = 62 -> r_ftype f = FT_S /\ r_s f = s /\ r_nr f = nr /\ no_info) /\
    (ns < 62 -> r_ftype f = FT_IS /\ r_s f = s /\ r_nr f = nr /\ r_ns f = ns /\ all_info).
Proof.
  intros version data size Hb Hs Hl Hv. rewrite dec_ok by (auto; lia).
  set (d0 := at0 data 0). set (d1 := at0 data 1). set (fc := at0 data (size - 3) + _ + _).
  assert (B0 : is_byte d0) by now apply bytes_at0. assert (B1 : is_byte d1) by now apply bytes_at0.
  eexists. exists (d_s d0), (d_ns d0 d1), (d_nr d1). split; [reflexivity|].
  assert (R1 : 0 <= d_s d0 < 4) by (unfold d_s; lia).
  assert (R2 : 0 <= d_ns d0 d1 < 64) by (unfold d_ns, is_byte in *; lia).
  assert (R3 : 0 <= d_nr d1 < 64) by (unfold d_nr, is_byte in *; lia).
  assert (LI : length (zslice data 2 (size - 5)) = Z.to_nat (size - 5)) by (unfold zslice; apply slice_length; unfold zlen in Hl; lia).
  assert (BI : bytes (zslice data 2 (size - 5))) by (unfold zslice; apply Forall_slice; exact Hb).
  set (info := zslice data 2 (size - 5)) in *.
  assert (CR : r_cr (dec version size d0 d1 info fc) = d_cr d0 /\ r_pf (dec version size d0 d1 info fc) = d_pf d1 /\ r_fcs (dec version size d0 d1 info fc) = fc /\
    r_version (dec version size d0 d1 info fc) = version).
  { unfold dec. destruct (_ =? 63); [destruct (_ =? U_FT_XID)|destruct (_ =? 62)]; cbn; auto. }
  destruct CR as (-> & -> & -> & ->). split; [reflexivity|]. split; [exact R1|]. split; [exact R2|]. split; [exact R3|].
  assert (HD : exists t, data = d0 :: d1 :: t).
  { destruct data as [|x [|y t]]; [rewrite zlen_nil in Hl; lia|rewrite !zlen_cons, zlen_nil in Hl; lia|]. exists t. reflexivity. }
  split. { destruct HD as (t & E). rewrite E at 1. cbn [firstn]. transitivity (tx_bits [hd0 (d_cr d0) (d_s d0) (d_ns d0 d1); hd1 (d_ns d0 d1) (d_pf d1) (d_nr d1)]); [now rewrite <- oct0, <- oct1 by assumption|]. apply header_bits; lia. }
  assert (F : forall i, is_byte (at0 data i)) by (intros; now apply bytes_at0).
  assert (FR : 0 <= fc < 2 ^ 24) by (pose proof (F (size - 3)); pose proof (F (size - 2)); pose proof (F (size - 1)); unfold fc, is_byte in *; lia).
  split; [exact FR|].
  split.
  { rewrite <- fcs_octets_bits. f_equal. apply (list_ext _ _ 0).
    - unfold zslice. rewrite slice_length by (unfold zlen in Hl; lia). reflexivity.
    - unfold zslice. rewrite slice_length by (unfold zlen in Hl; lia). intros i Hi. rewrite nth_slice. rewrite (proj2 (Nat.ltb_lt _ _)) by exact Hi.
      pose proof (F (size - 3)) as G0. pose proof (F (size - 2)) as G1. pose proof (F (size - 1)) as G2. unfold is_byte in G0, G1, G2.
      assert (X : nth (Z.to_nat (size - 3) + i) data 0 = at0 data (size - 3 + Z.of_nat i)) by (unfold at0; f_equal; lia). rewrite X. clear X.
      change (Z.to_nat 3) with 3%nat in Hi. destruct i as [|[|[|i]]]; [| | |lia]; cbn [nth fcs_octets]; rewrite land_255, Z.shiftr_div_pow2 by lia; unfold fc.
      + replace (size - 3 + Z.of_nat 0) with (size - 3) by lia. set (x := at0 data (size - 3)) in *. set (y := at0 data (size - 2)) in *. set (z := at0 data (size - 1)) in *. clearbody x y z.
        change (2 ^ 0) with 1. Z.div_mod_to_equations; lia.
      + replace (size - 3 + Z.of_nat 1) with (size - 2) by lia. set (x := at0 data (size - 3)) in *. set (y := at0 data (size - 2)) in *. set (z := at0 data (size - 1)) in *. clearbody x y z.
        change (2 ^ 8) with 256. Z.div_mod_to_equations; lia.
      + replace (size - 3 + Z.of_nat 2) with (size - 1) by lia. set (x := at0 data (size - 3)) in *. set (y := at0 data (size - 2)) in *. set (z := at0 data (size - 1)) in *. clearbody x y z.
        change (2 ^ 16) with 65536. Z.div_mod_to_equations; lia. }
  cbv zeta.
  assert (PB : bytes (pad67 info) /\ length (pad67 info) = 67%nat).
  { unfold pad67. split; [apply Forall_app; split; [exact BI|apply bytes_rep]|]. rewrite app_length, repeat_length, LI. lia. }
  assert (P1 : firstn (Z.to_nat (size - 5)) (pad67 info) = info) by (unfold pad67; apply firstn_app_exact; lia).
  destruct PB as (PB & PL).
  assert (ZB : bytes (repeat 0 67) /\ length (repeat 0 67) = 67%nat) by (split; [apply bytes_rep|apply repeat_length]). destruct ZB as (ZB & ZL).
  unfold dec. split; [|split]; intros E.
  - rewrite E. cbn [Z.eqb Pos.eqb]. destruct (d_nr d1 mod 32 =? U_FT_XID); cbn [r_ftype r_u r_info_len r_info];
      (split; [reflexivity|]; split; [reflexivity|]); [split; [reflexivity|]; split; [exact P1|]|split; [reflexivity|]];
      unfold rlp_typed, is_byte, is_u16; cbn [r_version r_u r_s r_ns r_nr r_info r_info_len]; repeat split; auto; try lia.
  - rewrite E. cbn [Z.eqb Pos.eqb r_ftype r_s r_nr r_info_len]. repeat (split; [reflexivity|]).
    unfold rlp_typed, is_byte, is_u16; cbn [r_version r_u r_s r_ns r_nr r_info r_info_len]; repeat split; auto; try lia.
  - replace (d_ns d0 d1 =? 63) with false by lia. replace (d_ns d0 d1 =? 62) with false by lia. cbn [r_ftype r_s r_nr r_ns r_info_len r_info]. repeat (split; [reflexivity|]). split; [exact P1|].
    unfold rlp_typed, is_byte, is_u16; cbn [r_version r_u r_s r_ns r_nr r_info r_info_len]; repeat split; auto; try lia.
Qed.
Print Assumptions C62_decode.
Theorem C62_decode_refuses : forall version data size,
  (size <> 30 -> size <> 72 -> rlp_decode version data size = Err EINVAL) /\
  ((size = 30 \/ size = 72) -> 2 <= version -> rlp_decode version data size = Err ENOTSUP).
Proof.
  intros version data size. unfold rlp_decode. split.
  - intros A B. now replace (negb (size =? 30) && negb (size =? 72)) with true by lia.
  - intros A B. replace (negb (size =? 30) && negb (size =? 72)) with false by lia. now rewrite (proj2 (Z.leb_le _ _)) by lia.
Qed.
Print Assumptions C62_decode_refuses.

(** Decoding what was encoded gives the frame back, information padded with zeros, with the FCS of the frame. *)
Theorem C62_roundtrip : forall out size f, rlp_typed f -> bytes out -> (size = 30 \/ size = 72) -> size <= zlen out -> r_version f < 2 ->
  (r_ftype f = FT_U /\ r_u f < 32 \/ r_ftype f = FT_S /\ r_s f < 4 /\ r_nr f < 64 \/
   r_ftype f = FT_IS /\ r_s f < 4 /\ r_nr f < 64 /\ r_ns f < 62) ->
  (r_ftype f = FT_IS \/ r_u f = U_FT_XID -> r_info_len f <= size - 5) ->
  exists out' f', rlp_encode out size f = Ok (size, out') /\ rlp_decode (r_version f) out' size = Ok f' /\
    rlp_fcs_compute out' (size - 3) = Ok (r_fcs f') /\
    r_version f' = r_version f /\ r_ftype f' = r_ftype f /\ r_cr f' = r_cr f /\ r_pf f' = r_pf f /\
    (r_ftype f = FT_U -> r_u f' = r_u f) /\
    (r_ftype f <> FT_U -> r_s f' = r_s f /\ r_nr f' = r_nr f) /\
    (r_ftype f = FT_IS -> r_ns f' = r_ns f) /\
    (r_ftype f = FT_IS \/ r_ftype f = FT_U /\ r_u f = U_FT_XID ->
      r_info_len f' = size - 5 /\ firstn (Z.to_nat (size - 5)) (r_info f') =
        firstn (Z.to_nat (r_info_len f)) (r_info f) ++ repeat 0 (Z.to_nat (size - 5 - r_info_len f))).
Proof.
  intros out size f Ht Ho Hs Hsz Hv Hty Hfit.
  assert (HL : has_info f = true -> r_info_len f <= size - 5).
  { unfold has_info. intros HI. apply Hfit. unfold FT_IS in *. destruct (r_ftype f =? 2) eqn:E; [left; lia|right]. cbn [orb] in HI. lia. }
  pose proof Ht as (Hvb & Hu & Hss & Hns & Hnr & Hib & Hil & Hlen). unfold is_u16 in *.
  destruct (enc_ok out size f Ht Ho Hs Hsz Hv) as (c & Ec & Hc & BB & BL & EE); [tauto|exact HL|].
  assert (PLen : has_info f = true -> zlen (payload f) = r_info_len f).
  { intros HI. unfold payload. rewrite HI. apply zlen_zslice_le. specialize (HL HI). unfold zlen. lia. }
  assert (PL : zlen (payload f) <= size - 5).
  { destruct (has_info f) eqn:HI; [rewrite PLen by reflexivity; auto|]. unfold payload. rewrite HI, zlen_nil. lia. }
  pose proof (dec_enc size (r_version f) f c (skipn (Z.to_nat size) out) Ht (Forall_skipn _ _ _ Ho) Hs Hv BB BL Hc PL) as D.
  eexists. eexists. split; [exact EE|]. split; [exact D|].
  set (info := payload f ++ _). set (D0 := hd0 _ _ _). set (D1 := hd1 _ _ _).
  assert (CR : r_cr (dec (r_version f) size D0 D1 info c) = r_cr f /\ r_pf (dec (r_version f) size D0 D1 info c) = r_pf f /\ r_fcs (dec (r_version f) size D0 D1 info c) = c /\
    r_version (dec (r_version f) size D0 D1 info c) = r_version f).
  { rewrite <- (cr_hd (r_cr f) (hdr_s f) (hdr_ns f)), <- (pf_hd (hdr_ns f) (r_pf f) (hdr_nr f)). fold D0 D1.
    unfold dec. destruct (_ =? 63); [destruct (_ =? U_FT_XID)|destruct (_ =? 62)]; cbn; auto. }
  destruct CR as (-> & -> & -> & ->).
  split. { rewrite fcs_prefix; [exact Ec|exact BB|apply Forall_app; split; [apply fcs_octets_bytes|apply Forall_skipn; exact Ho]|exact BL]. }
  split; [reflexivity|].
  assert (IL : length info = Z.to_nat (size - 5)) by (unfold info; rewrite app_length, repeat_length; unfold zlen in *; lia).
  assert (P1 : firstn (Z.to_nat (size - 5)) (pad67 info) = info) by (unfold pad67; apply firstn_app_exact; lia).
  assert (P2 : has_info f = true -> info = firstn (Z.to_nat (r_info_len f)) (r_info f) ++ repeat 0 (Z.to_nat (size - 5 - r_info_len f))).
  { intros HI. unfold info. rewrite PLen by exact HI. unfold payload. rewrite HI. reflexivity. }
  assert (NS : d_ns D0 D1 = hdr_ns f mod 64) by apply ns_hd. assert (NR : d_nr D1 = hdr_nr f mod 64) by apply nr_hd. assert (S0 : d_s D0 = hdr_s f mod 4) by apply s_hd.
  unfold dec. rewrite NS, NR, S0. unfold hdr_ns, hdr_nr, hdr_s, has_info, FT_U, FT_S, FT_IS in *.
  destruct Hty as [(T & T1)|[(T & T1 & T2)|(T & T1 & T2 & T3)]]; rewrite T in *; cbn [Z.eqb Pos.eqb orb andb] in *.
  - change (63 mod 64) with 63. cbn [Z.eqb Pos.eqb]. rewrite (Z.mod_small (r_u f) 64), (Z.mod_small (r_u f) 32) by lia.
    destruct (Z.eqb_spec (r_u f) U_FT_XID) as [X|X]; cbn [r_ftype r_u r_info_len r_info].
    + do 6 (split; [try reflexivity; try tauto; intros; try split; auto; lia|]). intros _. split; [reflexivity|]. rewrite P1. now apply P2.
    + do 6 (split; [try reflexivity; try tauto; intros; try split; auto; lia|]). intros [K|[_ K]]; [lia|congruence].
  - change (62 mod 64) with 62. cbn [Z.eqb Pos.eqb]. rewrite (Z.mod_small (r_nr f)), (Z.mod_small (r_s f)) by lia. cbn [r_ftype r_s r_nr r_u r_ns].
    do 6 (split; [try reflexivity; try tauto; intros; try split; auto; lia|]). intros [K|[K _]]; lia.
  - rewrite (Z.mod_small (r_nr f)), (Z.mod_small (r_s f)), (Z.mod_small (r_ns f)) by lia. replace (r_ns f =? 63) with false by lia. replace (r_ns f =? 62) with false by lia.
    cbn [r_ftype r_s r_nr r_u r_ns r_info_len r_info]. do 6 (split; [try reflexivity; try tauto; intros; try split; auto; lia|]). intros _. split; [reflexivity|]. rewrite P1. now apply P2.
Qed.
Print Assumptions C62_roundtrip.

(** Decoding and encoding again gives back the octets exactly when the FCS was right and the bits the decoder
    drops were zero. *)
Theorem C62_reencode : forall data size f, bytes data -> (size = 30 \/ size = 72) -> zlen data = size -> 
  rlp_decode 1 data size = Ok f ->
  (rlp_encode data size f = Ok (size, data) <->
   rlp_fcs_compute data (size - 3) = Ok (r_fcs f) /\
   (r_ftype f = FT_U -> Z.testbit (at0 data 0) 1 = false /\ Z.testbit (at0 data 0) 2 = false /\ Z.testbit (at0 data 1) 7 = false) /\
   (r_info_len f = 0 -> zslice data 2 (size - 5) = repeat 0 (Z.to_nat (size - 5)))).
Proof.
  intros data size f Hb Hs Hl E. rewrite dec_ok in E by (auto; lia). apply Ok_inj in E.
  set (d0 := at0 data 0) in *. set (d1 := at0 data 1) in *. set (fc := at0 data (size - 3) + _ + _) in E.
  set (info := zslice data 2 (size - 5)) in *.
  assert (B0 : is_byte d0) by now apply bytes_at0. assert (B1 : is_byte d1) by now apply bytes_at0.
  assert (LI : length info = Z.to_nat (size - 5)) by (unfold info, zslice; apply slice_length; unfold zlen in Hl; lia).
  assert (BI : bytes info) by (unfold info, zslice; apply Forall_slice; exact Hb).
  assert (F : forall i, is_byte (at0 data i)) by (intros; now apply bytes_at0).
  assert (FR : 0 <= fc < 2 ^ 24).
  { clear E. pose proof (F (size - 3)) as G0. pose proof (F (size - 2)) as G1. pose proof (F (size - 1)) as G2. unfold is_byte in G0, G1, G2. unfold fc. lia. }
  destruct (C62_decode 1 data size Hb Hs ltac:(lia) ltac:(lia)) as (f2 & s & ns & nr & E2 & V2 & Rs & Rns & Rnr & _ & _ & _ & X). rewrite dec_ok in E2 by (auto; lia).
  apply Ok_inj in E2. fold d0 d1 fc info in E2. rewrite E in E2. subst f2. cbv zeta in X.
  assert (Ty : rlp_typed f /\ (r_ftype f = FT_U \/ r_ftype f = FT_S \/ r_ftype f = FT_IS)).
  { destruct X as (X1 & X2 & X3). destruct (Z.eq_dec ns 63) as [N|N]; [|destruct (Z.eq_dec ns 62) as [N2|N2]].
    - destruct (X1 N) as (T & _ & T2). destruct (_ =? U_FT_XID); tauto.
    - destruct (X2 N2) as (T & _ & _ & T2). tauto.
    - destruct (X3 ltac:(lia)) as (T & _ & _ & _ & T2). tauto. }
  clear X s ns nr Rs Rns Rnr V2. destruct Ty as (Ht & Ty).
  assert (PF : r_cr f = d_cr d0 /\ r_pf f = d_pf d1 /\ r_fcs f = fc /\ r_version f = 1 /\ (has_info f = true -> payload f = info /\ r_info_len f = size - 5) /\ (has_info f = false -> payload f = [] /\ r_info_len f = 0)
     /\ hdr_ns f = d_ns d0 d1 /\ hdr_s f = (if r_ftype f =? FT_U then 0 else d_s d0) /\ hdr_nr f = (if r_ftype f =? FT_U then d_nr d1 mod 32 else d_nr d1)).
  { assert (PI : zslice (pad67 info) 0 (size - 5) = info) by (unfold zslice, slice, pad67; cbn [Z.to_nat skipn]; apply firstn_app_exact; lia).
    rewrite <- E. unfold dec. destruct (Z.eqb_spec (d_ns d0 d1) 63) as [N|N]; [destruct (Z.eqb_spec (d_nr d1 mod 32) U_FT_XID) as [N2|N2]|destruct (Z.eqb_spec (d_ns d0 d1) 62) as [N2|N2]];
      unfold payload, has_info, hdr_ns, hdr_s, hdr_nr; cbn [r_cr r_pf r_fcs r_version r_ftype r_u r_s r_ns r_nr r_info r_info_len FT_U FT_S FT_IS Z.eqb Pos.eqb orb andb].
    - rewrite N2. cbn [U_FT_XID Z.eqb Pos.eqb]. repeat split; auto; try discriminate; congruence.
    - rewrite (proj2 (Z.eqb_neq _ _)) by exact N2. repeat split; auto; try discriminate; congruence.
    - repeat split; auto; try discriminate; congruence.
    - repeat split; auto; try discriminate; congruence. }
  destruct PF as (Q1 & Q2 & Q3 & Q4 & Q5 & Q6 & Q7 & Q8 & Q9).
  destruct (enc_ok data size f Ht Hb Hs ltac:(lia) ltac:(lia) Ty) as (c & Ec & Hc & BB & BL & EE).
  { intros HI. destruct (Q5 HI) as (_ & ->). lia. }
  rewrite EE. rewrite (skipn_all2 data) by (unfold zlen in Hl; lia). rewrite app_nil_r.
  assert (Dsplit : data = d0 :: d1 :: info ++ fcs_octets fc).
  { apply (list_ext _ _ 0).
    - cbn [length]. rewrite app_length, LI. cbn [length fcs_octets]. unfold zlen in Hl. lia.
    - intros i Hi. destruct i as [|[|i]]; [reflexivity|reflexivity|]. cbn [nth]. destruct (Nat.lt_ge_cases i (length info)).
      + rewrite app_nth1 by assumption. unfold info, zslice. rewrite nth_slice. rewrite (proj2 (Nat.ltb_lt _ _)) by lia. reflexivity.
      + rewrite app_nth2 by lia. rewrite LI in *.
        pose proof (F (size - 3)) as G0. pose proof (F (size - 2)) as G1. pose proof (F (size - 1)) as G2. unfold is_byte in G0, G1, G2.
        assert (Y : nth (S (S i)) data 0 = at0 data (size - 3 + Z.of_nat (i - Z.to_nat (size - 5)))) by (unfold at0; f_equal; lia). rewrite Y. clear Y.
        assert (Hj : (i - Z.to_nat (size - 5) < 3)%nat) by (unfold zlen in Hl; lia). set (j := (i - Z.to_nat (size - 5))%nat) in *. clearbody j.
        destruct j as [|[|[|j]]]; [| | |lia]; cbn [nth fcs_octets]; rewrite land_255, Z.shiftr_div_pow2 by lia; unfold fc.
        * replace (size - 3 + Z.of_nat 0) with (size - 3) by lia. set (x := at0 data (size - 3)) in *. set (y := at0 data (size - 2)) in *. set (z := at0 data (size - 1)) in *. clearbody x y z.
          change (2 ^ 0) with 1. Z.div_mod_to_equations; lia.
        * replace (size - 3 + Z.of_nat 1) with (size - 2) by lia. set (x := at0 data (size - 3)) in *. set (y := at0 data (size - 2)) in *. set (z := at0 data (size - 1)) in *. clearbody x y z.
          change (2 ^ 8) with 256. Z.div_mod_to_equations; lia.
        * replace (size - 3 + Z.of_nat 2) with (size - 1) by lia. set (x := at0 data (size - 3)) in *. set (y := at0 data (size - 2)) in *. set (z := at0 data (size - 1)) in *. clearbody x y z.
          change (2 ^ 16) with 65536. Z.div_mod_to_equations; lia. }
  assert (BO : body_of size f = d0 :: d1 :: info <->
    (r_ftype f = FT_U -> Z.testbit d0 1 = false /\ Z.testbit d0 2 = false /\ Z.testbit d1 7 = false) /\ (r_info_len f = 0 -> info = repeat 0 (Z.to_nat (size - 5)))).
  { unfold body_of, frame_body. rewrite Q7, Q8, Q9, Q1, Q2.
    assert (HDR : [hd0 (d_cr d0) (if r_ftype f =? FT_U then 0 else d_s d0) (d_ns d0 d1); hd1 (d_ns d0 d1) (d_pf d1) (if r_ftype f =? FT_U then d_nr d1 mod 32 else d_nr d1)] = [d0; d1] <->
      (r_ftype f = FT_U -> Z.testbit d0 1 = false /\ Z.testbit d0 2 = false /\ Z.testbit d1 7 = false)).
    { pose proof (oct0 d0 d1 B0) as O0. pose proof (oct1 d0 d1 B0 B1) as O1.
      destruct (Z.eqb_spec (r_ftype f) FT_U) as [T|T].
      - assert (K0 : hd0 (d_cr d0) 0 (d_ns d0 d1) = d0 <-> Z.testbit d0 1 = false /\ Z.testbit d0 2 = false).
        { transitivity (hd0 (d_cr d0) 0 (d_ns d0 d1) = hd0 (d_cr d0) (d_s d0) (d_ns d0 d1)); [now rewrite <- O0|]. unfold hd0. change (0 mod 4) with 0. transitivity (d_s d0 = 0); [unfold d_s; clear; Z.div_mod_to_equations; lia|].
          rewrite <- !Bool.not_true_iff_false. rewrite !Z.testbit_true by lia. unfold d_s. change (2 ^ 1) with 2. change (2 ^ 2) with 4. Z.div_mod_to_equations; lia. }
        assert (K1 : hd1 (d_ns d0 d1) (d_pf d1) (d_nr d1 mod 32) = d1 <-> Z.testbit d1 7 = false).
        { transitivity (hd1 (d_ns d0 d1) (d_pf d1) (d_nr d1 mod 32) = hd1 (d_ns d0 d1) (d_pf d1) (d_nr d1)); [now rewrite <- O1|]. unfold hd1. rewrite <- !Bool.not_true_iff_false. rewrite !Z.testbit_true by lia. unfold d_nr, is_byte in *. change (2 ^ 7) with 128. Z.div_mod_to_equations; lia. }
        split.
        + intros H _. injection H as H1 H2. apply K0 in H1. apply K1 in H2. tauto.
        + intros H. destruct (H T) as (A & B & C). rewrite (proj2 K0) by tauto. rewrite (proj2 K1) by exact C. reflexivity.
      - rewrite <- O0, <- O1. split; [intros _ K; contradiction|reflexivity]. }
    assert (INF : payload f ++ repeat 0 (Z.to_nat (size - 5 - zlen (payload f))) = info <-> (r_info_len f = 0 -> info = repeat 0 (Z.to_nat (size - 5)))).
    { destruct (has_info f) eqn:HI.
      - destruct (Q5 eq_refl) as (-> & ->). replace (size - 5 - zlen info) with 0 by (unfold zlen; lia). cbn [Z.to_nat repeat]. rewrite app_nil_r. split; [intros _ K; lia|reflexivity].
      - destruct (Q6 eq_refl) as (-> & ->). cbn [app]. change (zlen (@nil Z)) with 0. rewrite Z.sub_0_r. split; [intros H _; now symmetry|intros H; symmetry; auto]. }
    rewrite <- HDR, <- INF. generalize (hd0 (d_cr d0) (if r_ftype f =? FT_U then 0 else d_s d0) (d_ns d0 d1)) (hd1 (d_ns d0 d1) (d_pf d1) (if r_ftype f =? FT_U then d_nr d1 mod 32 else d_nr d1))
      (payload f ++ repeat 0 (Z.to_nat (size - 5 - zlen (payload f)))) info d0 d1. clear. intros x y l l' x' y'. split.
    - intros H. split; congruence.
    - intros (H1 & H2). congruence. }
  assert (PRE : forall c', body_of size f = d0 :: d1 :: info -> 0 <= c' < 2 ^ 24 -> (rlp_fcs_compute data (size - 3) = Ok c' <-> c = c')).
  { intros c' Hbo Hc'. rewrite Dsplit at 1. change (d0 :: d1 :: info ++ fcs_octets fc) with ((d0 :: d1 :: info) ++ fcs_octets fc). rewrite <- Hbo.
    rewrite fcs_prefix by (auto using fcs_octets_bytes). rewrite Ec. split; [intros K; now injection K|intros ->; reflexivity]. }
  rewrite Q3. rewrite <- BO. split.
  - intros H. apply Ok_inj in H. apply (f_equal snd) in H. cbn [snd] in H. rewrite Dsplit in H.
    assert (L0 : length (body_of size f) = length (d0 :: d1 :: info)) by (cbn [length]; rewrite LI; unfold zlen in BL; lia).
    change (d0 :: d1 :: info ++ fcs_octets fc) with ((d0 :: d1 :: info) ++ fcs_octets fc) in H.
    assert (Hbo : body_of size f = d0 :: d1 :: info).
    { pose proof (f_equal (firstn (length (body_of size f))) H) as K. rewrite firstn_app_exact in K by reflexivity. rewrite L0 in K at 1. now rewrite firstn_app_exact in K by reflexivity. }
    split; [|exact Hbo]. apply PRE; [exact Hbo|exact FR|]. rewrite Hbo in H. apply app_inv_head in H.
    rewrite <- (split3 c Hc), <- (split3 fc FR). now rewrite H.
  - intros (H1 & Hbo). apply (PRE fc Hbo FR) in H1. subst c. f_equal. f_equal. rewrite Hbo. symmetry. exact Dsplit.
Qed.
Print Assumptions C62_reencode.

(** A receiver that compares the FCS of the received octets with the decoded one notices every error burst of up to
    24 bits (in order of transmission), in particular every single bit error. *)
Theorem C62_burst_detected : forall version data data' e size f f', bytes data -> bytes data' -> (size = 30 \/ size = 72) ->
  zlen data = size -> zlen data' = size -> 0 <= version < 2 ->
  length e = length (tx_bits data) -> tx_bits data' = xorl (tx_bits data) e -> burst 24 e ->
  rlp_decode version data size = Ok f -> rlp_decode version data' size = Ok f' ->
  rlp_fcs_compute data (size - 3) = Ok (r_fcs f) -> rlp_fcs_compute data' (size - 3) <> Ok (r_fcs f').
Proof.
  intros version data data' e size f f' Hb Hb' Hs Hl Hl' Hv Le Ex Hbu D D' HC HC'.
  assert (SP : forall dt g, bytes dt -> zlen dt = size -> rlp_decode version dt size = Ok g ->
    0 <= r_fcs g < 2 ^ 24 /\ tx_bits dt = tx_bits (firstn (Z.to_nat (size - 3)) dt) ++ lsb_bits 24 (r_fcs g)).
  { intros dt g Hd Hld E. destruct (C62_decode version dt size Hd Hs ltac:(lia) Hv) as (g' & s & ns & nr & E' & _ & _ & _ & _ & _ & R & T & _).
    rewrite E in E'. apply Ok_inj in E'. subst g'. split; [exact R|]. rewrite <- T, <- tx_bits_app. f_equal.
    unfold zslice, slice. rewrite (firstn_all2 (n := Z.to_nat 3)) by (rewrite skipn_length; unfold zlen in Hld; lia). now rewrite firstn_skipn. }
  destruct (SP data f Hb Hl D) as (R & T). destruct (SP data' f' Hb' Hl' D') as (R' & T').
  apply fcs_check in HC; [|exact Hb|lia|exact R]. apply fcs_check in HC'; [|exact Hb'|lia|exact R'].
  set (m := tx_bits (firstn (Z.to_nat (size - 3)) data)) in *. set (m' := tx_bits (firstn (Z.to_nat (size - 3)) data')) in *.
  assert (Lm : length m = length m') by (unfold m, m'; rewrite !tx_bits_length, !firstn_length; unfold zlen in *; lia).
  set (e1 := firstn (length m) e). set (e2 := skipn (length m) e).
  assert (Ee : e = e1 ++ e2) by (unfold e1, e2; now rewrite firstn_skipn).
  assert (L1 : length e1 = length m) by (unfold e1; rewrite firstn_length; rewrite T, app_length in Le; lia).
  assert (L2 : length e2 = length (lsb_bits 24 (r_fcs f))) by (unfold e2; rewrite skipn_length, Le, T, app_length; lia).
  assert (X : m' = xorl m e1 /\ lsb_bits 24 (r_fcs f') = xorl (lsb_bits 24 (r_fcs f)) e2).
  { rewrite T, T', Ee in Ex. rewrite xorl_app in Ex by (now rewrite L1).
    assert (LX : length m' = length (xorl m e1)) by (rewrite xorl_length; lia).
    split.
    - pose proof (f_equal (firstn (length m')) Ex) as K. rewrite firstn_app_exact in K by reflexivity. rewrite LX in K. now rewrite firstn_app_exact in K by reflexivity.
    - pose proof (f_equal (skipn (length m')) Ex) as K. rewrite skipn_app_exact in K by reflexivity. rewrite LX in K. now rewrite skipn_app_exact in K by reflexivity. }
  destruct X as (X1 & X2). rewrite Ee in Hbu.
  pose proof (burst_detected 32 RCODE m (lsb_bits 24 (r_fcs f)) e1 e2 rcode_ok eq_refl (tx_bits_bits _) (lsb_bits_bits _ _)) as BD.
  specialize (BD ltac:(unfold zlen; rewrite lsb_bits_length; reflexivity) L1 L2 Hbu HC). rewrite <- X1, <- X2 in BD.
  replace (zlen m) with (zlen m') in BD by (unfold zlen; congruence). rewrite BD in HC'. discriminate.
Qed.
Print Assumptions C62_burst_detected.

(** Not true: that the information of every U frame survives.  TS 24.022 gives UI and TEST frames an information
    field; the encoder leaves it out and the decoder reports none, without an error. *)
Definition ui_frame : rlp := Rlp 1 FT_U 0 0 true false 0 0 0 0 (1 :: 2 :: repeat 0 65) 2.
Theorem C62_ui_refuted :
  (exists out, rlp_encode (repeat 170 30) 30 ui_frame = Ok (30, out) /\ zslice out 2 25 = repeat 0 25) /\
  (forall data version f, bytes data -> zlen data = 30 -> 0 <= version < 2 -> tx_bits (firstn 2 data) = rlp_header 1 0 63 0 0 ->
    rlp_decode version data 30 = Ok f -> r_ftype f = FT_U /\ r_u f = 0 /\ r_info_len f = 0).
Proof.
  split.
  - eexists. split; vm_compute; reflexivity.
  - intros data version f Hb Hl Hv HH E.
    destruct (C62_decode version data 30 Hb ltac:(lia) ltac:(lia) Hv) as (g & s & ns & nr & E' & _ & Rs & Rns & Rnr & H & _ & _ & X & _).
    rewrite E in E'. apply Ok_inj in E'. subst g. rewrite HH in H.
    assert (N : ns = 63 /\ nr = 0).
    { unfold rlp_header, lsb_bits in H. cbn [map zseq app] in H. injection H. intros.
      split; apply Z.bits_inj'; intros k Hk; (destruct (Z_lt_le_dec k 6); [|rewrite !(testbit_above _ 6) by lia; reflexivity]);
        assert (C : k = 0 \/ k = 1 \/ k = 2 \/ k = 3 \/ k = 4 \/ k = 5) by lia;
        destruct C as [-> |[-> |[-> |[-> |[-> | ->]]]]]; unfold b2z in *;
        repeat match goal with H : context [if Z.testbit ?x ?k then 1 else 0] |- _ => destruct (Z.testbit x k) eqn:?; try discriminate end;
        cbn in *; congruence. }
    destruct N as (-> & ->). cbv zeta in X. destruct (X eq_refl) as (T & U & I). cbn in I. change (0 mod 32) with 0 in U. tauto.
Qed.
Print Assumptions C62_ui_refuted.

(** An I+S frame with three octets of information, and its decoding. *)
Definition is_frame : rlp := Rlp 1 FT_IS 0 2 true true 0 37 41 0 ([17; 34; 51] ++ repeat 0 64) 3.
Example C62_nonvacuous :
  rlp_typed is_frame /\ bytes (repeat 170 32) /\
  (do ' (n, out) <- rlp_encode (repeat 170 32) 30 is_frame ;;
   do f <- rlp_decode 1 out 30 ;;
   do c <- rlp_fcs_compute out 27 ;;
   Ok (n, firstn 5 out, skipn 30 out, r_ns f, r_nr f, r_s f, firstn 4 (r_info f), r_info_len f, r_fcs f =? c)) =
  Ok (30, [45; 167; 17; 34; 51], [170; 170], 37, 41, 2, [17; 34; 51; 0], 25, true) /\
  burst 24 (repeat 0 8 ++ [1; 0; 1] ++ repeat 0 229).
Proof.
  split; [|split; [|split]].
  - unfold rlp_typed, is_frame, is_byte, is_u16; cbn [r_version r_u r_s r_ns r_nr r_info r_info_len]. repeat split; try lia.
    unfold bytes. apply Forall_app. split; [repeat constructor; unfold is_byte; lia|apply bytes_rep].
  - apply Forall_forall. intros x Hx. apply repeat_spec in Hx. subst. unfold is_byte; lia.
  - vm_compute. reflexivity.
  - exists 8%nat, [1; 0; 1], 229%nat. split; [reflexivity|]. split; [repeat (constructor; [unfold is_bit; auto|]); constructor|]. split; [left; reflexivity|]. vm_compute; congruence.
Qed.
