(** C71: messages of the Osmocom Authentication Protocol survive encoding and decoding, and octets from the network are taken for what they say. *)
From Verif Require Import Base M_tlv M_oap S_oap P_oap.

(** A type followed by any sequence of well formed elements, known or not, in any order, repeated or not, is accepted and says exactly
    what the last element of each kind says. *)
Theorem C71_accept : forall typ l, is_byte typ -> bytes (wires l) -> Forall well_formed l ->
  exists m, osmo_oap_decode (typ :: wires l) = Ok (0, m) /\ says typ l m.
Proof.
  intros typ l T B W. exists (fold_left put l (set_type oap_zero typ)). split; [|apply put_says].
  unfold osmo_oap_decode, osmo_shift_v_fixed. rewrite zlen_cons, Z.gtb_ltb. pose proof (zlen_nonneg (wires l)). destruct (Z.ltb_spec (1 + zlen (wires l)) 1); [lia|].
  change (Z.to_nat 1) with 1%nat. cbn [skipn firstn]. rewrite be1. apply loop_put; [exact B|exact W|lia].
Qed.
Print Assumptions C71_accept.
Example C71_accept_nonvacuous : exists m, osmo_oap_decode ([5] ++ [0x30; 2; 1; 2] ++ [0x77; 1; 9] ++ [2; 1; 6]) = Ok (0, m) /\ o_client m = 258 /\ o_cause m = 6 /\
  Forall well_formed [(0x30, [1; 2]); (0x77, [9]); (2, [6])].
Proof.
  eexists. split; [vm_compute; reflexivity|]. split; [reflexivity|]. split; [reflexivity|].
  repeat constructor; unfold well_formed; cbn; repeat split; intros; try discriminate; try lia.
Qed.

(** Any octets at all: the decoder ends with success or one of its two errors, or it reads out of bounds (only if the octets end in an
    empty cause).  Nothing but a type and elements in the lengths of the protocol is accepted (an empty cause is, though). *)
Theorem C71_any_octets_partial : forall data, bytes data ->
  match osmo_oap_decode data with
  | Ok (rc, _) =>
      (rc = - GMM_CAUSE_INV_MAND_INFO /\ data = []) \/
      (rc = - GMM_CAUSE_PROTO_ERR_UNSPEC /\ data <> []) \/
      (rc = 0 /\ exists typ l, data = typ :: wires l /\ Forall (fun e => well_formed e \/ e = (2, [])) l)
  | UB => exists front, data = front ++ [2; 0]
  | _ => False
  end.
Proof.
  intros data B. destruct data as [|typ r]; [left; split; reflexivity|].
  unfold osmo_oap_decode, osmo_shift_v_fixed. rewrite zlen_cons, Z.gtb_ltb. pose proof (zlen_nonneg r). destruct (Z.ltb_spec (1 + zlen r) 1); [lia|].
  change (Z.to_nat 1) with 1%nat. cbn [skipn firstn].
  assert (Br : bytes r) by (inversion B; assumption).
  pose proof (loop_inv (length r) r (set_type oap_zero (be_val [typ])) Br (le_n _)) as K.
  destruct (decode_loop (length r) r (set_type oap_zero (be_val [typ]))) as [[rc m]| | |]; [|exact K|exact K|].
  - destruct K as [->|(-> & l & -> & F)]; [right; left; split; [reflexivity|discriminate]|]. right. right. split; [reflexivity|]. exists typ, l. split; [reflexivity|exact F].
  - destruct K as (pre & ->). exists (typ :: pre). reflexivity.
Qed.
Print Assumptions C71_any_octets_partial.
Example C71_any_octets_nonvacuous : (exists m, osmo_oap_decode [5; 0x30; 2; 0; 0] = Ok (- GMM_CAUSE_PROTO_ERR_UNSPEC, m)) /\ (exists m, osmo_oap_decode [5; 0x20; 9; 1] = Ok (- GMM_CAUSE_PROTO_ERR_UNSPEC, m)).
Proof. split; eexists; vm_compute; reflexivity. Qed.

(** An empty cause is not refused: at the end of the message an octet behind it is read, elsewhere the tag of the next element becomes the cause. *)
Theorem C71_empty_cause_refuted :
  (forall typ, osmo_oap_decode [typ; 2; 0] = UB) /\
  (forall typ v, is_byte typ -> bytes v -> zlen v = 8 -> exists m, osmo_oap_decode (typ :: 2 :: 0 :: 0x24 :: 8 :: v) = Ok (0, m) /\ o_cause m = 0x24).
Proof.
  split; [reflexivity|]. intros typ v T B L.
  destruct v as [|v0 [|v1 [|v2 [|v3 [|v4 [|v5 [|v6 [|v7 [|]]]]]]]]]; try (unfold zlen in L; cbn [length] in L; lia).
  eexists. split; [reflexivity|reflexivity].
Qed.
Print Assumptions C71_empty_cause_refuted.

(** What is put in comes out: every message is appended behind what is in the buffer, as its type and its elements, and decoding gives back every
    field. *)
Theorem C71_roundtrip : forall msg m, valid m ->
  exists octets, osmo_oap_encode msg m = Ok (msg ++ octets) /\ osmo_oap_decode octets = Ok (0, m) /\ bytes octets /\ zlen octets <= 70.
Proof.
  intros msg m (T & C & I & R & A & X & S).
  destruct m as [ty ca cl rp ra ap au xp xr sp su]. cbn [o_type o_cause o_client o_rand_present o_rand o_autn_present o_autn o_xres_present o_xres o_auts_present o_auts] in *.
  set (opt := fun (c : bool) (e : Z * list Z) => if c then [e] else []).
  set (l := opt (negb (ca =? 0)) (2, [ca]) ++ opt (0 <? cl) (0x30, be_bytes 2 cl) ++ opt (negb (rp =? 0)) (0x20, ra) ++ opt (negb (ap =? 0)) (0x23, au) ++
            opt (negb (sp =? 0)) (0x25, su) ++ opt (negb (xp =? 0)) (0x24, xr)).
  destruct R as (Lr & Br & Pr). destruct A as (La & Ba & Pa). destruct X as (Lx & Bx & Px). destruct S as (Ls & Bs & Ps).
  assert (Bc : be_val (be_bytes 2 cl) = cl) by (rewrite be_val_be_bytes; change (2 ^ (8 * Z.of_nat 2)) with 65536; apply Z.mod_small; lia).
  assert (Lc : length (be_bytes 2 cl) = 2%nat) by apply be_bytes_length.
  assert (E : osmo_oap_encode msg (Oap ty ca cl rp ra ap au xp xr sp su) = Ok (msg ++ ty :: wires l)).
  { unfold osmo_oap_encode. cbn [o_type o_cause o_client o_rand_present o_rand o_autn_present o_autn o_xres_present o_xres o_auts_present o_auts].
    destruct (Z.eqb_spec ty 0); [lia|]. rewrite (u8_small ty), (u8_small ca) by (unfold is_byte; lia). rewrite Z.gtb_ltb.
    assert (P : forall (c : bool) (mm : list Z) (tag n : Z) (v : list Z), length v = Z.to_nat n -> 0 <= n < 256 -> (if c then msgb_tlv_put mm tag n v else mm) = mm ++ wires (opt c (tag, v))).
    { clear n. intros c mm tag n v Ln Hn. unfold msgb_tlv_put, opt, wires. destruct c; cbn [map concat]; [|rewrite app_nil_r; reflexivity]. rewrite app_nil_r. unfold wire. cbn [fst snd].
      rewrite (u8_small n) by (unfold is_byte; lia). rewrite <- Ln, firstn_all. replace (zlen v) with n by (unfold zlen; lia). reflexivity. }
    assert (Wa : forall a b, wires (a ++ b) = wires a ++ wires b) by (intros a b; unfold wires; rewrite map_app, concat_app; reflexivity).
    cbv zeta. rewrite (P (negb (ca =? 0)) _ OAP_CAUSE_IE 1 [ca]) by (try reflexivity; lia). rewrite (P (0 <? cl) _ OAP_CLIENT_ID_IE 2) by (try exact Lc; lia).
    rewrite (P (negb (rp =? 0)) _ OAP_RAND_IE 16 ra) by (try exact Lr; lia). rewrite (P (negb (ap =? 0)) _ OAP_AUTN_IE 16 au) by (try exact La; lia).
    rewrite (P (negb (sp =? 0)) _ OAP_AUTS_IE 14 su) by (try exact Ls; lia). rewrite (P (negb (xp =? 0)) _ OAP_XRES_IE 8 xr) by (try exact Lx; lia).
    f_equal. unfold l. rewrite !Wa. rewrite <- !app_assoc. reflexivity. }
  assert (Fo : forall (P : Z * list Z -> Prop) c e, (c = true -> P e) -> Forall P (opt c e)) by (intros P c e H; unfold opt; destruct c; [constructor; [auto|constructor]|constructor]).
  assert (Zl : forall (v : list Z) n, length v = n -> zlen v = Z.of_nat n) by (intros v n <-; reflexivity).
  assert (W : Forall (fun e => well_formed e /\ bytes (wire e)) l).
  { assert (Q : forall t v, is_byte t -> zlen v <= 255 -> bytes v -> bytes (wire (t, v))).
    { intros t v Ht Hv Bv. unfold wire, bytes. cbn [fst snd]. pose proof (zlen_nonneg v). constructor; [exact Ht|]. constructor; [unfold is_byte; lia|exact Bv]. }
    unfold l. repeat (apply Forall_app; split); apply Fo; intros Hc; (split; [unfold well_formed; cbn [fst snd]|apply Q; [unfold is_byte; lia| |]]).
    - change (zlen [ca]) with 1. repeat split; lia.
    - change (zlen [ca]) with 1. lia.
    - constructor; [unfold is_byte; lia|constructor].
    - rewrite (Zl _ _ Lc). apply Z.ltb_lt in Hc. repeat split; lia.
    - rewrite (Zl _ _ Lc). lia.
    - apply be_bytes_bytes.
    - rewrite (Zl _ _ Lr). repeat split; lia.
    - rewrite (Zl _ _ Lr). lia.
    - exact Br.
    - rewrite (Zl _ _ La). repeat split; lia.
    - rewrite (Zl _ _ La). lia.
    - exact Ba.
    - rewrite (Zl _ _ Ls). repeat split; lia.
    - rewrite (Zl _ _ Ls). lia.
    - exact Bs.
    - rewrite (Zl _ _ Lx). repeat split; lia.
    - rewrite (Zl _ _ Lx). lia.
    - exact Bx. }
  assert (Bw : bytes (wires l)).
  { clear -W. unfold wires. induction W as [|e l [_ He] _ IH]; [constructor|]. cbn [map concat]. unfold bytes in *. apply Forall_app. split; assumption. }
  exists (ty :: wires l). split; [exact E|]. split; [|split].
  - unfold osmo_oap_decode, osmo_shift_v_fixed. rewrite zlen_cons, Z.gtb_ltb. pose proof (zlen_nonneg (wires l)). destruct (Z.ltb_spec (1 + zlen (wires l)) 1); [lia|].
    change (Z.to_nat 1) with 1%nat. cbn [skipn firstn]. rewrite be1. rewrite loop_put; [|exact Bw|eapply Forall_impl; [|exact W]; intros e He; apply He|lia]. f_equal. f_equal.
    unfold l. rewrite !fold_left_app. unfold opt, oap_zero, set_type.
    assert (Cl : (0 <? cl) = negb (cl =? 0)) by (destruct (Z.ltb_spec 0 cl), (Z.eqb_spec cl 0); cbn; lia || reflexivity). rewrite Cl.
    destruct (Z.eqb_spec ca 0) as [->|]; cbn [negb fold_left put Z.eqb Pos.eqb set_cause]; rewrite ?be1;
    (destruct (Z.eqb_spec cl 0) as [->|]; cbn [negb fold_left put Z.eqb Pos.eqb set_client]; rewrite ?Bc;
    (destruct Pr as [->|[-> ->]]; cbn [negb fold_left put Z.eqb Pos.eqb set_rand];
    (destruct Pa as [->|[-> ->]]; cbn [negb fold_left put Z.eqb Pos.eqb set_autn];
    (destruct Ps as [->|[-> ->]]; cbn [negb fold_left put Z.eqb Pos.eqb set_auts];
    (destruct Px as [->|[-> ->]]; cbn [negb fold_left put Z.eqb Pos.eqb set_xres]; reflexivity))))).
  - constructor; [unfold is_byte; lia|exact Bw].
  - rewrite zlen_cons. unfold l, wires, zlen. rewrite !map_app, !concat_app, !app_length.
    assert (Lo : forall c e n, length (snd e) = n -> (length (concat (map wire (opt c e))) <= S (S n))%nat).
    { intros c e n Le. unfold opt. destruct c; cbn [map concat length]; [|lia]. rewrite app_nil_r. unfold wire. cbn [length]. lia. }
    pose proof (Lo (negb (ca =? 0)) (2, [ca]) 1%nat eq_refl). pose proof (Lo (0 <? cl) (0x30, be_bytes 2 cl) 2%nat Lc). pose proof (Lo (negb (rp =? 0)) (0x20, ra) 16%nat Lr).
    pose proof (Lo (negb (ap =? 0)) (0x23, au) 16%nat La). pose proof (Lo (negb (sp =? 0)) (0x25, su) 14%nat Ls). pose proof (Lo (negb (xp =? 0)) (0x24, xr) 8%nat Lx). lia.
Qed.
Print Assumptions C71_roundtrip.
Example C71_roundtrip_nonvacuous : valid (Oap 8 0 77 1 (repeat 3 16) 1 (repeat 4 16) 0 (repeat 0 8) 0 (repeat 0 14)).
Proof. unfold valid, field. cbn [o_type o_cause o_client o_rand_present o_rand o_autn_present o_autn o_xres_present o_xres o_auts_present o_auts].
  repeat split; try lia; try reflexivity; try (repeat constructor; unfold is_byte; lia); auto. Qed.

(** A message without a type is not encoded: the program stops. *)
Theorem C71_no_type : forall msg m, osmo_oap_encode msg m = Abort <-> o_type m = 0.
Proof.
  intros msg m. unfold osmo_oap_encode. destruct (Z.eqb_spec (o_type m) 0); split; intros; try reflexivity; try assumption; try contradiction; try discriminate.
Qed.
Print Assumptions C71_no_type.
