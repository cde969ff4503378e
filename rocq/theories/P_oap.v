(** Proofs about the Osmocom Authentication Protocol. *)
From Verif Require Import Base M_tlv M_oap S_oap.

Lemma shift_wire t v rest : osmo_shift_tlv (wire (t, v) ++ rest) = (s32 (zlen v + 2), rest, Some (t, v)).
Proof.
  unfold osmo_shift_tlv, wire. cbn [fst snd app]. pose proof (zlen_nonneg v). pose proof (zlen_nonneg rest).
  assert (L : zlen (t :: zlen v :: v ++ rest) = 2 + zlen v + zlen rest) by (rewrite !zlen_cons; unfold zlen; rewrite app_length; lia). rewrite L.
  destruct (Z.ltb_spec (2 + zlen v + zlen rest) 2); [lia|]. change (at0 (t :: zlen v :: v ++ rest) 1) with (zlen v). change (at0 (t :: zlen v :: v ++ rest) 0) with t.
  cbv zeta. rewrite Z.gtb_ltb. destruct (Z.ltb_spec (2 + zlen v + zlen rest - 2) (zlen v)); [lia|].
  assert (Sk : skipn (Z.to_nat (zlen v + 2)) (t :: zlen v :: v ++ rest) = rest).
  { replace (Z.to_nat (zlen v + 2)) with (S (S (length v))) by (unfold zlen; lia). cbn [skipn]. rewrite skipn_app, skipn_all, Nat.sub_diag. reflexivity. }
  assert (Sl : zslice (t :: zlen v :: v ++ rest) 2 (zlen v) = v).
  { unfold zslice, slice. change (Z.to_nat 2) with 2%nat. cbn [skipn]. unfold zlen. rewrite Nat2Z.id, firstn_app, firstn_all, Nat.sub_diag. cbn [firstn]. apply app_nil_r. }
  rewrite Sk, Sl. reflexivity.
Qed.
Lemma shift_inv data rc d o : bytes data -> osmo_shift_tlv data = (rc, d, o) -> o = None \/ exists t v, o = Some (t, v) /\ data = wire (t, v) ++ d /\ zlen v <= 255.
Proof.
  intros B E. destruct data as [|t [|l r]]; [left; unfold osmo_shift_tlv in E; cbn in E; congruence|left; unfold osmo_shift_tlv in E; cbn in E; congruence|].
  assert (Hl : is_byte l) by (inversion B as [|? ? _ B']; inversion B'; assumption). unfold is_byte in Hl.
  destruct (Z_le_gt_dec l (zlen r)) as [Hle|Hgt].
  - right. exists t, (firstn (Z.to_nat l) r). assert (Lv : zlen (firstn (Z.to_nat l) r) = l) by (unfold zlen in *; rewrite firstn_length; lia).
    assert (D : t :: l :: r = wire (t, firstn (Z.to_nat l) r) ++ skipn (Z.to_nat l) r).
    { unfold wire. cbn [fst snd app]. rewrite Lv, firstn_skipn. reflexivity. }
    rewrite D, shift_wire in E. injection E as <- <- <-. split; [reflexivity|]. split; [exact D|lia].
  - left. unfold osmo_shift_tlv in E. rewrite !zlen_cons in E. pose proof (zlen_nonneg r). destruct (Z.ltb_spec (1 + (1 + zlen r)) 2); [lia|].
    change (at0 (t :: l :: r) 1) with l in E. cbv zeta in E. rewrite Z.gtb_ltb in E. destruct (Z.ltb_spec (1 + (1 + zlen r) - 2) l); [congruence|lia].
Qed.

(** what one well formed element does *)
Definition put (m : oap) (e : Z * list Z) : oap :=
  let '(t, v) := e in
  if t =? 0x30 then set_client m (be_val v) else if t =? 0x23 then set_autn m 1 v else if t =? 0x20 then set_rand m 1 v else
  if t =? 0x24 then set_xres m 1 v else if t =? 0x25 then set_auts m 1 v else if t =? 0x02 then set_cause m (be_val v) else m.

Lemma client_set m x : o_client (set_client m x) = x. Proof. destruct m. reflexivity. Qed.
Lemma be1 (c : Z) : be_val [c] = c. Proof. unfold be_val. cbn. lia. Qed.

Lemma loop_put l : forall fuel m, bytes (wires l) -> Forall well_formed l -> (length (wires l) <= fuel)%nat ->
  decode_loop fuel (wires l) m = Ok (0, fold_left put l m).
Proof.
  induction l as [|[t v] l IH]; intros fuel m B W L; [destruct fuel; reflexivity|].
  change (wires ((t, v) :: l)) with (wire (t, v) ++ wires l) in *. inversion W as [|? ? (W0 & W2 & W20 & W23 & W24 & W25 & W30) W']; subst. cbn [fst snd] in *.
  assert (Bv : bytes v /\ bytes (wires l)).
  { unfold bytes in *. apply Forall_app in B. destruct B as [B1 B2]. split; [|exact B2]. inversion B1 as [|? ? _ B3]. inversion B3. assumption. }
  destruct Bv as [Bv Bl].
  assert (L' : (S (S (length v)) + length (wires l) <= fuel)%nat) by (rewrite app_length in L; exact L).
  destruct fuel as [|fuel]; [lia|]. cbn [decode_loop].
  change (match wire (t, v) ++ wires l with [] => Ok (0, m) | _ :: _ => ?x end) with x.
  rewrite shift_wire. cbv beta iota. cbn [fold_left]. unfold put at 2.
  unfold OAP_CLIENT_ID_IE, OAP_AUTN_IE, OAP_RAND_IE, OAP_XRES_IE, OAP_AUTS_IE, OAP_CAUSE_IE.
  destruct (Z.eqb_spec t 48) as [->|N48].
  { destruct (W30 eq_refl) as [Lv Nz]. rewrite Lv. cbn [negb Z.eqb Pos.eqb]. rewrite client_set.
    pose proof (be_val_bound v Bv) as Bd. rewrite Lv in Bd. assert (Bx : 0 <= be_val v < 65536) by exact Bd. rewrite (u16_small (be_val v) Bx).
    destruct (Z.eqb_spec (be_val v) 0); [contradiction|]. apply IH; [exact Bl|exact W'|lia]. }
  destruct (Z.eqb_spec t 35) as [->|N35]; [rewrite (W23 eq_refl); cbn [negb Z.eqb Pos.eqb]; apply IH; [exact Bl|exact W'|lia]|].
  destruct (Z.eqb_spec t 32) as [->|N32]; [rewrite (W20 eq_refl); cbn [negb Z.eqb Pos.eqb]; apply IH; [exact Bl|exact W'|lia]|].
  destruct (Z.eqb_spec t 36) as [->|N36]; [rewrite (W24 eq_refl); cbn [negb Z.eqb Pos.eqb]; apply IH; [exact Bl|exact W'|lia]|].
  destruct (Z.eqb_spec t 37) as [->|N37]; [rewrite (W25 eq_refl); cbn [negb Z.eqb Pos.eqb]; apply IH; [exact Bl|exact W'|lia]|].
  destruct (Z.eqb_spec t 2) as [->|N2]; [|apply IH; [exact Bl|exact W'|lia]].
  pose proof (W2 eq_refl) as Lv. destruct v as [|c [|c2 v2]]; [discriminate Lv| |exfalso; rewrite !zlen_cons in Lv; pose proof (zlen_nonneg v2); lia].
  change (zlen [c] >? 1) with false. cbv iota. change (rd ([c] ++ wires l) 0) with (Ok c). cbn [bind]. rewrite be1. apply IH; [exact Bl|exact W'|lia].
Qed.

Lemma loop_inv : forall fuel data m, bytes data -> (length data <= fuel)%nat ->
  match decode_loop fuel data m with
  | Ok (rc, _) => rc = - GMM_CAUSE_PROTO_ERR_UNSPEC \/ (rc = 0 /\ exists l, data = wires l /\ Forall (fun e => well_formed e \/ e = (2, [])) l)
  | UB => exists pre, data = pre ++ [2; 0]
  | _ => False
  end.
Proof.
  induction fuel as [|fuel IH]; intros data m B L.
  - destruct data; [|cbn in L; lia]. cbn. right. split; [reflexivity|]. exists []. split; [reflexivity|constructor].
  - destruct data as [|x data']; [cbn; right; split; [reflexivity|]; exists []; split; [reflexivity|constructor]|].
    set (data := x :: data') in *. cbn [decode_loop]. change (match data with [] => Ok (0, m) | _ :: _ => ?y end) with y.
    destruct (osmo_shift_tlv data) as [[rc d] o] eqn:E. cbv beta iota. destruct (shift_inv data rc d o B E) as [->|(t & v & -> & D & Lv)]; [left; reflexivity|].
    assert (Bd : bytes d). { unfold bytes in *. rewrite D in B. apply Forall_app in B. tauto. }
    assert (Ld : (length d <= fuel)%nat). { rewrite D in L. unfold wire in L. rewrite app_length in L. cbn [fst snd length] in L. lia. }
    assert (Step : forall m', (well_formed (t, v) \/ (t, v) = (2, [])) ->
      match decode_loop fuel d m' with
      | Ok (rc, _) => rc = - GMM_CAUSE_PROTO_ERR_UNSPEC \/ (rc = 0 /\ exists l, data = wires l /\ Forall (fun e => well_formed e \/ e = (2, [])) l)
      | UB => exists pre, data = pre ++ [2; 0] | _ => False end).
    { intros m' W. specialize (IH d m' Bd Ld). destruct (decode_loop fuel d m') as [[r mm]| | |]; [|exact IH|exact IH|].
      - destruct IH as [->|(-> & l & Dl & F)]; [left; reflexivity|]. right. split; [reflexivity|]. exists ((t, v) :: l).
        split; [rewrite D, Dl; reflexivity|]. constructor; [exact W|exact F].
      - destruct IH as (pre & Ep). exists (wire (t, v) ++ pre). rewrite D, Ep, app_assoc. reflexivity. }
    unfold OAP_CLIENT_ID_IE, OAP_AUTN_IE, OAP_RAND_IE, OAP_XRES_IE, OAP_AUTS_IE, OAP_CAUSE_IE.
    destruct (Z.eqb_spec t 48) as [->|N48].
    { destruct (Z.eqb_spec (zlen v) 2) as [Ev|]; cbn [negb]; [|left; reflexivity]. rewrite client_set.
      assert (Bv : bytes v). { unfold bytes in *. rewrite D in B. apply Forall_app in B. destruct B as [B1 _]. inversion B1 as [|? ? _ B3]. inversion B3. assumption. }
      pose proof (be_val_bound v Bv) as Bb. rewrite Ev in Bb. assert (Bx : 0 <= be_val v < 65536) by exact Bb. rewrite (u16_small (be_val v) Bx).
      destruct (Z.eqb_spec (be_val v) 0); [left; reflexivity|]. apply Step. left. unfold well_formed. cbn [fst snd]. repeat split; lia. }
    destruct (Z.eqb_spec t 35) as [->|N35].
    { destruct (Z.eqb_spec (zlen v) 16); cbn [negb]; [|left; reflexivity]. apply Step. left. unfold well_formed. cbn [fst snd]. repeat split; lia. }
    destruct (Z.eqb_spec t 32) as [->|N32].
    { destruct (Z.eqb_spec (zlen v) 16); cbn [negb]; [|left; reflexivity]. apply Step. left. unfold well_formed. cbn [fst snd]. repeat split; lia. }
    destruct (Z.eqb_spec t 36) as [->|N36].
    { destruct (Z.eqb_spec (zlen v) 8); cbn [negb]; [|left; reflexivity]. apply Step. left. unfold well_formed. cbn [fst snd]. repeat split; lia. }
    destruct (Z.eqb_spec t 37) as [->|N37].
    { destruct (Z.eqb_spec (zlen v) 14); cbn [negb]; [|left; reflexivity]. apply Step. left. unfold well_formed. cbn [fst snd]. repeat split; lia. }
    destruct (Z.eqb_spec t 2) as [->|N2]; [|apply Step; left; unfold well_formed; cbn [fst snd]; repeat split; lia].
    rewrite Z.gtb_ltb. destruct (Z.ltb_spec 1 (zlen v)); [left; reflexivity|]. destruct v as [|c [|c2 v2]].
    + destruct d as [|y d']; [exists []; exact D|]. change (rd ([] ++ y :: d') 0) with (Ok y). cbn [bind]. apply Step. right. reflexivity.
    + change (rd ([c] ++ d) 0) with (Ok c). cbn [bind]. apply Step. left. unfold well_formed. cbn [fst snd]. change (zlen [c]) with 1. repeat split; lia.
    + rewrite !zlen_cons in H. pose proof (zlen_nonneg v2). lia.
Qed.

Lemma last_snoc tag l e : last_of tag (l ++ [e]) = if fst e =? tag then Some (snd e) else last_of tag l.
Proof. unfold last_of. rewrite fold_left_app. reflexivity. Qed.
Lemma put_says typ l : says typ l (fold_left put l (set_type oap_zero typ)).
Proof.
  induction l as [|[t v] l IH] using rev_ind; [repeat split; reflexivity|]. rewrite fold_left_app. cbn [fold_left].
  destruct (fold_left put l (set_type oap_zero typ)) as [a b c d e f g h i j k]. unfold says in *. rewrite !last_snoc. cbn [fst snd].
  cbn [o_type o_cause o_client o_rand_present o_rand o_autn_present o_autn o_xres_present o_xres o_auts_present o_auts] in IH.
  destruct IH as (A & B & C & D & E & F & G). unfold put.
  destruct (Z.eqb_spec t 48) as [->|]; [repeat split; assumption|].
  destruct (Z.eqb_spec t 35) as [->|]; [repeat split; assumption|].
  destruct (Z.eqb_spec t 32) as [->|]; [repeat split; assumption|].
  destruct (Z.eqb_spec t 36) as [->|]; [repeat split; assumption|].
  destruct (Z.eqb_spec t 37) as [->|]; [repeat split; assumption|].
  destruct (Z.eqb_spec t 2) as [->|]; repeat split; assumption.
Qed.
