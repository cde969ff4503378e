From Coq Require Import ZArith List Lia Bool.
From Verif Require Import Base M_lapd P_lapd.
Import ListNotations.
Local Open Scope Z_scope.
Ltac Zify.zify_post_hook ::= idtac.

(* ------------------------------------------------------------------ *)
(* the frames under way                                                *)

(* a frame sent by the side with role net *)
Definition wff (net : bool) (n201 : Z) (f : frame) : Prop :=
  match f_fmt f with
  | FmtI => f_cr f = (if net then 1 else 0) /\ wfseg n201 (f_data f, f_more f)
  | FmtS => f_data f = [] /\ f_more f = false /\
            (f_su f = LAPD_S_RR \/ (f_su f = LAPD_S_REJ /\ f_cr f = (if net then 0 else 1)))
  | FmtU => False
  end.

Lemma okf_wff c P VA nr f : okf c P VA nr f -> wff (c_net c) (c_n201 c) f.
Proof. intros [_ H]. unfold wff. destruct (f_fmt f); auto. destruct H as (A & B & _). auto. Qed.

Lemma wff_from_peer d net f : wff net (c_n201 (d_cfg d)) f -> c_net (d_cfg d) = negb net -> from_peer d f.
Proof.
  unfold wff, from_peer, rem_cmd, rem_resp. intros H E. rewrite E. destruct net; cbn [negb] in *; destruct (f_fmt f); auto.
Qed.

(* the I frames in c can do no harm to a receiver that expects number VR and later ones *)
Fixpoint chI (P : list seg) (M VR lo : Z) (c : list frame) : Prop :=
  match c with
  | [] => lo <= zlen P
  | f :: c' => exists vm, lo <= vm /\
      (f_fmt f = FmtI -> forall v, VR <= v <= vm -> v mod M = f_ns f ->
         v < vm /\ nth_error P (Z.to_nat v) = Some (f_data f, f_more f)) /\
      chI P M VR vm c'
  end.

Lemma chI_lo P M VR c : forall lo lo', lo' <= lo -> chI P M VR lo c -> chI P M VR lo' c.
Proof.
  destruct c; intros lo lo' H; cbn [chI]; [lia|]. intros (vm & A & B & C). exists vm. split; [lia|auto].
Qed.
Lemma chI_VR P M VR VR' c : VR <= VR' -> forall lo, chI P M VR lo c -> chI P M VR' lo c.
Proof.
  intros H. induction c; intros lo; cbn [chI]; auto. intros (vm & A & B & C). exists vm. split; auto. split; auto.
  intros X v Hv. apply B; auto; lia.
Qed.
Lemma chI_end P M VR c : forall lo, chI P M VR lo c -> lo <= zlen P.
Proof. induction c; intros lo; cbn [chI]; auto. intros (vm & A & _ & C). apply IHc in C. lia. Qed.
Lemma chI_drop P M VR c : forall i lo, chI P M VR lo c -> chI P M VR lo (drop_at i c).
Proof.
  induction c; intros i lo H.
  - destruct i; exact H.
  - cbn [chI] in H. destruct H as (vm & A & B & C). destruct i.
    + change (drop_at 0 (a :: c)) with c. eapply chI_lo; eauto.
    + change (drop_at (S i) (a :: c)) with (a :: drop_at i c). cbn [chI]. exists vm. auto.
Qed.
Lemma chI_app P P' M VR c fs : 0 <= VR ->
  Forall (fun f => f_fmt f = FmtI -> forall v, VR <= v <= zlen (P ++ P') -> v mod M = f_ns f ->
            nth_error (P ++ P') (Z.to_nat v) = Some (f_data f, f_more f)) fs ->
  forall lo, chI P M VR lo c -> chI (P ++ P') M VR lo (c ++ fs).
Proof.
  intros H0 F. pose proof (zlen_nonneg P') as HP.
  assert (E : forall lo, lo <= zlen (P ++ P') -> chI (P ++ P') M VR lo fs).
  { induction F; intros lo Hl; cbn [chI]; auto. exists (zlen (P ++ P')). split; auto. split; [|apply IHF; lia].
    intros Hf v Hv Hm. specialize (H Hf v Hv Hm). split; auto.
    destruct (Z_lt_ge_dec v (zlen (P ++ P'))); auto. exfalso.
    assert (X : nth_error (P ++ P') (Z.to_nat v) = None) by (apply nth_error_None; unfold zlen in *; lia). congruence. }
  induction c; intros lo; cbn [chI app].
  - intros L. apply E. rewrite zlen_app. lia.
  - intros (vm & A & B & C). exists vm. split; auto. split; auto. intros Hf v Hv Hm. destruct (B Hf v Hv Hm) as [B1 B2].
    split; auto. apply chI_end in C. rewrite nth_error_app1; auto. apply nth_error_Some. congruence.
Qed.

(* the N(R) of the frames in c: from lo to hi, never decreasing *)
Fixpoint chR (M lo hi : Z) (c : list frame) : Prop :=
  match c with
  | [] => lo <= hi
  | f :: c' => exists n, lo <= n /\ f_nr f = n mod M /\ chR M n hi c'
  end.
Lemma chR_lo M c hi : forall lo lo', lo' <= lo -> chR M lo hi c -> chR M lo' hi c.
Proof. destruct c; intros lo lo' H; cbn [chR]; [lia|]. intros (n & A & B). exists n. split; [lia|auto]. Qed.
Lemma chR_hi M c hi hi' : hi <= hi' -> forall lo, chR M lo hi c -> chR M lo hi' c.
Proof.
  intros H. induction c; intros lo; cbn [chR]; [lia|]. intros (n & A & B & C). exists n. auto.
Qed.
Lemma chR_end M c hi : forall lo, chR M lo hi c -> lo <= hi.
Proof. induction c; intros lo; cbn [chR]; auto. intros (n & A & B & C). apply IHc in C. lia. Qed.
Lemma chR_drop M c hi : forall i lo, chR M lo hi c -> chR M lo hi (drop_at i c).
Proof.
  induction c; intros i lo H.
  - destruct i; exact H.
  - cbn [chR] in H. destruct H as (n & A & B & C). destruct i.
    + change (drop_at 0 (a :: c)) with c. eapply chR_lo; eauto.
    + change (drop_at (S i) (a :: c)) with (a :: drop_at i c). cbn [chR]. exists n. auto.
Qed.
Lemma chR_app M c hi fs : Forall (fun f => f_nr f = hi mod M) fs -> forall lo, chR M lo hi c -> chR M lo hi (c ++ fs).
Proof.
  intros F. assert (E : forall lo, lo <= hi -> chR M lo hi fs).
  { induction F; intros lo H'; cbn [chR]; auto. exists hi. split; auto. split; auto. apply IHF. lia. }
  induction c; intros lo; cbn [chR app]; auto. intros (n & A & B & C). exists n. auto.
Qed.

Lemma Forall_drop {A} (Q : A -> Prop) l : forall i, Forall Q l -> Forall Q (drop_at i l).
Proof.
  intros i F. unfold drop_at. rewrite Forall_forall in *. intros x Hx. apply in_app_or in Hx. destruct Hx as [Hx|Hx]; apply F.
  - rewrite <- (firstn_skipn i l). apply in_or_app. auto.
  - rewrite <- (firstn_skipn (S i) l). apply in_or_app. auto.
Qed.

(* ------------------------------------------------------------------ *)
(* one direction: from the data link dx to the data link dy             *)

Definition Dir (dx dy : ldl) (cxy cyx : list frame) (sub del : list (list Z)) : Prop :=
  exists P VA VS VR,
    Snd dx sub P VA VS /\ settled dx P VA VS /\ VA <= VR <= zlen P /\
    d_vr dy = VR mod c_vrange (d_cfg dx) /\
    reasm (c_maxf (d_cfg dy)) (firstn (Z.to_nat VR) P) ([], None) = (del, d_rbuf dy) /\
    chI P (c_vrange (d_cfg dx)) VR VR cxy /\ chR (c_vrange (d_cfg dx)) VA VR cyx /\
    Forall (wff (c_net (d_cfg dx)) (c_n201 (d_cfg dx))) cxy.

(* the sender does something; n: the acknowledgement it has taken off the channel, if any *)
Lemma dir_send dx dx' dy cxy cyx' sub sub' del P VA VS VR n os :
  Snd dx sub P VA VS -> VA <= VR <= zlen P -> VA <= n <= VR ->
  d_vr dy = VR mod c_vrange (d_cfg dx) ->
  reasm (c_maxf (d_cfg dy)) (firstn (Z.to_nat VR) P) ([], None) = (del, d_rbuf dy) ->
  chI P (c_vrange (d_cfg dx)) VR VR cxy -> chR (c_vrange (d_cfg dx)) n VR cyx' ->
  Forall (wff (c_net (d_cfg dx)) (c_n201 (d_cfg dx))) cxy ->
  good okf dx dx' os sub' P n ->
  Dir dx' dy (cxy ++ frames_of os) cyx' sub' del.
Proof.
  intros S Hr Hn EV ER CI CR FW (P' & VS' & S' & G' & C' & F').
  pose proof (sn_rng _ _ _ _ _ S) as R0. pose proof (zlen_nonneg P') as HP.
  exists (P ++ P'), n, VS', VR. rewrite C'. split; auto. split; auto.
  split; [rewrite zlen_app; lia|]. split; auto. split.
  { rewrite firstn_app. replace (Z.to_nat VR - length P)%nat with 0%nat by (unfold zlen in Hr; lia).
    cbn [firstn]. rewrite app_nil_r. auto. }
  split; [|split; auto].
  - apply chI_app; auto; [lia|]. eapply Forall_impl; [|exact F'].
    intros f [_ H] Hf. rewrite Hf in H. destruct H as (_ & _ & H). intros v Hv. apply H. lia.
  - apply Forall_app; split; auto. eapply Forall_impl; [|exact F']. intros f. apply okf_wff.
Qed.

(* the receiver does something without taking a frame of this direction off the channel *)
Lemma dir_recv dx dy dy' cxy cyx sub del os :
  Dir dx dy cxy cyx sub del -> d_cfg dy' = d_cfg dy -> d_vr dy' = d_vr dy -> d_rbuf dy' = d_rbuf dy -> 
  Forall (fun f => f_nr f = d_vr dy') (frames_of os) ->
  Dir dx dy' cxy (cyx ++ frames_of os) sub del.
Proof.
  intros (P & VA & VS & VR & S & G & Hr & EV & ER & CI & CR & FW) Ec Ev Eb F.
  exists P, VA, VS, VR. rewrite Ec, Ev, Eb. split; auto. split; auto. split; auto. split; auto. split; auto. split; auto.
  split; auto. apply chR_app; auto. eapply Forall_impl; [|exact F]. cbv beta. intros f ->. congruence.
Qed.

Lemma good_nr (okp : lcfg -> list seg -> Z -> Z -> frame -> Prop) d d' os sub P VA : (forall c Q va nr f, okp c Q va nr f -> f_nr f = nr) ->
  good okp d d' os sub P VA -> Forall (fun f => f_nr f = d_vr d') (frames_of os).
Proof.
  intros H (P' & VS & _ & _ & _ & F). eapply Forall_impl; [|exact F]. intros f. apply H.
Qed.
Lemma okf_nr c Q va nr f : okf c Q va nr f -> f_nr f = nr. Proof. intros [? _]; auto. Qed.
Lemma okn_nr c Q va nr f : okn c Q va nr f -> f_nr f = nr. Proof. intros [? _]; auto. Qed.

Lemma firstn_S_nth {A} (l : list A) n x : nth_error l n = Some x -> firstn (S n) l = firstn n l ++ [x].
Proof.
  revert n. induction l; intros n H; destruct n; cbn in *; try discriminate.
  - injection H as ->. auto.
  - rewrite IHl by auto. auto.
Qed.

(* configuration of the two ends *)
Record pair_ok (dx dy : ldl) : Prop := {
  po_net : c_net (d_cfg dy) = negb (c_net (d_cfg dx));
  po_m : c_vrange (d_cfg dy) = c_vrange (d_cfg dx);
  po_n : c_n201 (d_cfg dy) = c_n201 (d_cfg dx) }.
Lemma pair_sym dx dy : pair_ok dx dy -> pair_ok dy dx.
Proof. intros []. constructor; auto. rewrite po_net0, negb_involutive. auto. Qed.

Definition Both (kx ky : lcfg) (dx dy : ldl) (cxy cyx : list frame) (subx suby delx dely : list (list Z)) : Prop :=
  (d_cfg dx = kx /\ d_cfg dy = ky /\ pair_ok dx dy) /\ Dir dx dy cxy cyx subx dely /\ Dir dy dx cyx cxy suby delx.
Lemma Both_sym kx ky dx dy cxy cyx subx suby delx dely :
  Both kx ky dx dy cxy cyx subx suby delx dely -> Both ky kx dy dx cyx cxy suby subx dely delx.
Proof. intros ((A1 & A2 & A) & B & C). split; [split; auto; split; auto; apply pair_sym; auto|auto]. Qed.

(* an event at x other than a frame arriving *)
Lemma both_local kx ky dx dx' dy cxy cyx subx subx' suby delx dely os :
  Both kx ky dx dy cxy cyx subx suby delx dely ->
  (forall P VA VS, Snd dx subx P VA VS -> settled dx P VA VS ->
     good okf dx dx' os subx' P VA /\ d_vr dx' = d_vr dx /\ d_rbuf dx' = d_rbuf dx) ->
  Both kx ky dx' dy (cxy ++ frames_of os) cyx subx' suby delx dely.
Proof.
  intros ((K1 & K2 & PO) & (P & VA & VS & VR & S & G & Hr & EV & ER & CI & CR & FW) & DI) H.
  destruct (H P VA VS S G) as (GD & Ev & Eb).
  assert (Ec : d_cfg dx' = d_cfg dx) by (destruct GD as (? & ? & _ & _ & E & _); auto).
  split; [|split].
  - split; [congruence|]. split; [congruence|]. destruct PO. constructor; congruence.
  - eapply dir_send; eauto. lia.
  - eapply dir_recv; eauto. eapply good_nr; eauto. apply okf_nr.
Qed.

Lemma both_arrive kx ky dx dx' dy cxy cyx subx suby delx dely f rsp os :
  Both kx ky dx dy cxy (f :: cyx) subx suby delx dely ->
  ph_data_ind dx f rsp = (dx', os) ->
  Both kx ky dx' dy (cxy ++ frames_of os) cyx (subx ++ match datas_of os with [] => [] | _ => accepted rsp end) suby
    (delx ++ datas_of os) dely /\ erronly os.
Proof.
  intros ((K1 & K2 & PO) & (P & VA & VS & VR & S & G & Hr & EV & ER & CI & CR & FW) &
              (Q & WA & WS & WR & T & GT & Hr' & EV' & ER' & CI' & CR' & FW')) E.
  destruct CR as (n & Hn1 & Hn2 & CR). pose proof (chR_end _ _ _ _ CR) as Hn3.
  destruct CI' as (vm & Hm1 & Hm2 & CI').
  assert (WFf : wff (c_net (d_cfg dy)) (c_n201 (d_cfg dy)) f) by exact (Forall_inv FW'). apply Forall_inv_tail in FW'.
  assert (FP : from_peer dx f).
  { apply (wff_from_peer dx (c_net (d_cfg dy))). { rewrite <- (po_n _ _ PO). auto. }
    rewrite (po_net _ _ PO), negb_involutive. auto. }
  pose proof (sn_rng _ _ _ _ _ T) as RT.
  assert (NF : f_fmt f = FmtI \/ f_fmt f = FmtS).
  { unfold wff in WFf. destruct (f_fmt f); auto; contradiction. }
  unfold ph_data_ind in E.
  destruct NF as [Ff|Ff]; rewrite Ff in E.
  - destruct (rx_i_good dx subx P VA VS f n rsp dx' os S G FP Ff ltac:(lia) Hn2 E) as (E1 & E2 & E3).
    assert (Ec : d_cfg dx' = d_cfg dx) by (destruct E2 as (? & ? & _ & _ & X & _); auto).
    split; [|unfold erronly; rewrite E1; constructor].
    split; [|split].
    + split; [congruence|]. split; [congruence|]. destruct PO. constructor; congruence.
    + eapply (dir_send dx dx' dy cxy cyx subx _ dely P VA VS VR n os); eauto. apply good_okf; auto.
    + pose proof (good_nr _ _ _ _ _ _ _ okn_nr E2) as FN.
      destruct (Z.eqb_spec (f_ns f) (d_vr dx)) as [En|En].
      * destruct E3 as [E3 E4].
        rewrite EV' in En. destruct (Hm2 Ff WR ltac:(lia) (eq_sym En)) as [HV HN].
        pose proof (chI_end _ _ _ _ _ CI') as HE.
        assert (V' : d_vr dx' = (WR + 1) mod c_vrange (d_cfg dy)).
        { rewrite E3, EV', <- (po_m _ _ PO). apply inc_abs. apply T. }
        exists Q, WA, WS, (WR + 1). split; auto. split; auto. split; [clear - HV HE Hr' RT Hm1; lia|]. split; auto. split.
        { replace (Z.to_nat (WR + 1)) with (Datatypes.S (Z.to_nat WR)) by (clear - Hr' RT; lia).
          rewrite (firstn_S_nth _ _ _ HN), reasm_app, Ec, ER'. unfold reasm. cbn [fold_left]. apply E4. }
        split; [|split; auto].
        -- eapply chI_VR; [|eapply chI_lo; [|exact CI']]; clear - HV; lia.
        -- apply chR_app; [eapply Forall_impl; [|exact FN]; cbv beta; intros ? ->; auto|].
           eapply chR_hi; [|exact CR']. clear; lia.
      * destruct E3 as (E3 & E4 & E5). rewrite E5, app_nil_r.
        exists Q, WA, WS, WR. rewrite Ec, E3, E4. split; auto. split; auto. split; [exact Hr'|]. split; auto. split; auto.
        split; [|split; auto].
        -- eapply chI_lo; [|exact CI']; clear - Hm1; lia.
        -- apply chR_app; auto. eapply Forall_impl; [|exact FN]; cbv beta. intros ? ->. congruence.
  - destruct (rx_s_good dx subx P VA VS f n dx' os S G FP Ff ltac:(lia) Hn2 E) as (E2 & E3 & E4 & E5 & E6).
    assert (Ec : d_cfg dx' = d_cfg dx) by (destruct E2 as (? & ? & _ & _ & X & _); auto).
    split; auto. rewrite E5, !app_nil_r.
    pose proof (good_nr _ _ _ _ _ _ _ okn_nr E2) as FN.
    split; [|split].
    + split; [congruence|]. split; [congruence|]. destruct PO. constructor; congruence.
    + eapply (dir_send dx dx' dy cxy cyx subx _ dely P VA VS VR n os); eauto. apply good_okf; auto.
    + exists Q, WA, WS, WR. rewrite Ec, E3, E4. split; auto. split; auto. split; [exact Hr'|]. split; auto. split; auto.
      split; [|split; auto].
      -- eapply chI_lo; [|exact CI']; clear - Hm1; lia.
      -- apply chR_app; auto. eapply Forall_impl; [|exact FN]; cbv beta. intros ? ->. congruence.
Qed.

Lemma both_lose kx ky dx dy cxy cyx subx suby delx dely i :
  Both kx ky dx dy cxy cyx subx suby delx dely -> Both kx ky dx dy (drop_at i cxy) cyx subx suby delx dely.
Proof.
  intros ((K1 & K2 & PO) & (P & VA & VS & VR & S & G & Hr & EV & ER & CI & CR & FW) &
              (Q & WA & WS & WR & T & GT & Hr' & EV' & ER' & CI' & CR' & FW')).
  split; [auto|split].
  - exists P, VA, VS, VR. repeat (split; [auto; fail|]). split; [apply chI_drop; auto|]. split; auto. apply Forall_drop; auto.
  - exists Q, WA, WS, WR. repeat (split; [auto; fail|]). split; [apply chR_drop; auto|]. auto.
Qed.

(* ------------------------------------------------------------------ *)
(* the two data links and the channels                                  *)

Definition benign (l : list Z) : Prop := Forall (fun e => e = MDL_CAUSE_UNSOL_SPRV_RESP) l.
Definition Inv (ka kb : lcfg) (s : lsys) : Prop :=
  Both ka kb (l_a s) (l_b s) (l_ab s) (l_ba s) (l_sub_a s) (l_sub_b s) (l_del_a s) (l_del_b s) /\
  benign (l_err_a s) /\ benign (l_err_b s).
(* one end has given up after a state in which Inv held *)
Definition Gone (ka kb : lcfg) (s : lsys) : Prop :=
  gave_up s = true /\
  exists s0, Inv ka kb s0 /\ l_sub_a s = l_sub_a s0 /\ l_sub_b s = l_sub_b s0 /\ l_del_a s = l_del_a s0 /\ l_del_b s = l_del_b s0 /\
    Forall (fun e => e = MDL_CAUSE_UNSOL_SPRV_RESP \/ e = MDL_CAUSE_T200_EXPIRED) (l_err_a s ++ l_err_b s).

Lemma gave_up_in l : In MDL_CAUSE_T200_EXPIRED l -> existsb (Z.eqb MDL_CAUSE_T200_EXPIRED) l = true.
Proof. intros H. apply existsb_exists. exists MDL_CAUSE_T200_EXPIRED. split; [exact H|reflexivity]. Qed.

Lemma benign_app a b : benign a -> benign b -> benign (a ++ b).
Proof. unfold benign. intros. apply Forall_app. auto. Qed.

Lemma lstep_inv ka kb s e s' : Inv ka kb s -> lstep s e = Some s' -> Inv ka kb s' \/ Gone ka kb s'.
Proof.
  intros (B & Ba & Bb) E. unfold lstep in E. destruct (gave_up s); [discriminate|]. destruct e as [x m|x rsp|x i|x|x].
  - left. injection E as <-. destruct x; cbn [dl_of].
    + destruct (data_req (l_a s) m) as [d' os] eqn:ED. cbn [after].
      assert (X := fun P VA VS S G => data_req_good (l_a s) (l_sub_a s) P VA VS m d' os S G ED).
      destruct (proj1 (proj2 B)) as (P & VA & VS & VR & S & G & _).
      destruct (X P VA VS S G) as (_ & _ & XD & XE). rewrite XD, XE, !app_nil_r.
      split; [|split; auto]. cbn [l_a l_b l_ab l_ba l_sub_a l_sub_b l_del_a l_del_b].
      eapply both_local; eauto. intros P1 VA1 VS1 S1 G1. destruct (X P1 VA1 VS1 S1 G1) as (X1 & X2 & _).
      split; [apply good_okf; auto|]. split; apply X2.
    + destruct (data_req (l_b s) m) as [d' os] eqn:ED. cbn [after]. apply Both_sym in B.
      assert (X := fun P VA VS S G => data_req_good (l_b s) (l_sub_b s) P VA VS m d' os S G ED).
      destruct (proj1 (proj2 B)) as (P & VA & VS & VR & S & G & _).
      destruct (X P VA VS S G) as (_ & _ & XD & XE). rewrite XD, XE, !app_nil_r.
      split; [|split; auto]. cbn [l_a l_b l_ab l_ba l_sub_a l_sub_b l_del_a l_del_b]. apply Both_sym.
      eapply both_local; eauto. intros P1 VA1 VS1 S1 G1. destruct (X P1 VA1 VS1 S1 G1) as (X1 & X2 & _).
      split; [apply good_okf; auto|]. split; apply X2.
  - left. destruct x; cbn [dl_of chan_to] in E.
    + destruct (l_ba s) as [|f c] eqn:Ec; [discriminate|]. injection E as <-.
      destruct (ph_data_ind (l_a s) f rsp) as [d' os] eqn:EP.
      destruct (both_arrive _ _ _ _ _ _ _ _ _ _ _ _ _ _ B EP) as [X1 X2].
      cbn [after set_chan_to snd]. split; [exact X1|]. cbn [l_err_a l_err_b]. split; auto. apply benign_app; auto.
    + destruct (l_ab s) as [|f c] eqn:Ec; [discriminate|]. injection E as <-. apply Both_sym in B.
      destruct (ph_data_ind (l_b s) f rsp) as [d' os] eqn:EP.
      destruct (both_arrive _ _ _ _ _ _ _ _ _ _ _ _ _ _ B EP) as [X1 X2].
      cbn [after set_chan_to snd]. split; [apply Both_sym; exact X1|]. cbn [l_err_a l_err_b]. split; auto. apply benign_app; auto.
  - left. destruct (Nat.ltb i (length (chan_to s x))); [|discriminate]. injection E as <-.
    destruct x; cbn [set_chan_to chan_to]; (split; [|auto]); cbn [l_a l_b l_ab l_ba l_sub_a l_sub_b l_del_a l_del_b].
    + apply Both_sym, both_lose, Both_sym. auto.
    + apply both_lose. auto.
  - destruct (d_t200 (dl_of s x)); [|discriminate]. injection E as <-. destruct x; cbn [dl_of].
    + destruct (t200_cb (l_a s)) as [d' os] eqn:ED. cbn [after].
      assert (X := fun P VA VS S G => t200_good (l_a s) (l_sub_a s) P VA VS d' os S G ED).
      destruct (proj1 (proj2 B)) as (P & VA & VS & VR & S & G & _).
      destruct (X P VA VS S G) as (XD & [XE|(XE & _)]); rewrite XD, XE, !app_nil_r.
      * right. split.
        { unfold gave_up. cbn [l_err_a l_err_b]. apply gave_up_in. rewrite !in_app_iff. left. right. left. auto. }
        exists s. split; [split; auto|]. repeat (split; [reflexivity|]). cbn [l_err_a l_err_b].
        rewrite !Forall_app. split; [split|]; [| |].
        -- eapply Forall_impl; [|exact Ba]. cbv beta. auto.
        -- constructor; auto.
        -- eapply Forall_impl; [|exact Bb]. cbv beta. auto.
      * left. split; [|split; auto]. cbn [l_a l_b l_ab l_ba l_sub_a l_sub_b l_del_a l_del_b].
        eapply both_local; eauto. intros P1 VA1 VS1 S1 G1.
        destruct (X P1 VA1 VS1 S1 G1) as (_ & [X1|(_ & X1)]); [rewrite XE in X1; discriminate|exact X1].
    + destruct (t200_cb (l_b s)) as [d' os] eqn:ED. cbn [after].
      assert (X := fun P VA VS S G => t200_good (l_b s) (l_sub_b s) P VA VS d' os S G ED).
      destruct (proj2 (proj2 B)) as (P & VA & VS & VR & S & G & _).
      destruct (X P VA VS S G) as (XD & [XE|(XE & _)]); rewrite XD, XE, !app_nil_r.
      * right. split.
        { unfold gave_up. cbn [l_err_a l_err_b]. apply gave_up_in. rewrite !in_app_iff. right. right. left. auto. }
        exists s. split; [split; auto|]. repeat (split; [reflexivity|]). cbn [l_err_a l_err_b].
        rewrite !Forall_app. split; [|split]; [| |].
        -- eapply Forall_impl; [|exact Ba]. cbv beta. auto.
        -- eapply Forall_impl; [|exact Bb]. cbv beta. auto.
        -- constructor; auto.
      * left. split; [|split; auto]. cbn [l_a l_b l_ab l_ba l_sub_a l_sub_b l_del_a l_del_b]. apply Both_sym. apply Both_sym in B.
        eapply both_local; eauto. intros P1 VA1 VS1 S1 G1.
        destruct (X P1 VA1 VS1 S1 G1) as (_ & [X1|(_ & X1)]); [rewrite XE in X1; discriminate|exact X1].
  - left. destruct (d_t203 (dl_of s x)); [|discriminate]. injection E as <-. destruct x; cbn [dl_of].
    + destruct (t203_cb (l_a s)) as [d' os] eqn:ED. cbn [after].
      assert (X := fun P VA VS S G => t203_good (l_a s) (l_sub_a s) P VA VS d' os S G ED).
      destruct (proj1 (proj2 B)) as (P & VA & VS & VR & S & G & _).
      destruct (X P VA VS S G) as (XD & XE & _); rewrite XD, XE, !app_nil_r.
      split; [|split; auto]. cbn [l_a l_b l_ab l_ba l_sub_a l_sub_b l_del_a l_del_b].
      eapply both_local; eauto. intros P1 VA1 VS1 S1 G1.
      destruct (X P1 VA1 VS1 S1 G1) as (_ & _ & X1); exact X1.
    + destruct (t203_cb (l_b s)) as [d' os] eqn:ED. cbn [after].
      assert (X := fun P VA VS S G => t203_good (l_b s) (l_sub_b s) P VA VS d' os S G ED).
      destruct (proj2 (proj2 B)) as (P & VA & VS & VR & S & G & _).
      destruct (X P VA VS S G) as (XD & XE & _); rewrite XD, XE, !app_nil_r.
      split; [|split; auto]. cbn [l_a l_b l_ab l_ba l_sub_a l_sub_b l_del_a l_del_b]. apply Both_sym. apply Both_sym in B.
      eapply both_local; eauto. intros P1 VA1 VS1 S1 G1.
      destruct (X P1 VA1 VS1 S1 G1) as (_ & _ & X1); exact X1.
Qed.

Lemma lrun_inv ka kb es : forall s s', Inv ka kb s -> lrun s es = Some s' -> Inv ka kb s' \/ Gone ka kb s'.
Proof.
  induction es; intros s s' H E; cbn [lrun] in E.
  - injection E as <-. auto.
  - destruct (lstep s a) as [s1|] eqn:E1; [|discriminate].
    destruct (lstep_inv _ _ _ _ _ H E1) as [H1|(H1 & H2)]; eauto.
    destruct es; cbn [lrun] in E.
    + injection E as <-. right. split; auto.
    + unfold lstep in E. rewrite H1 in E. discriminate.
Qed.

(* ------------------------------------------------------------------ *)
(* what follows from the invariant                                      *)

Lemma dir_prefix dx dy cxy cyx sub del : Dir dx dy cxy cyx sub del ->
  Forall (fun m => 0 < zlen m <= c_maxf (d_cfg dy)) sub -> exists e, sub = del ++ e.
Proof.
  intros (P & VA & VS & VR & S & G & Hr & EV & ER & _) F.
  pose proof (ok_n201 _ (sn_ok _ _ _ _ _ S)) as H0.
  destruct (reasm_prefix _ (c_n201 (d_cfg dx)) sub (firstn (Z.to_nat VR) P) (skipn (Z.to_nat VR) P ++ rest dx) H0 F) as (e & E).
  { rewrite app_assoc, firstn_skipn. apply S. }
  rewrite ER in E. eauto.
Qed.

Lemma dir_complete dx dy cxy cyx sub del : Dir dx dy cxy cyx sub del ->
  Forall (fun m => 0 < zlen m <= c_maxf (d_cfg dy)) sub ->
  d_st dx = L_MF_EST -> d_va dx = d_vs dx -> d_squeue dx = [] ->
  (match d_sbuf dx with Some m => d_sout dx = zlen m | None => True end) -> del = sub.
Proof.
  intros (P & VA & VS & VR & S & G & Hr & EV & ER & _) F St Ea Eq Eb.
  pose proof (ok_n201 _ (sn_ok _ _ _ _ _ S)) as H0.
  destruct G as [(_ & G & _)|(G & _)]; [|congruence]. subst VS.
  rewrite (sn_va _ _ _ _ _ S), (sn_vs _ _ _ _ _ S) in Ea.
  pose proof (M_bound _ (sn_ok _ _ _ _ _ S)). pose proof (k_lt_M _ (sn_ok _ _ _ _ _ S)).
  pose proof (sn_rng _ _ _ _ _ S). pose proof (sn_win _ _ _ _ _ S).
  assert (VA = zlen P) by (apply (mod_inj (c_vrange (d_cfg dx))); auto; lia).
  assert (EP : firstn (Z.to_nat VR) P = P).
  { apply firstn_all2. unfold zlen in *. lia. }
  rewrite EP in ER. pose proof (sn_sub _ _ _ _ _ S) as ES.
  assert (R0 : rest dx = []).
  { unfold rest. rewrite Eq. destruct (d_sbuf dx) as [m|]; [|reflexivity].
    rewrite Eb. unfold zlen. rewrite Nat2Z.id, skipn_all. reflexivity. }
  rewrite R0, app_nil_r in ES. rewrite <- ES, (reasm_all _ _ H0) in ER by auto. cbn [app] in ER. congruence.
Qed.

Lemma dir_window dx dy cxy cyx sub del : Dir dx dy cxy cyx sub del ->
  (d_st dx = L_MF_EST /\ 0 <= (d_vs dx - d_va dx) mod c_vrange (d_cfg dx) <= c_k (d_cfg dx) /\
     (d_vs dx <> d_va dx -> d_t200 dx = true)) \/
  (d_st dx = L_TIMER_RECOV /\ d_t200 dx = true).
Proof.
  intros (P & VA & VS & VR & S & G & Hr & EV & ER & _).
  pose proof (M_bound _ (sn_ok _ _ _ _ _ S)). pose proof (k_lt_M _ (sn_ok _ _ _ _ _ S)).
  pose proof (sn_rng _ _ _ _ _ S). pose proof (sn_win _ _ _ _ _ S).
  rewrite (sn_va _ _ _ _ _ S), (sn_vs _ _ _ _ _ S).
  destruct G as [(G1 & G2 & G3)|(G1 & G2 & G3)]; auto. left. split; auto. subst VS.
  rewrite <- Zminus_mod, Z.mod_small by lia. split; [lia|]. intros N. apply G3.
  destruct (Z.eq_dec VA (zlen P)); [|lia]. subst VA. congruence.
Qed.

(* ------------------------------------------------------------------ *)
(* establishment                                                       *)

Definition cfg_okb (k j : Z) : bool :=
  let R := init_rhist k (2 ^ j) in
  existsb (fun i => R =? 2 ^ i) (zseq 0 8) && (2 ^ j mod R =? 0) && (0 <=? init_k k (2 ^ j)) && (init_k k (2 ^ j) <? R).

Lemma cfg_all : forallb (fun j => forallb (fun k => cfg_okb k j) (zseq 0 256)) (zseq 1 7) = true.
Proof. vm_compute. reflexivity. Qed.

Definition vr_ok (M : Z) : Prop := exists j, 1 <= j <= 7 /\ M = 2 ^ j.

Lemma init_cok k M maxf net drop2 sabme reest n200 n200e t203 n201 :
  0 <= k <= 255 -> vr_ok M -> 0 < n201 ->
  cok (d_cfg (lapd_dl_init2 k M maxf net drop2 sabme reest n200 n200e t203 n201)).
Proof.
  intros Hk (j & Hj & ->) Hn. pose proof (forall_zseq _ _ _ cfg_all j ltac:(lia)) as X. cbv beta in X.
  pose proof (forall_zseq _ _ _ X k ltac:(lia)) as Y. clear X. cbv beta in Y. unfold cfg_okb in Y. cbv zeta in Y.
  rewrite !andb_true_iff in Y. destruct Y as [[[Y1 Y2] Y3] Y4].
  apply existsb_exists in Y1. destruct Y1 as (i & Hi & Ei). apply zseq_In in Hi.
  constructor; cbn [lapd_dl_init2 d_cfg c_vrange c_rhist c_k c_n201]; auto.
  - eauto.
  - exists i. split; [lia|]. lia.
  - apply Z.mod_divide; [|lia]. apply Z.eqb_eq in Ei. rewrite Ei. pose proof (Z.pow_pos_nonneg 2 i). lia.
  - lia.
Qed.

Lemma bytes_eqb_refl l : bytes_eqb l l = true.
Proof. induction l; cbn [bytes_eqb]; auto. rewrite Z.eqb_refl, IHl. auto. Qed.

Lemma Snd_fresh d : cok (d_cfg d) -> d_va d = 0 -> d_vs d = 0 -> (forall h, d_hist d h = None) -> d_squeue d = [] ->
  d_sbuf d = None -> d_peer_busy d = false -> d_own_busy d = false -> Snd d [] [] 0 0.
Proof.
  intros K Ea Es Eh Eq Eb Ep Eo. pose proof (M_bound _ K). constructor; auto.
  - unfold zlen; cbn; lia.
  - pose proof (ok_k _ K). unfold zlen; cbn; lia.
  - intros n Hn. unfold zlen in Hn; cbn in Hn; lia.
  - unfold rest. rewrite Eq, Eb. reflexivity.
  - rewrite Eb. auto.
Qed.

Lemma Dir_fresh dx dy : cok (d_cfg dx) -> d_va dx = 0 -> d_vs dx = 0 -> (forall h, d_hist dx h = None) -> d_squeue dx = [] ->
  d_sbuf dx = None -> d_peer_busy dx = false -> d_own_busy dx = false -> d_st dx = L_MF_EST ->
  d_vr dy = 0 -> d_rbuf dy = None -> Dir dx dy [] [] [] [].
Proof.
  intros K Ea Es Eh Eq Eb Ep Eo St Er Eb'. pose proof (M_bound _ K).
  exists [], 0, 0, 0. split; [apply Snd_fresh; auto|]. split; [left; split; auto; split; auto; unfold zlen; cbn; lia|].
  split; [unfold zlen; cbn; lia|]. split; [rewrite Er; symmetry; apply Z.mod_0_l; lia|].
  split; [rewrite Eb'; reflexivity|]. split; [unfold zlen; cbn; lia|]. split; [cbn; lia|constructor].
Qed.

(* the two ends as lapd_dl_init2 leaves them, and the establishment requested at A *)
Definition sys0 (a b : ldl) : lsys := mkSys a b [] [] [] [] [] [] [] [].

Lemma newstate_est_some d : exists t c, newstate d L_MF_EST = set_st (set_t203 (set_cont d c) t) L_MF_EST.
Proof.
  unfold newstate. cbn [st_eqb negb andb].
  destruct (c_t203 (d_cfg d) && true && negb (st_eqb (d_st d) L_MF_EST)).
  - exists true, (d_cont d). destruct d; reflexivity.
  - exists (d_t203 d), (d_cont d). destruct d; reflexivity.
Qed.

Definition fresh (c : lcfg) : ldl := mkDl c 0 0 0 L_IDLE 0 false false false false 0 [] None 0 (fun _ => None) None None.

Definition wait_ua (c : lcfg) (data : list Z) : ldl :=
  mkDl c 0 0 0 L_SABM_SENT 0 false false true false 0 [] None 0 (hupd (fun _ => None) 0 (Some (data, false))) None None.
Lemma est_req_fresh c data : fst (est_req (fresh c) data) = wait_ua c data.
Proof.
  unfold est_req, newstate. cbn [fst]. cbn [st_eqb negb andb fresh flush_hist flush_send set_send set_hist set_rbuf set_vs set_busy set_retr d_st d_cfg].
  rewrite andb_false_r. reflexivity.
Qed.

(* a data link just established, with nothing to send *)
Definition estd (d : ldl) : Prop :=
  d_vs d = 0 /\ d_va d = 0 /\ d_vr d = 0 /\ d_t200 d = false /\ d_seq_err d = 0 /\ d_squeue d = [] /\ d_sbuf d = None /\
  d_st d = L_MF_EST.
Lemma send_i_idle d : d_squeue d = [] -> d_sbuf d = None -> d_sout d = 0 -> (forall h, d_hist d h = None) ->
  lapd_send_i d = (d, -1, []).
Proof.
  intros A B C H. unfold lapd_send_i. destruct (send_i_rounds d); cbn [send_i_loop]; auto.
  destruct (d_peer_busy d); auto. destruct (st_eqb _ _); auto. destruct (_ =? _); auto. rewrite H.
  unfold load_msg. rewrite B, A. cbn [get_msg]. destruct d; cbn in *; subst; reflexivity.
Qed.

Lemma establish ca cb data : cok ca -> cok cb -> c_net cb = negb (c_net ca) -> c_vrange cb = c_vrange ca ->
  c_n201 cb = c_n201 ca -> zlen data <= c_n201 ca ->
  exists s, lrun (after (sys0 (fresh ca) (fresh cb)) SideA (est_req (fresh ca) data) []) [EArrive SideB []; EArrive SideA []] = Some s /\
    Inv ca cb s /\ d_st (l_a s) = L_MF_EST /\ d_st (l_b s) = L_MF_EST /\ l_sub_a s = [] /\ l_sub_b s = [] /\
    l_del_a s = [] /\ l_del_b s = [] /\ estd (l_a s) /\ estd (l_b s) /\ l_ab s = [] /\ l_ba s = [] /\
    l_err_a s = [] /\ l_err_b s = [] /\
    exists f a1 g,
      est_req (fresh ca) data = (a1, [OFrame f]) /\
      ph_data_ind (fresh cb) f [] = (l_b s, [OFrame g; OEstInd data]) /\
      ph_data_ind a1 g [] = (l_a s, [OEstConf]).
Proof.
  intros Ka Kb En Em E2 Hd.
  set (s0 := after (sys0 (fresh ca) (fresh cb)) SideA (est_req (fresh ca) data) []).
  set (f := mkFrame (if c_net ca then 1 else 0) FmtU (if c_sabme ca then LAPD_U_SABME else LAPD_U_SABM) true 0 0 false data).
  assert (X0 : l_ab s0 = [f] /\ l_ba s0 = [] /\ l_b s0 = fresh cb /\ gave_up s0 = false /\ l_sub_a s0 = [] /\ l_sub_b s0 = []
    /\ l_del_a s0 = [] /\ l_del_b s0 = [] /\ l_err_a s0 = [] /\ l_err_b s0 = []) by (repeat split; reflexivity).
  destruct X0 as (X1 & X2 & X3 & X4 & X5 & X6 & X7 & X8 & X9 & X10).
  (* B *)
  set (b0 := set_va (set_vr (set_vs (set_seq (fresh cb) 0) 0) 0) 0).
  destruct (newstate_est_some (flush_hist b0)) as (t & c & EN).
  assert (Lf : (zlen data >? c_n201 cb) = false) by (destruct (Z.gtb_spec (zlen data) (c_n201 cb)); auto; lia).
  set (ua := mkFrame (if c_net cb then 0 else 1) FmtU LAPD_U_UA true 0 0 false data).
  assert (EB : exists c', ph_data_ind (fresh cb) f [] =
     (set_st (set_t203 (set_cont (flush_hist b0) c') t) L_MF_EST, [OFrame ua; OEstInd data])).
  { unfold ph_data_ind. cbn [f f_fmt f_su].
    assert (ES : ((if c_sabme ca then LAPD_U_SABME else LAPD_U_SABM) =? LAPD_U_SABM)
       || ((if c_sabme ca then LAPD_U_SABME else LAPD_U_SABM) =? LAPD_U_SABME) = true) by (destruct (c_sabme ca); reflexivity).
    rewrite ES. unfold rx_u_sabm. cbn [f_data f_more f_cr f f_pf].
    assert (ER : ((if c_net ca then 1 else 0) =? rem_resp (set_seq (fresh cb) 0)) = false).
    { unfold rem_resp. cbn [set_seq fresh d_cfg]. rewrite En. destruct (c_net ca); reflexivity. }
    rewrite ER. cbn [orb]. change (c_n201 (d_cfg (set_seq (fresh cb) 0))) with (c_n201 cb). rewrite Lf.
    change (d_st (set_seq (fresh cb) 0)) with L_IDLE. cbv iota. fold b0. rewrite EN.
    destruct (c_net _ && negb (zlen data =? 0)).
    - exists (Some data). reflexivity.
    - exists c. reflexivity. }
  destruct EB as (c' & EB).
  set (b1 := set_st (set_t203 (set_cont (flush_hist b0) c') t) L_MF_EST) in *.
  (* A *)
  set (a0 := wait_ua ca data).
  assert (EA0 : l_a s0 = a0).
  { unfold s0, a0. rewrite <- est_req_fresh. destruct (est_req (fresh ca) data); reflexivity. }
  set (a1 := set_va (set_vr (set_vs (stop_t200 a0) 0) 0) 0).
  destruct (newstate_est_some (flush_hist a1)) as (ta & tc & EN').
  set (a2 := set_st (set_t203 (set_cont (flush_hist a1) tc) ta) L_MF_EST) in *.
  assert (EA : ph_data_ind a0 ua [] = (let '(d, _, os) := lapd_send_i a2 in (d, os ++ [OEstConf]))).
  { unfold ph_data_ind. cbn [ua f_fmt f_su]. change ((LAPD_U_UA =? LAPD_U_SABM) || (LAPD_U_UA =? LAPD_U_SABME)) with false.
    change (LAPD_U_UA =? LAPD_U_UA) with true. cbv iota. unfold rx_u_ua. cbn [f_data f_more f_cr ua f_pf].
    assert (ER : ((if c_net cb then 0 else 1) =? rem_cmd a0) = false).
    { change (rem_cmd a0) with (if c_net ca then 0 else 1). rewrite En. destruct (c_net ca); reflexivity. }
    rewrite ER. cbn [orb negb]. change (c_n201 (d_cfg a0)) with (c_n201 ca).
    assert (La : (zlen data >? c_n201 ca) = false) by (destruct (Z.gtb_spec (zlen data) (c_n201 ca)); auto; lia).
    rewrite La. change (d_st a0) with L_SABM_SENT. cbv iota.
    change (d_hist (stop_t200 a0) 0) with (Some (data, false)). cbv iota. rewrite bytes_eqb_refl, andb_false_r.
    fold a1. rewrite EN'. reflexivity. }
  assert (BB : Both ca cb a2 b1 [] [] [] [] [] []).
  { split; [split; auto; split; auto; constructor; auto|]. split; apply Dir_fresh; auto. }
  destruct (lapd_send_i a2) as [[a3 rc] os] eqn:ES.
  assert (G : forall P VA VS, Snd a2 [] P VA VS -> settled a2 P VA VS ->
     (good okf a2 a3 os [] P VA /\ d_vr a3 = d_vr a2 /\ d_rbuf a3 = d_rbuf a2) /\ datas_of os = [] /\ errs_of os = []
     /\ d_cfg a3 = d_cfg a2 /\ d_st a3 = d_st a2).
  { intros P VA VS Sn G. pose proof (sn_rng _ _ _ _ _ Sn) as RG.
    destruct (send_i_any a2 _ _ VA VS Sn (settled_any _ _ _ _ G ltac:(lia)))
      as (d4 & rc4 & o4 & P4 & VS4 & E4 & S4 & G4 & SM4 & F4 & D4 & R4).
    rewrite ES in E4. injection E4 as <- <- <-. split; [|split; auto; split; auto; split; apply SM4]. split; [|split; apply SM4].
    apply good_okf. exists P4, VS4. split; auto. split; auto. split; [apply SM4|].
    rewrite (sm_vr _ _ SM4). auto. }
  pose proof BB as (_ & (P & VA & VS & VR & Sn & Gn & _) & _).
  destruct (G P VA VS Sn Gn) as (_ & G1 & G2 & G3 & G4).
  pose proof (both_local ca cb a2 a3 b1 [] [] [] [] [] [] [] os BB (fun P VA VS S G' => proj1 (G P VA VS S G'))) as BF.
  cbn [lrun]. unfold lstep at 1. rewrite X4. cbn [chan_to]. rewrite X1. cbn [dl_of]. rewrite X3, EB. cbn [snd datas_of map concat app].
  cbn [set_chan_to after frames_of errs_of datas_of map concat app]. rewrite X2, X5, X6, X7, X8, X9, X10. cbn [app].
  unfold lstep. cbn [gave_up l_err_a l_err_b app existsb chan_to l_ba dl_of l_a]. rewrite EA0, EA.
  cbn [set_chan_to after l_a l_b l_ab l_ba l_sub_a l_sub_b l_del_a l_del_b l_err_a l_err_b snd].
  assert (Y1 : frames_of (os ++ [OEstConf]) = frames_of os) by (rewrite frames_app; apply app_nil_r).
  assert (Y2 : datas_of (os ++ [OEstConf]) = []) by (rewrite datas_app, G1; auto).
  assert (Y3 : errs_of (os ++ [OEstConf]) = []) by (rewrite errs_app, G2; auto).
  rewrite Y1, Y2, Y3. cbn [app]. eexists. split; [reflexivity|]. cbn [l_a l_b l_sub_a l_sub_b].
  split; [split; [exact BF|split; constructor]|]. split; [auto|]. split; [auto|]. do 4 (split; [auto|]).
  rewrite send_i_idle in ES by (intros; reflexivity). injection ES as <- <- <-.
  split; [repeat split; reflexivity|]. split; [repeat split; reflexivity|]. do 4 (split; [reflexivity|]).
  exists f, a0, ua. split; [|split; [exact EB|exact EA]].
  rewrite (surjective_pairing (est_req (fresh ca) data)), est_req_fresh. reflexivity.
Qed.
