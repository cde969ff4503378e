(* C58: the LAPD data link layer (src/isdn/lapd_core.c) *)
From Coq Require Import ZArith List Lia Bool.
From Verif Require Import Base S_lapd M_lapd P_lapd P_lapd2 P_lapd3.
Import ListNotations.
Local Open Scope Z_scope.
Ltac Zify.zify_post_hook ::= idtac.

(* how one end is configured: window size, range of the sequence numbers, longest reassembled message, network
   side, LAPD_F_DROP_2ND_REJ, use_sabme, reestablish, N200, N200 for establishment, T203 in use, N201 *)
Record par := mkPar {
  p_k : Z; p_range : Z; p_maxf : Z; p_net : bool; p_drop2 : bool; p_sabme : bool; p_reest : bool;
  p_n200 : Z; p_n200_est : Z; p_t203 : bool; p_n201 : Z }.

Definition dl_init (p : par) : ldl :=
  lapd_dl_init2 (p_k p) (p_range p) (p_maxf p) (p_net p) (p_drop2 p) (p_sabme p) (p_reest p)
    (p_n200 p) (p_n200_est p) (p_t203 p) (p_n201 p).

(* the two ends fit together: k is an octet, the range a power of two up to 128 and the same on both sides, as is
   N201; one is the network side, the other the user side *)
Definition fitting (pa pb : par) : Prop :=
  0 <= p_k pa <= 255 /\ 0 <= p_k pb <= 255 /\ In (p_range pa) [2; 4; 8; 16; 32; 64; 128] /\
  p_range pb = p_range pa /\ 0 < p_n201 pa /\ p_n201 pb = p_n201 pa /\ p_net pb = negb (p_net pa).

(* two ends just initialised; layer 3 at A requests the establishment with the information data; the SABM(E)
   arrives at B, the UA arrives at A; then the events es happen *)
Definition run (pa pb : par) (data : list Z) (es : list lev) : option lsys :=
  lrun (after (sys0 (dl_init pa) (dl_init pb)) SideA (est_req (dl_init pa) data) [])
       (EArrive SideB [] :: EArrive SideA [] :: es).

(* ------------------------------------------------------------------ *)

Lemma range_ok x : In x [2; 4; 8; 16; 32; 64; 128] -> vr_ok x.
Proof.
  cbn [In]. intros H. unfold vr_ok.
  destruct H as [<-|[<-|[<-|[<-|[<-|[<-|[<-|[]]]]]]]];
    [exists 1|exists 2|exists 3|exists 4|exists 5|exists 6|exists 7]; split; try lia; reflexivity.
Qed.

Lemma run_start pa pb data es : fitting pa pb -> zlen data <= p_n201 pa ->
  exists s0, run pa pb data es = lrun s0 es /\ run pa pb data [] = Some s0 /\
    Inv (d_cfg (dl_init pa)) (d_cfg (dl_init pb)) s0 /\
    d_st (l_a s0) = L_MF_EST /\ d_st (l_b s0) = L_MF_EST /\ l_sub_a s0 = [] /\ l_sub_b s0 = [] /\
    l_del_a s0 = [] /\ l_del_b s0 = [] /\ InvL (d_cfg (dl_init pa)) (d_cfg (dl_init pb)) s0 /\
    exists f a1 g,
      est_req (dl_init pa) data = (a1, [OFrame f]) /\
      ph_data_ind (dl_init pb) f [] = (l_b s0, [OFrame g; OEstInd data]) /\
      ph_data_ind a1 g [] = (l_a s0, [OEstConf]).
Proof.
  intros (H1 & H2 & H3 & H4 & H5 & H6 & H7) HD. apply range_ok in H3.
  pose proof (init_cok (p_k pa) (p_range pa) (p_maxf pa) (p_net pa) (p_drop2 pa) (p_sabme pa) (p_reest pa)
    (p_n200 pa) (p_n200_est pa) (p_t203 pa) (p_n201 pa) H1 H3 H5) as Ka.
  rewrite <- H4 in H3. rewrite <- H6 in H5.
  pose proof (init_cok (p_k pb) (p_range pb) (p_maxf pb) (p_net pb) (p_drop2 pb) (p_sabme pb) (p_reest pb)
    (p_n200 pb) (p_n200_est pb) (p_t203 pb) (p_n201 pb) H2 H3 H5) as Kb.
  destruct (establish _ _ data Ka Kb H7 H4 H6 HD) as (s & E & I & R).
  exists s. assert (X : forall es, run pa pb data es = lrun s es).
  { intros es0. unfold run. change (dl_init pa) with (fresh (d_cfg (dl_init pa))). change (dl_init pb) with (fresh (d_cfg (dl_init pb))).
    fold (dl_init pa) (dl_init pb) in E.
    clear - E. cbn [lrun] in E |- *.
    destruct (lstep _ (EArrive SideB [])) as [s1|]; [|discriminate].
    destruct (lstep s1 (EArrive SideA [])) as [s2|]; [|discriminate]. injection E as ->. reflexivity. }
  split; [apply X|]. split; [apply X|]. split; [exact I|].
  destruct R as (R1 & R2 & R3 & R4 & R5 & R6 & R7 & R8 & R9 & R10 & R11 & R12 & R13).
  do 6 (split; [assumption|]). split; [apply start_ll; auto|exact R13].
Qed.

Definition nonempty (s : lsys) : Prop := Forall (fun m => 0 < zlen m) (l_sub_a s ++ l_sub_b s).
Lemma accepted_pos ms : Forall (fun m : list Z => 0 < zlen m) (accepted ms).
Proof.
  unfold accepted. rewrite Forall_forall. intros x Hx. apply filter_In in Hx. destruct Hx as [_ Hx].
  pose proof (zlen_nonneg x). destruct (Z.eqb_spec (zlen x) 0); [discriminate|lia].
Qed.
Lemma after_sub s x r l : nonempty s -> Forall (fun m => 0 < zlen m) l -> nonempty (after s x r l).
Proof.
  unfold nonempty, after. destruct r as [d os]. rewrite !Forall_app. intros [A B] C.
  destruct x; cbn [l_sub_a l_sub_b]; rewrite ?Forall_app; auto.
Qed.
Lemma lstep_nonempty s e s' : nonempty s -> lstep s e = Some s' -> nonempty s'.
Proof.
  intros H E. unfold lstep in E. destruct (gave_up s); [discriminate|]. destruct e as [x m|x rsp|x i|x|x].
  - injection E as <-. apply after_sub; auto. exact (accepted_pos [m]).
  - destruct (chan_to s x) as [|f c]; [discriminate|]. injection E as <-. apply after_sub.
    + destruct x; exact H.
    + destruct (datas_of _); [constructor|apply accepted_pos].
  - destruct (Nat.ltb _ _); [|discriminate]. injection E as <-. destruct x; exact H.
  - destruct (d_t200 _); [|discriminate]. injection E as <-. apply after_sub; auto.
  - destruct (d_t203 _); [|discriminate]. injection E as <-. apply after_sub; auto.
Qed.
Lemma lrun_nonempty es : forall s s', nonempty s -> lrun s es = Some s' -> nonempty s'.
Proof.
  induction es; intros s s' H E; cbn [lrun] in E.
  - injection E as <-. auto.
  - destruct (lstep s a) as [s1|] eqn:E1; [|discriminate]. exact (IHes s1 s' (lstep_nonempty _ _ _ H E1) E).
Qed.

Lemma run_inv pa pb data es s : fitting pa pb -> zlen data <= p_n201 pa -> run pa pb data es = Some s ->
  (Inv (d_cfg (dl_init pa)) (d_cfg (dl_init pb)) s \/ Gone (d_cfg (dl_init pa)) (d_cfg (dl_init pb)) s) /\ nonempty s.
Proof.
  intros F HD E. destruct (run_start pa pb data es F HD) as (s0 & E0 & _ & I & _ & _ & Ha & Hb & _).
  rewrite E0 in E. split; [eapply lrun_inv; eauto|]. eapply lrun_nonempty; [|exact E].
  unfold nonempty. rewrite Ha, Hb. constructor.
Qed.

(* ------------------------------------------------------------------ *)
(* a small configuration to show concrete runs *)
Definition ex_a : par := mkPar 2 8 260 true false false true 3 3 true 4.
Definition ex_b : par := mkPar 2 8 260 false false false true 3 3 true 4.

(* C58: layer 3 at both ends hands over non-empty messages that the other end can reassemble, at any time and
   also from within the delivery of a message.  Frames may be lost on the way in any pattern, timers may expire
   at any time.  Then at each end the messages delivered are an initial part of those handed over at the other -
   in order, complete, unchanged, none twice - whether or not one end gives up in the end. *)
Theorem C58_in_order : forall pa pb data es s,
  fitting pa pb -> zlen data <= p_n201 pa -> run pa pb data es = Some s ->
  Forall (fun m => zlen m <= p_maxf pb) (l_sub_a s) ->
  Forall (fun m => zlen m <= p_maxf pa) (l_sub_b s) ->
  is_prefix (l_del_b s) (l_sub_a s) /\ is_prefix (l_del_a s) (l_sub_b s).
Proof.
  intros pa pb data es s F HD E Ma Mb. destruct (run_inv _ _ _ _ _ F HD E) as [X NE].
  unfold nonempty in NE. apply Forall_app in NE. destruct NE as [Na Nb].
  assert (Y : exists s0, Inv (d_cfg (dl_init pa)) (d_cfg (dl_init pb)) s0 /\ l_sub_a s = l_sub_a s0 /\
     l_sub_b s = l_sub_b s0 /\ l_del_a s = l_del_a s0 /\ l_del_b s = l_del_b s0).
  { destruct X as [X|(_ & s0 & X1 & X2 & X3 & X4 & X5 & _)]; [exists s|exists s0]; auto. }
  destruct Y as (s0 & (((K1 & K2 & _) & D1 & D2) & _) & E1 & E2 & E3 & E4). rewrite E1, E2, E3, E4 in *.
  assert (Z1 : forall l M, Forall (fun m : list Z => 0 < zlen m) l -> Forall (fun m => zlen m <= M) l ->
     Forall (fun m => 0 < zlen m <= M) l).
  { intros l M A B. rewrite Forall_forall in *. auto. }
  split.
  - apply (dir_prefix _ _ _ _ _ _ D1). rewrite K2. apply Z1; auto.
  - apply (dir_prefix _ _ _ _ _ _ D2). rewrite K1. apply Z1; auto.
Qed.
Print Assumptions C58_in_order.

(* C58: when an end is in the multiple frame state with nothing left to send and everything acknowledged, then
   the other end has been given all of it. *)
Theorem C58_acknowledged : forall pa pb data es s,
  fitting pa pb -> zlen data <= p_n201 pa -> run pa pb data es = Some s -> gave_up s = false ->
  Forall (fun m => zlen m <= p_maxf pb) (l_sub_a s) ->
  Forall (fun m => zlen m <= p_maxf pa) (l_sub_b s) ->
  let idle d := d_st d = L_MF_EST /\ d_va d = d_vs d /\ d_squeue d = [] /\
                match d_sbuf d with Some m => d_sout d = zlen m | None => True end in
  (idle (l_a s) -> l_del_b s = l_sub_a s) /\ (idle (l_b s) -> l_del_a s = l_sub_b s).
Proof.
  intros pa pb data es s F HD E GU Ma Mb idle. destruct (run_inv _ _ _ _ _ F HD E) as [X NE].
  unfold nonempty in NE. apply Forall_app in NE. destruct NE as [Na Nb].
  destruct X as [(((K1 & K2 & _) & D1 & D2) & _)|(X & _)]; [|congruence].
  assert (Z1 : forall l M, Forall (fun m : list Z => 0 < zlen m) l -> Forall (fun m => zlen m <= M) l ->
     Forall (fun m => 0 < zlen m <= M) l).
  { intros l M A B. rewrite Forall_forall in *. auto. }
  split; intros (I1 & I2 & I3 & I4).
  - apply (dir_complete _ _ _ _ _ _ D1); auto. rewrite K2. apply Z1; auto.
  - apply (dir_complete _ _ _ _ _ _ D2); auto. rewrite K1. apply Z1; auto.
Qed.
Print Assumptions C58_acknowledged.

(* C58: while neither end has given up, each end has at most k unacknowledged frames, and T200 runs as long as
   there is one (and all the time in timer recovery), so that no frame is left to its fate. *)
Theorem C58_window_timer : forall pa pb data es s,
  fitting pa pb -> zlen data <= p_n201 pa -> run pa pb data es = Some s -> gave_up s = false ->
  forall x, let d := dl_of s x in let p := match x with SideA => pa | SideB => pb end in
  (d_st d = L_MF_EST /\ unacked (d_vs d) (d_va d) (p_range p) <= p_k p /\
     (unacked (d_vs d) (d_va d) (p_range p) <> 0 -> d_t200 d = true)) \/
  (d_st d = L_TIMER_RECOV /\ d_t200 d = true).
Proof.
  intros pa pb data es s F HD E GU. destruct (run_inv _ _ _ _ _ F HD E) as [X _].
  destruct X as [(((K1 & K2 & _) & D1 & D2) & _)|(X & _)]; [|congruence].
  assert (KK : forall k r, 0 <= k <= 255 -> In r [2; 4; 8; 16; 32; 64; 128] -> init_k k r <= k).
  { intros k r Hk Hr. unfold init_k. destruct (Z.gtb_spec k (r - 1)); [|lia].
    cbn [In] in Hr. destruct Hr as [<-|[<-|[<-|[<-|[<-|[<-|[<-|[]]]]]]]]; unfold u8; rewrite Z.mod_small by lia; lia. }
  destruct F as (F1 & F2 & F3 & F4 & _).
  assert (M0 : 0 < p_range pa) by (cbn [In] in F3; lia).
  intros x d p. subst d p. unfold unacked. destruct x; cbn [dl_of].
  - destruct (dir_window _ _ _ _ _ _ D1) as [(W1 & W2 & W3)|W]; [|right; exact W].
    left. rewrite K1 in W2. cbn [dl_init lapd_dl_init2 d_cfg c_vrange c_k] in W2.
    specialize (KK _ _ F1 F3). split; auto. split; [lia|].
    intros N. apply W3. intros EE. apply N. rewrite EE, Z.sub_diag. apply Z.mod_0_l. lia.
  - destruct (dir_window _ _ _ _ _ _ D2) as [(W1 & W2 & W3)|W]; [|right; exact W].
    left. rewrite K2 in W2. cbn [dl_init lapd_dl_init2 d_cfg c_vrange c_k] in W2. rewrite F4 in *.
    specialize (KK _ _ F2 F3). split; auto. split; [lia|].
    intros N. apply W3. intros EE. apply N. rewrite EE, Z.sub_diag. apply Z.mod_0_l. lia.
Qed.
Print Assumptions C58_window_timer.

(* C58: losing frames and expiring timers never make an end report a protocol violation by the other: the only
   MDL-ERROR indications are the unsolicited supervisory response (a late answer) and the expiry of T200. *)
Theorem C58_no_false_errors : forall pa pb data es s,
  fitting pa pb -> zlen data <= p_n201 pa -> run pa pb data es = Some s ->
  Forall (fun c => c = MDL_CAUSE_UNSOL_SPRV_RESP \/ c = MDL_CAUSE_T200_EXPIRED) (l_err_a s ++ l_err_b s).
Proof.
  intros pa pb data es s F HD E. destruct (run_inv _ _ _ _ _ F HD E) as [[(_ & A & B)|(_ & s0 & H)] _].
  - apply Forall_app; split; (eapply Forall_impl; [|eassumption]); cbv beta; auto.
  - apply H.
Qed.
Print Assumptions C58_no_false_errors.

(* C58: without loss the establishment brings both ends into the multiple frame state; layer 3 is told so once at
   each end: with an indication carrying the information data at B, with a confirmation at A. *)
Theorem C58_establish : forall pa pb data,
  fitting pa pb -> zlen data <= p_n201 pa ->
  exists s, run pa pb data [] = Some s /\ d_st (l_a s) = L_MF_EST /\ d_st (l_b s) = L_MF_EST /\ gave_up s = false /\
  exists f a1 g,
    est_req (dl_init pa) data = (a1, [OFrame f]) /\
    ph_data_ind (dl_init pb) f [] = (l_b s, [OFrame g; OEstInd data]) /\
    ph_data_ind a1 g [] = (l_a s, [OEstConf]).
Proof.
  intros pa pb data F HD. destruct (run_start pa pb data [] F HD) as (s & _ & E & (_ & A & B) & S1 & S2 & _ & _ & _ & _ & _ & R).
  exists s. split; auto. split; auto. split; auto. split; [|exact R]. unfold gave_up.
  destruct (existsb _ _) eqn:X; auto. apply existsb_exists in X. destruct X as (c & Hc & Ec). apply Z.eqb_eq in Ec. subst c.
  apply in_app_or in Hc. unfold benign in *. rewrite Forall_forall in A, B.
  destruct Hc as [Hc|Hc]; [apply A in Hc|apply B in Hc]; discriminate.
Qed.
Print Assumptions C58_establish.

(* layer 3 requests transfers and frames arrive; none is lost, no timer expires *)
Definition loss_free (e : lev) : Prop := match e with EReq _ _ | EArrive _ _ => True | _ => False end.
(* a frame arrives, layer 3 does not answer *)
Definition arrival (e : lev) : Prop := match e with EArrive _ rsp => rsp = [] | _ => False end.

Lemma run_ll pa pb data es s : fitting pa pb -> zlen data <= p_n201 pa -> Forall loss_free es ->
  run pa pb data es = Some s -> InvL (d_cfg (dl_init pa)) (d_cfg (dl_init pb)) s.
Proof.
  intros F HD L E. destruct (run_start pa pb data es F HD) as (s0 & E0 & _ & _ & _ & _ & _ & _ & _ & _ & I & _).
  rewrite E0 in E. eapply lrun_ll; eauto.
Qed.

(* C58: while no frame is lost and no timer expires, no end reports an error of any kind; and when no frame is under
   way any more, everything handed over at either end has been delivered at the other, everything is acknowledged
   and T200 is stopped. *)
Theorem C58_loss_free : forall pa pb data es s,
  fitting pa pb -> zlen data <= p_n201 pa -> 1 <= p_k pa -> 1 <= p_k pb ->
  Forall loss_free es -> run pa pb data es = Some s ->
  Forall (fun m => zlen m <= p_maxf pb) (l_sub_a s) ->
  Forall (fun m => zlen m <= p_maxf pa) (l_sub_b s) ->
  l_err_a s = [] /\ l_err_b s = [] /\
  (l_ab s = [] -> l_ba s = [] ->
     l_del_b s = l_sub_a s /\ l_del_a s = l_sub_b s /\
     forall x, d_va (dl_of s x) = d_vs (dl_of s x) /\ d_t200 (dl_of s x) = false).
Proof.
  intros pa pb data es s F HD Hka Hkb L E Ma Mb.
  destruct (run_ll _ _ _ _ _ F HD L E) as (I & BL & Ea & Eb). split; auto. split; auto. intros C1 C2.
  rewrite C1, C2 in BL.
  assert (GU : gave_up s = false) by (unfold gave_up; rewrite Ea, Eb; reflexivity).
  destruct (C58_acknowledged _ _ _ _ _ F HD E GU Ma Mb) as [QA QB].
  destruct I as (((K1 & K2 & PO) & (P & VA & VS & VR & S & _) & (Q & WA & WS & WR & T & _)) & _).
  assert (KK : forall k r, 1 <= k <= 255 -> In r [2; 4; 8; 16; 32; 64; 128] -> 1 <= init_k k r).
  { intros k r Hk Hr. unfold init_k. destruct (Z.gtb_spec k (r - 1)); [|lia].
    cbn [In] in Hr. destruct Hr as [<-|[<-|[<-|[<-|[<-|[<-|[<-|[]]]]]]]]; unfold u8; rewrite Z.mod_small by lia; lia. }
  destruct F as (F1 & F2 & F3 & F4 & _).
  assert (G : forall dx dy sub P VA VS p, Snd dx sub P VA VS -> BothL dx dy [] [] -> d_cfg dx = d_cfg (dl_init p) ->
    1 <= p_k p <= 255 -> In (p_range p) [2; 4; 8; 16; 32; 64; 128] ->
    d_st dx = L_MF_EST /\ d_va dx = d_vs dx /\ d_squeue dx = [] /\
    (match d_sbuf dx with Some m => d_sout dx = zlen m | None => True end) /\ d_t200 dx = false).
  { intros dx dy sub P0 VA0 VS0 p S0 B0 Ec Hp Hr. pose proof (sn_ok _ _ _ _ _ S0) as KO. pose proof (k_lt_M _ KO). pose proof (M_bound _ KO).
    assert (1 <= c_k (d_cfg dx)) by (rewrite Ec; apply KK; auto).
    apply (quiet_idle dx dy); auto; [lia|]. rewrite (sn_va _ _ _ _ _ S0). apply Z.mod_pos_bound. lia. }
  pose proof (G _ _ _ _ _ _ pa S BL K1 ltac:(lia) F3) as (A1 & A2 & A3 & A4 & A5).
  apply BothL_sym in BL. rewrite <- F4 in F3.
  pose proof (G _ _ _ _ _ _ pb T BL K2 ltac:(lia) F3) as (B1 & B2 & B3 & B4 & B5).
  split; [apply QA; auto|]. split; [apply QB; auto|]. intros x. destruct x; auto.
Qed.
Print Assumptions C58_loss_free.

(* C58: and it comes to that.  From any state of such a run on, when layer 3 hands over nothing more, there is a bound
   on the number of frames that can arrive, and as long as one is under way it can. *)
Theorem C58_drains : forall pa pb data es s,
  fitting pa pb -> zlen data <= p_n201 pa -> Forall loss_free es -> run pa pb data es = Some s ->
  exists n, forall es' s', Forall arrival es' -> run pa pb data (es ++ es') = Some s' ->
    zlen es' <= n /\ forall x, chan_to s' x <> [] -> exists s'', run pa pb data (es ++ es' ++ [EArrive x []]) = Some s''.
Proof.
  intros pa pb data es s F HD L E. pose proof (run_ll _ _ _ _ _ F HD L E) as I.
  destruct (run_start pa pb data es F HD) as (s0 & E0 & _).
  exists (sysw s). intros es' s' A E'.
  destruct (run_start pa pb data (es ++ es') F HD) as (s1 & E1 & E1' & _).
  destruct (run_start pa pb data [] F HD) as (s2 & _ & E2' & _).
  assert (X : forall es0, run pa pb data es0 = lrun s1 es0).
  { intros es0. destruct (run_start pa pb data es0 F HD) as (s3 & E3 & E3' & _). congruence. }
  rewrite X in E. rewrite X, lrun_app, E in E'.
  destruct (lrun_drain _ _ _ _ _ I A E') as [I' W]. pose proof (sysw_nonneg s'). split; [lia|].
  intros x NE. destruct I' as (_ & _ & Ea & Eb).
  assert (GU : gave_up s' = false) by (unfold gave_up; rewrite Ea, Eb; reflexivity).
  destruct (chan_to s' x) as [|f c] eqn:Ec; [congruence|].
  eexists. rewrite X, lrun_app, E, lrun_app, E'. cbn [lrun]. unfold lstep. rewrite GU, Ec. reflexivity.
Qed.
Print Assumptions C58_drains.

(* both theorems apply to a run with a full window, a segmented message and an answer from within a delivery *)
Definition ex_ll : list lev :=
  [EReq SideA [1; 2; 3; 4; 5; 6]; EReq SideA [7; 7]; EReq SideB [8]; EArrive SideB []; EArrive SideA [[9]]; EArrive SideB [];
   EArrive SideB []; EArrive SideA []; EArrive SideB []; EArrive SideA []; EArrive SideB []; EArrive SideA []; EArrive SideA []].
Example C58_loss_free_nonvacuous : fitting ex_a ex_b /\ 1 <= p_k ex_a /\ 1 <= p_k ex_b /\ Forall loss_free ex_ll /\
  exists s, run ex_a ex_b [] ex_ll = Some s /\ l_ab s = [] /\ l_ba s = [] /\
    l_sub_a s = [[1; 2; 3; 4; 5; 6]; [7; 7]; [9]] /\ l_sub_b s = [[8]].
Proof.
  split; [unfold fitting; cbn; intuition lia|]. split; [cbn; lia|]. split; [cbn; lia|]. split; [repeat constructor|].
  eexists. split; [vm_compute; reflexivity|]. repeat split; reflexivity.
Qed.

(* the poll sent when T200 expires: a command with the P bit - the I frame sent last, if it is still kept for
   repetition, otherwise RR *)
Definition is_poll (d : ldl) (f : frame) : Prop :=
  let cr := if c_net (d_cfg d) then 1 else 0 in
  match d_hist d ((d_vs d - 1) mod c_rhist (d_cfg d)) with
  | Some (data, more) => f = mkFrame cr FmtI 0 true ((d_vs d - 1) mod c_vrange (d_cfg d)) (d_vr d) more data
  | None => f = mkFrame cr FmtS LAPD_S_RR true 0 (d_vr d) false []
  end.

Lemma t200_recov d : cok (d_cfg d) -> d_st d = L_TIMER_RECOV -> d_own_busy d = false -> d_seq_err d = 0 -> 0 <= d_retr d -> d_retr d + 1 <= c_n200 (d_cfg d) ->
  c_n200 (d_cfg d) <= 254 ->
  exists f, t200_cb d = (set_retr (set_t200 d true) (d_retr d + 1), [OFrame f]) /\ is_poll d f.
Proof.
  intros K St Ob Sq R0 R1 R2. unfold t200_cb. cbn [set_t200 d_st]. rewrite St. cbn [set_retr set_t200 d_retr d_cfg d_vs d_hist d_own_busy d_seq_err].
  unfold u8. rewrite Z.mod_small by lia. destruct (Z.leb_spec (d_retr d + 1) (c_n200 (d_cfg d))); [|lia].
  rewrite Ob, Sq. cbn [negb andb Z.eqb]. unfold is_poll. rewrite sub_mod_M, do_mod_R, mod_mod_R by auto.
  destruct (d_hist d ((d_vs d - 1) mod c_rhist (d_cfg d))) as [[data more]|]; eexists; (split; [reflexivity|]); reflexivity.
Qed.

Lemma t200_recov_n : forall n d, cok (d_cfg d) -> d_st d = L_TIMER_RECOV -> d_own_busy d = false -> d_seq_err d = 0 -> 0 <= d_retr d ->
  d_retr d + Z.of_nat n <= c_n200 (d_cfg d) -> c_n200 (d_cfg d) <= 254 -> d_t200 d = true ->
  exists d' oss, t200_expires n d = Some (d', oss) /\
  Forall (fun os => exists f, os = [OFrame f] /\ is_poll d f) oss /\ d_st d' = L_TIMER_RECOV /\ d_retr d' = d_retr d + Z.of_nat n /\
  d_cfg d' = d_cfg d /\ d_t200 d' = true /\ length oss = n.
Proof.
  induction n as [|n IH]; intros d K St Ob Sq R0 R1 R2 T; cbn [t200_expires].
  - eexists _, _. split; [reflexivity|]. repeat split; auto; try lia.
  - destruct (t200_recov d K St Ob Sq R0 ltac:(lia) R2) as (f & E1 & PF). rewrite E1, T.
    destruct (IH (set_retr (set_t200 d true) (d_retr d + 1))) as (d2 & os & I0 & I1 & I2 & I3 & I4 & I5 & I6); auto; cbn [set_retr set_t200 d_retr d_cfg]; try lia.
    rewrite I0. eexists _, _. split; [reflexivity|].
    split; [constructor; eauto|]. split; auto. rewrite I3. cbn [set_retr d_retr]. split; [lia|]. split; [rewrite I4; reflexivity|].
    split; auto. cbn [length]. lia.
Qed.
Lemma t200_expires_app a : forall b d, t200_expires (a + b) d =
  match t200_expires a d with
  | Some (d1, o1) => match t200_expires b d1 with Some (d2, o2) => Some (d2, o1 ++ o2) | None => None end
  | None => None
  end.
Proof.
  induction a; intros b d; cbn [t200_expires Nat.add].
  - destruct (t200_expires b d) as [[? ?]|]; reflexivity.
  - destruct (d_t200 d); auto. destruct (t200_cb d) as [d1 o]. rewrite IHa. destruct (t200_expires a d1) as [[d2 o2]|]; auto.
    destruct (t200_expires b d2) as [[? ?]|]; reflexivity.
Qed.

(* C58: what an end does when nothing comes from the other.  It is in the multiple frame state and T200 expires again
   and again.  The first N200 times it sends a poll (the last frame again, or RR) and goes on waiting.  The time after
   that it reports T200 expired, and sends SABM(E) if it is configured to re-establish the link. *)
Theorem C58_gives_up : forall p d, d_cfg d = d_cfg (dl_init p) -> 0 <= p_k p <= 255 ->
  In (p_range p) [2; 4; 8; 16; 32; 64; 128] -> 0 < p_n201 p ->
  1 <= p_n200 p <= 254 -> d_st d = L_MF_EST -> d_own_busy d = false -> d_seq_err d = 0 -> d_t200 d = true ->
  exists d' polls last, t200_expires (S (Z.to_nat (p_n200 p))) d = Some (d', polls ++ [last]) /\ zlen polls = p_n200 p /\
    Forall (fun os => exists f, os = [OFrame f] /\ is_poll d f) polls /\
    if p_reest p then
      last = [OErr MDL_CAUSE_T200_EXPIRED;
              OFrame (mkFrame (if p_net p then 1 else 0) FmtU (if p_sabme p then LAPD_U_SABME else LAPD_U_SABM) true 0 0 false [])] /\
      d_st d' = L_SABM_SENT /\ d_t200 d' = true
    else last = [OErr MDL_CAUSE_T200_EXPIRED] /\ d_t200 d' = false.
Proof.
  intros p d EC F1 F3 F5 HN St Ob Sq TR. apply range_ok in F3.
  pose proof (init_cok (p_k p) (p_range p) (p_maxf p) (p_net p) (p_drop2 p) (p_sabme p) (p_reest p)
    (p_n200 p) (p_n200_est p) (p_t203 p) (p_n201 p) F1 F3 F5) as K. fold (dl_init p) in K. rewrite <- EC in K.
  assert (CN : c_n200 (d_cfg d) = p_n200 p) by (rewrite EC; reflexivity).
  set (d0 := newstate (set_retr d 0) L_TIMER_RECOV).
  assert (D0 : d_cfg d0 = d_cfg d /\ d_st d0 = L_TIMER_RECOV /\ d_own_busy d0 = false /\ d_seq_err d0 = 0 /\ d_retr d0 = 0 /\
     d_vr d0 = d_vr d /\ d_vs d0 = d_vs d /\ d_t200 d0 = true /\ d_hist d0 = d_hist d).
  { unfold d0, newstate. cbn [st_eqb negb andb]. rewrite !andb_false_r. cbn [set_retr d_st]. rewrite St. cbn [st_eqb andb]. repeat split; auto. }
  destruct D0 as (D1 & D2 & D3 & D4 & D5 & D6 & D7 & D8 & D9).
  assert (SAME : t200_cb d = t200_cb d0).
  { unfold t200_cb. cbn [set_t200 d_st]. rewrite St, D2.
    assert (Q : newstate (set_retr (set_t200 d false) 0) L_TIMER_RECOV = set_t200 d0 false).
    { unfold d0, newstate. cbn [st_eqb negb andb]. rewrite !andb_false_r. cbn [set_retr set_t200 d_st]. rewrite St. reflexivity. }
    rewrite Q. reflexivity. }
  assert (SAMEN : t200_expires (S (Z.to_nat (p_n200 p))) d = t200_expires (S (Z.to_nat (p_n200 p))) d0).
  { cbn [t200_expires]. rewrite SAME, TR, D8. reflexivity. }
  rewrite SAMEN. replace (S (Z.to_nat (p_n200 p))) with (Z.to_nat (p_n200 p) + 1)%nat by lia.
  assert (K0 : cok (d_cfg d0)) by (rewrite D1; auto).
  destruct (t200_recov_n (Z.to_nat (p_n200 p)) d0 K0 D2 D3 D4 ltac:(lia) ltac:(rewrite ?D5, D1, CN; lia) ltac:(rewrite D1, CN; lia) D8)
    as (d1 & polls & E1 & T1 & T2 & T3 & T4 & T5 & T6).
  rewrite t200_expires_app, E1. cbn [t200_expires]. rewrite T5. destruct (t200_cb d1) as [d2 last] eqn:E2.
  exists d2, polls, last. split; auto. split; [unfold zlen; lia|]. split.
  { eapply Forall_impl; [|exact T1]. intros os (f & H1 & H2). exists f. split; auto. unfold is_poll in *. rewrite D1, D6, D7, D9 in H2. auto. }
  unfold t200_cb in E2. cbn [set_t200 d_st] in E2. rewrite T2 in E2. cbn [set_retr set_t200 d_retr d_cfg] in E2.
  unfold u8 in E2. rewrite T3, D5 in E2. rewrite Z.mod_small in E2 by lia. rewrite T4, D1, CN in E2.
  destruct (Z.leb_spec (0 + Z.of_nat (Z.to_nat (p_n200 p)) + 1) (p_n200 p)); [lia|].
  assert (CR : c_reest (d_cfg d) = p_reest p) by (rewrite EC; reflexivity). rewrite CR in E2.
  destruct (p_reest p).
  - destruct (est_req _ []) as [d3 os3] eqn:E3. injection E2 as <- <-. unfold est_req in E3. injection E3 as <- <-.
    split; [|split; reflexivity]. unfold loc_cmd. cbn [set_rbuf flush_hist flush_send set_hist set_send set_retr set_t200 d_cfg].
    rewrite ?T4, ?D1, EC. reflexivity.
  - injection E2 as <- <-. split; reflexivity.
Qed.
Print Assumptions C58_gives_up.

(* C58: in any run: T200 expires at an end that is in the multiple frame state and has an unacknowledged frame.  Then
   the I frame it sent last is sent again, as a command with the P bit. *)
Theorem C58_repeats : forall pa pb data es s,
  fitting pa pb -> zlen data <= p_n201 pa -> run pa pb data es = Some s -> gave_up s = false ->
  forall x, let d := dl_of s x in let p := match x with SideA => pa | SideB => pb end in
  d_st d = L_MF_EST -> d_va d <> d_vs d -> 1 <= p_n200 p <= 254 ->
  exists d' f, t200_cb d = (d', [OFrame f]) /\ d_t200 d' = true /\ f_fmt f = FmtI /\ f_pf f = true /\
    f_cr f = (if p_net p then 1 else 0) /\ f_ns f = (d_vs d - 1) mod p_range p /\ f_nr f = d_vr d.
Proof.
  intros pa pb data es s F HD E GU x. destruct (run_inv _ _ _ _ _ F HD E) as [X _].
  destruct X as [(((K1 & K2 & _) & D1 & D2) & _)|(X & _)]; [|congruence].
  assert (G : forall d dy c c' sub del p, Dir d dy c c' sub del -> d_cfg d = d_cfg (dl_init p) ->
    d_st d = L_MF_EST -> d_va d <> d_vs d -> 1 <= p_n200 p <= 254 ->
    exists d' f, t200_cb d = (d', [OFrame f]) /\ d_t200 d' = true /\ f_fmt f = FmtI /\ f_pf f = true /\
    f_cr f = (if p_net p then 1 else 0) /\ f_ns f = (d_vs d - 1) mod p_range p /\ f_nr f = d_vr d).
  { clear. intros d dy c c' sub del p (P & VA & VS & VR & S & G & _) Ec St NE HN.
    destruct (settled_est _ _ _ _ G St) as [-> T]. pose proof (sn_ok _ _ _ _ _ S) as K. pose proof (sn_rng _ _ _ _ _ S) as RG.
    assert (HV : VA < zlen P).
    { destruct (Z.eq_dec VA (zlen P)); [|lia]. subst VA. exfalso. apply NE. rewrite (sn_va _ _ _ _ _ S), (sn_vs _ _ _ _ _ S). auto. }
    assert (HH : exists data more, d_hist d (do_mod (sub_mod (d_vs d) 1 (c_vrange (d_cfg d))) (c_rhist (d_cfg d))) = Some (data, more)).
    { rewrite do_mod_R, (sn_vs _ _ _ _ _ S), sub1_abs, mod_mod_R by auto. rewrite (sn_h1 _ _ _ _ _ S) by lia.
      destruct (nth_error P (Z.to_nat (zlen P - 1))) as [[data more]|] eqn:EN; eauto.
      apply nth_error_None in EN. unfold zlen in *. lia. }
    destruct HH as (data & more & HH).
    unfold t200_cb. cbn [set_t200 d_st]. rewrite St.
    assert (Q : newstate (set_retr (set_t200 d false) 0) L_TIMER_RECOV = set_st (set_cont (stop_t203 (set_retr (set_t200 d false) 0)) None) L_TIMER_RECOV).
    { unfold newstate. cbn [st_eqb negb andb]. rewrite !andb_false_r. cbn [set_retr set_t200 d_st]. rewrite St. reflexivity. }
    rewrite Q. cbn [set_st set_cont stop_t203 set_t203 set_retr set_t200 d_retr d_cfg d_vs d_hist].
    assert (CN : c_n200 (d_cfg d) = p_n200 p) by (rewrite Ec; reflexivity).
    change (u8 (0 + 1)) with 1. rewrite CN. destruct (Z.leb_spec 1 (p_n200 p)); [|lia]. rewrite HH.
    eexists _, _. split; [reflexivity|]. split; [reflexivity|]. split; [reflexivity|]. split; [reflexivity|].
    cbn [mk_iframe f_cr f_ns f_nr]. split; [transitivity (if c_net (d_cfg d) then 1 else 0); [reflexivity|rewrite Ec; reflexivity]|].
    split; [|reflexivity]. rewrite sub_mod_M by auto. rewrite Ec. reflexivity. }
  destruct x; cbn [dl_of]; cbv zeta.
  - exact (G _ _ _ _ _ _ pa D1 K1).
  - exact (G _ _ _ _ _ _ pb D2 K2).
Qed.
Print Assumptions C58_repeats.

(* C58: the same while the establishment is not answered: the SABM(E) is repeated unchanged as often as N200 for the
   establishment says, then T200 expired is reported, the link is idle again and layer 3 is told of the release. *)
Theorem C58_establish_gives_up : forall p data, 0 <= p_n200_est p <= 254 -> 0 <= p_k p <= 255 ->
  In (p_range p) [2; 4; 8; 16; 32; 64; 128] -> 0 < p_n201 p ->
  exists d1 f d', est_req (dl_init p) data = (d1, [OFrame f]) /\
  f = mkFrame (if p_net p then 1 else 0) FmtU (if p_sabme p then LAPD_U_SABME else LAPD_U_SABM) true 0 0 false data /\
  t200_expires (S (Z.to_nat (p_n200_est p))) d1 =
    Some (d', repeat [OFrame f] (Z.to_nat (p_n200_est p)) ++ [[OErr MDL_CAUSE_T200_EXPIRED; ORelInd]]) /\
  d_st d' = L_IDLE /\ d_t200 d' = false.
Proof.
  intros p data HN Hk Hr H201. apply range_ok in Hr.
  pose proof (init_cok (p_k p) (p_range p) (p_maxf p) (p_net p) (p_drop2 p) (p_sabme p) (p_reest p)
    (p_n200 p) (p_n200_est p) (p_t203 p) (p_n201 p) Hk Hr H201) as K. fold (dl_init p) in K.
  set (f := mkFrame (if p_net p then 1 else 0) FmtU (if p_sabme p then LAPD_U_SABME else LAPD_U_SABM) true 0 0 false data).
  set (st r := set_retr (wait_ua (d_cfg (dl_init p)) data) r).
  exists (st 0), f.
  assert (Z0 : do_mod 0 (c_rhist (d_cfg (dl_init p))) = 0).
  { rewrite do_mod_R by auto. pose proof (R_bound _ K) as RB. apply Z.mod_0_l. clear - RB. lia. }
  assert (CB : forall r, 0 <= r -> r + 1 <= p_n200_est p -> t200_cb (st r) = (st (r + 1), [OFrame f])).
  { intros r R0 R1. unfold t200_cb. cbn [st set_t200 set_retr wait_ua d_st d_retr d_cfg].
    unfold u8. rewrite Z.mod_small by lia.
    change (c_n200_est (d_cfg (dl_init p))) with (p_n200_est p).
    rewrite Z.geb_leb. destruct (Z.leb_spec (p_n200_est p + 1) (r + 1)); [lia|]. unfold send_resend.
    change (d_vs (set_retr (set_t200 (st r) false) (r + 1))) with 0.
    change (d_cfg (set_retr (set_t200 (st r) false) (r + 1))) with (d_cfg (dl_init p)). rewrite ?Z0. reflexivity. }
  assert (CBN : forall n r, 0 <= r -> r + Z.of_nat n <= p_n200_est p -> t200_expires n (st r) = Some (st (r + Z.of_nat n), repeat [OFrame f] n)).
  { induction n; intros r R0 R1; cbn [t200_expires repeat]. { rewrite Z.add_0_r. reflexivity. }
    change (d_t200 (st r)) with true. cbv iota. rewrite CB by lia. rewrite IHn by lia. replace (r + 1 + Z.of_nat n) with (r + Z.of_nat (S n)) by lia. reflexivity. }
  replace (S (Z.to_nat (p_n200_est p))) with (Z.to_nat (p_n200_est p) + 1)%nat by lia.
  rewrite t200_expires_app, CBN by lia. cbn [t200_expires].
  assert (LAST : t200_cb (st (0 + Z.of_nat (Z.to_nat (p_n200_est p)))) =
     (newstate (flush_send (flush_hist (set_t200 (st (p_n200_est p + 1)) false))) L_IDLE, [OErr MDL_CAUSE_T200_EXPIRED; ORelInd])).
  { unfold t200_cb. cbn [st set_t200 set_retr wait_ua d_st d_retr d_cfg].
    unfold u8. rewrite Z.mod_small by lia.
    change (c_n200_est (d_cfg (dl_init p))) with (p_n200_est p).
    rewrite Z.geb_leb. destruct (Z.leb_spec (p_n200_est p + 1) (0 + Z.of_nat (Z.to_nat (p_n200_est p)) + 1)); [|lia].
    replace (0 + Z.of_nat (Z.to_nat (p_n200_est p)) + 1) with (p_n200_est p + 1) by lia. reflexivity. }
  rewrite LAST. eexists. split.
  { rewrite (surjective_pairing (est_req (dl_init p) data)). change (dl_init p) with (fresh (d_cfg (dl_init p))) at 1. rewrite est_req_fresh. reflexivity. }
  split; [reflexivity|]. split; [reflexivity|].
  unfold newstate. cbn [st_eqb negb andb]. rewrite !andb_false_r. split; reflexivity.
Qed.
Print Assumptions C58_establish_gives_up.

(* both apply to the configuration of the example *)
Example C58_gives_up_nonvacuous :
  exists s d1 f d2 os2 d3 os3, run ex_a ex_b [] [EReq SideA [1; 2]] = Some s /\
    d_st (l_a s) = L_MF_EST /\ d_t200 (l_a s) = true /\ d_va (l_a s) <> d_vs (l_a s) /\
    t200_expires 4 (l_a s) = Some (d2, os2) /\ zlen os2 = p_n200 ex_a + 1 /\ d_st d2 = L_SABM_SENT /\
    est_req (dl_init ex_a) [5] = (d1, [OFrame f]) /\ f_data f = [5] /\
    t200_expires 4 d1 = Some (d3, os3) /\ zlen os3 = p_n200_est ex_a + 1.
Proof.
  eexists _, _, _, _, _, _, _. split; [vm_compute; reflexivity|]. split; [reflexivity|]. split; [reflexivity|]. split; [discriminate|].
  split; [vm_compute; reflexivity|].
  split; [reflexivity|]. split; [reflexivity|]. split; [vm_compute; reflexivity|]. split; [reflexivity|].
  split; [vm_compute; reflexivity|]. reflexivity.
Qed.

(* a run with a two-segment message, a lost frame, a rejected one, and an answer given from within a delivery *)
Definition ex_es : list lev :=
  [EReq SideA [1; 2; 3; 4; 5; 6]; EReq SideB [7]; ELose SideB 0; EArrive SideB []; EArrive SideA [[8; 8]];
   EArrive SideA []; EArrive SideB []; EArrive SideB []; EArrive SideB []; EArrive SideA []; EArrive SideA [];
   EArrive SideB []; EArrive SideA []].
Example C58_nonvacuous : fitting ex_a ex_b /\ zlen [9] <= p_n201 ex_a /\
  exists s, run ex_a ex_b [9] ex_es = Some s /\ gave_up s = false /\
    l_sub_a s = [[1; 2; 3; 4; 5; 6]; [8; 8]] /\ l_del_b s = l_sub_a s /\ l_sub_b s = [[7]] /\ l_del_a s = l_sub_b s /\
    d_st (l_a s) = L_MF_EST /\ d_va (l_a s) = d_vs (l_a s) /\ d_vs (l_a s) = 3.
Proof.
  split; [unfold fitting; cbn; intuition lia|]. split; [unfold zlen; cbn; lia|].
  eexists. split; [vm_compute; reflexivity|]. repeat split; reflexivity.
Qed.

(* C58, the limit of C58_in_order: a message longer than the other end reassembles is not refused.  What does not
   fit is left out, and the rest is delivered as if it were the message. *)
Theorem C58_too_long_refuted : exists pa pb es s,
  fitting pa pb /\ run pa pb [] es = Some s /\ gave_up s = false /\ l_err_b s = [] /\
  l_sub_a s = [[1; 2; 3; 4; 5; 6; 7; 8; 9; 10]] /\ l_del_b s = [[1; 2; 3; 4; 9; 10]] /\
  ~ is_prefix (l_del_b s) (l_sub_a s).
Proof.
  exists ex_a, (mkPar 2 8 6 false false false true 3 3 true 4),
    [EReq SideA [1; 2; 3; 4; 5; 6; 7; 8; 9; 10]; EArrive SideB []; EArrive SideB []; EArrive SideA []; EArrive SideA [];
     EArrive SideB []].
  eexists. split; [unfold fitting; cbn; intuition lia|]. split; [vm_compute; reflexivity|].
  repeat (split; [reflexivity|]). intros (e & E). vm_compute in E. discriminate.
Qed.
Print Assumptions C58_too_long_refuted.

(* C58, no recovery from a single lost frame: T200 expires a little early, so the frame is sent again with the
   poll bit; the other end refuses the duplicate with REJ F=1 and enters the sequence error condition.  If only
   that one REJ is lost, the polls that follow are not answered (lapd_core.c:1399-1410 answers a poll only outside
   the sequence error condition), although all of them arrive, and the link is given up. *)
Theorem C58_recovery_refuted : exists pa pb es s,
  fitting pa pb /\ p_k pa = 1 /\ p_k pb = 1 /\ run pa pb [] es = Some s /\
  length (filter (fun e => match e with ELose _ _ => true | _ => false end) es) = 1%nat /\
  gave_up s = true /\ l_err_a s = [MDL_CAUSE_T200_EXPIRED] /\
  length (filter (fun e => match e with EArrive SideB _ => true | _ => false end) es) = 4%nat.
Proof.
  exists (mkPar 1 8 260 true false false true 3 3 true 20), (mkPar 1 8 260 false false false true 3 3 true 20),
    [EReq SideA [1]; ET200 SideA; EArrive SideB []; EArrive SideA []; EArrive SideB []; ELose SideA 0; ET200 SideA;
     EArrive SideB []; ET200 SideA; EArrive SideB []; ET200 SideA].
  eexists. split; [unfold fitting; cbn; intuition lia|]. split; [reflexivity|]. split; [reflexivity|].
  split; [vm_compute; reflexivity|]. repeat split; reflexivity.
Qed.
Print Assumptions C58_recovery_refuted.

(* ------------------------------------------------------------------ *)
(* the receiver not ready condition *)

(* receiver ready frames and requests of layer 3, one after the other; all outputs *)
Inductive rr_ev := RrFrame (f : frame) | RrReq (m : list Z).
Definition rr_step (d : ldl) (e : rr_ev) : ldl * list lout :=
  match e with RrFrame f => ph_data_ind d f [] | RrReq m => data_req d m end.
Fixpoint rr_run (d : ldl) (es : list rr_ev) : ldl * list lout :=
  match es with
  | [] => (d, [])
  | e :: es' => let '(d, o) := rr_step d e in let '(d, o') := rr_run d es' in (d, o ++ o')
  end.
Definition rr_only (e : rr_ev) : Prop :=
  match e with RrFrame f => f_fmt f = FmtS /\ f_su f = LAPD_S_RR | RrReq _ => True end.

Lemma ack_busy d f : d_peer_busy (fst (lapd_acknowledge d f)) = d_peer_busy d.
Proof.
  rewrite acknowledge_eq. cbv zeta. unfold ack_finish.
  repeat match goal with |- context [if ?b then _ else _] => destruct b end;
  repeat match goal with |- context [match d_hist ?x ?y with _ => _ end] => destruct (d_hist x y) end;
  try reflexivity;
  repeat match goal with |- context [if ?b then _ else _] => destruct b end; reflexivity.
Qed.
Lemma send_busy d : d_peer_busy d = true -> lapd_send_i d = (d, -1, []).
Proof. intros H. unfold lapd_send_i. destruct (send_i_rounds d); cbn [send_i_loop]; auto. rewrite H. auto. Qed.
Lemma newstate_busy d st : d_peer_busy (newstate d st) = d_peer_busy d.
Proof.
  unfold newstate. repeat match goal with |- context [if ?b then _ else _] => destruct b end; reflexivity.
Qed.

Definition no_i (os : list lout) : Prop := Forall (fun f => f_fmt f <> FmtI) (frames_of os).
Lemma rr_step_busy d e d' os : d_peer_busy d = true -> rr_only e -> rr_step d e = (d', os) ->
  d_peer_busy d' = true /\ no_i os.
Proof.
  intros B H. destruct e as [f|m]; cbn [rr_step rr_only] in *.
  - destruct H as [H1 H2]. unfold ph_data_ind. rewrite H1. unfold rx_s. rewrite H2. rewrite Z.eqb_refl.
    destruct ((zlen (f_data f) >? 0) || f_more f).
    { intros E. injection E as <- <-. split; auto. constructor. }
    set (e0 := if (f_cr f =? rem_resp d) && f_pf f && negb (st_eqb (d_st d) L_TIMER_RECOV) then [OErr MDL_CAUSE_UNSOL_SPRV_RESP] else []).
    assert (E0 : frames_of e0 = []) by (unfold e0; destruct (_ && _); reflexivity). clearbody e0.
    assert (MAIN : (let '(d0, _) := lapd_acknowledge d f in
      let '(d, o1) :=
        if (f_cr f =? rem_cmd d) && f_pf f then (d0, poll_reply d0)
        else if (f_cr f =? rem_resp d) && f_pf f && st_eqb (d_st d0) L_TIMER_RECOV
             then (newstate (stop_t200 (set_vs d0 (f_nr f))) L_MF_EST, [])
             else (d0, []) in
      let '(d, _, o2) := lapd_send_i d in (d, e0 ++ o1 ++ o2)) = (d', os) -> d_peer_busy d' = true /\ no_i os).
    { pose proof (ack_busy d f) as AB. destruct (lapd_acknowledge d f) as [d0 c]. cbn [fst] in AB. rewrite B in AB.
      destruct ((f_cr f =? rem_cmd d) && f_pf f).
      - rewrite (send_busy d0 AB). intros E. injection E as <- <-. split; auto. unfold no_i. rewrite !frames_app, E0. cbn [app].
        unfold poll_reply. destruct (negb (d_own_busy d0) && (d_seq_err d0 =? 0)); [|destruct (d_own_busy d0)]; cbn; repeat constructor; discriminate.
      - destruct ((f_cr f =? rem_resp d) && f_pf f && st_eqb (d_st d0) L_TIMER_RECOV).
        + assert (NB : d_peer_busy (newstate (stop_t200 (set_vs d0 (f_nr f))) L_MF_EST) = true) by (rewrite newstate_busy; exact AB).
          rewrite (send_busy _ NB). intros E. injection E as <- <-. split; auto. unfold no_i. rewrite !frames_app, E0. constructor.
        + rewrite (send_busy d0 AB). intros E. injection E as <- <-. split; auto. unfold no_i. rewrite !frames_app, E0. constructor. }
    destruct (d_st d); try exact MAIN.
    + intros E. injection E as <- <-. split; auto. unfold no_i. rewrite frames_app, E0. destruct (f_pf f); cbn; repeat constructor; discriminate.
    + intros E. injection E as <- <-. split; auto. unfold no_i. rewrite E0. constructor.
    + intros E. injection E as <- <-. split; auto. unfold no_i. rewrite E0. constructor.
  - unfold data_req. destruct (zlen m =? 0).
    { destruct (_ || _); intros E; injection E as <- <-; (split; [auto|constructor]). }
    destruct (st_eqb (d_st d) L_MF_EST || st_eqb (d_st d) L_TIMER_RECOV).
    + rewrite send_busy by exact B. intros E. injection E as <- <-. split; auto. constructor.
    + intros E. injection E as <- <-. split; auto. constructor.
Qed.

(* C58, receiver not ready: once a data link has received RNR, no number of RR frames makes it send again: RR does
   not clear the peer busy condition (only REJ does, lapd_core.c:1478, 1516, 1527).  Requests pile up in the queue. *)
Theorem C58_ready_again_refuted : forall d es d' os, d_peer_busy d = true -> Forall rr_only es ->
  rr_run d es = (d', os) ->
  d_peer_busy d' = true /\ Forall (fun f => f_fmt f <> FmtI) (frames_of os).
Proof.
  intros d es. revert d. induction es as [|e es IH]; intros d d' os B F E; cbn [rr_run] in E.
  - injection E as <- <-. split; auto. constructor.
  - assert (H : rr_only e) by exact (Forall_inv F). apply Forall_inv_tail in F.
    destruct (rr_step d e) as [d1 o1] eqn:E1. destruct (rr_run d1 es) as [d2 o2] eqn:E2. injection E as <- <-.
    destruct (rr_step_busy _ _ _ _ B H E1) as [B1 N1]. destruct (IH _ _ _ B1 F E2) as [B2 N2].
    split; auto. rewrite frames_app. apply Forall_app; auto.
Qed.
Print Assumptions C58_ready_again_refuted.

(* the condition is entered by a single RNR on an established link *)
Example C58_ready_again_nonvacuous : exists s d os d2 os2,
  run ex_a ex_b [] [] = Some s /\
  ph_data_ind (l_a s) (mkFrame 1 FmtS LAPD_S_RNR false 0 0 false []) [] = (d, os) /\ d_peer_busy d = true /\
  rr_run d [RrFrame (mkFrame 1 FmtS LAPD_S_RR false 0 0 false []); RrReq [1; 2]] = (d2, os2) /\
  os2 = [] /\ d_squeue d2 = [[1; 2]].
Proof.
  eexists _, _, _, _, _. split; [vm_compute; reflexivity|]. split; [vm_compute; reflexivity|]. split; [reflexivity|].
  split; [vm_compute; reflexivity|]. split; reflexivity.
Qed.

(* C58, supervision: T203 is configured, but a REJ that acknowledges the last outstanding frame leaves the end in the
   multiple frame state with neither T200 nor T203 running (lapd_core.c:843-862 stops T203 while T200 runs, then rx_s
   stops T200): here every frame has been delivered or lost, and a failure of the link would never be noticed. *)
Theorem C58_supervision_refuted : exists pa pb es s, fitting pa pb /\ p_t203 pa = true /\ run pa pb [] es = Some s /\
  gave_up s = false /\ l_ab s = [] /\ l_ba s = [] /\ l_del_b s = l_sub_a s /\
  d_st (l_a s) = L_MF_EST /\ d_va (l_a s) = d_vs (l_a s) /\ d_t200 (l_a s) = false /\ d_t203 (l_a s) = false.
Proof.
  exists (mkPar 3 8 260 true false false true 3 3 true 4), (mkPar 3 8 260 false false false true 3 3 true 4),
    [EReq SideA [1]; EReq SideA [2]; EReq SideA [3]; ELose SideB 0; EArrive SideB []; EArrive SideB []; EArrive SideA []; EArrive SideA [];
     EArrive SideB []; EArrive SideB []; EArrive SideB []; ELose SideA 0; ELose SideA 0; ELose SideA 0; EArrive SideB []; EArrive SideA [];
     ELose SideB 0; ELose SideB 0].
  eexists. split. { repeat split; cbn; auto; lia. } split; [reflexivity|]. split; [vm_compute; reflexivity|]. repeat split; reflexivity.
Qed.
Print Assumptions C58_supervision_refuted.

(* C58, re-establishment: a data link that has received a part of a message keeps it when the other end
   establishes the link anew with SABM; it is then put in front of the first segmented message of the new link,
   and what is delivered was never sent. *)
Theorem C58_reestablish_refuted : exists s b1 o1 b2 o2 b3 o3,
  run ex_a ex_b [] [EReq SideA [1; 2; 3; 4; 5]; EArrive SideB []] = Some s /\
  ph_data_ind (l_b s) (mkFrame 1 FmtU LAPD_U_SABM true 0 0 false []) [] = (b1, o1) /\ In (OEstInd []) o1 /\
  ph_data_ind b1 (mkFrame 1 FmtI 0 false 0 0 true [6; 6; 6; 6]) [] = (b2, o2) /\
  ph_data_ind b2 (mkFrame 1 FmtI 0 false 1 0 false [7]) [] = (b3, o3) /\
  datas_of o1 = [] /\ datas_of o2 = [] /\ datas_of o3 = [[1; 2; 3; 4; 6; 6; 6; 6; 7]].
Proof.
  eexists _, _, _, _, _, _, _. split; [vm_compute; reflexivity|]. split; [vm_compute; reflexivity|].
  split; [cbn; auto|]. split; [vm_compute; reflexivity|]. split; [vm_compute; reflexivity|]. repeat split; reflexivity.
Qed.
Print Assumptions C58_reestablish_refuted.
