(* T_sercomm.v - C22: the serial multiplex *)
From Coq Require Import Permutation.
From Verif Require Import Base S_sercomm M_sercomm P_sercomm.

(* the choice of the next message: no waiting message has a lower dlci, none with the same dlci was sent earlier *)
Theorem C22_pick : forall w m w', pick w = Some (m, w') ->
  exists a b, w = a ++ m :: b /\ w' = a ++ b /\ (forall x, In x w -> fst m <= fst x) /\ (forall x, In x a -> fst x <> fst m).
Proof.
  intros w m w' H. unfold pick in H. destruct (lowest w) as [d|] eqn:L; [|discriminate]. apply lowest_some in L as [_ L].
  assert (G : fst m = d /\ exists a b, w = a ++ m :: b /\ w' = a ++ b /\ forall x, In x a -> fst x <> d).
  { clear L. revert w' H. induction w as [|x w IH]; intros w' H; cbn [take_dlci] in H; [discriminate|]. destruct (fst x =? d) eqn:E.
    - injection H as <- <-. split; [lia|]. exists [], w. auto.
    - destruct (take_dlci d w) as [[y r]|]; [|discriminate]. injection H as -> <-. destruct (IH _ eq_refl) as (E1 & a & b & -> & -> & N).
      split; auto. exists (x :: a), b. split; auto. split; auto. intros z [<-|Hz]; auto. lia. }
  destruct G as (<- & a & b & E & E' & N). eauto 8.
Qed.
Print Assumptions C22_pick.

(* transmitter: for every history of sends and pulls the octets are exactly those of the specification: whole frames, lower
   DLCI first, FIFO per DLCI *)
Theorem C22_transmit : forall hr ops, 2 <= hr -> (forall m, In (Send m) ops -> 0 <= fst m <= 128) ->
  tx_run hr tx_init ops = Ok (fst (s_run s_init ops)).
Proof. intros. apply tx_run_spec; auto using Rtx_init. intros m Hm. specialize (H0 m Hm). lia. Qed.
Print Assumptions C22_transmit.

(* the octets are complete frames of the completed messages followed by the beginning of one more frame *)
Theorem C22_frames : forall ops, exists tail, fst (s_run s_init ops) = concat (map wire (snd (s_run s_init ops))) ++ tail /\
  (tail = [] \/ exists m rest, wire m = tail ++ rest /\ rest <> []).
Proof. intros. destruct (s_run_shape ops s_init [] eq_refl) as (tail & H & H'). exists tail. split; auto. unfold wf_cur in H'.
  destruct (s_cur _) as [[m rest]|]; [right|left]; eauto. Qed.
Print Assumptions C22_frames.

(* everything sent gets completed once the driver has pulled enough octets, each message exactly once *)
Theorem C22_all_sent : forall ops, exists n, Permutation (sends ops) (snd (s_run s_init (ops ++ repeat Pull n))).
Proof. exact s_all_sent. Qed.
Print Assumptions C22_all_sent.

(* between the flags there is neither a flag nor a zero octet *)
Theorem C22_transparent : forall m, Forall (fun c => c <> 126 /\ c <> 0) (body m).
Proof.
  intros m. apply Forall_forall. intros c Hc. split. { intros ->. unfold body in Hc. now apply body_no_flag in Hc. }
  unfold body in Hc. apply in_flat_map in Hc as (x & _ & Hx). unfold esc in Hx. destruct (special x) eqn:E.
  - destruct Hx as [<-|[<-|[]]]; [discriminate|]. unfold special in E. assert (x = 126 \/ x = 125 \/ x = 0) as [->|[->| ->]] by lia; discriminate.
  - destruct Hx as [<-|[]]. unfold special in E. lia.
Qed.
Print Assumptions C22_transparent.

(* the queue depth reported for a DLCI: the messages sent on it that are neither completed nor on the wire *)
Theorem C22_queue_depth : forall hr ops d, 2 <= hr -> (forall m, In (Send m) ops -> 0 <= fst m <= 128) -> 0 <= d <= 128 -> zlen ops < 2 ^ 32 ->
  exists t n, tx_end hr tx_init ops = Ok t /\ osmo_sercomm_tx_queue_depth t d = Ok n /\
    exists on_wire, 0 <= on_wire <= 1 /\
      zlen (filter (fun m => fst m =? d) (sends ops)) = zlen (filter (fun m => fst m =? d) (snd (s_run s_init ops))) + on_wire + n /\
      (fst (s_run s_init ops) = concat (map wire (snd (s_run s_init ops))) -> on_wire = 0).
Proof.
  intros hr ops d Hr B Hd Hl.
  assert (E : forall ops s t, (forall m, In (Send m) ops -> 0 <= fst m < 129) -> Rtx s t -> exists t', tx_end hr t ops = Ok t' /\ Rtx (s_end s ops) t').
  { clear - Hr. induction ops as [|[m|] ops IH]; intros s t B R; cbn [tx_end s_end]; eauto.
    - destruct (Rtx_send s t m hr R) as (t' & X & R'); auto. { apply B. now left. } rewrite X. cbn [bind]. apply IH; auto.
      intros y Hy. apply B. now right.
    - destruct (Rtx_pull s t R) as (o & t' & X & R'). rewrite X. cbn [bind snd]. destruct (s_pull s) as [[o' dn] s'] eqn:Es. destruct R' as [_ R'].
      cbn [snd]. apply IH; auto. intros y Hy. apply B. now right. }
  destruct (E ops s_init tx_init) as (t & E1 & R); auto using Rtx_init. { intros m Hm. specialize (B m Hm). lia. }
  destruct (s_conserve ops s_init I) as [_ P]. cbn [s_init s_wait cur_m s_cur] in P. rewrite !app_nil_r in P. fold s_init in P.
  set (e := s_end s_init ops) in *. set (f := fun m : smsg => fst m =? d).
  assert (PF : forall a b : list smsg, Permutation a b -> zlen (filter f a) = zlen (filter f b)).
  { clear. intros a b P. induction P; cbn [filter]; auto; [destruct (f x); rewrite ?zlen_cons; lia|destruct (f x), (f y); rewrite ?zlen_cons; lia|lia]. }
  destruct R as (R1 & R2 & R3 & R4).
  assert (Q : rd (tx_q t) d = Ok (Qof d (s_wait e))).
  { rewrite (rd_in _ _ []) by (unfold zlen; lia). f_equal. rewrite R2 by lia. f_equal. lia. }
  apply PF in P. rewrite !filter_app, !zlen_app in P.
  assert (LQ : zlen (Qof d (s_wait e)) = zlen (filter f (s_wait e))) by (unfold Qof, zlen; rewrite map_length; reflexivity).
  assert (LS : zlen (sends ops) <= zlen ops).
  { clear. unfold sends, zlen. induction ops as [|[m|] o IH]; cbn [flat_map app length]; lia. }
  assert (LF : zlen (filter f (sends ops)) <= zlen (sends ops)).
  { clear. induction (sends ops) as [|x l IH]; cbn [filter]; [lia|]. destruct (f x); rewrite !zlen_cons; lia. }
  pose proof (zlen_nonneg (filter f (snd (s_run s_init ops)))). pose proof (zlen_nonneg (filter f (cur_m e))). pose proof (zlen_nonneg (filter f (s_wait e))).
  exists t, (zlen (filter f (s_wait e))). split; auto. split.
  { unfold osmo_sercomm_tx_queue_depth. rewrite Q. cbn [bind]. f_equal. rewrite LQ. unfold u32. apply Z.mod_small. lia. }
  exists (zlen (filter f (cur_m e))). split.
  { unfold cur_m, zlen. destruct (s_cur e) as [[m r]|]; cbn [filter]; [destruct (f m)|]; cbn [length]; lia. }
  split; [etransitivity; [exact P|]; rewrite Z.add_assoc; reflexivity|]. intros EQ. destruct (s_run_shape ops s_init [] eq_refl) as (tail & J1 & J2). cbn [app] in J1. rewrite EQ in J1. fold e in J2.
  assert (tail = []) as -> by (rewrite <- (app_nil_r (concat _)) in J1 at 1; apply app_inv_head in J1; auto).
  assert (PC : forall ops s, (match s_cur s with Some (m, r) => (length r < length (wire m))%nat | None => True end) ->
    match s_cur (s_end s ops) with Some (m, r) => (length r < length (wire m))%nat | None => True end).
  { clear. induction ops as [|[m|] ops IH]; intros s H; cbn [s_end]; [exact H|apply IH; exact H|]. apply IH. unfold s_pull. destruct (s_cur s) as [[m r]|] eqn:Es.
    - destruct r as [|c [|c2 r]]; cbn [snd]; [rewrite Es; exact H|exact I|]. cbn [s_cur length] in *. lia.
    - destruct (pick (s_wait s)) as [[m w]|]; [|cbn [snd]; rewrite Es; exact I]. destruct (wire m) as [|c [|c2 r]] eqn:Ew; cbn [snd]; [rewrite Es; exact I|exact I|].
      cbn [s_cur]. rewrite Ew. cbn [length]. lia. }
  specialize (PC ops s_init I). fold e in PC. unfold wf_cur in J2. unfold cur_m. destruct (s_cur e) as [[m r]|]; [|reflexivity].
  destruct J2 as [J2 _]. cbn [app] in J2. subst r. lia.
Qed.
Print Assumptions C22_queue_depth.
Example C22_queue_depth_nonvacuous :
  (do t <- tx_end 4 tx_init [Send (5, [1]); Send (5, [2]); Send (5, [3]); Pull; Send (4, [1]); Pull] ;; osmo_sercomm_tx_queue_depth t 5) = Ok 2.
Proof. vm_compute. reflexivity. Qed.

(* round trip: whatever is sent and however it is pulled, a receiver fed with the pulled octets hands over exactly the
   completed messages, in order, to the handlers registered for their DLCI.  For DLCIs other than 0, 0x7D and 0x7E and
   payloads shorter than the receive buffer. *)
Theorem C22_roundtrip_partial : forall hr h size ops, 2 <= hr ->
  (forall m, In (Send m) ops -> 0 < fst m <= 128 /\ fst m <> 125 /\ fst m <> 126 /\ zlen (snd m) < rx_size (rx_init size)) ->
  exists os, tx_run hr tx_init ops = Ok os /\
    fst (rx_run h (rx_init size) os) = filter (fun m => h (fst m)) (snd (s_run s_init ops)).
Proof.
  intros hr h size ops Hr B. exists (fst (s_run s_init ops)). split. { apply C22_transmit; auto. intros m Hm. specialize (B m Hm). lia. }
  assert (Bs : forall m, In m (snd (s_run s_init ops)) -> 0 < fst m <= 128 /\ fst m <> 125 /\ fst m <> 126 /\ zlen (snd m) < rx_size (rx_init size)).
  { intros m Hm. apply s_run_sent in Hm as [Hm|[[]|(r & Hm)]]; auto. discriminate. }
  assert (F : Forall (fun m => special (fst m) = false /\ zlen (snd m) < rx_size (rx_init size)) (snd (s_run s_init ops))).
  { apply Forall_forall. intros m Hm. specialize (Bs m Hm). split; [|lia]. unfold special. lia. }
  assert (Hf : filter (heard h) (snd (s_run s_init ops)) = filter (fun m => h (fst m)) (snd (s_run s_init ops))).
  { apply filter_ext_in. intros m Hm. specialize (Bs m Hm). unfold heard. destruct (Z.ltb_spec (fst m) 129); [reflexivity|lia]. }
  destruct (s_run_shape ops s_init [] eq_refl) as (tail & Sh & T). cbn [app] in Sh. rewrite Sh.
  assert (Sy : in_sync (rx_init size)) by (split; reflexivity).
  destruct (rx_wires h _ (rx_init size) Sy F) as (s' & R & S' & Z'). rewrite rx_run_app, R.
  assert (fst (rx_run h s' tail) = []) as N.
  { unfold wf_cur in T. destruct (s_cur (s_end s_init ops)) as [[m rest]|] eqn:Ec; [|now subst tail].
    destruct T as [W Ne]. destruct (s_conserve ops s_init I) as [_ P].
    assert (Hm : In m (sends ops)).
    { cbn [s_init cur_m s_cur s_wait app] in P. rewrite !app_nil_r in P. apply (Permutation_in m (Permutation_sym P)).
      apply in_or_app. right. unfold cur_m. rewrite Ec. now left. }
    unfold sends in Hm. apply in_flat_map in Hm as ([x|] & Hx & Hm); [|destruct Hm]. destruct Hm as [->|[]].
    specialize (B m Hx). apply (rx_prefix h s' m tail rest); auto. { unfold special. lia. } rewrite Z'. lia. }
  destruct (rx_run h s' tail) as [d2 s2]. cbn [fst] in *. subst d2. now rewrite app_nil_r, Hf.
Qed.
Print Assumptions C22_roundtrip_partial.

(* the excluded DLCI 0 (SC_DLCI_HIGHEST): its address octet is escaped by the transmitter, the receiver does not unescape it
   and delivers the message, with an extra octet in front, to DLCI 0x7D: the round trip fails *)
Theorem C22_dlci0_refuted :
  exists os, tx_run 4 tx_init (Send (0, [1; 2]) :: repeat Pull 8) = Ok os /\
    snd (s_run s_init (Send (0, [1; 2]) :: repeat Pull 8)) = [(0, [1; 2])] /\
    fst (rx_run (fun _ => true) (rx_init 0) os) = [(125, [3; 1; 2])].
Proof. eexists. split; [vm_compute; reflexivity|]. split; reflexivity. Qed.
Print Assumptions C22_dlci0_refuted.

(* DLCIs 129..255 are accepted by the type but index beyond the queues *)
Theorem C22_dlci_range : forall s hr d p, zlen (tx_q s) = 129 -> 2 <= hr -> 129 <= d -> osmo_sercomm_sendmsg s d hr p = UB.
Proof.
  intros s hr d p L Hr Hd. unfold osmo_sercomm_sendmsg. destruct (Z.ltb_spec hr 2); [lia|]. unfold rd. destruct (Z.ltb_spec d 0); [lia|].
  replace (nth_error (tx_q s) (Z.to_nat d)) with (@None (list (list Z))). { reflexivity. }
  symmetry. apply nth_error_None. unfold zlen in L. lia.
Qed.
Print Assumptions C22_dlci_range.

(* the payload bound is exact: a payload that fills the receive buffer is dropped when its closing flag arrives *)
Theorem C22_too_long : forall h s m, in_sync s -> special (fst m) = false -> zlen (snd m) = rx_size s -> 0 < rx_size s ->
  fst (rx_run h s (wire m)) = [].
Proof.
  intros h s m [S1 S2] Hd Hl Hz.
  assert (exists p c, snd m = p ++ [c]) as (p & c & E).
  { destruct (exists_last (l := snd m)) as (p & c & E); eauto. intros E. rewrite E in Hl. unfold zlen in Hl. cbn in Hl. lia. }
  assert (Hp : zlen p + 1 = rx_size s) by (rewrite <- Hl, E, zlen_app; reflexivity).
  unfold wire, body. cbn [flat_map]. rewrite E, flat_map_app. cbn [flat_map]. rewrite app_nil_r.
  rewrite (special_esc (fst m)) by auto. change (esc 3) with [3]. cbn [app].
  change (126 :: fst m :: 3 :: (flat_map esc p ++ esc c) ++ [126]) with ([126; fst m; 3] ++ (flat_map esc p ++ esc c) ++ [126]).
  destruct (rx_frame h s (fst m, p)) as (s1 & R & A & B & C & D); auto. { split; auto. } { cbn [snd]. lia. }
  unfold body in R. cbn [flat_map fst snd] in R. rewrite (special_esc (fst m)) in R by auto. change (esc 3) with [3] in R. cbn [app] in R.
  replace ([126; fst m; 3] ++ (flat_map esc p ++ esc c) ++ [126]) with ((126 :: fst m :: 3 :: flat_map esc p) ++ esc c ++ [126])
    by (cbn [app]; now rewrite <- !app_assoc).
  rewrite rx_run_app, R. cbn [snd] in B.
  assert (X : exists s2, rx_run h s1 (esc c) = ([], s2) /\ rx_size s2 = rx_size s /\ zlen (msg_of s2) = rx_size s).
  { unfold esc. destruct (special c) eqn:Ec; cbn [rx_run].
    - unfold osmo_sercomm_drv_rx_char at 1. fold (msg_of s1). rewrite A, B, D. destruct (Z.eqb_spec (rx_size s - zlen p) 0); [lia|].
      change (125 =? HDLC_ESCAPE) with true. cbv iota. unfold osmo_sercomm_drv_rx_char. cbn [rx_msg rx_size rx_st].
      destruct (Z.eqb_spec (rx_size s - zlen p) 0); [lia|]. eexists. split; [reflexivity|]. cbn [rx_size msg_of rx_msg]. split; auto.
      rewrite zlen_app. change (zlen [_]) with 1. lia.
    - unfold osmo_sercomm_drv_rx_char at 1. fold (msg_of s1). rewrite A, B, D. destruct (Z.eqb_spec (rx_size s - zlen p) 0); [lia|].
      unfold special in Ec. unfold HDLC_ESCAPE, HDLC_FLAG. destruct (Z.eqb_spec c 125); [lia|]. destruct (Z.eqb_spec c 126); [lia|].
      eexists. split; [reflexivity|]. cbn [rx_size msg_of rx_msg]. split; auto. rewrite zlen_app. change (zlen [c]) with 1. lia. }
  destruct X as (s2 & R2 & Z2 & M2). rewrite rx_run_app, R2. cbn [rx_run]. unfold osmo_sercomm_drv_rx_char. fold (msg_of s2).
  rewrite Z2, M2, Z.sub_diag. reflexivity.
Qed.
Print Assumptions C22_too_long.

(* resynchronisation: a receiver in any state (switched on in the middle of a transmission, after lost octets...) is in step
   again after at most two frames; all following frames are delivered exactly *)
Theorem C22_resync : forall h s m1 m2 ms, 0 < rx_size s -> zlen (msg_of s) <= rx_size s ->
  (rx_st s = WAIT_START \/ rx_st s = ST_ADDR \/ rx_st s = ST_CTRL -> msg_of s = []) ->
  Forall (fun m => special (fst m) = false /\ zlen (snd m) + 2 <= rx_size s) (m1 :: m2 :: ms) ->
  exists junk, fst (rx_run h s (concat (map wire (m1 :: m2 :: ms)))) = junk ++ filter (heard h) ms.
Proof.
  intros h s m1 m2 ms H1 H2 H3 F. inversion F as [|? ? [A1 A2] F']; subst. inversion F' as [|? ? [B1 B2] F'']; subst.
  assert (I0 : Irx s) by (split; [auto|split; [auto|destruct (rx_st s); auto; apply H3; auto]]).
  cbn [map concat]. rewrite rx_run_app.
  pose proof (settle1 h s m1 I0 A1) as St. destruct (Irx_run h (wire m1) s I0) as [I1 Z1].
  destruct (rx_run h s (wire m1)) as [d1 s1]. cbn [snd] in *.
  rewrite rx_run_app. pose proof (settle2 h s1 m2 I1 St B1 ltac:(rewrite Z1; auto)) as Sy. destruct (Irx_run h (wire m2) s1 I1) as [I2 Z2].
  destruct (rx_run h s1 (wire m2)) as [d2 s2]. cbn [snd] in *.
  destruct (rx_wires h ms s2 Sy) as (s3 & R & _). { eapply Forall_impl; [|exact F'']. cbn. intros m [M1 M2]. split; auto. rewrite Z2, Z1. lia. }
  rewrite R. cbn [fst]. exists (d1 ++ d2). now rewrite app_assoc.
Qed.
Print Assumptions C22_resync.

(* every reachable receiver state satisfies the hypotheses of C22_resync *)
Theorem C22_rx_reachable : forall h size cs, 0 <= size -> let s := snd (rx_run h (rx_init size) cs) in
  0 < rx_size s /\ zlen (msg_of s) <= rx_size s /\ (rx_st s = WAIT_START \/ rx_st s = ST_ADDR \/ rx_st s = ST_CTRL -> msg_of s = []).
Proof.
  intros h size cs Hs s. assert (I0 : Irx (rx_init size)).
  { unfold rx_init, Irx. cbn. destruct (Z.eqb_spec size 0); repeat split; try lia; unfold zlen; cbn; lia. }
  destruct (Irx_run h cs _ I0) as [(A & B & C) _]. fold s in A, B, C. split; auto. split; auto. destruct (rx_st s); auto; intros [X|[X|X]]; discriminate.
Qed.
Print Assumptions C22_rx_reachable.

Example C22_nonvacuous :
  tx_run 4 tx_init ([Send (5, [126; 0; 9]); Send (4, [1]); Pull; Send (128, []); Send (4, [2])] ++ repeat Pull 40) =
    Ok [126; 4; 3; 1; 126; 126; 4; 3; 2; 126; 126; 5; 3; 125; 94; 125; 32; 9; 126; 126; 128; 3; 126] /\
  fst (rx_run (fun d => negb (d =? 128)) (rx_init 0) [126; 4; 3; 1; 126; 126; 4; 3; 2; 126; 126; 5; 3; 125; 94; 125; 32; 9; 126; 126; 128; 3; 126]) =
    [(4, [1]); (4, [2]); (5, [126; 0; 9])].
Proof. split; vm_compute; reflexivity. Qed.
