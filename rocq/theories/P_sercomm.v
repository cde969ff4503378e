(* P_sercomm.v - proofs about the serial multiplex *)
From Verif Require Import Base S_sercomm M_sercomm.

Lemma lowest_some l d : lowest l = Some d -> (exists m, In m l /\ fst m = d) /\ forall m, In m l -> d <= fst m.
Proof.
  revert d. induction l as [|x l IH]; cbn [lowest fold_right]; intros d H; [discriminate|].
  fold (lowest l) in H. destruct (lowest l) as [d'|] eqn:E.
  - injection H as <-. destruct (IH d' eq_refl) as [(m & Hm & Em) Hall]. split.
    + destruct (Z.leb_spec (fst x) d'). { exists x. split; [now left|lia]. } exists m. split; [now right|lia].
    + intros y [<-|Hy]; [lia|]. specialize (Hall y Hy). lia.
  - injection H as <-. assert (l = []) as -> by (destruct l; auto; discriminate E).
    split. { exists x. split; auto. now left. } intros y [<-|[]]. lia.
Qed.
Lemma lowest_none l : lowest l = None -> l = [].
Proof. destruct l; auto; discriminate. Qed.
Lemma lowest_is l d : (exists m, In m l /\ fst m = d) -> (forall m, In m l -> d <= fst m) -> lowest l = Some d.
Proof.
  intros (m & Hm & E) H. destruct (lowest l) as [d'|] eqn:L.
  - apply lowest_some in L as [(m' & Hm' & E') H']. f_equal. specialize (H m' Hm'). specialize (H' m Hm). lia.
  - apply lowest_none in L as ->. destruct Hm.
Qed.

Lemma take_dlci_spec d l : (exists m, In m l /\ fst m = d) -> exists m r, take_dlci d l = Some (m, r) /\ fst m = d /\
  filter (fun m => fst m =? d) l = m :: filter (fun m => fst m =? d) r /\
  (forall e, e <> d -> filter (fun m => fst m =? e) l = filter (fun m => fst m =? e) r) /\
  (forall x, In x r -> In x l) /\ In m l.
Proof.
  induction l as [|x l IH]; intros (m & Hm & E); [destruct Hm|]. cbn [take_dlci].
  destruct (fst x =? d) eqn:Ex.
  - exists x, l. split; auto. split; [lia|]. cbn [filter]. rewrite Ex. split; auto. split.
    + intros e He. destruct (fst x =? e) eqn:Ee; auto. lia.
    + split; [intros; now right|now left].
  - destruct Hm as [->|Hm]; [lia|]. destruct IH as (m' & r & T & F & F1 & F2 & F3 & F4); eauto.
    exists m', (x :: r). rewrite T. split; auto. split; auto. cbn [filter]. rewrite Ex. split; auto. split.
    + intros e He. destruct (fst x =? e); auto. f_equal. auto.
    + split; [|now right]. intros y [->|Hy]; [now left|right; auto].
Qed.

Definition hdr (m : smsg) : list Z := fst m :: 3 :: snd m.
Definition Qof (d : Z) (w : list smsg) : list (list Z) := map hdr (filter (fun m => fst m =? d) w).

Lemma deq_pick qs : forall k w, (forall i, (i < length qs)%nat -> nth i qs [] = Qof (k + Z.of_nat i) w) ->
  (forall m, In m w -> k <= fst m < k + Z.of_nat (length qs)) ->
  match pick w with
  | None => deq_first qs = None
  | Some (m, w') => exists qs', deq_first qs = Some (hdr m, qs') /\ length qs' = length qs /\
      (forall i, (i < length qs)%nat -> nth i qs' [] = Qof (k + Z.of_nat i) w') /\ (forall x, In x w' -> In x w) /\ In m w
  end.
Proof.
  induction qs as [|q qs IH]; intros k w H B.
  - assert (w = []) as -> by (destruct w as [|m w]; auto; specialize (B m (or_introl eq_refl)); cbn in B; lia). reflexivity.
  - pose proof (H 0%nat ltac:(cbn; lia)) as H0. cbn [nth] in H0. replace (k + Z.of_nat 0) with k in H0 by lia.
    destruct q as [|m0 q].
    + specialize (IH (k + 1) w). cbn [deq_first].
      assert (N : forall m, In m w -> fst m <> k).
      { intros m Hm E. unfold Qof in H0. symmetry in H0. apply map_eq_nil in H0.
        assert (X : In m (filter (fun m => fst m =? k) w)) by (apply filter_In; split; auto; lia). rewrite H0 in X. destruct X. }
      assert (IH' := IH ltac:(intros i Hi; specialize (H (S i) ltac:(cbn; lia)); cbn [nth] in H; rewrite H; f_equal; lia)
                  ltac:(intros m Hm; specialize (B m Hm); specialize (N m Hm); cbn [length] in B; lia)). clear IH.
      destruct (pick w) as [[m w']|].
      * destruct IH' as (qs' & D & L & Q & I1 & I2). rewrite D. exists ([] :: qs'). split; auto. split; [cbn; lia|]. split; auto.
        intros [|i] Hi; cbn [nth]. { replace (k + Z.of_nat 0) with k by lia. rewrite H0. unfold Qof.
          assert (E1 : filter (fun m1 => fst m1 =? k) w = []).
          { destruct (filter (fun m1 => fst m1 =? k) w) as [|z t] eqn:Ez; auto. assert (Iz : In z (z :: t)) by now left.
            rewrite <- Ez in Iz. apply filter_In in Iz as [Iz1 Iz2]. specialize (N z Iz1). lia. }
          assert (E2 : filter (fun m1 => fst m1 =? k) w' = []).
          { destruct (filter (fun m1 => fst m1 =? k) w') as [|z t] eqn:Ez; auto. assert (Iz : In z (z :: t)) by now left.
            rewrite <- Ez in Iz. apply filter_In in Iz as [Iz1 Iz2]. specialize (N z (I1 _ Iz1)). lia. }
          now rewrite E1, E2. }
        rewrite Q by (cbn [length] in Hi; lia). f_equal. lia.
      * now rewrite IH'.
    + cbn [deq_first].
      assert (X : exists m, In m w /\ fst m = k).
      { unfold Qof in H0. destruct (filter (fun m => fst m =? k) w) as [|m t] eqn:E; [discriminate|]. exists m.
        assert (I : In m (m :: t)) by now left. rewrite <- E in I. apply filter_In in I as [I1 I2]. split; auto. lia. }
      assert (Lo : lowest w = Some k) by (apply lowest_is; auto; intros m Hm; specialize (B m Hm); lia).
      unfold pick. rewrite Lo. destruct (take_dlci_spec k w X) as (m & r & T & F & F1 & F2 & F3 & F4). rewrite T.
      unfold Qof in H0. rewrite F1 in H0. cbn [map] in H0. injection H0 as -> ->.
      exists (Qof k r :: qs). split; auto. split; auto. split; auto.
      intros [|i] Hi; cbn [nth]. { f_equal. lia. } specialize (H (S i) Hi). cbn [nth] in H. rewrite H.
      unfold Qof. rewrite F2; auto. lia.
Qed.

(* transmitter against specification *)
Definition Rcur (c : option (smsg * list Z)) (m : option (list Z)) (st : rxst) : Prop :=
  match c, m with
  | None, None => st <> ST_ESCAPE
  | Some (_, rest), Some r =>
    match st with
    | ST_ESCAPE => match r with x :: r' => rest = x :: flat_map esc r' ++ [126] | [] => False end
    | _ => rest = flat_map esc r ++ [126]
    end
  | _, _ => False
  end.
Definition Rtx (s : sstate) (t : sc_tx) : Prop :=
  length (tx_q t) = 129%nat /\ (forall i, (i < 129)%nat -> nth i (tx_q t) [] = Qof (Z.of_nat i) (s_wait s)) /\
  (forall m, In m (s_wait s) -> 0 <= fst m < 129) /\ Rcur (s_cur s) (tx_msg t) (tx_st t).

Lemma Rtx_init : Rtx s_init tx_init.
Proof.
  split; [reflexivity|]. split; [|split; [intros m []|cbn; discriminate]].
  intros i Hi. unfold tx_init, s_init, Qof. cbn [tx_q s_wait filter map]. change (Z.to_nat DLCI_MAX) with 129%nat.
  destruct (nth_in_or_default i (repeat [] 129) ([] : list (list Z))) as [H|H]; auto. now apply repeat_spec in H.
Qed.

Lemma Rtx_send s t m hr : Rtx s t -> 0 <= fst m < 129 -> 2 <= hr ->
  exists t', osmo_sercomm_sendmsg t (fst m) hr (snd m) = Ok t' /\ Rtx (mkss (s_wait s ++ [m]) (s_cur s)) t'.
Proof.
  intros (L & Q & B & C) Hm Hr. unfold osmo_sercomm_sendmsg. destruct (Z.ltb_spec hr 2); [lia|].
  assert (E : nth_error (tx_q t) (Z.to_nat (fst m)) = Some (Qof (fst m) (s_wait s))).
  { rewrite (nth_error_nth' _ []) by lia. rewrite Q by lia. now rewrite Z2Nat.id by lia. }
  unfold rd. destruct (Z.ltb_spec (fst m) 0); [lia|]. rewrite E. cbn [bind].
  unfold wr. destruct (Z.ltb_spec (fst m) 0); [lia|]. rewrite L. destruct (Z.leb_spec (Z.of_nat 129) (fst m)); [lia|]. cbn [bind].
  eexists. split; [reflexivity|]. split; [|split; [|split]]; cbn [tx_q tx_msg tx_st s_wait s_cur].
  - now rewrite upd_length.
  - intros i Hi. rewrite upd_nth. destruct (Nat.eqb_spec (Z.to_nat (fst m)) i) as [<-|N]; cbn [andb].
    + rewrite L. destruct (Nat.ltb_spec (Z.to_nat (fst m)) 129); [|lia]. unfold Qof. rewrite filter_app, map_app. rewrite Z2Nat.id by lia.
      cbn [filter]. rewrite Z.eqb_refl. reflexivity.
    + rewrite Q by auto. unfold Qof. rewrite filter_app, map_app. cbn [filter]. destruct (Z.eqb_spec (fst m) (Z.of_nat i)); [lia|].
      now rewrite app_nil_r.
  - intros x Hx. apply in_app_or in Hx as [Hx|[<-|[]]]; auto.
  - exact C.
Qed.

Lemma Rtx_pull s t : Rtx s t -> exists o t', osmo_sercomm_drv_pull t = Ok (o, t') /\
  let '(o', _, s') := s_pull s in o' = o /\ Rtx s' t'.
Proof.
  intros (L & Q & B & C). unfold osmo_sercomm_drv_pull, s_pull, Rcur in *. destruct (s_cur s) as [[m rest]|] eqn:Ec.
  - destruct (tx_msg t) as [r|] eqn:Em; [|destruct C].
    assert (G : tx_st t <> ST_ESCAPE -> rest = flat_map esc r ++ [126] ->
       exists o t', match r with
         | [] => Ok (Some HDLC_FLAG, mktx (tx_q t) None (tx_st t))
         | c :: r0 => if (c =? HDLC_FLAG) || (c =? HDLC_ESCAPE) || (c =? 0)
              then Ok (Some HDLC_ESCAPE, mktx (tx_q t) (Some (Z.lxor c (Z.shiftl 1 5) :: r0)) ST_ESCAPE)
              else Ok (Some c, mktx (tx_q t) (Some r0) (tx_st t)) end = Ok (o, t') /\
       (let '(o', _, s') := match rest with
           | [] => (None, [], s) | [c] => (Some c, [m], mkss (s_wait s) None)
           | c :: (_ :: _) as r0 => (Some c, [], mkss (s_wait s) (Some (m, r0))) end in o' = o /\ Rtx s' t')).
    { intros Ne ->. destruct r as [|c r0].
      - cbn. eexists _, _. split; [reflexivity|]. split; auto. repeat split; auto; try (apply B; auto).
      - cbn [flat_map]. change ((c =? HDLC_FLAG) || (c =? HDLC_ESCAPE) || (c =? 0)) with (special c). unfold esc at 1.
        destruct (special c).
        + eexists _, _. split; [reflexivity|]. cbn [app]. split; auto. repeat split; auto; try (apply B; auto).
        + eexists _, _. split; [reflexivity|]. cbn [app].
          destruct (flat_map esc r0 ++ [126]) as [|z zs] eqn:Ez; [now destruct (flat_map esc r0)|].
          split; auto. repeat split; auto; try (apply B; auto). unfold Rcur; cbn [s_cur tx_msg tx_st]. rewrite Ez.
          destruct (tx_st t); auto; congruence. }
    destruct (tx_st t) eqn:Es; try (apply G; [discriminate|exact C]).
    destruct r as [|x r']; [destruct C|]. subst rest. eexists _, _. split; [reflexivity|].
    destruct (flat_map esc r' ++ [126]) as [|z zs] eqn:Ez; [now destruct (flat_map esc r')|].
    split; auto. repeat split; auto; try (apply B; auto). unfold Rcur; cbn [s_cur tx_msg tx_st]. now rewrite Ez.
  - destruct (tx_msg t) as [r|] eqn:Em; [destruct C|].
    pose proof (deq_pick (tx_q t) 0 (s_wait s)) as D.
    assert (D' := D ltac:(intros i Hi; rewrite L in Hi; rewrite Q by auto; reflexivity) ltac:(intros x Hx; specialize (B x Hx); lia)). clear D.
    destruct (pick (s_wait s)) as [[m w']|].
    + destruct D' as (qs' & D & L' & Q' & I1 & I2). rewrite D. eexists _, _. split; [reflexivity|].
      unfold wire. destruct (body m ++ [126]) as [|z zs] eqn:Ez; [now destruct (body m)|].
      split; auto. split; [|split; [|split]]; cbn [tx_q tx_msg tx_st s_wait s_cur].
      * congruence.
      * intros i Hi. rewrite Q' by lia. reflexivity.
      * intros x Hx. apply B. auto.
      * unfold Rcur. rewrite <- Ez. unfold body. destruct (tx_st t); auto; congruence.
    + rewrite D'. eexists _, _. split; [reflexivity|]. split; auto. repeat split; auto; try (apply B; auto). rewrite Ec, Em. exact C.
Qed.

Lemma tx_run_spec hr ops : forall s t, 2 <= hr -> (forall m, In (Send m) ops -> 0 <= fst m < 129) -> Rtx s t ->
  tx_run hr t ops = Ok (fst (s_run s ops)).
Proof.
  induction ops as [|[m|] ops IH]; intros s t Hr B R; cbn [tx_run s_run]; auto.
  - destruct (Rtx_send s t m hr R) as (t' & X & R'); auto. { apply B. now left. } rewrite X. cbn [bind]. apply IH; auto.
    intros x Hx. apply B. now right.
  - destruct (Rtx_pull s t R) as (o & t' & X & R'). rewrite X. cbn [bind fst snd].
    destruct (s_pull s) as [[o' dn] s'] eqn:Es. destruct R' as [-> R'].
    rewrite (IH s' t'); auto. { cbn [bind]. destruct (s_run s' ops). reflexivity. } intros x Hx. apply B. now right.
Qed.

(* ---- what the transmitter sends is a sequence of complete frames and the beginning of one more ---- *)
Definition wf_cur (s : sstate) (p : list Z) : Prop :=
  match s_cur s with None => p = [] | Some (m, rest) => wire m = p ++ rest /\ rest <> [] end.

Fixpoint s_end (s : sstate) (ops : list scop) : sstate :=
  match ops with [] => s | Send m :: t => s_end (mkss (s_wait s ++ [m]) (s_cur s)) t | Pull :: t => s_end (snd (s_pull s)) t end.

Lemma pick_in w m w' : pick w = Some (m, w') -> In m w /\ forall x, In x w' -> In x w.
Proof.
  unfold pick. destruct (lowest w) as [d|] eqn:L; [|discriminate]. apply lowest_some in L as [X _]. intros T.
  destruct (take_dlci_spec d w X) as (m0 & r & T' & _ & _ & _ & I & I2). rewrite T in T'. injection T' as <- <-. auto.
Qed.

Lemma s_run_shape ops : forall s p, wf_cur s p -> exists tail,
  p ++ fst (s_run s ops) = concat (map wire (snd (s_run s ops))) ++ tail /\ wf_cur (s_end s ops) tail.
Proof.
  induction ops as [|[m|] ops IH]; intros s p W; cbn [s_run s_end].
  - cbn [fst snd map concat app]. rewrite app_nil_r. exists p. split; auto.
  - apply IH. exact W.
  - destruct (s_pull s) as [[o dn] s'] eqn:E. cbn [snd]. destruct (s_run s' ops) as [os ds] eqn:Er.
    assert (G : forall m rest w p', wire m = p' ++ rest -> rest <> [] ->
      (match rest with [] => (None, [], s) | [c] => (Some c, [m], mkss w None)
         | c :: (_ :: _) as r => (Some c, [], mkss w (Some (m, r))) end) = (o, dn, s') ->
      exists tail, p' ++ (match o with Some c => [c] | None => [] end) ++ os = concat (map wire (dn ++ ds)) ++ tail /\
        wf_cur (s_end s' ops) tail).
    { intros m rest w p' Wm Ne Eq. destruct rest as [|c [|c2 r]]; [congruence| |].
      - injection Eq as <- <- <-. destruct (IH (mkss w None) [] eq_refl) as (tail & T1 & T2). rewrite Er in T1. cbn [fst snd app] in T1.
        exists tail. split; auto. cbn [app map concat]. rewrite T1, Wm, <- !app_assoc. reflexivity.
      - injection Eq as <- <- <-. destruct (IH (mkss w (Some (m, c2 :: r))) (p' ++ [c])) as (tail & T1 & T2).
        { cbn. split; [|discriminate]. now rewrite Wm, <- app_assoc. }
        rewrite Er in T1. cbn [fst snd] in T1. exists tail. split; auto. cbn [app]. rewrite <- T1, <- app_assoc. reflexivity. }
    unfold s_pull in E. cbn [fst snd]. unfold wf_cur in W. destruct (s_cur s) as [[m rest]|] eqn:Ec.
    + destruct W as [W1 W2]. eapply G; eauto.
    + subst p. destruct (pick (s_wait s)) as [[m w']|] eqn:Ep.
      * eapply (G m (wire m) w' []); auto. unfold wire. discriminate.
      * injection E as <- <- <-. cbn [app]. destruct (IH s []) as (tail & T1 & T2). { unfold wf_cur. now rewrite Ec. }
        rewrite Er in T1. cbn [fst snd app] in T1. eauto.
Qed.

Lemma s_run_sent ops : forall s m, In m (snd (s_run s ops)) -> In (Send m) ops \/ In m (s_wait s) \/ (exists r, s_cur s = Some (m, r)).
Proof.
  induction ops as [|[x|] ops IH]; intros s m H; cbn [s_run] in H; [destruct H| |].
  - apply IH in H as [H|[H|H]]; cbn [s_wait s_cur] in *. { left; now right. } { apply in_app_or in H as [H|[->|[]]]; auto. left; now left. } auto.
  - destruct (s_pull s) as [[o dn] s'] eqn:E. specialize (IH s' m). destruct (s_run s' ops) as [os ds]. cbn [snd] in *.
    unfold s_pull in E. apply in_app_or in H.
    destruct (s_cur s) as [[m0 rest]|] eqn:Ec.
    + destruct rest as [|c [|c2 r]]; injection E as <- <- <-; cbn [s_wait s_cur] in *.
      * destruct H as [[]|H]. destruct (IH H) as [X|[X|(r & X)]]; auto. { left; now right. } right; right. rewrite Ec in X. exists r. exact X.
      * destruct H as [[->|[]]|H]; [eauto|]. destruct (IH H) as [X|[X|(r & X)]]; auto; try discriminate. left; now right.
      * destruct H as [[]|H]. destruct (IH H) as [X|[X|(r' & X)]]; auto. { left; now right. } injection X as <- <-. eauto.
    + destruct (pick (s_wait s)) as [[m0 w']|] eqn:Ep.
      * apply pick_in in Ep as [P1 P2]. destruct (wire m0) as [|c [|c2 r]]; injection E as <- <- <-; cbn [s_wait s_cur] in *.
        -- destruct H as [[]|H]. destruct (IH H) as [X|[X|(r & X)]]; auto. { left; now right. } congruence.
        -- destruct H as [[->|[]]|H]; [auto|]. destruct (IH H) as [X|[X|(r & X)]]; auto; try discriminate. left; now right.
        -- destruct H as [[]|H]. destruct (IH H) as [X|[X|(r' & X)]]; auto. { left; now right. } injection X as <- <-. auto.
      * injection E as <- <- <-. destruct H as [[]|H]. destruct (IH H) as [X|[X|(r & X)]]; auto. { left; now right. } congruence.
Qed.

(* ---- receiver ---- *)
Lemma rx_run_app h a : forall s b, rx_run h s (a ++ b) =
  let '(d1, s1) := rx_run h s a in let '(d2, s2) := rx_run h s1 b in (d1 ++ d2, s2).
Proof.
  induction a as [|c a IH]; intros s b; cbn [app rx_run]. { now destruct (rx_run h s b). }
  destruct (osmo_sercomm_drv_rx_char h s c) as [d s0]. rewrite IH. destruct (rx_run h s0 a) as [d1 s1]. destruct (rx_run h s1 b). now rewrite app_assoc.
Qed.

Definition msg_of (s : sc_rx) : list Z := match rx_msg s with Some l => l | None => [] end.
Lemma special_xor c : special c = true -> Z.lxor c 32 <> 126 /\ Z.lxor (Z.lxor c 32) 32 = c.
Proof. unfold special. intros H. assert (c = 126 \/ c = 125 \/ c = 0) as [->|[->| ->]] by lia; cbn; split; auto; discriminate. Qed.

Lemma rx_body h l : forall s, rx_st s = ST_DATA -> zlen (msg_of s) + zlen l < rx_size s ->
  rx_run h s (flat_map esc l) = ([], mkrx (rx_size s) (match l with [] => rx_msg s | _ => Some (msg_of s ++ l) end) ST_DATA (rx_dlci s) (rx_ctrl s)).
Proof.
  induction l as [|c l IH]; intros s Hs Hl.
  { cbn. destruct s; cbn in *. now subst. }
  assert (Hl' : zlen (c :: l) = 1 + zlen l) by (unfold zlen; cbn [length]; lia). pose proof (zlen_nonneg l).
  cbn [flat_map]. rewrite rx_run_app. unfold esc at 1.
  assert (St : rx_run h s (esc c) = ([], mkrx (rx_size s) (Some (msg_of s ++ [c])) ST_DATA (rx_dlci s) (rx_ctrl s))).
  { unfold esc. destruct (special c) eqn:Es.
    - cbn [rx_run]. unfold osmo_sercomm_drv_rx_char at 1. fold (msg_of s). rewrite Hs. destruct (Z.eqb_spec (rx_size s - zlen (msg_of s)) 0); [lia|].
      change (125 =? HDLC_ESCAPE) with true. cbv iota. unfold osmo_sercomm_drv_rx_char. cbn [rx_msg rx_size rx_st rx_dlci rx_ctrl].
      destruct (Z.eqb_spec (rx_size s - zlen (msg_of s)) 0); [lia|]. cbn [rx_run app]. change (Z.shiftl 1 5) with 32.
      now rewrite (proj2 (special_xor c Es)).
    - cbn [rx_run]. unfold osmo_sercomm_drv_rx_char. fold (msg_of s). rewrite Hs. destruct (Z.eqb_spec (rx_size s - zlen (msg_of s)) 0); [lia|].
      unfold special in Es. unfold HDLC_ESCAPE, HDLC_FLAG. destruct (Z.eqb_spec c 125); [lia|]. destruct (Z.eqb_spec c 126); [lia|]. reflexivity. }
  fold (esc c). rewrite St. rewrite IH; cbn [rx_st rx_size rx_msg rx_dlci rx_ctrl msg_of]; auto.
  - cbn [app]. f_equal. f_equal. destruct l; auto. now rewrite <- app_assoc.
  - rewrite zlen_app. change (zlen [c]) with 1. lia.
Qed.

Definition in_sync (s : sc_rx) : Prop := rx_st s = WAIT_START /\ msg_of s = [].

Lemma special_esc c : special c = false -> esc c = [c].
Proof. unfold esc. now intros ->. Qed.

(* start flag, address, control, payload: nothing delivered yet *)
Lemma rx_frame h s m : in_sync s -> special (fst m) = false -> zlen (snd m) < rx_size s ->
  exists s1, rx_run h s (126 :: body m) = ([], s1) /\ rx_st s1 = ST_DATA /\ msg_of s1 = snd m /\ rx_dlci s1 = fst m /\ rx_size s1 = rx_size s.
Proof.
  intros [S1 S2] Hd Hl. pose proof (zlen_nonneg (snd m)). unfold body. cbn [flat_map]. rewrite (special_esc (fst m)) by auto.
  change (esc 3) with [3]. cbn [app rx_run].
  unfold osmo_sercomm_drv_rx_char at 1. fold (msg_of s). rewrite S1, S2. change (zlen []) with 0. destruct (Z.eqb_spec (rx_size s - 0) 0); [lia|].
  change (negb (126 =? HDLC_FLAG)) with false. cbv iota.
  unfold osmo_sercomm_drv_rx_char at 1. cbn [rx_msg rx_size rx_st rx_dlci rx_ctrl]. change (zlen []) with 0. destruct (Z.eqb_spec (rx_size s - 0) 0); [lia|].
  unfold osmo_sercomm_drv_rx_char at 1. cbn [rx_msg rx_size rx_st rx_dlci rx_ctrl]. change (zlen []) with 0. destruct (Z.eqb_spec (rx_size s - 0) 0); [lia|].
  rewrite rx_body by (cbn [rx_st msg_of rx_msg rx_size]; auto). cbn [app rx_msg rx_size rx_dlci rx_ctrl].
  eexists. split; [reflexivity|]. cbn [rx_st rx_dlci rx_size]. unfold msg_of. cbn [rx_msg]. destruct (snd m); auto.
Qed.

Definition heard (h : Z -> bool) (m : smsg) : bool := (fst m <? 129) && h (fst m).

Lemma rx_flag h s : rx_st s = ST_DATA -> zlen (msg_of s) < rx_size s ->
  osmo_sercomm_drv_rx_char h s 126 = (dispatch_rx_msg h (rx_dlci s) (msg_of s), mkrx (rx_size s) None WAIT_START (rx_dlci s) (rx_ctrl s)).
Proof.
  intros H1 H2. unfold osmo_sercomm_drv_rx_char. fold (msg_of s). rewrite H1. destruct (Z.eqb_spec (rx_size s - zlen (msg_of s)) 0); [lia|]. reflexivity.
Qed.

Lemma rx_wire h s m : in_sync s -> special (fst m) = false -> zlen (snd m) < rx_size s ->
  exists s', rx_run h s (wire m) = ((if heard h m then [m] else []), s') /\ in_sync s' /\ rx_size s' = rx_size s.
Proof.
  intros Hs Hd Hl. destruct (rx_frame h s m Hs Hd Hl) as (s1 & R & A & B & C & D).
  unfold wire. change (126 :: body m ++ [126]) with ((126 :: body m) ++ [126]). rewrite rx_run_app, R. cbn [rx_run].
  rewrite rx_flag; auto. 2:{ rewrite B, D. auto. }
  exists (mkrx (rx_size s1) None WAIT_START (rx_dlci s1) (rx_ctrl s1)). split. 2:{ split; [split; reflexivity|]. cbn. auto. }
  cbn [app]. rewrite app_nil_r, B, C. f_equal. unfold dispatch_rx_msg, heard, DLCI_MAX. destruct m as [d p]; cbn [fst snd].
  destruct (Z.leb_spec 129 d); destruct (Z.ltb_spec d 129); try lia; cbn; auto. destruct (h d); auto.
Qed.

Lemma rx_wires h ms : forall s, in_sync s -> Forall (fun m => special (fst m) = false /\ zlen (snd m) < rx_size s) ms ->
  exists s', rx_run h s (concat (map wire ms)) = (filter (heard h) ms, s') /\ in_sync s' /\ rx_size s' = rx_size s.
Proof.
  induction ms as [|m ms IH]; intros s Hs F. { cbn. eauto. }
  inversion F as [|? ? [F1 F2] F']; subst. destruct (rx_wire h s m Hs F1 F2) as (s1 & R & S1 & Z1).
  destruct (IH s1 S1) as (s2 & R2 & S2 & Z2). { rewrite Z1. auto. }
  exists s2. cbn [map concat]. rewrite rx_run_app, R, R2. split; [|split; [auto|congruence]]. cbn [filter]. now destruct (heard h m).
Qed.

(* an unfinished frame delivers nothing *)
Lemma rx_prefix h s m tail rest : in_sync s -> special (fst m) = false -> zlen (snd m) < rx_size s -> wire m = tail ++ rest -> rest <> [] ->
  fst (rx_run h s tail) = [].
Proof.
  intros Hs Hd Hl W Ne. destruct (rx_frame h s m Hs Hd Hl) as (s1 & R & _).
  assert (exists r', 126 :: body m = tail ++ r') as (r' & E).
  { destruct (exists_last Ne) as (r' & x & ->). exists r'. unfold wire in W. change (126 :: body m ++ [126]) with ((126 :: body m) ++ [126]) in W.
    rewrite app_assoc in W. apply app_inj_tail in W. tauto. }
  rewrite E, rx_run_app in R. destruct (rx_run h s tail) as [d1 t1]. destruct (rx_run h t1 r') as [d2 t2]. injection R as R _. cbn. destruct d1; auto. discriminate.
Qed.

(* ---- resynchronisation ---- *)
Definition Irx (s : sc_rx) : Prop := 0 < rx_size s /\ zlen (msg_of s) <= rx_size s /\
  match rx_st s with WAIT_START | ST_ADDR | ST_CTRL => msg_of s = [] | _ => True end.

Lemma Irx_step h s c : Irx s -> Irx (snd (osmo_sercomm_drv_rx_char h s c)) /\ rx_size (snd (osmo_sercomm_drv_rx_char h s c)) = rx_size s.
Proof.
  intros (I1 & I2 & I3). unfold osmo_sercomm_drv_rx_char. fold (msg_of s). unfold Irx.
  destruct (Z.eqb_spec (rx_size s - zlen (msg_of s)) 0). { cbn. split; auto. split; auto. split; [unfold zlen; cbn; lia|auto]. }
  destruct (rx_st s); cbn [snd].
  - destruct (negb (c =? HDLC_FLAG)); cbn; rewrite I3 in *; repeat split; auto.
  - cbn; rewrite I3 in *; repeat split; auto.
  - cbn; rewrite I3 in *; repeat split; auto.
  - destruct (c =? HDLC_ESCAPE); [cbn; repeat split; auto|]. destruct (c =? HDLC_FLAG); cbn; repeat split; auto. { unfold zlen; cbn; lia. }
    rewrite zlen_app. change (zlen [c]) with 1. lia.
  - cbn. repeat split; auto. rewrite zlen_app. change (zlen [_]) with 1. lia.
Qed.
Lemma Irx_run h cs : forall s, Irx s -> Irx (snd (rx_run h s cs)) /\ rx_size (snd (rx_run h s cs)) = rx_size s.
Proof.
  induction cs as [|c cs IH]; intros s H; cbn [rx_run]. { auto. }
  destruct (Irx_step h s c H) as [A B]. destruct (osmo_sercomm_drv_rx_char h s c) as [d s1]. cbn [snd] in *.
  destruct (IH s1 A) as [C D]. destruct (rx_run h s1 cs) as [ds s2]. cbn [snd] in *. split; auto. congruence.
Qed.

(* octets other than the flag do nothing while waiting for a start *)
Lemma rx_wait h cs : forall s, in_sync s -> 0 < rx_size s -> ~ In 126 cs -> let '(d, s') := rx_run h s cs in d = [] /\ in_sync s' /\ rx_size s' = rx_size s.
Proof.
  induction cs as [|c cs IH]; intros s Hs Hz H; cbn [rx_run]. { auto. }
  destruct Hs as [S1 S2]. unfold osmo_sercomm_drv_rx_char. fold (msg_of s). rewrite S1, S2. change (zlen []) with 0. destruct (Z.eqb_spec (rx_size s - 0) 0); [lia|].
  destruct (Z.eqb_spec c HDLC_FLAG). { exfalso. apply H. left. auto. } cbn [negb].
  match goal with |- context [rx_run h ?x cs] => specialize (IH x) end.
  cbn [rx_size] in IH. destruct (rx_run h _ cs) as [ds s2]. apply IH; auto. { split; reflexivity. } intros X; apply H; now right.
Qed.

Lemma esc_no_flag c : ~ In 126 (esc c).
Proof.
  unfold esc. destruct (special c) eqn:E; [apply special_xor in E as [E _]; intros [X|[X|[]]]; [discriminate|congruence]|].
  unfold special in E. intros [X|[]]. lia.
Qed.
Lemma body_no_flag l : ~ In 126 (flat_map esc l).
Proof. intros H. apply in_flat_map in H as (x & _ & H). now apply esc_no_flag in H. Qed.

(* in the data state an escaped body leads back to the data state, or the buffer overflows *)
Lemma rx_data_any h l : forall s, Irx s -> rx_st s = ST_DATA ->
  rx_st (snd (rx_run h s (flat_map esc l))) = ST_DATA \/ in_sync (snd (rx_run h s (flat_map esc l))).
Proof.
  induction l as [|c l IH]; intros s I Hs. { left. exact Hs. }
  cbn [flat_map]. rewrite rx_run_app.
  assert (X : rx_st (snd (rx_run h s (esc c))) = ST_DATA \/ in_sync (snd (rx_run h s (esc c)))).
  { destruct (Z.eqb_spec (rx_size s - zlen (msg_of s)) 0) as [E|E].
    - right. unfold esc.
      assert (W : osmo_sercomm_drv_rx_char h s (if special c then 125 else c) = ([], mkrx (rx_size s) (Some []) WAIT_START (rx_dlci s) (rx_ctrl s))).
      { unfold osmo_sercomm_drv_rx_char. fold (msg_of s). destruct (Z.eqb_spec (rx_size s - zlen (msg_of s)) 0); [|lia]. reflexivity. }
      assert (Y : exists r, (if special c then [125; Z.lxor c 32] else [c]) = (if special c then 125 else c) :: r /\ ~ In 126 r).
      { destruct (special c) eqn:Es; [|exists []; auto]. exists [Z.lxor c 32]. split; auto. apply special_xor in Es as [Es _]. intros [Q|[]]; auto. }
      destruct Y as (r & -> & Nr). cbn [rx_run]. rewrite W.
      pose proof (rx_wait h r (mkrx (rx_size s) (Some []) WAIT_START (rx_dlci s) (rx_ctrl s)) ltac:(split; reflexivity) (proj1 I) Nr) as V.
      destruct (rx_run h _ r) as [d2 s2]. cbn [snd]. tauto.
    - unfold esc. destruct (special c) eqn:Es; cbn [rx_run].
      + unfold osmo_sercomm_drv_rx_char at 1. fold (msg_of s). destruct (Z.eqb_spec (rx_size s - zlen (msg_of s)) 0); [lia|]. rewrite Hs.
        change (125 =? HDLC_ESCAPE) with true. cbv iota. unfold osmo_sercomm_drv_rx_char. cbn [rx_msg rx_size rx_st].
        destruct (Z.eqb_spec (rx_size s - zlen (msg_of s)) 0); [lia|]. left. reflexivity.
      + unfold osmo_sercomm_drv_rx_char at 1. fold (msg_of s). destruct (Z.eqb_spec (rx_size s - zlen (msg_of s)) 0); [lia|]. rewrite Hs.
        unfold special in Es. unfold HDLC_ESCAPE, HDLC_FLAG. destruct (Z.eqb_spec c 125); [lia|]. destruct (Z.eqb_spec c 126); [lia|]. left. reflexivity. }
  destruct (Irx_run h (esc c) s I) as [I1 Z1]. destruct (rx_run h s (esc c)) as [d1 s1]. cbn [snd] in *.
  destruct X as [X|X].
  - specialize (IH s1 I1 X). destruct (rx_run h s1 (flat_map esc l)) as [d2 s2]. exact IH.
  - pose proof (rx_wait h (flat_map esc l) s1 X (proj1 I1) (body_no_flag l)) as V. destruct (rx_run h s1 (flat_map esc l)) as [d2 s2]. cbn [snd]. right. tauto.
Qed.

Lemma flag_wait h s : in_sync s -> 0 < rx_size s -> rx_st (snd (osmo_sercomm_drv_rx_char h s 126)) = ST_ADDR.
Proof.
  intros [S1 S2] Hz. unfold osmo_sercomm_drv_rx_char. fold (msg_of s). rewrite S1, S2. change (zlen []) with 0. destruct (Z.eqb_spec (rx_size s - 0) 0); [lia|]. reflexivity.
Qed.
Lemma flag_data h s : Irx s -> rx_st s = ST_DATA -> in_sync (snd (osmo_sercomm_drv_rx_char h s 126)).
Proof.
  intros I Hs. unfold osmo_sercomm_drv_rx_char. fold (msg_of s). rewrite Hs. destruct (rx_size s - zlen (msg_of s) =? 0); split; reflexivity.
Qed.

Definition settled (s : sc_rx) : Prop := in_sync s \/ (rx_st s = ST_ADDR /\ msg_of s = []).

Lemma rx_one h s c : rx_run h s [c] = let '(d, s1) := osmo_sercomm_drv_rx_char h s c in (d, s1).
Proof. cbn [rx_run]. destruct (osmo_sercomm_drv_rx_char h s c). now rewrite app_nil_r. Qed.

Lemma snd_run_app h s a b : snd (rx_run h s (a ++ b)) = snd (rx_run h (snd (rx_run h s a)) b).
Proof. rewrite rx_run_app. destruct (rx_run h s a) as [d1 s1]. cbn [snd]. destruct (rx_run h s1 b). reflexivity. Qed.
Lemma snd_run_cons h s c b : snd (rx_run h s (c :: b)) = snd (rx_run h (snd (osmo_sercomm_drv_rx_char h s c)) b).
Proof. cbn [rx_run]. destruct (osmo_sercomm_drv_rx_char h s c) as [d s1]. cbn [snd]. destruct (rx_run h s1 b). reflexivity. Qed.

Lemma end_flag h s : Irx s -> rx_st s = ST_DATA \/ in_sync s -> settled (snd (rx_run h s [126])).
Proof.
  intros I [H|H]; rewrite rx_one.
  - pose proof (flag_data h s I H). destruct (osmo_sercomm_drv_rx_char h s 126). now left.
  - pose proof (flag_wait h s H (proj1 I)) as F. destruct (Irx_step h s 126 I) as [(_ & _ & I2) _].
    destruct (osmo_sercomm_drv_rx_char h s 126) as [d s1]. cbn [snd] in *. rewrite F in I2. right. auto.
Qed.

(* the states that take one octet without looking at it *)
Lemma step_addr h s c : rx_st s = ST_ADDR -> Irx s -> rx_st (snd (osmo_sercomm_drv_rx_char h s c)) = ST_CTRL.
Proof.
  intros Hs (I1 & I2 & I3). unfold osmo_sercomm_drv_rx_char. fold (msg_of s). rewrite Hs in *. rewrite I3. change (zlen []) with 0.
  destruct (Z.eqb_spec (rx_size s - 0) 0); [lia|]. reflexivity.
Qed.
Lemma step_ctrl h s c : rx_st s = ST_CTRL -> Irx s -> rx_st (snd (osmo_sercomm_drv_rx_char h s c)) = ST_DATA /\ msg_of (snd (osmo_sercomm_drv_rx_char h s c)) = [].
Proof.
  intros Hs (I1 & I2 & I3). unfold osmo_sercomm_drv_rx_char. fold (msg_of s). rewrite Hs in *. rewrite I3. change (zlen []) with 0.
  destruct (Z.eqb_spec (rx_size s - 0) 0); [lia|]. auto.
Qed.

Lemma body_eq m : special (fst m) = false -> body m = fst m :: 3 :: flat_map esc (snd m).
Proof. intros H. unfold body. cbn [flat_map]. now rewrite (special_esc (fst m)). Qed.

Lemma settle1 h s m : Irx s -> special (fst m) = false -> settled (snd (rx_run h s (wire m))).
Proof.
  intros I Hd. unfold wire. change (126 :: body m ++ [126]) with ((126 :: body m) ++ [126]). rewrite snd_run_app.
  apply end_flag. { now apply Irx_run. }
  rewrite snd_run_cons. destruct (Irx_step h s 126 I) as [I1 Z1].
  set (s1 := snd (osmo_sercomm_drv_rx_char h s 126)) in *.
  assert (Cases : in_sync s1 \/ rx_st s1 = ST_ADDR \/ rx_st s1 = ST_CTRL \/ rx_st s1 = ST_DATA).
  { unfold s1, osmo_sercomm_drv_rx_char. fold (msg_of s). destruct (rx_size s - zlen (msg_of s) =? 0); [left; split; reflexivity|].
    destruct (rx_st s); cbn; auto. left; split; reflexivity. }
  destruct Cases as [C|[C|[C|C]]].
  - pose proof (rx_wait h (body m) s1 C (proj1 I1) ltac:(apply body_no_flag)) as W. destruct (rx_run h s1 (body m)). cbn [snd]. right. tauto.
  - rewrite body_eq by auto. rewrite !snd_run_cons. destruct (Irx_step h s1 (fst m) I1) as [I2 _]. pose proof (step_addr h s1 (fst m) C I1) as C2.
    destruct (Irx_step h _ 3 I2) as [I3 _]. destruct (step_ctrl h _ 3 C2 I2) as [C3 _]. apply rx_data_any; auto.
  - rewrite body_eq by auto. rewrite !snd_run_cons. destruct (Irx_step h s1 (fst m) I1) as [I2 _]. destruct (step_ctrl h s1 (fst m) C I1) as [C2 _].
    rewrite <- snd_run_cons. change (3 :: flat_map esc (snd m)) with (flat_map esc (3 :: snd m)). apply rx_data_any; auto.
  - unfold body. apply rx_data_any; auto.
Qed.

Lemma settle2 h s m : Irx s -> settled s -> special (fst m) = false -> zlen (snd m) + 2 <= rx_size s -> in_sync (snd (rx_run h s (wire m))).
Proof.
  intros I Hs Hd Hl. destruct Hs as [Hs|[H1 H2]].
  - destruct (rx_wire h s m Hs Hd ltac:(lia)) as (s' & -> & S' & _). exact S'.
  - unfold wire. change (126 :: body m ++ [126]) with ((126 :: body m) ++ [126]). rewrite body_eq by auto. rewrite snd_run_app, (snd_run_cons h s 126), (snd_run_cons h _ (fst m)).
    destruct (Irx_step h s 126 I) as [I1 Z1]. pose proof (step_addr h s 126 H1 I) as C1.
    set (s1 := snd (osmo_sercomm_drv_rx_char h s 126)) in *.
    destruct (Irx_step h s1 (fst m) I1) as [I2 Z2]. destruct (step_ctrl h s1 (fst m) C1 I1) as [C2 M2].
    set (s2 := snd (osmo_sercomm_drv_rx_char h s1 (fst m))) in *.
    change (3 :: flat_map esc (snd m)) with (flat_map esc (3 :: snd m)).
    assert (L3 : zlen (3 :: snd m) = 1 + zlen (snd m)) by (unfold zlen; cbn [length]; lia).
    assert (R : zlen (msg_of s2) + zlen (3 :: snd m) < rx_size s2) by (rewrite M2, Z2, Z1; change (zlen []) with 0; lia).
    rewrite (rx_body h (3 :: snd m) s2 C2 R). cbn [snd]. rewrite rx_one.
    match goal with |- in_sync (snd (let '(_, _) := ?x in _)) => pose proof (flag_data h) as FD; destruct x eqn:Ex end. cbn [snd].
    specialize (FD (mkrx (rx_size s2) (Some (msg_of s2 ++ 3 :: snd m)) ST_DATA (rx_dlci s2) (rx_ctrl s2))). rewrite Ex in FD. apply FD; auto.
    split; [apply I2|]. cbn [rx_size rx_st msg_of rx_msg]. split; auto. rewrite zlen_app. lia.
Qed.

(* ---- nothing is lost: everything sent is completed after enough pulls ---- *)
From Coq Require Import Permutation.
Definition sends (ops : list scop) : list smsg := flat_map (fun o => match o with Send m => [m] | Pull => [] end) ops.
Definition cur_m (s : sstate) : list smsg := match s_cur s with Some (m, _) => [m] | None => [] end.
Definition cur_ok (s : sstate) : Prop := match s_cur s with Some (_, r) => r <> [] | None => True end.

Lemma take_dlci_perm d l : forall m r, take_dlci d l = Some (m, r) -> Permutation l (m :: r).
Proof.
  induction l as [|x l IH]; intros m r H; cbn [take_dlci] in H; [discriminate|]. destruct (fst x =? d). { injection H as <- <-. apply Permutation_refl. }
  destruct (take_dlci d l) as [[y r']|] eqn:E; [|discriminate]. injection H as <- <-. specialize (IH _ _ eq_refl).
  eapply perm_trans; [apply perm_skip; eauto|]. apply perm_swap.
Qed.
Lemma pick_perm l m r : pick l = Some (m, r) -> Permutation l (m :: r).
Proof. unfold pick. destruct (lowest l); [|discriminate]. apply take_dlci_perm. Qed.
Lemma pick_none l : pick l = None -> l = [].
Proof.
  unfold pick. destruct (lowest l) as [d|] eqn:L; intros H; [|now apply lowest_none].
  apply lowest_some in L as [X _]. destruct (take_dlci_spec d l X) as (m & r & T & _). congruence.
Qed.

Definition todo (s : sstate) : nat := (list_sum (map (fun m => length (wire m)) (s_wait s)) + match s_cur s with Some (_, r) => length r | None => 0 end)%nat.

Lemma s_pull_spec s : cur_ok s -> let '(_, dn, s') := s_pull s in
  cur_ok s' /\ Permutation (cur_m s ++ s_wait s) (dn ++ cur_m s' ++ s_wait s') /\ todo s' = pred (todo s).
Proof.
  intros H. unfold s_pull, cur_ok, cur_m, todo in *. destruct (s_cur s) as [[m rest]|] eqn:Ec.
  - destruct rest as [|c [|c2 r]]; [congruence| |].
    + cbn [s_cur s_wait app]. split; auto. split; [apply Permutation_refl|]. cbn [length]. lia.
    + cbn [s_cur s_wait app]. split; [discriminate|]. split; [apply Permutation_refl|]. cbn [length]. lia.
  - destruct (pick (s_wait s)) as [[m w]|] eqn:Ep.
    + pose proof (pick_perm _ _ _ Ep) as P. unfold wire. destruct (body m ++ [126]) as [|z zs] eqn:Ez; [now destruct (body m)|].
      cbn [s_cur s_wait app]. split; [discriminate|]. split; auto.
      assert (E : list_sum (map (fun m0 => length (126 :: body m0 ++ [126])) (s_wait s)) =
                  list_sum (map (fun m0 => length (126 :: body m0 ++ [126])) (m :: w))).
      { clear - P. unfold list_sum. induction P; cbn [map fold_right] in *; auto; lia. }
      rewrite E. cbn [map list_sum fold_right length]. rewrite Ez. cbn [length]. fold list_sum. unfold list_sum. lia.
    + apply pick_none in Ep. rewrite Ep, Ec. cbn. auto.
Qed.

Lemma s_conserve ops : forall s, cur_ok s -> cur_ok (s_end s ops) /\
  Permutation (sends ops ++ cur_m s ++ s_wait s) (snd (s_run s ops) ++ cur_m (s_end s ops) ++ s_wait (s_end s ops)).
Proof.
  induction ops as [|[m|] ops IH]; intros s H; cbn [s_run s_end sends flat_map].
  - split; auto using Permutation_refl.
  - destruct (IH (mkss (s_wait s ++ [m]) (s_cur s)) H) as [A B]. split; auto. rewrite <- B. unfold cur_m. cbn [s_cur s_wait]. fold (sends ops).
    cbn [app]. rewrite !app_assoc. apply Permutation_cons_append.
  - pose proof (s_pull_spec s H) as P. destruct (s_pull s) as [[o dn] s'] eqn:E. destruct P as (P1 & P2 & _). cbn [snd].
    destruct (IH s' P1) as [A B]. split; auto. destruct (s_run s' ops) as [os ds]. cbn [snd] in *. cbn [app]. fold (sends ops).
    rewrite P2, <- app_assoc. rewrite <- B. rewrite !app_assoc. apply Permutation_app_tail. apply Permutation_app_tail. apply Permutation_app_comm.
Qed.

Lemma s_run_app ops1 : forall s ops2, s_run s (ops1 ++ ops2) =
  (fst (s_run s ops1) ++ fst (s_run (s_end s ops1) ops2), snd (s_run s ops1) ++ snd (s_run (s_end s ops1) ops2)).
Proof.
  induction ops1 as [|[m|] ops1 IH]; intros s ops2; cbn [app s_run s_end]. { cbn. now destruct (s_run s ops2). }
  { apply IH. }
  destruct (s_pull s) as [[o dn] s']. cbn [snd]. rewrite IH. destruct (s_run s' ops1). cbn [fst snd]. now rewrite !app_assoc.
Qed.
Lemma s_end_app a : forall s b, s_end s (a ++ b) = s_end (s_end s a) b.
Proof. induction a as [|[m|] a IH]; intros; cbn [app s_end]; auto. Qed.

Lemma s_drain n : forall s, cur_ok s -> (todo s <= n)%nat -> todo (s_end s (repeat Pull n)) = 0%nat /\ cur_ok (s_end s (repeat Pull n)).
Proof.
  induction n as [|n IH]; intros s H L; cbn [repeat s_end]. { split; auto. lia. }
  pose proof (s_pull_spec s H) as P. destruct (s_pull s) as [[o dn] s']. destruct P as (P1 & _ & P3). cbn [snd]. apply IH; auto. lia.
Qed.
Lemma todo0 s : cur_ok s -> todo s = 0%nat -> s_wait s = [] /\ s_cur s = None.
Proof.
  unfold cur_ok, todo. intros H E. destruct (s_cur s) as [[m r]|]. { destruct r; [congruence|cbn in E; lia]. }
  destruct (s_wait s) as [|m w]; auto. cbn in E. lia.
Qed.

Lemma s_all_sent ops : exists n, Permutation (sends ops) (snd (s_run s_init (ops ++ repeat Pull n))).
Proof.
  destruct (s_conserve ops s_init I) as [C _]. exists (todo (s_end s_init ops)).
  destruct (s_drain (todo (s_end s_init ops)) (s_end s_init ops) C (le_n _)) as [D1 D2].
  destruct (s_conserve (ops ++ repeat Pull (todo (s_end s_init ops))) s_init I) as [_ P].
  rewrite s_end_app in P. destruct (todo0 _ D2 D1) as [E1 E2]. unfold cur_m in P. rewrite E1, E2 in P. cbn [app s_init s_cur s_wait] in P. rewrite !app_nil_r in P.
  rewrite <- P. unfold sends. rewrite flat_map_app. generalize (todo (s_end s_init ops)). intros n.
  replace (flat_map (fun o : scop => match o with Send m => [m] | Pull => [] end) (repeat Pull n)) with (@nil smsg). { now rewrite app_nil_r. }
  induction n; cbn; auto.
Qed.
