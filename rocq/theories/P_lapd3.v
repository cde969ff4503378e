(* Runs in which no frame is lost and no timer expires: everything handed over gets through. *)
From Coq Require Import ZArith List Lia Bool.
From Verif Require Import Base M_lapd P_lapd P_lapd2.
Import ListNotations.
Local Open Scope Z_scope.
Ltac Zify.zify_post_hook ::= idtac.

Definition isI (f : frame) : bool := match f_fmt f with FmtI => true | _ => false end.

(* the I frames in c are numbered consecutively from v *)
Fixpoint numbered (M v : Z) (c : list frame) : Prop :=
  match c with
  | [] => True
  | f :: c' => if isI f then f_ns f = v /\ numbered M (inc_mod v M) c' else numbered M v c'
  end.
Fixpoint nxt (M v : Z) (c : list frame) : Z :=
  match c with
  | [] => v
  | f :: c' => nxt M (if isI f then inc_mod v M else v) c'
  end.
(* the N(R) of the last frame in c *)
Fixpoint lastnr (v : Z) (c : list frame) : Z :=
  match c with [] => v | f :: c' => lastnr (f_nr f) c' end.

Lemma numbered_app M c1 c2 : forall v, numbered M v (c1 ++ c2) <-> numbered M v c1 /\ numbered M (nxt M v c1) c2.
Proof.
  induction c1 as [|f c1 IH]; intros v; cbn [numbered nxt app]; [tauto|].
  destruct (isI f); rewrite IH; tauto.
Qed.
Lemma nxt_app M c1 c2 : forall v, nxt M v (c1 ++ c2) = nxt M (nxt M v c1) c2.
Proof. induction c1 as [|f c1 IH]; intros v; cbn [nxt app]; auto. Qed.
Lemma lastnr_app c1 c2 : forall v, lastnr v (c1 ++ c2) = lastnr (lastnr v c1) c2.
Proof. induction c1 as [|f c1 IH]; intros v; cbn [lastnr app]; auto. Qed.
Lemma lastnr_all n c : Forall (fun f => f_nr f = n) c -> forall v, v = n \/ c <> [] -> lastnr v c = n.
Proof.
  induction 1; intros v H1; cbn [lastnr].
  - destruct H1; congruence.
  - apply IHForall. auto.
Qed.

(* frames a loss-free link carries *)
Definition plain (f : frame) : Prop :=
  f_pf f = false /\ (f_fmt f = FmtI \/ (f_fmt f = FmtS /\ f_su f = LAPD_S_RR)).

(* nothing more can be sent now: the window is full, or there is nothing left *)
Definition sat (d : ldl) : Prop :=
  d_vs d = add_mod (d_va d) (c_k (d_cfg d)) (c_vrange (d_cfg d)) \/
  (d_squeue d = [] /\ match d_sbuf d with Some m => d_sout d = zlen m | None => True end).

Lemma sent_same' d : let d' := sent_i d in d_peer_busy d' = d_peer_busy d /\
  d_vs d' = inc_mod (d_vs d) (c_vrange (d_cfg d)) /\ d_va d' = d_va d /\ d_cfg d' = d_cfg d /\ d_st d' = d_st d /\ d_vr d' = d_vr d.
Proof. unfold sent_i. cbv zeta. cbn [set_vs d_t200]. destruct (d_t200 d); repeat split; reflexivity. Qed.

Lemma get_msg_none q b q' : get_msg q = (b, q') -> b = None -> q' = [].
Proof.
  induction q as [|m q IH]; cbn [get_msg]; intros E H.
  - congruence.
  - destruct (zlen m =? 0); auto. congruence.
Qed.
Lemma load_none d so q : load_msg d = (None, so, q) -> q = [].
Proof.
  unfold load_msg. destruct (d_sbuf d) as [m|].
  - destruct (zlen m - d_sout d =? 0); [|congruence]. destruct (get_msg (d_squeue d)) as [b q'] eqn:E.
    intros X. injection X as -> <- <-. eapply get_msg_none; eauto.
  - destruct (get_msg (d_squeue d)) as [b q'] eqn:E. intros X. injection X as -> <- <-. eapply get_msg_none; eauto.
Qed.

Definition outI (d : ldl) (f : frame) : Prop := f_fmt f = FmtI /\ f_pf f = false /\ f_nr f = d_vr d.

Lemma send_loop_ll : forall n d rc d' rc' os, cok (d_cfg d) -> d_peer_busy d = false -> d_st d = L_MF_EST ->
  add_mod (d_va d) (c_k (d_cfg d)) (c_vrange (d_cfg d)) = (d_vs d + Z.of_nat n) mod c_vrange (d_cfg d) ->
  d_vs d = d_vs d mod c_vrange (d_cfg d) ->
  send_i_loop n d rc = (d', rc', os) ->
  sat d' /\ (length os <= n)%nat /\
  os = map OFrame (frames_of os) /\
  (os = [] -> rc' = rc /\ d_t200 d' = d_t200 d /\ d_vs d' = d_vs d) /\
  (os <> [] -> rc' = 0) /\ numbered (c_vrange (d_cfg d)) (d_vs d) (frames_of os) /\
  nxt (c_vrange (d_cfg d)) (d_vs d) (frames_of os) = d_vs d' /\ Forall (outI d) (frames_of os).
Proof.
  induction n as [|n IH]; intros d rc d' rc' os K PB St HA HV E; cbn [send_i_loop] in E.
  - injection E as <- <- <-. cbn [frames_of map concat numbered nxt].
    split. { left. rewrite HA, Z.add_0_r. auto. }
    repeat split; auto; try congruence; constructor.
  - rewrite PB, St in E. cbn [st_eqb] in E.
    destruct (Z.eqb_spec (d_vs d) (add_mod (d_va d) (c_k (d_cfg d)) (c_vrange (d_cfg d)))) as [EV|EV].
    { injection E as <- <- <-. cbn [frames_of map concat numbered nxt]. split; [left; auto|].
      repeat split; auto; try congruence; try constructor; cbn [length]; try lia. }
    assert (STEP : forall dd o data more, d_cfg dd = d_cfg d -> d_peer_busy dd = d_peer_busy d -> d_st dd = d_st d ->
       d_va dd = d_va d -> d_vs dd = d_vs d -> d_vr dd = d_vr d -> o = mk_iframe d false (d_vs d) data more ->
       (let '(d2, rc2, os) := send_i_loop n (sent_i dd) 0 in (d2, rc2, o :: os)) = (d', rc', os) ->
       sat d' /\ (length os <= S n)%nat /\ os = map OFrame (frames_of os) /\
       (os = [] -> rc' = rc /\ d_t200 d' = d_t200 d /\ d_vs d' = d_vs d) /\
       (os <> [] -> rc' = 0) /\ numbered (c_vrange (d_cfg d)) (d_vs d) (frames_of os) /\
       nxt (c_vrange (d_cfg d)) (d_vs d) (frames_of os) = d_vs d' /\ Forall (outI d) (frames_of os)).
    { intros dd o data more C1 C2 C3 C4 C5 C6 Ho EE.
      destruct (send_i_loop n (sent_i dd) 0) as [[d2 rc2] os2] eqn:E2. injection EE as <- <- <-.
      destruct (sent_same' dd) as (S1 & S2 & S3 & S4 & S5 & S6). pose proof (M_bound _ K) as MB.
      destruct (IH (sent_i dd) 0 d2 rc2 os2) as (I1 & I2 & I3 & I4 & I5 & I6 & I7 & I8); auto; try congruence.
      { rewrite S4, S3, C4, C1, HA, S2, C5, C1, inc_mod_M by auto. rewrite Zplus_mod_idemp_l. f_equal. lia. }
      { rewrite S4, C1, S2, C1, inc_mod_M by auto. rewrite Z.mod_mod by lia. auto. }
      rewrite S4, C1, S2, C5, C1 in I6, I7.
      assert (FO : frames_of (o :: os2) = mkFrame (loc_cmd d) FmtI 0 false (d_vs d) (d_vr d) more data :: frames_of os2).
      { rewrite Ho. reflexivity. }
      rewrite FO. cbn [map numbered nxt isI f_fmt f_ns]. split; auto.
      split; [cbn [length]; lia|]. split; [rewrite <- I3; rewrite Ho; reflexivity|]. split; [discriminate|].
      split. { intros _. destruct os2; [apply I4; auto|apply I5; discriminate]. }
      split; auto. split; auto. constructor; [repeat split; auto|].
      eapply Forall_impl; [|exact I8]. intros f (A & B & C). repeat split; auto. congruence. }
    destruct (d_hist d (do_mod (d_vs d) (c_rhist (d_cfg d)))) as [[data more]|] eqn:EH.
    + refine (STEP d _ data more _ _ _ _ _ _ _ E); reflexivity.
    + destruct (load_msg d) as [[b so] q] eqn:EL. destruct b as [m|].
      * cbv zeta in E.
        refine (STEP _ _ _ _ _ _ _ _ _ _ _ E); reflexivity.
      * injection E as <- <- <-. apply load_none in EL. subst q. cbn [frames_of map concat numbered nxt].
        split; [right; split; reflexivity|]. repeat split; auto; try congruence; try constructor; cbn [length]; try lia.
Qed.

(* the state of one end between two events *)
Record calm (d : ldl) : Prop := {
  ca_st : d_st d = L_MF_EST; ca_seq : d_seq_err d = 0; ca_sat : sat d; ca_t200 : d_va d = d_vs d -> d_t200 d = false }.

Definition nI (c : list frame) : Z := zlen (filter isI c).
Lemma nI_app a b : nI (a ++ b) = nI a + nI b.
Proof. unfold nI. rewrite filter_app, zlen_app. auto. Qed.

(* what an event at an end does: frames numbered on from V(S), x further segments taken over from layer 3 *)
Record eff (d d' : ldl) (os : list lout) (x : Z) : Prop := {
  ef_num : numbered (c_vrange (d_cfg d)) (d_vs d) (frames_of os);
  ef_nxt : nxt (c_vrange (d_cfg d)) (d_vs d) (frames_of os) = d_vs d';
  ef_plain : Forall plain (frames_of os);
  ef_err : errs_of os = [];
  ef_rest : zlen (rest d') + nI (frames_of os) = zlen (rest d) + x }.

Lemma outI_plain d l : Forall (outI d) l -> Forall plain l.
Proof. intros F. eapply Forall_impl; [|exact F]. intros f (A & B & _). split; auto. Qed.
Lemma outI_nI d l : Forall (outI d) l -> nI l = zlen l.
Proof.
  unfold nI. induction 1; cbn [filter]; auto. destruct H as (A & _). unfold isI at 1. rewrite A. rewrite !zlen_cons. lia.
Qed.
Lemma nxt_out M d l : 0 < M -> (forall x, inc_mod x M = (x + 1) mod M) -> Forall (outI d) l ->
  forall v, v = v mod M -> nxt M v l = (v + zlen l) mod M.
Proof.
  intros HM HI F. induction F; intros v Hv; cbn [nxt].
  - change (zlen (@nil frame)) with 0. rewrite Z.add_0_r. auto.
  - destruct H as (A & _). unfold isI. rewrite A. rewrite HI, IHF by (rewrite Z.mod_mod by lia; auto).
    rewrite zlen_cons, Zplus_mod_idemp_l. f_equal. lia.
Qed.

Lemma zlen_map {A B} (g : A -> B) l : zlen (map g l) = zlen l.
Proof. unfold zlen. rewrite map_length. auto. Qed.

(* lapd_send_i on an established link *)
Lemma send_ll d sub P VA : Snd d sub P VA (zlen P) -> d_st d = L_MF_EST -> (VA < zlen P -> d_t200 d = true) ->
  forall d' rc os, lapd_send_i d = (d', rc, os) ->
  exists P', Snd d' sub (P ++ P') VA (zlen (P ++ P')) /\ settled d' (P ++ P') VA (zlen (P ++ P')) /\ same d d' /\ sat d' /\
    eff d d' os 0 /\ Forall (outI d) (frames_of os) /\ (os = [] -> rc = -1) /\ (os <> [] -> rc = 0) /\
    datas_of os = [] /\ ((d_va d = d_vs d -> d_t200 d = false) -> d_va d' = d_vs d' -> d_t200 d' = false) /\
    (frames_of os = [] -> os = []).
Proof.
  intros S St T d' rc os E. pose proof (sn_ok _ _ _ _ _ S) as K. pose proof (sn_rng _ _ _ _ _ S) as R0.
  pose proof (sn_win _ _ _ _ _ S) as W0. pose proof (k_lt_M _ K) as KM. pose proof (M_bound _ K) as MB.
  destruct (send_i_est d sub P VA (zlen P) S St ltac:(lia) T) as (d1 & rc1 & os1 & P' & E1 & S1 & G1 & SM & F1 & D1 & R1).
  rewrite E in E1. injection E1 as <- <- <-.
  pose proof (send_i_rounds_spec d sub P VA (zlen P) S ltac:(lia)) as RS.
  unfold lapd_send_i in E.
  assert (AA : add_mod (d_va d) (c_k (d_cfg d)) (c_vrange (d_cfg d)) = (d_vs d + Z.of_nat (send_i_rounds d)) mod c_vrange (d_cfg d)).
  { rewrite RS, (sn_va _ _ _ _ _ S), (sn_vs _ _ _ _ _ S), add_abs by auto. rewrite Zplus_mod_idemp_l. f_equal. lia. }
  assert (BB : d_vs d = d_vs d mod c_vrange (d_cfg d)).
  { rewrite (sn_vs _ _ _ _ _ S). rewrite Z.mod_mod by lia. auto. }
  destruct (send_loop_ll _ _ _ _ _ _ K (sn_peer _ _ _ _ _ S) St AA BB E) as (L1 & L2 & L3 & L4 & L5 & L6 & L7 & L8).
  assert (LEN : zlen (frames_of os) = zlen P').
  { assert (X := L7). rewrite (nxt_out _ d) in X by (auto; try lia; intros; apply inc_mod_M; auto).
    rewrite (sn_vs _ _ _ _ _ S1), (sn_vs _ _ _ _ _ S), (sm_cfg _ _ SM), zlen_app, Zplus_mod_idemp_l in X.
    pose proof (sn_win _ _ _ _ _ S1) as W1. rewrite (sm_cfg _ _ SM), zlen_app in W1.
    assert (LF : zlen (frames_of os) <= Z.of_nat (send_i_rounds d)).
    { rewrite L3 in L2. rewrite map_length in L2. unfold zlen. lia. }
    pose proof (zlen_nonneg (frames_of os)). pose proof (zlen_nonneg P').
    assert (zlen P + zlen (frames_of os) = zlen P + zlen P'); [|lia].
    apply (mod_inj (c_vrange (d_cfg d))); auto; lia. }
  exists P'. split; auto. split; auto. split; auto. split; auto. split.
  { constructor; auto.
    - eapply outI_plain; eauto.
    - rewrite (outI_nI _ _ L8), LEN. pose proof (sn_sub _ _ _ _ _ S) as A. pose proof (sn_sub _ _ _ _ _ S1) as B.
      rewrite (sm_cfg _ _ SM), A, <- app_assoc in B. apply app_inv_head in B. rewrite B, zlen_app. lia. }
  split; auto. split; [apply L4|]. split; auto. split; auto.
  split; [|intros X; rewrite L3, X; auto].
  intros Tf Ev. rewrite (sn_va _ _ _ _ _ S1), (sn_vs _ _ _ _ _ S1) in Ev.
  pose proof (sn_win _ _ _ _ _ S1) as W1. rewrite (sm_cfg _ _ SM) in W1, Ev.
  assert (VA = zlen (P ++ P')).
  { apply (mod_inj (c_vrange (d_cfg d))); auto; [lia|]. pose proof (sn_rng _ _ _ _ _ S1). lia. }
  rewrite zlen_app in *. pose proof (zlen_nonneg P').
  assert (Z0 : zlen P' = 0) by lia. rewrite Z0 in LEN.
  assert (O0 : os = []). { rewrite L3. destruct (frames_of os); auto. rewrite zlen_cons in LEN. pose proof (zlen_nonneg l). lia. }
  destruct (L4 O0) as (_ & B & _). rewrite B. apply Tf. rewrite (sn_va _ _ _ _ _ S), (sn_vs _ _ _ _ _ S). f_equal. lia.
Qed.

Lemma settled_est d P VA VS : settled d P VA VS -> d_st d = L_MF_EST -> VS = zlen P /\ (VA < zlen P -> d_t200 d = true).
Proof. intros [(A & B & C)|(A & _)] E; [auto|congruence]. Qed.

Lemma eff_nil d : eff d d [] 0.
Proof. constructor; cbn [frames_of map concat numbered nxt errs_of]; auto. Qed.
Lemma eff_trans d1 d2 d3 o1 o2 x y : d_cfg d2 = d_cfg d1 -> eff d1 d2 o1 x -> eff d2 d3 o2 y -> eff d1 d3 (o1 ++ o2) (x + y).
Proof.
  intros C [A1 A2 A3 A4 A5] [B1 B2 B3 B4 B5]. rewrite C in *. constructor.
  - rewrite frames_app, numbered_app, A2. auto.
  - rewrite frames_app, nxt_app, A2. auto.
  - rewrite frames_app. apply Forall_app; auto.
  - rewrite errs_app, A4, B4. auto.
  - rewrite frames_app, nI_app. lia.
Qed.

Lemma data_req_ll d sub P VA VS m d' os : Snd d sub P VA VS -> settled d P VA VS -> d_st d = L_MF_EST ->
  (d_va d = d_vs d -> d_t200 d = false) ->
  data_req d m = (d', os) -> (d_va d' = d_vs d' -> d_t200 d' = false) /\
    eff d d' os (zlen (segs (c_n201 (d_cfg d)) m)) /\ Forall (fun f => isI f = true) (frames_of os) /\
    (sat d -> sat d').
Proof.
  intros S G C1 C4 E. unfold data_req in E. rewrite C1 in E. cbn [st_eqb orb] in E.
  destruct (settled_est _ _ _ _ G C1) as [-> T].
  destruct (Z.eqb_spec (zlen m) 0) as [M0|M0].
  - injection E as <- <-. split; [auto|]. split; [|split; auto; constructor].
    assert (m = []) by (destruct m; auto; rewrite zlen_cons in M0; pose proof (zlen_nonneg m); lia). subst m.
    rewrite segs_nil. apply eff_nil.
  - set (d1 := set_send d (d_squeue d ++ [m]) (d_sbuf d) (d_sout d)) in *.
    assert (R1 : rest d1 = rest d ++ segs (c_n201 (d_cfg d)) m).
    { unfold rest. cbn [d1 set_send d_cfg d_sbuf d_sout d_squeue]. rewrite segs_all_app, <- !app_assoc.
      f_equal. f_equal. unfold segs_all. cbn [map concat]. apply app_nil_r. }
    assert (S1 : Snd d1 (sub ++ [m]) P VA (zlen P)).
    { destruct S. constructor; auto. cbn [d1 set_send d_cfg]. rewrite segs_all_app, sn_sub. fold d1. rewrite R1, app_assoc.
      f_equal. unfold segs_all. cbn [map concat]. apply app_nil_r. }
    destruct (lapd_send_i d1) as [[d2 rc] o2] eqn:E2. injection E as <- <-.
    destruct (send_ll d1 _ P VA S1 C1 T _ _ _ E2) as (P' & S2 & G2 & SM & L1 & L2 & L3 & L4 & L5 & L6 & L7 & _).
    split; [auto|]. split; [|split; auto].
    + destruct L2 as [A1 A2 A3 A4 A5]. constructor; auto. rewrite A5, R1, zlen_app. lia.
    + eapply Forall_impl; [|exact L3]. intros g (A & _). unfold isI. rewrite A. auto.
Qed.

Lemma data_reqs_ll' : forall ms d sub P VA VS d' os, Snd d sub P VA VS -> settled d P VA VS -> d_st d = L_MF_EST ->
  (d_va d = d_vs d -> d_t200 d = false) -> data_reqs d ms = (d', os) ->
  exists x, (d_va d' = d_vs d' -> d_t200 d' = false) /\ eff d d' os x /\ (ms = [] -> x = 0) /\
    Forall (fun f => isI f = true) (frames_of os) /\ d_cfg d' = d_cfg d.
Proof.
  induction ms as [|m ms IH]; intros d sub P VA VS d' os S G St T E; cbn [data_reqs] in E.
  - injection E as <- <-. exists 0. split; auto. split; [apply eff_nil|]. split; auto. split; auto. constructor.
  - destruct (data_req d m) as [d1 o1] eqn:E1. destruct (data_reqs d1 ms) as [d2 o2] eqn:E2. injection E as <- <-.
    destruct (data_req_good d sub P VA VS m d1 o1 S G E1) as ((P1 & VS1 & S1 & G1 & K1 & F1) & M1 & D1 & R1).
    destruct (data_req_ll d sub P VA VS m d1 o1 S G St T E1) as (T1 & X1 & F1' & _).
    assert (St1 : d_st d1 = L_MF_EST) by (rewrite (sm_st _ _ M1); auto).
    destruct (IH d1 _ _ _ _ d2 o2 S1 G1 St1 T1 E2) as (x & T2 & X2 & _ & F2 & K2).
    eexists. split; auto. split; [eapply eff_trans; eauto|]. split; [discriminate|]. split; [|congruence].
    rewrite frames_app. apply Forall_app; auto.
Qed.

(* an acknowledgement *)
Lemma ack_ll d sub P VA VS f n : Snd d sub P VA VS -> settled d P VA VS -> d_st d = L_MF_EST ->
  (d_va d = d_vs d -> d_t200 d = false) -> is_rej f = false ->
  VA <= n <= zlen P -> f_nr f = n mod c_vrange (d_cfg d) ->
  exists d', lapd_acknowledge d f = (d', 0) /\ Snd d' sub P n VS /\ acked d d' (f_nr f) /\ settled d' P n VS /\
    (d_va d' = d_vs d' -> d_t200 d' = false) /\ rest d' = rest d.
Proof.
  intros S G St C4 NR Hn Hnr.
  destruct (ack_spec d sub P VA VS f n S G Hn Hnr) as (d' & E & S' & A & G' & _). specialize (G' NR).
  exists d'. split; auto. split; auto. split; auto. split; auto. split.
  - intros Ev. destruct (settled_est _ _ _ _ G St) as [-> T].
    assert (K := sn_ok _ _ _ _ _ S). pose proof (M_bound _ K). pose proof (k_lt_M _ K). pose proof (sn_win _ _ _ _ _ S).
    pose proof (sn_rng _ _ _ _ _ S).
    assert (n = zlen P).
    { rewrite (sn_va _ _ _ _ _ S'), (sn_vs _ _ _ _ _ S') in Ev. rewrite (ak_cfg _ _ _ A) in Ev.
      apply (mod_inj (c_vrange (d_cfg d))); auto; lia. }
    assert (HN0 : forall h, d_hist d' h = None).
    { intros h. apply (sn_h0 _ _ _ _ _ S'). intros w Hw. lia. }
    rewrite acknowledge_eq in E. cbv zeta in E. rewrite St, NR in E. cbn [st_eqb negb andb orb] in E. rewrite orb_false_r in E.
    destruct (sub_mod (f_nr f) (d_va d) (c_vrange (d_cfg d)) >? sub_mod (d_vs d) (d_va d) (c_vrange (d_cfg d))); [discriminate|].
    injection E as <-. rewrite ack_finish_t200. cbn [negb]. rewrite andb_true_r.
    assert (HH : forall h, acked_hist d (f_nr f) h = None) by (intros h; rewrite <- (ak_hist _ _ _ A); apply HN0).
    destruct (Z.eqb_spec (f_nr f) (d_va d)) as [Ef|Ef]; cbn [negb].
    + cbn [set_hist d_t200]. apply C4. rewrite <- Ef, Hnr, (sn_vs _ _ _ _ _ S). congruence.
    + cbn [stop_t200 set_t200 set_hist d_hist d_t200]. rewrite HH. auto.
  - unfold rest. rewrite (ak_cfg _ _ _ A), (ak_sbuf _ _ _ A), (ak_sout _ _ _ A), (ak_sq _ _ _ A). auto.
Qed.

Lemma rx_i_ll d sub P VA VS f n rsp d' os : Snd d sub P VA VS -> settled d P VA VS -> calm d ->
  from_peer d f -> f_fmt f = FmtI -> f_pf f = false -> f_ns f = d_vr d -> VA <= n <= zlen P ->
  f_nr f = n mod c_vrange (d_cfg d) -> rx_i d f rsp = (d', os) ->
  calm d' /\ d_va d' = f_nr f /\ frames_of os <> [] /\ exists x, eff d d' os x /\ (rsp = [] -> x = 0) /\
  zlen (frames_of os) <= nI (frames_of os) + 1.
Proof.
  intros S G [C1 C2 C3 C4] FP Ff Fp En Hn Hnr E.
  rewrite rx_i_body_eq in E by auto. unfold rx_i_body in E. rewrite En, Z.eqb_refl in E. cbn [negb] in E. cbv zeta in E.
  set (d1 := set_vr (set_seq d 0) (inc_mod (d_vr (set_seq d 0)) (c_vrange (d_cfg (set_seq d 0))))) in E.
  assert (S1 : Snd d1 sub P VA VS) by (destruct S; constructor; auto).
  assert (G1 : settled d1 P VA VS) by exact G.
  destruct (ack_ll d1 sub P VA VS f n S1 G1 C1 C4 (is_rej_i _ Ff) Hn Hnr) as (d2 & E2 & S2 & A2 & G2 & T2 & R2).
  rewrite E2 in E. rewrite (ak_own _ _ _ A2) in E. change (d_own_busy d1) with (d_own_busy d) in E.
  rewrite (sn_own _ _ _ _ _ S) in E. cbn [negb] in E.
  destruct (reassemble d2 f) as [d3 om] eqn:E3.
  destruct (reassemble_spec _ _ _ _ E3) as (_ & Q1 & Q2 & Q3 & Q4 & Q5 & Q6 & Q7 & Q8 & Q9 & Q10 & Q11 & Q12).
  assert (S3 : Snd d3 sub P n VS).
  { eapply Snd_upd; eauto; try congruence. - rewrite Q3. apply S2. - rewrite Q8. apply S2. - rewrite Q9. apply S2. }
  assert (G3 : settled d3 P n VS) by (eapply settled_upd; eauto).
  assert (R3 : rest d3 = rest d) by (unfold rest in *; rewrite Q1, Q5, Q6, Q7; exact R2).
  assert (T3 : d_va d3 = d_vs d3 -> d_t200 d3 = false) by (rewrite Q2, Q3, Q12; auto).
  assert (St3 : d_st d3 = L_MF_EST) by (rewrite Q11, (ak_st _ _ _ A2); exact C1).
  assert (Sq3 : d_seq_err d3 = 0).
  { assert (X : d_seq_err d3 = d_seq_err d2).
    { clear - E3. unfold reassemble in E3.
      repeat match type of E3 with
        | (match ?x with _ => _ end) = _ => destruct x
        | (if ?x then _ else _) = _ => destruct x end; injection E3 as <- <-; reflexivity. }
    rewrite X, (ak_seq _ _ _ A2). reflexivity. }
  assert (Cf3 : d_cfg d3 = d_cfg d) by (rewrite Q1, (ak_cfg _ _ _ A2); reflexivity).
  assert (Vs3 : d_vs d3 = d_vs d) by (rewrite Q3, (ak_vs _ _ _ A2); reflexivity).
  assert (Va3 : d_va d3 = f_nr f) by (rewrite Q2, (ak_va _ _ _ A2); reflexivity).
  (* the requests made from within the indication *)
  assert (X : exists d4 o1 x P4 VS4, (match om with Some m => let '(d, o) := data_reqs d3 rsp in (d, OData m :: o) | None => (d3, []) end) = (d4, o1) /\
     Snd d4 (sub ++ match om with Some _ => accepted rsp | None => [] end) P4 n VS4 /\ settled d4 P4 n VS4 /\ d_st d4 = L_MF_EST /\
     d_seq_err d4 = 0 /\ (d_va d4 = d_vs d4 -> d_t200 d4 = false) /\ d_cfg d4 = d_cfg d /\ d_va d4 = f_nr f /\
     eff d3 d4 o1 x /\ (rsp = [] -> x = 0) /\ Forall (fun f => isI f = true) (frames_of o1)).
  { destruct om as [m|].
    - destruct (data_reqs d3 rsp) as [d4 o1] eqn:E4.
      destruct (data_reqs_ll' rsp d3 sub P n VS d4 o1 S3 G3) as (x & K1 & K2 & K3 & K4 & K5); auto.
      destruct (data_reqs_good rsp d3 sub P n VS d4 o1 S3 G3 E4) as ((P1 & VS1 & S4 & G4 & K6 & F1) & M1 & D1 & R1).
      exists d4, (OData m :: o1), x, (P ++ P1), VS1. split; auto. split; auto. split; auto.
      rewrite (sm_st _ _ M1), (sm_seq _ _ M1), (sm_cfg _ _ M1), (sm_va _ _ M1). split; auto. split; auto. split.
      { rewrite <- (sm_va _ _ M1). auto. }
      split; auto. split; auto. split; [|split; auto].
      destruct K2. constructor; auto.
    - exists d3, [], 0, P, VS. rewrite app_nil_r. repeat (split; [auto; fail|]). split; [apply eff_nil|]. split; [auto|constructor]. }
  destruct X as (d4 & o1 & x & P4 & VS4 & E4 & S4 & G4 & St4 & Sq4 & T4 & Cf4 & Va4 & EF4 & X4 & FI4).
  assert (E' : (let '(d5, rc, o3) := lapd_send_i d4 in (d5, o1 ++ [] ++ o3 ++ (if negb (rc =? 0) then [send_rr d5 false false] else []))) = (d', os)).
  { rewrite <- E. destruct om as [m|].
    - destruct (data_reqs d3 rsp) as [d5 o5]. injection E4 as <- <-. rewrite Fp. rewrite (sn_own _ _ _ _ _ S4). reflexivity.
    - injection E4 as <- <-. rewrite Fp. rewrite (sn_own _ _ _ _ _ S4). reflexivity. }
  clear E. destruct (settled_est _ _ _ _ G4 St4) as [-> TT4].
  destruct (lapd_send_i d4) as [[d5 rc] o3] eqn:E5. injection E' as <- <-.
  destruct (send_ll d4 _ P4 n S4 St4 TT4 _ _ _ E5) as (P' & S5 & G5 & SM & L1 & L2 & L3 & L4 & L5 & L6 & L7 & L8).
  assert (FI3 : Forall (fun f => isI f = true) (frames_of o3)).
  { eapply Forall_impl; [|exact L3]. intros g (A & _). unfold isI. rewrite A. auto. }
  split; [constructor; auto|].
  - rewrite (sm_st _ _ SM). auto.
  - rewrite (sm_seq _ _ SM). auto.
  - split; [rewrite (sm_va _ _ SM); auto|].
    assert (EO : eff d4 d5 (o3 ++ (if negb (rc =? 0) then [send_rr d5 false false] else [])) 0).
    { destruct (rc =? 0); cbn [negb]; [rewrite app_nil_r; auto|].
      destruct L2 as [A1 A2' A3 A4 A5]. constructor.
      - rewrite frames_app, numbered_app. split; auto. cbn. auto.
      - rewrite frames_app, nxt_app, A2'. reflexivity.
      - rewrite frames_app. apply Forall_app; split; auto. cbn. constructor; auto. split; [reflexivity|right; split; reflexivity].
      - rewrite errs_app, A4. reflexivity.
      - rewrite frames_app, nI_app. unfold nI at 2. cbn. lia. }
    split.
    { cbn [app]. rewrite !frames_app. destruct o3 as [|o o3'].
      - rewrite (L4 eq_refl). cbn. destruct (frames_of o1); discriminate.
      - intros Z0. apply app_eq_nil in Z0. destruct Z0 as [_ Z0]. apply app_eq_nil in Z0. destruct Z0 as [Z0 _].
        apply L8 in Z0. discriminate. }
    exists x. cbn [app]. split; [|split; auto].
    + assert (EF3 : eff d d3 [] 0).
      { constructor; cbn [frames_of map concat numbered nxt errs_of]; auto. rewrite R3. unfold nI. cbn. lia. }
      replace x with (0 + (x + 0)) by lia. change (o1 ++ ?o) with ([] ++ (o1 ++ o)).
      eapply eff_trans; [|exact EF3|]; auto. eapply eff_trans; [|exact EF4|exact EO]. congruence.
    + rewrite !frames_app, !nI_app.
      assert (N1 : forall l, Forall (fun f => isI f = true) l -> nI l = zlen l).
      { intros l FF. unfold nI. induction FF; cbn [filter]; auto. rewrite H, !zlen_cons. lia. }
      rewrite (N1 _ FI4), (N1 _ FI3). rewrite !zlen_app.
      assert (Y : 0 <= nI (frames_of (if negb (rc =? 0) then [send_rr d5 false false] else [])) /\
                  zlen (frames_of (if negb (rc =? 0) then [send_rr d5 false false] else [])) <= 1).
      { destruct (rc =? 0); cbn; unfold nI, zlen; cbn; lia. }
      lia.
Qed.

Lemma rx_s_ll d sub P VA VS f n d' os : Snd d sub P VA VS -> settled d P VA VS -> calm d ->
  from_peer d f -> f_fmt f = FmtS -> f_su f = LAPD_S_RR -> f_pf f = false -> VA <= n <= zlen P ->
  f_nr f = n mod c_vrange (d_cfg d) -> rx_s d f = (d', os) ->
  calm d' /\ d_va d' = f_nr f /\ eff d d' os 0 /\ d_vr d' = d_vr d /\ Forall (fun g => isI g = true) (frames_of os).
Proof.
  intros S G [C1 C2 C3 C4] FP Ff Fs Fp Hn Hnr E. unfold from_peer in FP. rewrite Ff in FP. destruct FP as (FD & FM & _).
  assert (NR : is_rej f = false) by (unfold is_rej; rewrite Ff, Fs; reflexivity).
  unfold rx_s in E. rewrite FD, FM, Fp, C1, Fs in E. cbn [zlen length orb andb] in E.
  rewrite !andb_false_r in E. change (Z.of_nat 0 >? 0) with false in E. cbn [orb andb negb app] in E.
  rewrite Z.eqb_refl in E.
  destruct (ack_ll d sub P VA VS f n S G C1 C4 NR Hn Hnr) as (d2 & E2 & S2 & A2 & G2 & T2 & R2).
  rewrite E2 in E.
  assert (St2 : d_st d2 = L_MF_EST) by (rewrite (ak_st _ _ _ A2); auto).
  destruct (settled_est _ _ _ _ G2 St2) as [-> TT2].
  destruct (lapd_send_i d2) as [[d3 rc] o3] eqn:E3. injection E as <- <-.
  destruct (send_ll d2 _ P n S2 St2 TT2 _ _ _ E3) as (P' & S5 & G5 & SM & L1 & L2 & L3 & L4 & L5 & L6 & L7 & L8).
  split; [constructor; auto|].
  - rewrite (sm_st _ _ SM). auto.
  - rewrite (sm_seq _ _ SM), (ak_seq _ _ _ A2). auto.
  - split; [rewrite (sm_va _ _ SM), (ak_va _ _ _ A2); auto|]. split.
    + destruct L2 as [B1 B2 B3 B4 B5]. rewrite (ak_cfg _ _ _ A2), (ak_vs _ _ _ A2) in *. constructor; auto. rewrite B5, R2. auto.
    + split; [rewrite (sm_vr _ _ SM), (ak_vr _ _ _ A2); auto|].
      eapply Forall_impl; [|exact L3]. intros g (A & _). unfold isI. rewrite A. auto.
Qed.

(* ------------------------------------------------------------------ *)
(* the two ends *)

Definition DirL (dx dy : ldl) (cxy cyx : list frame) : Prop :=
  numbered (c_vrange (d_cfg dx)) (d_vr dy) cxy /\ nxt (c_vrange (d_cfg dx)) (d_vr dy) cxy = d_vs dx /\
  lastnr (d_va dx) cyx = d_vr dy /\ Forall plain cxy.
Definition BothL (dx dy : ldl) (cxy cyx : list frame) : Prop :=
  calm dx /\ calm dy /\ DirL dx dy cxy cyx /\ DirL dy dx cyx cxy.
Lemma BothL_sym dx dy cxy cyx : BothL dx dy cxy cyx -> BothL dy dx cyx cxy.
Proof. intros (A & B & C & D). exact (conj B (conj A (conj D C))). Qed.

(* how many frames can still come *)
Definition wt (c : list frame) : Z := zlen c + nI c.
Definition weight (dx dy : ldl) (cxy cyx : list frame) : Z :=
  3 * (zlen (rest dx) + zlen (rest dy)) + wt cxy + wt cyx.
Lemma nI_nonneg c : 0 <= nI c. Proof. apply zlen_nonneg. Qed.
Lemma nI_allI l : Forall (fun g => isI g = true) l -> nI l = zlen l.
Proof. unfold nI. induction 1; cbn [filter]; auto. rewrite H, !zlen_cons. lia. Qed.

Lemma arrive_ll kx ky dx dx' dy cxy cyx subx suby delx dely f rsp os :
  Both kx ky dx dy cxy (f :: cyx) subx suby delx dely -> BothL dx dy cxy (f :: cyx) ->
  ph_data_ind dx f rsp = (dx', os) ->
  BothL dx' dy (cxy ++ frames_of os) cyx /\ errs_of os = [] /\
  (rsp = [] -> weight dx' dy (cxy ++ frames_of os) cyx < weight dx dy cxy (f :: cyx)).
Proof.
  intros B (CX & CY & (N1 & X1 & A1 & P1) & (N2 & X2 & A2 & P2)) E.
  pose proof (both_arrive _ _ _ _ _ _ _ _ _ _ _ _ _ _ B E) as [B' _].
  destruct B as ((K1 & K2 & PO) & (P & VA & VS & VR & S & G & Hr & EV & ER & CI & CR & FW) &
              (Q & WA & WS & WR & T & GT & Hr' & EV' & ER' & CI' & CR' & FW')).
  destruct CR as (n & Hn1 & Hn2 & CR). pose proof (chR_end _ _ _ _ CR) as Hn3.
  assert (WFf : wff (c_net (d_cfg dy)) (c_n201 (d_cfg dy)) f) by exact (Forall_inv FW').
  assert (FP : from_peer dx f).
  { apply (wff_from_peer dx (c_net (d_cfg dy))). { rewrite <- (po_n _ _ PO). auto. }
    rewrite (po_net _ _ PO), negb_involutive. auto. }
  assert (PF : plain f) by exact (Forall_inv P2). apply Forall_inv_tail in P2. destruct PF as [Fp PF].
  cbn [numbered nxt lastnr] in *. unfold ph_data_ind in E.
  destruct PF as [Ff|[Ff Fs]]; rewrite Ff in E.
  - assert (If : isI f = true) by (unfold isI; rewrite Ff; auto). rewrite If in *. destruct N2 as [N2 N3].
    destruct (rx_i_ll dx subx P VA VS f n rsp dx' os S G CX FP Ff Fp N2 ltac:(lia) Hn2 E) as (C' & VA' & NE & x & EF & X0 & ONE).
    destruct (rx_i_good dx subx P VA VS f n rsp dx' os S G FP Ff ltac:(lia) Hn2 E) as (_ & E2 & E3).
    rewrite N2, Z.eqb_refl in E3. destruct E3 as [E3 _].
    pose proof (good_nr _ _ _ _ _ _ _ okn_nr E2) as FN.
    assert (Ec : d_cfg dx' = d_cfg dx) by (destruct E2 as (? & ? & _ & _ & X & _); auto).
    destruct EF as [F1 F2 F3 F4 F5].
    split; [|split; auto].
    + split; auto. split; auto. split.
      * unfold DirL. rewrite Ec, numbered_app, nxt_app, X1, VA'. repeat split; auto. apply Forall_app; auto.
      * unfold DirL. rewrite E3, <- (po_m _ _ PO). repeat split; auto. rewrite lastnr_app.
        rewrite <- (po_m _ _ PO) in E3. rewrite E3 in FN. apply lastnr_all; auto.
    + intros R0. specialize (X0 R0). subst x. unfold weight, wt. rewrite zlen_app, nI_app, zlen_cons.
      assert (NC : nI (f :: cyx) = 1 + nI cyx) by (unfold nI; cbn [filter]; rewrite If; apply zlen_cons). rewrite NC.
      assert (ZZ : zlen (frames_of os) + nI (frames_of os) < 3 * nI (frames_of os) + 2); [|lia].
      pose proof (nI_nonneg (frames_of os)).
      lia.
  - assert (If : isI f = false) by (unfold isI; rewrite Ff; auto). rewrite If in *.
    destruct (rx_s_ll dx subx P VA VS f n dx' os S G CX FP Ff Fs Fp ltac:(lia) Hn2 E) as (C' & VA' & EF & EV2 & AI).
    destruct (rx_s_good dx subx P VA VS f n dx' os S G FP Ff ltac:(lia) Hn2 E) as (E2 & _).
    pose proof (good_nr _ _ _ _ _ _ _ okn_nr E2) as FN.
    assert (Ec : d_cfg dx' = d_cfg dx) by (destruct E2 as (? & ? & _ & _ & X & _); auto).
    destruct EF as [F1 F2 F3 F4 F5].
    split; [|split; auto].
    + split; auto. split; auto. split.
      * unfold DirL. rewrite Ec, numbered_app, nxt_app, X1, VA'. repeat split; auto. apply Forall_app; auto.
      * unfold DirL. rewrite EV2. repeat split; auto. rewrite lastnr_app. rewrite EV2 in FN.
        apply lastnr_all; auto.
    + intros _. unfold weight, wt. rewrite zlen_app, nI_app, zlen_cons.
      assert (NC : nI (f :: cyx) = nI cyx) by (unfold nI; cbn [filter]; rewrite If; auto). rewrite NC. rewrite (nI_allI _ AI) in *.
      pose proof (zlen_nonneg (frames_of os)). lia.
Qed.

Definition InvL (ka kb : lcfg) (s : lsys) : Prop :=
  Inv ka kb s /\ BothL (l_a s) (l_b s) (l_ab s) (l_ba s) /\ l_err_a s = [] /\ l_err_b s = [].
Definition sysw (s : lsys) : Z := weight (l_a s) (l_b s) (l_ab s) (l_ba s).
Lemma weight_sym dx dy cxy cyx : weight dx dy cxy cyx = weight dy dx cyx cxy.
Proof. unfold weight. lia. Qed.
Lemma sysw_nonneg s : 0 <= sysw s.
Proof.
  unfold sysw, weight, wt. pose proof (zlen_nonneg (rest (l_a s))). pose proof (zlen_nonneg (rest (l_b s))).
  pose proof (zlen_nonneg (l_ab s)). pose proof (zlen_nonneg (l_ba s)). pose proof (nI_nonneg (l_ab s)). pose proof (nI_nonneg (l_ba s)). lia.
Qed.

Lemma req_ll kx ky dx dx' dy cxy cyx subx suby delx dely m os :
  Both kx ky dx dy cxy cyx subx suby delx dely -> BothL dx dy cxy cyx -> data_req dx m = (dx', os) ->
  BothL dx' dy (cxy ++ frames_of os) cyx /\ errs_of os = [].
Proof.
  intros B (CX & CY & (N1 & X1 & A1 & P1) & (N2 & X2 & A2 & P2)) E.
  destruct B as ((K1 & K2 & PO) & (P & VA & VS & VR & S & G & Hr & EV & ER & CI & CR & FW) & _).
  destruct CX as [C1 C2 C3 C4].
  destruct (data_req_ll dx subx P VA VS m dx' os S G C1 C4 E) as (T1 & [F1 F2 F3 F4 F5] & AI & SA).
  destruct (data_req_good dx subx P VA VS m dx' os S G E) as (E2 & SM & _ & _).
  pose proof (good_nr _ _ _ _ _ _ _ okn_nr E2) as FN.
  split; auto. split.
  { constructor; auto; [rewrite (sm_st _ _ SM)|rewrite (sm_seq _ _ SM)]; auto. }
  split; auto. split.
  - unfold DirL. rewrite (sm_cfg _ _ SM), (sm_va _ _ SM), numbered_app, nxt_app, X1. repeat split; auto. apply Forall_app; auto.
  - unfold DirL. rewrite (sm_vr _ _ SM) in *. repeat split; auto. rewrite lastnr_app. apply lastnr_all; auto.
Qed.

Definition no_loss (e : lev) : Prop := match e with EReq _ _ | EArrive _ _ => True | _ => False end.

Lemma lstep_ll ka kb s e s' : InvL ka kb s -> no_loss e -> lstep s e = Some s' ->
  InvL ka kb s' /\ (forall x, e = EArrive x [] -> sysw s' < sysw s).
Proof.
  intros (I & B & Ea & Eb) NL E. pose proof (lstep_inv _ _ _ _ _ I E) as I'.
  assert (W : BothL (l_a s') (l_b s') (l_ab s') (l_ba s') /\ l_err_a s' = [] /\ l_err_b s' = [] /\
     (forall x, e = EArrive x [] -> sysw s' < sysw s)).
  { unfold lstep in E. destruct (gave_up s); [discriminate|]. destruct I as [I _].
    destruct e as [x m|x rsp|x i|x|x]; try contradiction.
    - injection E as <-. destruct x; cbn [dl_of].
      + destruct (data_req (l_a s) m) as [d os] eqn:ED. destruct (req_ll _ _ _ _ _ _ _ _ _ _ _ _ _ I B ED) as [X1 X2].
        cbn [after l_a l_b l_ab l_ba l_err_a l_err_b]. rewrite X2, Ea, Eb. split; auto. split; auto. split; auto. discriminate.
      + destruct (data_req (l_b s) m) as [d os] eqn:ED. apply Both_sym in I. apply BothL_sym in B.
        destruct (req_ll _ _ _ _ _ _ _ _ _ _ _ _ _ I B ED) as [X1 X2].
        cbn [after l_a l_b l_ab l_ba l_err_a l_err_b]. rewrite X2, Ea, Eb. split; [apply BothL_sym; auto|]. split; auto. split; auto. discriminate.
    - unfold sysw. destruct x; cbn [dl_of chan_to] in E.
      + destruct (l_ba s) as [|f c] eqn:Ec; [discriminate|]. injection E as <-.
        destruct (ph_data_ind (l_a s) f rsp) as [d os] eqn:EP.
        destruct (arrive_ll _ _ _ _ _ _ _ _ _ _ _ _ _ _ I B EP) as (X1 & X2 & X3).
        cbn [after set_chan_to l_a l_b l_ab l_ba l_err_a l_err_b]. rewrite X2, Ea, Eb. split; auto. split; auto. split; auto.
        intros x H. injection H as _ ->. rewrite ?Ec. auto.
      + destruct (l_ab s) as [|f c] eqn:Ec; [discriminate|]. injection E as <-.
        destruct (ph_data_ind (l_b s) f rsp) as [d os] eqn:EP. apply Both_sym in I. apply BothL_sym in B.
        destruct (arrive_ll _ _ _ _ _ _ _ _ _ _ _ _ _ _ I B EP) as (X1 & X2 & X3).
        cbn [after set_chan_to l_a l_b l_ab l_ba l_err_a l_err_b]. rewrite X2, Ea, Eb. split; [apply BothL_sym; auto|]. split; auto. split; auto.
        intros x H. injection H as _ ->. rewrite ?Ec. rewrite weight_sym, (weight_sym (l_a s)). auto. }
  destruct W as (W1 & W2 & W3 & W4). split; auto. split; auto.
  destruct I' as [I'|(G & _)]; auto. unfold gave_up in G. rewrite W2, W3 in G. discriminate.
Qed.

Lemma lrun_app es1 : forall es2 s, lrun s (es1 ++ es2) = match lrun s es1 with Some s1 => lrun s1 es2 | None => None end.
Proof. induction es1 as [|e es1 IH]; intros; cbn [lrun app]; auto. destruct (lstep s e); auto. Qed.

Lemma lrun_ll ka kb es : forall s s', InvL ka kb s -> Forall no_loss es -> lrun s es = Some s' -> InvL ka kb s'.
Proof.
  induction es as [|e es IH]; intros s s' I F E; cbn [lrun] in E.
  - congruence.
  - destruct (lstep s e) as [s1|] eqn:E1; [|discriminate]. assert (H : no_loss e) by exact (Forall_inv F).
    apply Forall_inv_tail in F. destruct (lstep_ll _ _ _ _ _ I H E1). eauto.
Qed.
Definition delivery (e : lev) : Prop := match e with EArrive _ rsp => rsp = [] | _ => False end.
Lemma lrun_drain ka kb es : forall s s', InvL ka kb s -> Forall delivery es -> lrun s es = Some s' ->
  InvL ka kb s' /\ sysw s' + zlen es <= sysw s.
Proof.
  induction es as [|e es IH]; intros s s' I F E; cbn [lrun] in E.
  - injection E as <-. split; auto. unfold zlen. cbn. lia.
  - destruct (lstep s e) as [s1|] eqn:E1; [|discriminate]. assert (H : delivery e) by exact (Forall_inv F).
    apply Forall_inv_tail in F. destruct e as [x m|x rsp|x i|x|x]; try contradiction. cbn [delivery] in H. subst rsp.
    destruct (lstep_ll ka kb s (EArrive x []) s1 I Logic.I E1) as [I1 W1]. specialize (W1 x eq_refl).
    destruct (IH _ _ I1 F E) as [I2 W2]. split; auto. rewrite zlen_cons. lia.
Qed.

(* both channels empty *)
Lemma quiet_idle dx dy : 1 <= c_k (d_cfg dx) < c_vrange (d_cfg dx) -> cok (d_cfg dx) -> BothL dx dy [] [] ->
  0 <= d_va dx < c_vrange (d_cfg dx) ->
  d_st dx = L_MF_EST /\ d_va dx = d_vs dx /\ d_squeue dx = [] /\
  (match d_sbuf dx with Some m => d_sout dx = zlen m | None => True end) /\ d_t200 dx = false.
Proof.
  intros HK K ([C1 C2 C3 C4] & _ & (_ & X1 & A1 & _) & _) HV. cbn [nxt lastnr] in *.
  assert (EV : d_va dx = d_vs dx) by congruence. split; auto. split; auto.
  destruct C3 as [C3|[C3 C5]].
  - exfalso. rewrite <- EV, add_mod_M in C3 by auto.
    assert (X : d_va dx mod c_vrange (d_cfg dx) = (d_va dx + c_k (d_cfg dx)) mod c_vrange (d_cfg dx)) by (rewrite Z.mod_small by lia; auto).
    pose proof (mod_inj (c_vrange (d_cfg dx)) _ _ ltac:(lia) X ltac:(lia)). lia.
  - auto.
Qed.

Lemma start_ll ca cb s : Inv ca cb s -> estd (l_a s) -> estd (l_b s) -> l_ab s = [] -> l_ba s = [] ->
  l_err_a s = [] -> l_err_b s = [] -> InvL ca cb s.
Proof.
  intros I (A1 & A2 & A3 & A4 & A5 & A6 & A7 & A8) (B1 & B2 & B3 & B4 & B5 & B6 & B7 & B8) C1 C2 E1 E2.
  split; auto. split; auto. rewrite C1, C2.
  assert (CA : calm (l_a s)) by (constructor; auto; right; rewrite A7; auto).
  assert (CB : calm (l_b s)) by (constructor; auto; right; rewrite B7; auto).
  split; auto. split; auto. unfold DirL. cbn [numbered nxt lastnr]. rewrite A1, A2, A3, B1, B2, B3. repeat split; constructor.
Qed.
