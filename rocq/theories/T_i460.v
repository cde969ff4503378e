(* T_i460.v - property C59: I.460 sub-channel multiplexing *)
From Verif Require Import Base S_bits M_bits S_i460 M_i460 P_i460.
Ltac Zify.zify_post_hook ::= idtac.

(* the number of bits per octet that a sub-channel takes *)
Definition bits_of (r : i460_rate) : nat :=
  match r with R_NONE => 0 | R_8k => 1 | R_16k => 2 | R_32k => 4 | R_64k => 8 end%nat.
Definition in_use (s : schan) : Prop := s_rate s <> R_NONE.
(* a place inside the octet; bit positions are counted from the most significant bit, which is 0 *)
Definition fits (r : i460_rate) (off : Z) : Prop := 0 <= off /\ off + Z.of_nat (bits_of r) <= 8.
Definition has_pos (r : i460_rate) (off p : Z) : Prop := off <= p < off + Z.of_nat (bits_of r).
(* two places without a common bit *)
Definition apart (r1 : i460_rate) (o1 : Z) (r2 : i460_rate) (o2 : Z) : Prop := forall p, ~ (has_pos r1 o1 p /\ has_pos r2 o2 p).
Definition supply (s : schan) : list (list Z) := if s_empty s then map (@concat Z) (s_refill s) else [].

(* a timeslot that can be transmitted: every sub-channel in use lies inside the octet, and no message is empty *)
Definition tx_ready (ts : list schan) : Prop :=
  (forall i s, nth_error ts i = Some s -> in_use s ->
     fits (s_rate s) (s_off s) /\ Forall (fun m => m <> []) (s_queue s) /\
     (s_empty s = true -> Forall (Forall (fun m => m <> [])) (s_refill s))) /\
  (forall i j a b, (i < j)%nat -> nth_error ts i = Some a -> nth_error ts j = Some b -> in_use a -> in_use b ->
     apart (s_rate a) (s_off a) (s_rate b) (s_off b)).
(* a timeslot that can be received *)
Definition rx_ready (ts : list schan) : Prop :=
  forall i s, nth_error ts i = Some s -> in_use s ->
     fits (s_rate s) (s_off s) /\ s_bitbuf s = true /\ zlen (s_buf s) < s_size s /\ Forall (fun b => b = 0 \/ b = 1) (s_buf s) /\
     (s_cbits s = true \/ (s_cbytes s = true /\ s_size s mod 8 = 0)).

Lemma used_iff s : used s = true <-> in_use s.
Proof. unfold used, in_use. destruct (s_rate s); cbn; split; congruence. Qed.
Lemma tx_mok ts : tx_ready ts -> Forall mok ts.
Proof.
  intros [H _]. rewrite Forall_forall. intros s I U. apply In_nth_error in I. destruct I as (i & E).
  apply used_iff in U. destruct (H i s E U) as (F & Q & R). split; [exact F|]. constructor; auto.
Qed.
Lemma tx_disjoint ts : tx_ready ts -> disjoint ts.
Proof.
  intros [_ H]. induction ts as [|s ts IH]; cbn [disjoint]; auto. split.
  - intros s' I k Hk. apply In_nth_error in I. destruct I as (j & E).
    destruct (covers s k && covers s' k) eqn:C; auto. exfalso. apply andb_true_iff in C. destruct C as [C1 C2].
    unfold covers in C1, C2. rewrite !andb_true_iff in C1, C2. destruct C1 as [[U1 A1] B1], C2 as [[U2 A2] B2].
    apply used_iff in U1, U2. apply (H 0%nat (S j) s s' ltac:(lia) eq_refl E U1 U2 (7 - k)).
    unfold has_pos. change (bits_of (s_rate s)) with (width s). change (bits_of (s_rate s')) with (width s'). lia.
  - apply IH. intros i j a b L E1 E2. apply (H (S i) (S j) a b); auto. lia.
Qed.
Lemma rx_dok ts : rx_ready ts -> Forall dok ts.
Proof.
  intros H. rewrite Forall_forall. intros s I U. apply In_nth_error in I. destruct I as (i & E).
  apply used_iff in U. destruct (H i s E U) as (F & A & B & C & D). split; [constructor; auto|exact F].
Qed.

(* transmitting: n octets are produced for every n; in the positions of a sub-channel whose data are bits they carry
   what it queued, in order, then what it supplies when asked, then ones - whatever octets the other sub-channels
   queue; nothing is lost (the second and third component are what is still waiting); positions of no sub-channel are 1 *)
Theorem C59_transmit : forall ts n, tx_ready ts -> exists ts' xs,
  osmo_i460_mux_out ts n = Ok (ts', xs) /\ length xs = n /\ Forall is_byte xs /\
  (forall i s, nth_error ts i = Some s -> in_use s ->
     Forall (fun b => b = 0 \/ b = 1) (concat (s_queue s)) -> Forall (Forall (fun b => b = 0 \/ b = 1)) (supply s) ->
     exists s', nth_error ts' i = Some s' /\
       line (n * bits_of (s_rate s)) (concat (s_queue s)) (supply s) =
         (fields (s_off s) (bits_of (s_rate s)) xs, concat (s_queue s'), supply s')) /\
  (forall p, 0 <= p < 8 -> (forall i s, nth_error ts i = Some s -> in_use s -> ~ has_pos (s_rate s) (s_off s) p) ->
     Forall (fun x => field p 1 x = [1]) xs).
Proof.
  intros ts n H. destruct (mux_out_ok n ts (tx_mok ts H) (tx_disjoint ts H)) as (ts' & xs & E & L & LX & B & K & N).
  exists ts', xs. split; auto. split; auto. split; auto. split.
  - intros i s E0 U B1 B2. destruct (N i s E0) as (s' & E1 & M). exists s'. split; auto.
    apply used_iff in U. rewrite U in M. apply mstep_line; auto.
  - intros p Hp HC. rewrite Forall_forall. intros x I. unfold field. cbn [zseq map].
    rewrite (K x (7 - p - 0)); auto; [lia|]. intros s Is. apply In_nth_error in Is. destruct Is as (i & Es).
    destruct (covers s (7 - p - 0)) eqn:C; auto. exfalso. unfold covers in C. rewrite !andb_true_iff in C. destruct C as [[U C1] C2].
    apply used_iff in U. apply (HC i s Es U). unfold has_pos. change (bits_of (s_rate s)) with (width s). lia.
Qed.
Print Assumptions C59_transmit.

(* receiving: however the octets are cut into calls, each sub-channel is given exactly the bits of its positions,
   in order, and num_bits of them in each call-back; fewer than num_bits are held back *)
Theorem C59_receive : forall ts chunks, rx_ready ts -> has_single_64k ts = false -> Forall (Forall is_byte) chunks ->
  exists ts' os, demux_run ts chunks = Ok (ts', os) /\
    forall i s, nth_error ts i = Some s -> in_use s ->
      exists held, (s_buf s ++ fields (s_off s) (bits_of (s_rate s)) (concat chunks) = concat (map obits (calls (Z.of_nat i) os)) ++ held) /\
        zlen held < s_size s /\ Forall (fun o => zlen (obits o) = s_size s) (calls (Z.of_nat i) os) /\
        (exists s', nth_error ts' i = Some s' /\ s_buf s' = held).
Proof.
  intros ts chunks H NS F. destruct (demux_slow_run chunks ts (rx_dok ts H) NS F) as (ts' & os & E & L & N).
  exists ts', os. split; auto. intros i s E0 U. destruct (N i s E0) as (s' & E1 & D). unfold dstep in D.
  apply used_iff in U. rewrite U in D. destruct D as (buf & -> & D & C & FO). exists buf. split; auto.
  split; [apply (dr_len _ D)|]. split; auto. exists (set_buf s buf). auto.
Qed.
Print Assumptions C59_receive.

(* the same for a timeslot that is used by one 64 kbit/s sub-channel only, where the call-back is given the octets
   of each call at once *)
Theorem C59_receive_64k : forall ts chunks, has_single_64k ts = true -> Forall (fun c => c <> []) chunks ->
  (forall s, nth_error ts 0 = Some s -> s_cbits s = true \/ s_cbytes s = true) ->
  exists os, demux_run ts chunks = Ok (ts, os) /\ concat (map obits (calls 0 os)) = fields 0 8 (concat chunks).
Proof. intros. apply demux_fast_run; auto. Qed.
Print Assumptions C59_receive_64k.

(* end to end, with freshly configured timeslots *)
Fixpoint configure (ts : list schan) (ds : list schan_desc) : option (list schan) :=
  match ds with
  | [] => Some ts
  | d :: ds' => match osmo_i460_subchan_add ts d with Some t => configure t ds' | None => None end
  end.
Definition desc_ok (d : schan_desc) : Prop :=
  cd_rate d <> R_NONE /\ fits (cd_rate d) (cd_off d) /\ 0 < cd_bits d < 2 ^ 32 /\
  (cd_cbits d = true \/ (cd_cbytes d = true /\ cd_bits d mod 8 = 0)) /\
  Forall (Forall (fun m => m <> [] /\ Forall (fun b => b = 0 \/ b = 1) m)) (cd_refill d).

Definition fresh (d : schan_desc) : schan :=
  mkSchan false (cd_rate d) (cd_off d) true [] (cd_bits d) (cd_cbits d) (cd_cbytes d) (cd_empty d) [] (cd_refill d).
Lemma add_at pre k d : Forall (fun s => rate_none (s_rate s) = false) pre -> desc_ok d ->
  subchan_add_at (pre ++ repeat subchan_reset (S k)) d = Some (pre ++ fresh d :: repeat subchan_reset k).
Proof.
  intros F D. induction F as [|s pre Hs F IH]; cbn [app subchan_add_at repeat].
  - cbn [subchan_reset s_rate rate_none s_ts s_buf s_queue]. unfold fresh.
    destruct D as (_ & (D1 & D2) & D3 & _). rewrite (u8_small (cd_off d)) by lia. unfold u32. rewrite Z.mod_small by lia. reflexivity.
  - cbn [repeat] in IH. rewrite Hs, IH. reflexivity.
Qed.
Lemma configure_ok ds : forall pre k, Forall (fun s => rate_none (s_rate s) = false) pre -> Forall desc_ok ds -> (length ds <= k)%nat ->
  configure (pre ++ repeat subchan_reset k) ds = Some (pre ++ map fresh ds ++ repeat subchan_reset (k - length ds)).
Proof.
  induction ds as [|d ds IH]; intros pre k F D L; cbn [configure map length].
  - rewrite Nat.sub_0_r. reflexivity.
  - assert (Hd : desc_ok d) by exact (Forall_inv D). apply Forall_inv_tail in D. destruct k as [|k]; [cbn in L; lia|].
    unfold osmo_i460_subchan_add. rewrite add_at by auto.
    change (pre ++ fresh d :: repeat subchan_reset k) with (pre ++ [fresh d] ++ repeat subchan_reset k). rewrite app_assoc.
    rewrite IH; [|apply Forall_app; split; auto; constructor; auto; cbn [fresh s_rate]; destruct Hd as [Hd _]; destruct (cd_rate d); cbn; congruence|auto|cbn in L; lia].
    rewrite <- app_assoc. reflexivity.
Qed.

(* up to eight sub-channels can be added, in any order; the ninth is refused *)
Theorem C59_configure : forall ds, Forall desc_ok ds ->
  ((length ds <= 8)%nat <-> exists ts, configure osmo_i460_ts_init ds = Some ts) /\
  forall ts, configure osmo_i460_ts_init ds = Some ts -> rx_ready ts /\
    forall i d, nth_error ds i = Some d -> exists s, nth_error ts i = Some s /\ s_rate s = cd_rate d /\ s_off s = cd_off d /\
      s_size s = cd_bits d /\ s_buf s = [] /\ s_queue s = [] /\ s_empty s = cd_empty d /\ s_refill s = cd_refill d /\
      s_cbits s = cd_cbits d /\ s_cbytes s = cd_cbytes d.
Proof.
  intros ds D.
  assert (OV : (8 < length ds)%nat -> configure osmo_i460_ts_init ds = None).
  { intros L.
    assert (G : forall k pre ds, Forall (fun s => rate_none (s_rate s) = false) pre -> Forall desc_ok ds -> (k < length ds)%nat ->
      configure (pre ++ repeat subchan_reset k) ds = None).
    { clear. induction k; intros pre [|d ds] F D L; cbn [length] in L; try lia; cbn [configure].
      - unfold osmo_i460_subchan_add. cbn [repeat]. rewrite app_nil_r.
        assert (X : subchan_add_at pre d = None) by (clear - F; induction F; cbn [subchan_add_at]; auto; rewrite H, IHF; auto).
        rewrite X. auto.
      - assert (Hd : desc_ok d) by exact (Forall_inv D). apply Forall_inv_tail in D.
        unfold osmo_i460_subchan_add. rewrite add_at by auto.
        change (pre ++ fresh d :: repeat subchan_reset k) with (pre ++ [fresh d] ++ repeat subchan_reset k). rewrite app_assoc.
        apply IHk; auto; [|lia]. apply Forall_app; split; auto; constructor; auto; cbn [fresh s_rate]; destruct Hd as [Hd _]; destruct (cd_rate d); cbn; congruence. }
    apply (G 8%nat [] ds); auto. }
  assert (OK : (length ds <= 8)%nat -> configure osmo_i460_ts_init ds = Some (map fresh ds ++ repeat subchan_reset (8 - length ds))).
  { intros L. apply (configure_ok ds [] 8%nat); auto. }
  split.
  - split; [intros L; eexists; apply OK; auto|]. intros (ts & E). destruct (le_lt_dec (length ds) 8); auto. rewrite OV in E by auto. discriminate.
  - intros ts E. assert (L : (length ds <= 8)%nat) by (destruct (le_lt_dec (length ds) 8); auto; rewrite OV in E by auto; discriminate).
    rewrite OK in E by auto. injection E as <-. split.
    + intros i s E U. apply nth_error_In in E. apply in_app_or in E. destruct E as [E|E].
      * apply in_map_iff in E. destruct E as (d & <- & I). rewrite Forall_forall in D. destruct (D d I) as (D1 & D2 & D3 & D4 & D5).
        cbn [fresh s_rate s_off s_bitbuf s_buf s_size s_cbits s_cbytes]. split; auto. split; auto. split; [change (zlen []) with 0; lia|]. split; auto.
      * apply repeat_spec in E. subst s. destruct U. reflexivity.
    + intros i d E. exists (fresh d). split; [|cbn; auto 20].
      rewrite nth_error_app1 by (rewrite map_length; apply nth_error_Some; congruence). rewrite nth_error_map, E. reflexivity.
Qed.
Print Assumptions C59_configure.

(* enqueue the messages of each sub-channel *)
Fixpoint enqueue_each (ts : list schan) (qs : list (list (list Z))) : res (list schan) :=
  match ts, qs with
  | s :: ts', q :: qs' => do s1 <- enqueue_all s q ;; do r <- enqueue_each ts' qs' ;; Ok (s1 :: r)
  | _, _ => Ok ts
  end.
Lemma enqueue_each_ok qs : forall ts, Forall (Forall (fun m => m <> [])) qs ->
  exists ts', enqueue_each ts qs = Ok ts' /\ length ts' = length ts /\
    forall i s, nth_error ts i = Some s -> nth_error ts' i = Some (set_queue s (s_queue s ++ nth i qs [])).
Proof.
  assert (ID : forall s, s = set_queue s (s_queue s ++ [])) by (intros s; rewrite app_nil_r; destruct s; reflexivity).
  induction qs as [|q qs IH]; intros [|s ts] F; cbn [enqueue_each].
  - exists []. split; auto. split; auto. intros i s E. destruct i; discriminate.
  - exists (s :: ts). split; auto. split; auto. intros i s0 E. replace (nth i [] []) with (@nil (list Z)) by (destruct i; auto). rewrite <- ID. auto.
  - exists []. split; auto. split; auto. intros i s E. destruct i; discriminate.
  - assert (Hq : Forall (fun m => m <> []) q) by exact (Forall_inv F). apply Forall_inv_tail in F.
    rewrite enqueue_all_ok by auto. cbn [bind]. destruct (IH ts F) as (t & E & L & N). rewrite E. cbn [bind].
    eexists. split; [reflexivity|]. split; [cbn; auto|]. intros i s0 E0. destruct i; cbn [nth_error nth] in *; [injection E0 as <-; auto|auto].
Qed.

Theorem C59_end_to_end : forall ds ds' tx rx (msgs : list (list (list Z))) n,
  Forall desc_ok ds -> Forall desc_ok ds' ->
  (forall i j a b, (i < j)%nat -> nth_error ds i = Some a -> nth_error ds j = Some b -> apart (cd_rate a) (cd_off a) (cd_rate b) (cd_off b)) ->
  configure osmo_i460_ts_init ds = Some tx -> configure osmo_i460_ts_init ds' = Some rx -> has_single_64k rx = false ->
  Forall (Forall (fun m => m <> [] /\ Forall (fun b => b = 0 \/ b = 1) m)) msgs ->
  exists tx1 tx2 octets, enqueue_each tx msgs = Ok tx1 /\ osmo_i460_mux_out tx1 n = Ok (tx2, octets) /\ length octets = n /\
  forall chunks, concat chunks = octets ->
  exists rx2 os, demux_run rx chunks = Ok (rx2, os) /\
  forall i j d d', nth_error ds i = Some d -> nth_error ds' j = Some d' -> cd_rate d = cd_rate d' -> cd_off d = cd_off d' ->
    exists held, concat (map obits (calls (Z.of_nat j) os)) ++ held =
        line_bits (n * bits_of (cd_rate d)) (concat (nth i msgs [])) (if cd_empty d then map (@concat Z) (cd_refill d) else []) /\
      zlen held < cd_bits d' /\ Forall (fun o => zlen (obits o) = cd_bits d') (calls (Z.of_nat j) os).
Proof.
  intros ds ds' tx rx msgs n D D' AP CT CR NS FM.
  destruct (C59_configure ds D) as [_ CT']. destruct (CT' tx CT) as [RT NT].
  destruct (C59_configure ds' D') as [_ CR']. destruct (CR' rx CR) as [RR NR].
  assert (FM' : Forall (Forall (fun m => m <> [])) msgs).
  { eapply Forall_impl; [|exact FM]. intros a. cbv beta. apply Forall_impl. tauto. }
  destruct (enqueue_each_ok msgs tx FM') as (tx1 & E1 & L1 & N1).
  assert (TXL : length tx = 8%nat).
  { clear - CT D. destruct (C59_configure ds D) as [[_ L] _]. specialize (L (ex_intro _ tx CT)).
    pose proof (configure_ok ds [] 8%nat (Forall_nil _) D L) as X. cbn [app] in X. unfold osmo_i460_ts_init in CT. rewrite X in CT.
    assert (Y : tx = map fresh ds ++ repeat subchan_reset (8 - length ds)) by congruence. rewrite Y. rewrite app_length, map_length, repeat_length. lia. }
  assert (SHAPE : forall i s1, nth_error tx1 i = Some s1 -> in_use s1 -> exists d, nth_error ds i = Some d /\ desc_ok d /\
     s_rate s1 = cd_rate d /\ s_off s1 = cd_off d /\ s_queue s1 = nth i msgs [] /\ s_empty s1 = cd_empty d /\ s_refill s1 = cd_refill d).
  { intros i s1 Es U. destruct (nth_back _ tx tx1 i s1 L1 Es) as (s & Et). pose proof (N1 i s Et) as X. rewrite Es in X. injection X as ->.
    destruct (nth_error ds i) as [d|] eqn:Ed.
    - exists d. split; auto. split; [rewrite Forall_forall in D; apply D; eapply nth_error_In; eauto|].
      destruct (NT i d Ed) as (s2 & Y & R1 & R2 & _ & _ & R3 & R4 & R5 & _). rewrite Et in Y. injection Y as <-.
      cbn [set_queue s_rate s_off s_queue s_empty s_refill]. rewrite R3. auto 10.
    - exfalso. apply U. cbn [set_queue s_rate]. clear - CT D Ed Et TXL.
      destruct (C59_configure ds D) as [[_ L] _]. specialize (L (ex_intro _ tx CT)).
      pose proof (configure_ok ds [] 8%nat (Forall_nil _) D L) as X. cbn [app] in X. unfold osmo_i460_ts_init in CT. rewrite X in CT.
      assert (Y : tx = map fresh ds ++ repeat subchan_reset (8 - length ds)) by congruence. rewrite Y in Et. apply nth_error_None in Ed. rewrite nth_error_app2 in Et by (rewrite map_length; auto).
      apply nth_error_In in Et. apply repeat_spec in Et. subst s. reflexivity. }
  assert (TX : tx_ready tx1).
  { split.
    - intros i s Es U. destruct (SHAPE i s Es U) as (d & Ed & (D1 & D2 & D3 & D4 & D5) & R1 & R2 & R3 & R4 & R5). rewrite R1, R2, R3, R4, R5.
      split; auto. split.
      + destruct (nth_in_or_default i msgs []) as [I| ->]; [|constructor]. rewrite Forall_forall in FM'. apply FM'; auto.
      + intros _. eapply Forall_impl; [|exact D5]. intros a. cbv beta. apply Forall_impl. tauto.
    - intros i j a b L Ea Eb Ua Ub. destruct (SHAPE i a Ea Ua) as (d & Ed & _ & R1 & R2 & _). destruct (SHAPE j b Eb Ub) as (d2 & Ed2 & _ & R1' & R2' & _).
      rewrite R1, R2, R1', R2'. eapply AP; eauto. }
  destruct (C59_transmit tx1 n TX) as (tx2 & xs & E2 & LX & BX & NX & _).
  exists tx1, tx2, xs. split; auto. split; auto. split; auto. intros chunks CC.
  assert (FB : Forall (Forall is_byte) chunks).
  { rewrite <- CC in BX. clear - BX. induction chunks; constructor; cbn [concat] in BX; apply Forall_app in BX; tauto. }
  destruct (C59_receive rx chunks RR NS FB) as (rx2 & os & E3 & N3). exists rx2, os. split; auto.
  intros i j d d' Ed Ed' ER EO.
  assert (Dd : desc_ok d) by (rewrite Forall_forall in D; apply D; eapply nth_error_In; eauto).
  assert (Dd' : desc_ok d') by (rewrite Forall_forall in D'; apply D'; eapply nth_error_In; eauto).
  destruct (NR j d' Ed') as (s' & Es' & Q1 & Q2 & Q3 & Q4 & _).
  destruct (N3 j s' Es') as (held & H1 & H2 & H3 & _); [unfold in_use; rewrite Q1; apply Dd'|].
  exists held. rewrite Q3 in H2, H3. split; [|auto]. rewrite Q4, Q1, Q2, CC in H1. cbn [app] in H1. rewrite <- H1.
  destruct (NT i d Ed) as (s & Es & R1 & R2 & _ & _ & R3 & R4 & R5 & _).
  pose proof (N1 i s Es) as Es1. rewrite R3 in Es1. cbn [app] in Es1.
  destruct (NX i _ Es1) as (s2 & _ & LN).
  - unfold in_use. cbn [set_queue s_rate]. rewrite R1. apply Dd.
  - cbn [set_queue s_queue]. destruct (nth_in_or_default i msgs []) as [I| ->]; [|constructor].
    rewrite Forall_forall in FM. specialize (FM _ I). clear - FM. induction FM; cbn [concat]; [constructor|]. apply Forall_app; tauto.
  - unfold supply. cbn [set_queue s_empty s_refill]. rewrite R4, R5. destruct (cd_empty d); [|constructor].
    destruct Dd as (_ & _ & _ & _ & D5). rewrite Forall_forall. intros l Il. apply in_map_iff in Il. destruct Il as (ms & <- & Im).
    rewrite Forall_forall in D5. specialize (D5 _ Im). clear - D5. induction D5; cbn [concat]; [constructor|]. apply Forall_app; tauto.
  - unfold supply in LN. cbn [set_queue s_rate s_off s_queue s_empty s_refill] in LN. rewrite R1, R2, R4, R5 in LN.
    unfold line_bits. rewrite LN. cbn [fst]. rewrite ER, EO. reflexivity.
Qed.
Print Assumptions C59_end_to_end.

(* a deleted sub-channel is gone with all it queued; the others are as before *)
Theorem C59_delete : forall ts i, (i < length ts)%nat ->
  nth_error (osmo_i460_subchan_del ts i) i = Some subchan_reset /\ s_rate subchan_reset = R_NONE /\ s_queue subchan_reset = [] /\
  forall j, j <> i -> nth_error (osmo_i460_subchan_del ts i) j = nth_error ts j.
Proof.
  intros ts i L. unfold osmo_i460_subchan_del. assert (LF : length (firstn i ts) = i) by (apply firstn_length_le; apply Nat.lt_le_incl; auto).
  destruct (skipn i ts) as [|s r] eqn:E.
  - assert (X : length (skipn i ts) = 0%nat) by (rewrite E; auto). rewrite skipn_length in X. lia.
  - split; [rewrite nth_error_app2 by (rewrite LF; auto); rewrite LF, Nat.sub_diag; auto|]. split; auto. split; auto. intros j N.
    rewrite <- (firstn_skipn i ts) at 2. rewrite E. destruct (le_lt_dec i j).
    + rewrite !nth_error_app2 by (rewrite LF; auto). rewrite LF. destruct (j - i)%nat eqn:X; [lia|reflexivity].
    + rewrite !nth_error_app1 by (rewrite LF; auto). reflexivity.
Qed.
Print Assumptions C59_delete.

(* only call-backs that the user has set are called: out_cb_bits only where it is set, out_cb_bytes likewise *)
Theorem C59_callback : forall ts data ts' os, osmo_i460_demux_in ts data = Ok (ts', os) ->
  forall i o, In (i, o) os -> exists s, nth_error ts (Z.to_nat i) = Some s /\ 0 <= i /\
    match o with OBits _ => s_cbits s = true | OBytes _ => s_cbytes s = true end.
Proof.
  set (good := fun (s : schan) (o : i460_out) => match o with OBits _ => s_cbits s = true | OBytes _ => s_cbytes s = true end).
  assert (K1 : forall s b s1 o, append_bit s b = Ok (s1, o) -> s_cbits s1 = s_cbits s /\ s_cbytes s1 = s_cbytes s /\ Forall (good s) o).
  { intros s b s1 o. unfold append_bit. destruct (negb (s_bitbuf s)); [discriminate|]. destruct (negb (zlen (s_buf s) <? s_size s)); [discriminate|].
    cbv zeta. destruct (_ >=? _).
    - destruct (s_cbits s) eqn:C1; [intros [= <- <-]; repeat split; auto|]. destruct (negb (_ mod 8 =? 0)); [discriminate|].
      destruct (s_cbytes s) eqn:C2; cbn [negb]; [|discriminate]. destruct (osmo_ubit2pbit _ _ _) as [[x y]| | |]; cbn [bind]; try discriminate.
      intros [= <- <-]. repeat split; auto.
    - intros [= <- <-]. repeat split; auto. }
  assert (GS : forall s s1 o, s_cbits s1 = s_cbits s -> s_cbytes s1 = s_cbytes s -> Forall (good s1) o -> Forall (good s) o).
  { intros s s1 o E1 E2 F. eapply Forall_impl; [|exact F]. intros [l|l]; cbn; congruence. }
  assert (K2 : forall bits s s1 o, append_bits s bits = Ok (s1, o) -> s_cbits s1 = s_cbits s /\ s_cbytes s1 = s_cbytes s /\ Forall (good s) o).
  { induction bits as [|b bits IH]; intros s s1 o; cbn [append_bits]; [intros [= <- <-]; auto|].
    destruct (append_bit s b) as [[s2 o2]| | |] eqn:E2; cbn [bind]; try discriminate.
    destruct (append_bits s2 bits) as [[s3 o3]| | |] eqn:E3; cbn [bind]; try discriminate. intros [= <- <-].
    destruct (K1 _ _ _ _ E2) as (A1 & A2 & A3). destruct (IH _ _ _ E3) as (B1 & B2 & B3). repeat split; try congruence.
    apply Forall_app; split; auto. apply (GS s s2); auto. }
  assert (K3 : forall data s s1 o, extract_bits s data = Ok (s1, o) -> s_cbits s1 = s_cbits s /\ s_cbytes s1 = s_cbytes s /\ Forall (good s) o).
  { induction data as [|x data IH]; intros s s1 o; cbn [extract_bits]; [intros [= <- <-]; auto|].
    destruct (extract_octet s x) as [[s2 o2]| | |] eqn:E2; cbn [bind]; try discriminate.
    destruct (extract_bits s2 data) as [[s3 o3]| | |] eqn:E3; cbn [bind]; try discriminate. intros [= <- <-].
    unfold extract_octet in E2. destruct (s_off s >=? 24); [discriminate|]. cbv zeta in E2. destruct (rate_none (s_rate s)); [discriminate|].
    destruct (K2 _ _ _ _ E2) as (A1 & A2 & A3). destruct (IH _ _ _ E3) as (B1 & B2 & B3). repeat split; try congruence.
    apply Forall_app; split; auto. apply (GS s s2); auto. }
  assert (K4 : forall data ts k ts' os, 0 <= k -> demux_slow k ts data = Ok (ts', os) -> forall i o, In (i, o) os ->
    k <= i /\ exists s, nth_error ts (Z.to_nat (i - k)) = Some s /\ good s o).
  { intros data. induction ts as [|s ts IH]; intros k ts' os HK; cbn [demux_slow]; [intros [= <- <-] i o []|].
    assert (SH : forall r os1, demux_slow (k + 1) ts data = Ok (r, os1) -> forall i o, In (i, o) os1 ->
       k <= i /\ exists s0, nth_error (s :: ts) (Z.to_nat (i - k)) = Some s0 /\ good s0 o).
    { intros r os1 E i o I. destruct (IH (k + 1) r os1 ltac:(lia) E i o I) as (L & s0 & N & G0). split; [lia|]. exists s0. split; auto.
      replace (Z.to_nat (i - k)) with (S (Z.to_nat (i - (k + 1)))) by lia. exact N. }
    destruct (rate_none (s_rate s)).
    - destruct (demux_slow (k + 1) ts data) as [[r os1]| | |] eqn:E; cbn [bind]; try discriminate. intros [= <- <-]. eapply SH; eauto.
    - destruct (extract_bits s data) as [[s1 o1]| | |] eqn:E1; cbn [bind]; try discriminate.
      destruct (demux_slow (k + 1) ts data) as [[r os1]| | |] eqn:E; cbn [bind]; try discriminate. intros [= <- <-] i o I.
      apply in_app_or in I. destruct I as [I|I]; [|eapply SH; eauto]. apply in_map_iff in I. destruct I as (o' & EQ & I).
      assert (i = k /\ o = o') as [-> ->] by (split; congruence). split; [lia|]. exists s. rewrite Z.sub_diag. split; auto.
      destruct (K3 _ _ _ _ E1) as (_ & _ & F). rewrite Forall_forall in F. auto. }
  intros ts data ts' os. unfold osmo_i460_demux_in. destruct (has_single_64k ts).
  - destruct ts as [|s ts]; [discriminate|]. destruct (s_cbytes s) eqn:C1.
    + intros [= <- <-] i o [E|[]]. assert (i = 0 /\ o = OBytes data) as [-> ->] by (split; congruence). exists s. cbn. repeat split; auto; lia.
    + destruct (s_cbits s) eqn:C2; cbn [negb]; [|discriminate]. destruct (osmo_pbit2ubit _ _ _) as [[b x]| | |]; cbn [bind]; try discriminate.
      intros [= <- <-] i o [E|[]]. assert (i = 0 /\ o = OBits b) as [-> ->] by (split; congruence). exists s. cbn. repeat split; auto; lia.
  - intros E i o I. destruct (K4 data ts 0 ts' os ltac:(lia) E i o I) as (L & s & N & G0). rewrite Z.sub_0_r in N. exists s. auto.
Qed.
Print Assumptions C59_callback.

(* adding to any timeslot: the first unused sub-channel gets the settings, all others keep everything; it fails exactly
   if none is unused *)
Theorem C59_add : forall ts d, 0 <= cd_off d < 256 -> 0 <= cd_bits d < 2 ^ 32 ->
  match osmo_i460_subchan_add ts d with
  | None => Forall in_use ts
  | Some ts' => exists a s b, ts = a ++ s :: b /\ Forall in_use a /\ ~ in_use s /\ exists s', ts' = a ++ s' :: b /\
      s_rate s' = cd_rate d /\ s_off s' = cd_off d /\ s_size s' = cd_bits d /\ s_cbits s' = cd_cbits d /\ s_cbytes s' = cd_cbytes d /\
      s_empty s' = cd_empty d /\ s_refill s' = cd_refill d /\ s_buf s' = s_buf s /\ s_queue s' = s_queue s /\ s_bitbuf s' = true
  end.
Proof.
  intros ts d HO HB. unfold osmo_i460_subchan_add. induction ts as [|s ts IH]; cbn [subchan_add_at]; [constructor|].
  destruct (rate_none (s_rate s)) eqn:RN.
  - exists [], s, ts. split; auto. split; auto. split; [unfold in_use; destruct (s_rate s); cbn in RN; congruence|]. eexists. split; [reflexivity|].
    cbn [s_rate s_off s_size s_cbits s_cbytes s_empty s_refill s_buf s_queue s_bitbuf].
    assert (U1 : u8 (cd_off d) = cd_off d) by (unfold u8; apply Z.mod_small; lia).
    assert (U2 : u32 (cd_bits d) = cd_bits d) by (unfold u32; apply Z.mod_small; lia). auto 20.
  - assert (IU : in_use s) by (unfold in_use; destruct (s_rate s); cbn in RN; congruence).
    destruct (subchan_add_at ts d) as [r|]; [|constructor; auto].
    destruct IH as (a & s0 & b & -> & FA & NU & s' & -> & X). exists (s :: a), s0, b. split; auto. split; [constructor; auto|]. split; auto.
    exists s'. split; auto.
Qed.
Print Assumptions C59_add.

(* nothing stops a user from adding sub-channels that overlap: both add calls succeed, and the later one overwrites
   the common bits of the earlier one *)
Theorem C59_overlap_refuted : exists a b tx tx1 tx2 x,
  desc_ok a /\ desc_ok b /\ configure osmo_i460_ts_init [a; b] = Some tx /\
  enqueue_each tx [[[0; 0; 0; 0]]; [[1; 1]]] = Ok tx1 /\ osmo_i460_mux_out tx1 1 = Ok (tx2, [x]) /\
  field (cd_off a) (bits_of (cd_rate a)) x <> [0; 0; 0; 0].
Proof.
  exists (mkDesc R_32k 0 40 true false false []), (mkDesc R_16k 2 40 true false false []).
  do 4 eexists. split; [|split; [|split; [vm_compute; reflexivity|split; [vm_compute; reflexivity|split; [vm_compute; reflexivity|vm_compute; discriminate]]]]].
  - repeat split; cbn; try discriminate; try lia; auto.
  - repeat split; cbn; try discriminate; try lia; auto.
Qed.
Print Assumptions C59_overlap_refuted.

(* a bit offset that takes the sub-channel beyond the octet is accepted as well: its last bits are lost *)
Theorem C59_offset_refuted : exists d tx tx1 tx2 octets,
  configure osmo_i460_ts_init [d] = Some tx /\ enqueue_each tx [[[0; 0; 0; 0; 0; 0; 0; 0]]] = Ok tx1 /\
  osmo_i460_mux_out tx1 1 = Ok (tx2, octets) /\ octets = [240] /\ nth_error tx2 0 = nth_error tx 0.
Proof.
  exists (mkDesc R_64k 4 8 true false false []). do 4 eexists.
  split; [vm_compute; reflexivity|]. split; [vm_compute; reflexivity|]. split; [vm_compute; reflexivity|]. split; vm_compute; reflexivity.
Qed.
Print Assumptions C59_offset_refuted.

(* with one 64 kbit/s sub-channel in the first place the call-back is not called with num_bits bits: it is given as
   many as each call brings, here 8 although 160 were asked for *)
Theorem C59_granularity_refuted : exists d rx, desc_ok d /\ cd_bits d = 160 /\ configure osmo_i460_ts_init [d] = Some rx /\
  demux_run rx [[170]] = Ok (rx, [(0, OBits [1; 0; 1; 0; 1; 0; 1; 0])]).
Proof.
  exists (mkDesc R_64k 0 160 true false false []). eexists. split; [repeat split; cbn; try discriminate; try lia; auto|].
  split; auto. split; [vm_compute; reflexivity|]. vm_compute. reflexivity.
Qed.
Print Assumptions C59_granularity_refuted.

(* two sub-channels of 16 kbit/s and one of 8 kbit/s, the receiver with another order of the same places *)
Example C59_nonvacuous :
  let ds := [mkDesc R_16k 0 8 true false false []; mkDesc R_16k 2 8 false true true [[[1; 0]; [0]]]; mkDesc R_8k 7 3 true false false []] in
  let ds' := [mkDesc R_8k 7 2 true false false []; mkDesc R_16k 2 8 false true false []; mkDesc R_16k 0 4 true false false []] in
  Forall desc_ok ds /\ Forall desc_ok ds' /\
  (forall i j a b, (i < j)%nat -> nth_error ds i = Some a -> nth_error ds j = Some b -> apart (cd_rate a) (cd_off a) (cd_rate b) (cd_off b)) /\
  exists tx tx1 tx2 rx rx2,
    configure osmo_i460_ts_init ds = Some tx /\ configure osmo_i460_ts_init ds' = Some rx /\ has_single_64k rx = false /\
    enqueue_each tx [[[0; 1; 0; 0]; [1; 1]]; [[1; 1; 0]]; [[0; 0; 1; 0; 1]]] = Ok tx1 /\
    osmo_i460_mux_out tx1 4 = Ok (tx2, [126; 30; 207; 254]) /\
    demux_run rx [[126]; []; [30; 207; 254]] = Ok (rx2,
      [(0, OBits [0; 0]); (0, OBits [1; 0]); (1, OBytes [211]); (2, OBits [0; 1; 0; 0]); (2, OBits [1; 1; 1; 1])]).
Proof.
  cbv zeta. split; [|split; [|split]].
  - repeat (apply Forall_cons; [unfold desc_ok, fits; cbn; repeat split; try discriminate; try lia; auto; try (repeat (constructor; auto); discriminate)|]); apply Forall_nil.
  - repeat (apply Forall_cons; [unfold desc_ok, fits; cbn; repeat split; try discriminate; try lia; auto; try (repeat (constructor; auto); discriminate)|]); apply Forall_nil.
  - intros i j a b L Ea Eb p [[A1 A2] [B1 B2]].
    destruct i as [|[|[|i]]]; destruct j as [|[|[|j]]]; cbn in Ea, Eb; try lia; try (destruct i; discriminate); try (destruct j; discriminate);
      injection Ea as <-; injection Eb as <-; cbn in A1, A2, B1, B2; lia.
  - do 5 eexists. split; [vm_compute; reflexivity|]. split; [vm_compute; reflexivity|]. split; [vm_compute; reflexivity|]. split; [vm_compute; reflexivity|].
    split; [vm_compute; reflexivity|]. vm_compute. reflexivity.
Qed.
