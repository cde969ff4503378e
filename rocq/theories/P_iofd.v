(* P_iofd.v - proofs for M_iofd.v *)
From Verif Require Import Base Lib S_iofd M_iofd.

Definition kept (p : option (list Z)) : list Z := match p with Some m => m | None => [] end.
Definition pinv (size : Z) (p : option (list Z)) (rest : list Z) (todo : list (list Z)) : Prop :=
  kept p ++ rest = concat todo /\ (forall m, p = Some m -> m <> [] /\ exists f t, todo = f :: t /\ zlen m < zlen f).

Lemma split_at (a b c d : list Z) : a ++ b = c ++ d -> zlen a < zlen c -> exists q, q <> [] /\ c = a ++ q /\ b = q ++ d.
Proof.
  intros E L. apply app_eq_app in E as (z & [[-> ->]|[-> ->]]).
  - rewrite zlen_app in L. pose proof (zlen_nonneg z). lia.
  - exists z. split; auto. intros ->. rewrite app_nil_r in L. lia.
Qed.
Lemma split_ge (a b c d : list Z) : a ++ b = c ++ d -> zlen c <= zlen a -> exists q, a = c ++ q /\ d = q ++ b.
Proof.
  intros E L. apply app_eq_app in E as (z & [[-> ->]|[-> ->]]).
  - exists z. auto.
  - rewrite zlen_app in L. pose proof (zlen_nonneg z). assert (zlen z = 0) by lia. destruct z; [|rewrite zlen_cons in H0; pose proof (zlen_nonneg z0); lia].
    exists []. rewrite !app_nil_r. auto.
Qed.

Lemma seg_loop_ok f size rc fuel : forall msg rest todo, msg <> [] -> msg ++ rest = concat todo -> Forall (recognised f size) todo -> zlen msg <= size ->
  (length msg < fuel)%nat ->
  exists done todo' p, seg_loop fuel (Some f) size rc msg = Ok (map (pair rc) done, p) /\ todo = done ++ todo' /\ pinv size p rest todo'.
Proof.
  induction fuel as [|fuel IH]; intros msg rest todo N W R L Fu; [lia|]. cbn [seg_loop].
  destruct todo as [|m t]. { apply app_eq_nil in W. destruct W. contradiction. }
  pose proof (Forall_inv R) as (Lm & S1 & S2). pose proof (Forall_inv_tail R) as Rt. cbn [concat] in W. unfold iofd_handle_segmentation.
  destruct (Z_lt_le_dec (zlen msg) (zlen m)) as [Lt|Ge].
  - destruct (split_at _ _ _ _ W Lt) as (q & Nq & -> & Er). destruct (S2 msg q eq_refl N Nq) as [Ea|Ea].
    + rewrite Ea. change (-11 =? - EAGAIN) with true. cbv iota. cbn [bind]. exists [], ((msg ++ q) :: t), (Some msg). split; [reflexivity|]. split; [reflexivity|].
      split; [cbn [kept concat]; rewrite Er, app_assoc; reflexivity|]. intros ? [= <-]. eauto.
    + pose proof (zlen_nonneg msg). replace (f msg =? - EAGAIN) with false by (unfold EAGAIN; lia). replace (f msg <? 0) with false by lia.
      replace (zlen msg - f msg =? 0) with false by lia. replace (zlen msg - f msg <? 0) with true by lia. cbn [bind].
      exists [], ((msg ++ q) :: t), (Some msg). split; [reflexivity|]. split; [reflexivity|].
      split; [cbn [kept concat]; rewrite Er, app_assoc; reflexivity|]. intros ? [= <-]. eauto.
  - destruct (split_ge _ _ _ _ W Ge) as (r & -> & Et). rewrite S1. replace (zlen m =? - EAGAIN) with false by (unfold EAGAIN; lia). replace (zlen m <? 0) with false by lia.
    rewrite zlen_app in *. destruct (zlen m + zlen r - zlen m =? 0) eqn:E0.
    + assert (r = []). { destruct r; auto. rewrite zlen_cons in E0. pose proof (zlen_nonneg r). lia. } subst r. rewrite !app_nil_r. cbn [bind].
      exists [m], t, None. split; [reflexivity|]. split; [reflexivity|]. split; [cbn [kept app]; auto|discriminate].
    + pose proof (zlen_nonneg r). replace (zlen m + zlen r - zlen m <? 0) with false by lia. replace (size <? zlen m + zlen r - zlen m) with false by lia. cbn [bind].
      assert (Lz : Z.to_nat (zlen m) = length m) by (unfold zlen; lia). rewrite Lz, skipn_app, firstn_app, skipn_all, firstn_all, Nat.sub_diag. cbn [skipn firstn app]. rewrite app_nil_r.
      destruct (IH r rest t) as (done & todo' & p & E & T & I); auto.
      { intros ->. cbn in E0. lia. } { lia. } { rewrite app_length in Fu. unfold zlen in Lm. lia. }
      rewrite E. cbn [bind]. exists (m :: done), todo', p. split; [reflexivity|]. split; [cbn; congruence|exact I].
Qed.

Lemma reads_ok f size avail : forall p stream todo, pinv size p stream todo -> Forall (recognised f size) todo ->
  exists done todo' p' s', reads (Some f) size p stream avail = Ok (done, p', s') /\ todo = done ++ todo' /\ pinv size p' s' todo'.
Proof.
  induction avail as [|n avail IH]; intros p stream todo I R; cbn [reads].
  - exists [], todo, p, stream. auto.
  - set (room := size - _). set (k := Z.to_nat (Z.min n room)). destruct (firstn k stream) as [|x l] eqn:E.
    + apply IH; auto.
    + assert (Hroom : zlen (kept p) = size - room) by (unfold room; destruct p; cbn [kept]; rewrite ?zlen_nil; lia).
      assert (Ll : zlen (x :: l) <= room). { rewrite <- E. unfold zlen. rewrite firstn_length. unfold k in *. destruct (Z_le_dec room 0); [|lia]. replace (Z.to_nat (Z.min n room)) with O in E by lia. discriminate. }
      unfold iofd_readable. fold (kept p). rewrite Hroom. destruct (size <? _) eqn:E1; [lia|].
      unfold iofd_handle_segmented_read. pose proof (zlen_nonneg l). replace (zlen (x :: l) <=? 0) with false by (rewrite zlen_cons; lia).
      destruct (seg_loop_ok f size (zlen (x :: l)) (S (length (kept p ++ x :: l))) (kept p ++ x :: l) (skipn k stream) todo) as (done & todo' & p' & E2 & T & I'); auto.
      { destruct (kept p); discriminate. }
      { rewrite <- app_assoc, <- E, firstn_skipn. apply I. }
      { rewrite zlen_app. lia. }
      rewrite E2. cbn [bind]. assert (R' : Forall (recognised f size) todo') by (rewrite T in R; apply Forall_app in R; apply R).
      destruct (IH p' (skipn k stream) todo' I' R') as (done2 & todo2 & p2 & s2 & E3 & T2 & I2). rewrite E3. cbn [bind].
      exists (done ++ done2), todo2, p2, s2. rewrite map_map. cbn [snd]. rewrite map_id. split; [reflexivity|]. split; [rewrite T, T2, app_assoc; reflexivity|exact I2].
Qed.

Lemma cbsp_recognised size m : cbsp_msg m -> zlen m <= size -> recognised osmo_cbsp_segmentation_cb size m.
Proof.
  intros (t & a & b & c & body & -> & B & E) L. inversion_clear B. inversion_clear H0. inversion_clear H2. inversion_clear H3. red in H1, H0, H2.
  assert (V : Z.lor (Z.lor (Z.shiftl a 16) (Z.shiftl b 8)) c = zlen body).
  { rewrite <- E. rewrite !Z.shiftl_mul_pow2 by lia. change (2 ^ 16) with 65536. change (2 ^ 8) with 256.
    assert (D1 : Z.land (a * 65536) (b * 256) = 0).
    { apply Z.bits_inj'. intros n Hn. rewrite Z.land_spec, Z.bits_0. change 65536 with (2 ^ 16). destruct (Z_lt_le_dec n 16).
      - rewrite Z.mul_pow2_bits_low by lia. reflexivity.
      - rewrite (Z.bits_above_log2 (b * 256) n), andb_false_r; [auto|lia|]. destruct (Z.eq_dec b 0) as [->|]; [cbn; lia|]. apply Z.log2_lt_pow2; [lia|].
        apply Z.lt_le_trans with (2 ^ 16); [change (2^16) with 65536; lia|apply Z.pow_le_mono_r; lia]. }
    rewrite <- (Z.lxor_lor _ _ D1), <- (Z.add_nocarry_lxor _ _ D1).
    assert (D2 : Z.land (a * 65536 + b * 256) c = 0).
    { replace (a * 65536 + b * 256) with ((a * 256 + b) * 2 ^ 8) by (change (2 ^ 8) with 256; lia). apply Z.bits_inj'. intros n Hn. rewrite Z.land_spec, Z.bits_0. destruct (Z_lt_le_dec n 8).
      - rewrite Z.mul_pow2_bits_low by lia. reflexivity.
      - rewrite (Z.bits_above_log2 c n), andb_false_r; [auto|lia|]. destruct (Z.eq_dec c 0) as [->|]; [cbn; lia|]. apply Z.log2_lt_pow2; [lia|].
        apply Z.lt_le_trans with (2 ^ 8); [change (2^8) with 256; lia|apply Z.pow_le_mono_r; lia]. }
    rewrite <- (Z.lxor_lor _ _ D2), <- (Z.add_nocarry_lxor _ _ D2). reflexivity. }
  rewrite !zlen_cons in *. pose proof (zlen_nonneg body). split; [rewrite !zlen_cons; lia|]. split.
  - intros rest. cbn [app osmo_cbsp_segmentation_cb]. rewrite V, !zlen_cons. lia.
  - intros p q Ep Np Nq. destruct p as [|x0 [|x1 [|x2 [|x3 p]]]]; try (left; reflexivity). injection Ep as <- <- <- <- ->. right. cbn [osmo_cbsp_segmentation_cb].
    rewrite V, !zlen_cons, zlen_app. destruct q; [contradiction|]. rewrite zlen_cons. pose proof (zlen_nonneg q). lia.
Qed.

(* ---- transmitting ---- *)
Definition hok (h : mhdr) : Prop := iov h = mdata h /\ iov_len h = zlen (mdata h) /\ 1 <= zlen (mdata h) < 65536.
Definition tinv (s : txs) : Prop := Forall hok (txq s) /\ (txq s <> [] -> wen s = true) /\ sent s = concat (succeeded (cbl s)) /\ zlen (txq s) <= Z.max 0 (max_length s).

Lemma succeeded_app a b : succeeded (a ++ b) = succeeded a ++ succeeded b.
Proof. unfold succeeded. apply flat_map_app. Qed.
Lemma finished_app a b : finished (a ++ b) = finished a ++ finished b.
Proof. unfold finished. apply flat_map_app. Qed.

Lemma tx_run_inv ops : forall s, Forall whole ops -> tinv s ->
  let '(s', rcs) := tx_run s ops in tinv s' /\ max_length s' = max_length s /\
    finished (cbl s) ++ map mdata (txq s) ++ accepted ops rcs = finished (cbl s') ++ map mdata (txq s').
Proof.
  induction ops as [|[m|k] ops IH]; intros s W I; cbn [tx_run].
  - cbn [accepted]. rewrite app_nil_r. auto.
  - pose proof (Forall_inv W) as Wm. cbn in Wm. apply Forall_inv_tail in W. unfold osmo_iofd_write_msgb.
    destruct (zlen m =? 0) eqn:E0.
    { specialize (IH s W I). destruct (tx_run s ops) as [s' rcs]. cbn [accepted]. change (- EINVAL =? 0) with false. exact IH. }
    unfold iofd_txqueue_enqueue. destruct (max_length s <=? zlen (txq s)) eqn:E1.
    { specialize (IH s W I). destruct (tx_run s ops) as [s' rcs]. cbn [accepted]. change (- ENOSPC =? 0) with false. exact IH. }
    destruct I as (I1 & I2 & I3 & I4). pose proof (zlen_nonneg m). pose proof (zlen_nonneg (txq s)). cbv zeta. set (s1 := mktxs _ _ _ _ _).
    assert (T1 : tinv s1).
    { split; [|split; [|split]]; cbn [txq wen cbl sent max_length s1].
      - apply Forall_app. split; auto. constructor; auto. repeat split; cbn; lia.
      - intros _. destruct (txq s) eqn:Eq; [reflexivity|]. rewrite I2 by discriminate. destruct (_ =? 1); reflexivity.
      - exact I3.
      - rewrite zlen_app, zlen_cons, zlen_nil. lia. }
    specialize (IH s1 W T1). destruct (tx_run s1 ops) as [s' rcs]. cbn [accepted]. change (0 =? 0) with true. cbv iota. destruct IH as (A & B & C).
    split; auto. split; auto. rewrite <- C. unfold s1. cbn [txq cbl]. rewrite map_app, <- app_assoc. reflexivity.
  - pose proof (Forall_inv W) as Wk. apply Forall_inv_tail in W. destruct (wen s) eqn:Ew.
    2: { specialize (IH s W I). destruct (tx_run s ops) as [s' rcs]. cbn [accepted]. exact IH. }
    destruct I as (I1 & I2 & I3 & I4). unfold iofd_writable, iofd_txqueue_dequeue. destruct (txq s) as [|h q] eqn:Eq.
    { set (s1 := mktxs _ _ _ _ _). assert (T1 : tinv s1).
      { split; [constructor|]. split; [cbn; congruence|]. split; [cbn [sent cbl s1]; rewrite succeeded_app; cbn; rewrite app_nil_r; auto|]. cbn [txq s1 max_length]. rewrite zlen_nil in *. lia. }
      specialize (IH s1 W T1). destruct (tx_run s1 ops) as [s' rcs]. cbn [accepted]. destruct IH as (A & B & C). split; auto. split; auto.
      rewrite <- C. unfold s1. cbn [txq cbl]. rewrite finished_app. cbn [finished flat_map snd app]. rewrite app_nil_r. reflexivity. }
    pose proof (Forall_inv I1) as (H1 & H2 & H3). apply Forall_inv_tail in I1. rewrite zlen_cons in I4. pose proof (zlen_nonneg q).
    assert (Wq : q <> [] -> (if zlen q =? 0 then false else wen s) = true).
    { intros N. destruct q; [contradiction|]. rewrite zlen_cons. pose proof (zlen_nonneg q). destruct (_ =? 0) eqn:E; [lia|auto]. }
    assert (FIN : forall rc l, tinv (mktxs q (max_length s) (if zlen q =? 0 then false else wen s) (cbl s ++ [(rc, Some (mdata h))]) (sent s ++ l)) ->
       let '(s', rcs) := tx_run (mktxs q (max_length s) (if zlen q =? 0 then false else wen s) (cbl s ++ [(rc, Some (mdata h))]) (sent s ++ l)) ops in
       tinv s' /\ max_length s' = max_length s /\ finished (cbl s) ++ map mdata (h :: q) ++ accepted (Writable k :: ops) rcs = finished (cbl s') ++ map mdata (txq s')).
    { intros rc l T. specialize (IH _ W T). destruct (tx_run _ ops) as [s' rcs]. cbn [accepted]. destruct IH as (A & B & C). split; auto. split; auto.
      rewrite <- C. cbn [txq cbl]. rewrite finished_app. cbn [finished flat_map snd app map]. rewrite <- app_assoc. reflexivity. }
    unfold iofd_handle_send_completion. destruct k as [n|e]; cbn [sendmsg max_length txq wen cbl sent]; cbn in Wk.
    + rewrite H2. replace (Z.min n (zlen (mdata h))) with (zlen (mdata h)) by lia. rewrite Z.ltb_irrefl, andb_false_r.
      replace (zlen (mdata h) =? - EAGAIN) with false by (unfold EAGAIN; lia). apply FIN.
      split; [auto|]. split; [auto|]. cbn [sent cbl txq max_length]. split; [|lia]. rewrite succeeded_app. cbn [succeeded flat_map fst snd]. replace (0 <? zlen (mdata h)) with true by lia.
      rewrite concat_app, I3. cbn [concat app]. rewrite app_nil_r, H1. unfold zlen. rewrite Nat2Z.id, firstn_all. reflexivity.
    + replace (0 <? - e) with false by lia. cbn [andb]. destruct (- e =? - EAGAIN) eqn:Ee.
      * unfold iofd_txqueue_enqueue_front. cbn [txq max_length wen cbl sent]. set (s1 := mktxs _ _ _ _ _). assert (T1 : tinv s1).
        { split; [constructor; [repeat split; auto; lia|auto]|]. split; [intros _; cbn [wen s1]|split; [cbn [sent cbl s1]; rewrite app_nil_r; exact I3|cbn [txq max_length s1]; rewrite zlen_cons; lia]].
          destruct q; [reflexivity|]. rewrite Wq by discriminate. destruct (_ =? 1); reflexivity. }
        specialize (IH s1 W T1). destruct (tx_run s1 ops) as [s' rcs]. cbn [accepted]. destruct IH as (A & B & C). split; auto.
      * apply FIN. split; [auto|]. split; [auto|]. cbn [sent cbl txq max_length]. split; [|lia]. rewrite succeeded_app. cbn [succeeded flat_map fst snd].
        replace (0 <? - e) with false by lia. rewrite !app_nil_r. exact I3.
Qed.

Lemma reads_progress f size avail : forall p stream todo done p' s', pinv size p stream todo -> Forall (recognised f size) todo ->
  Forall (fun n => 1 <= n) avail -> zlen stream <= zlen avail -> reads (Some f) size p stream avail = Ok (done, p', s') -> s' = [].
Proof.
  induction avail as [|n avail IH]; intros p stream todo done p' s' I R A L E; cbn [reads] in E.
  - injection E as _ _ <-. rewrite zlen_nil in L. destruct stream; auto. rewrite zlen_cons in L. pose proof (zlen_nonneg stream). lia.
  - assert (Hn : 1 <= n) by exact (Forall_inv A). apply Forall_inv_tail in A. rewrite zlen_cons in L. destruct stream as [|x st].
    { rewrite firstn_nil in E. eapply IH; [exact I|exact R|exact A| |exact E]. rewrite zlen_nil. apply zlen_nonneg. }
    assert (Room : 1 <= size - match p with Some m => zlen m | None => 0 end).
    { destruct I as [I1 I2]. destruct p as [m|].
      - destruct (I2 m eq_refl) as (_ & g & t & -> & Lg). apply Forall_inv in R as (R & _). lia.
      - destruct todo as [|g t]; [discriminate I1|]. apply Forall_inv in R as (R & _). lia. }
    set (room := size - _) in *. assert (K : exists k, Z.to_nat (Z.min n room) = S k) by (exists (Z.to_nat (Z.min n room - 1)); lia). destruct K as [k Ek].
    assert (Er : forall a, reads (Some f) size p (x :: st) [n] = Ok a -> exists d, fst a = (d, snd (fst a)) /\ snd a = skipn k st).
    { intros a. cbn [reads]. fold room. rewrite Ek. cbn [firstn skipn]. destruct (iofd_readable _ _ _ _) as [[c q]| | |]; cbn [bind]; intros Q; try discriminate Q. injection Q as <-. eexists. split; reflexivity. }
    destruct (reads_ok f size [n] p (x :: st) todo I R) as (d1 & t1 & p1 & s1 & E1 & T1 & I1).
    destruct (Er _ E1) as (? & _ & Es). cbn [snd] in Es. subst s1.
    rewrite Ek in E. cbn [firstn skipn] in E. cbn [reads] in E1. fold room in E1. rewrite Ek in E1. cbn [firstn skipn] in E1.
    destruct (iofd_readable _ _ _ _) as [[c q]| | |]; cbn [bind] in E, E1; try discriminate E. injection E1 as _ <-.
    destruct (reads (Some f) size q (skipn k st) avail) as [[[r q'] s2]| | |] eqn:E2; cbn [bind] in E; try discriminate E. injection E as _ _ <-.
    eapply IH; [exact I1| |exact A| |exact E2].
    + rewrite T1 in R. apply Forall_app in R. apply R.
    + rewrite zlen_cons in L. unfold zlen in *. rewrite skipn_length. lia.
Qed.
