From Verif Require Import Base S_bits M_bits P_bits S_i460 M_i460.
Ltac Zify.zify_post_hook ::= idtac.

Definition isbit (b : Z) : Prop := b = 0 \/ b = 1.
Definition bitsof (l : list Z) : Prop := Forall isbit l.

Definition unpack (l : list Z) : list Z := fields 0 8 l.
(* the bits a call-back is given *)
Definition obits (o : i460_out) : list Z := match o with OBits l => l | OBytes l => unpack l end.

Definition norm (b : Z) : Z := if b =? 0 then 0 else 1.

Lemma field_len off w x : length (field off w x) = w.
Proof. unfold field. rewrite map_length, zseq_length. auto. Qed.

Lemma unpack_nth l : forall j, 0 <= j < 8 * zlen l -> at0 (unpack l) j = if pbit false l j then 1 else 0.
Proof.
  induction l as [|x l IH]; intros j Hj.
  - unfold zlen in Hj; cbn in Hj; lia.
  - unfold unpack, fields. cbn [map concat]. rewrite at0_app by lia.
    assert (L : zlen (field 0 8 x) = 8) by (unfold zlen; rewrite field_len; reflexivity). rewrite L.
    destruct (Z.ltb_spec j 8).
    + assert (D : j / 8 = 0) by (apply Z.div_small; lia). assert (Mo : j mod 8 = j) by (apply Z.mod_small; lia).
      unfold pbit. rewrite D, Mo. change (at0 (x :: l) 0) with x.
      assert (C : j = 0 \/ j = 1 \/ j = 2 \/ j = 3 \/ j = 4 \/ j = 5 \/ j = 6 \/ j = 7) by lia.
      destruct C as [->|[->|[->|[->|[->|[->|[->| ->]]]]]]]; reflexivity.
    + change (concat (map (field 0 8) l)) with (unpack l).
      rewrite IH by (rewrite zlen_cons in Hj; lia). unfold pbit.
      replace (j / 8) with ((j - 8) / 8 + 1) by (replace j with (j - 8 + 1 * 8) at 2 by lia; rewrite Z.div_add by lia; lia).
      replace (j mod 8) with ((j - 8) mod 8) by (replace j with (j - 8 + 1 * 8) at 2 by lia; rewrite Z.mod_add by lia; reflexivity).
      assert (0 <= (j - 8) / 8) by (apply Z.div_pos; lia).
      unfold at0 at 2. replace (Z.to_nat ((j - 8) / 8 + 1)) with (S (Z.to_nat ((j - 8) / 8))) by lia. reflexivity.
Qed.
Lemma unpack_len l : zlen (unpack l) = 8 * zlen l.
Proof.
  unfold unpack, fields. induction l; [reflexivity|]. cbn [map concat]. rewrite zlen_app, IHl, zlen_cons.
  assert (L : zlen (field 0 8 a) = 8) by (unfold zlen; rewrite field_len; reflexivity). lia.
Qed.

Lemma at0_ext a b : zlen a = zlen b -> (forall j, 0 <= j < zlen a -> at0 a j = at0 b j) -> a = b.
Proof.
  intros L H. apply (nth_ext a b 0 0); [unfold zlen in L; lia|].
  intros n Hn. specialize (H (Z.of_nat n)). unfold at0 in H. rewrite Nat2Z.id in H. apply H. unfold zlen. lia.
Qed.

Lemma bitsof_bits l : bitsof l -> bits l.
Proof. intros H. unfold bits. eapply Forall_impl; [|exact H]. intros a. unfold isbit, is_bit. intuition lia. Qed.

Lemma pack_unpack b : bitsof b -> zlen b mod 8 = 0 ->
  exists o, osmo_ubit2pbit (repeat 0 (Z.to_nat (zlen b / 8))) b (zlen b) = Ok (o, nbytes (zlen b)) /\ unpack o = b /\
    zlen o = zlen b / 8.
Proof.
  intros B M. pose proof (zlen_nonneg b) as L0.
  assert (D : zlen b = 8 * (zlen b / 8)) by (pose proof (Z.div_mod (zlen b) 8 ltac:(lia)); lia).
  assert (N : nbytes (zlen b) = zlen b / 8).
  { unfold nbytes. rewrite D at 1. replace (8 * (zlen b / 8) + 7) with (7 + (zlen b / 8) * 8) by lia. rewrite Z.div_add by lia. reflexivity. }
  assert (P0 : 0 <= zlen b / 8) by (apply Z.div_pos; lia).
  assert (LR : zlen (repeat 0 (Z.to_nat (zlen b / 8))) = zlen b / 8) by (unfold zlen at 1; rewrite repeat_length; lia).
  destruct (ubit2pbit_ok (repeat 0 (Z.to_nat (zlen b / 8))) b (zlen b)) as (o & E & Lo & Hj & _).
  - apply bitsof_bits; auto.
  - lia.
  - lia.
  - exists o. split; auto. rewrite LR in Lo. split; auto.
    apply at0_ext; [rewrite unpack_len; lia|]. intros j Hj'. rewrite unpack_len in Hj'.
    rewrite unpack_nth by lia. rewrite Hj by lia.
    destruct (Z.ltb_spec j (zlen b)); [|lia]. cbn [andb].
    assert (I : isbit (at0 b j)).
    { unfold bitsof in B. rewrite Forall_forall in B. apply B. unfold at0. apply nth_In. unfold zlen in *. lia. }
    destruct I as [-> | ->]; reflexivity.
Qed.

(* a sub-channel that can take bits *)
Record dready (s : schan) : Prop := {
  dr_bb : s_bitbuf s = true;
  dr_len : zlen (s_buf s) < s_size s;
  dr_cb : s_cbits s = true \/ (s_cbytes s = true /\ s_size s mod 8 = 0);
  dr_bits : bitsof (s_buf s) }.

Lemma norm_bit b : isbit (norm b).
Proof. unfold norm, isbit. destruct (b =? 0); auto. Qed.

Lemma append_bit_ok s b : dready s ->
  exists buf os, append_bit s b = Ok (set_buf s buf, os) /\ dready (set_buf s buf) /\
    s_buf s ++ [norm b] = concat (map obits os) ++ buf /\
    Forall (fun o => zlen (obits o) = s_size s) os.
Proof.
  intros [B L C BB]. unfold append_bit. rewrite B. cbn [negb].
  destruct (Z.ltb_spec (zlen (s_buf s)) (s_size s)); [|lia]. cbn [negb]. fold (norm b).
  assert (LB : zlen (s_buf s ++ [norm b]) = zlen (s_buf s) + 1) by (rewrite zlen_app; reflexivity).
  assert (BN : bitsof (s_buf s ++ [norm b])).
  { apply Forall_app; split; auto. constructor; [apply norm_bit|constructor]. }
  pose proof (zlen_nonneg (s_buf s)) as Z0.
  destruct (Z.geb_spec (zlen (s_buf s ++ [norm b])) (s_size s)) as [G|G].
  - assert (SZ : zlen (s_buf s ++ [norm b]) = s_size s) by lia.
    assert (DR : dready (set_buf s [])).
    { constructor; cbn [set_buf s_bitbuf s_buf s_size s_cbits s_cbytes]; auto; [unfold zlen at 1; cbn [length]; lia|constructor]. }
    destruct (s_cbits s) eqn:EC.
    + exists [], [OBits (s_buf s ++ [norm b])]. split; auto. split; auto. split.
      * cbn [map concat obits]. rewrite !app_nil_r. auto.
      * constructor; [exact SZ|constructor].
    + destruct C as [C|[C1 C2]]; [discriminate|]. rewrite SZ, C2, C1. cbn [Z.eqb negb].
      destruct (pack_unpack (s_buf s ++ [norm b]) BN ltac:(rewrite SZ; exact C2)) as (o & E & U & LO).
      rewrite SZ in E. rewrite E. cbn [bind]. exists [], [OBytes o]. split; auto. split; auto. split.
      * cbn [map concat obits]. rewrite !app_nil_r. auto.
      * constructor; [|constructor]. cbn [obits]. rewrite U. exact SZ.
  - exists (s_buf s ++ [norm b]), []. split; auto. split; [|split; [reflexivity|constructor]].
    constructor; cbn [set_buf s_bitbuf s_buf s_size s_cbits s_cbytes]; auto.
Qed.

Lemma append_bits_ok bs : forall s, dready s ->
  exists buf os, append_bits s bs = Ok (set_buf s buf, os) /\ dready (set_buf s buf) /\
    s_buf s ++ map norm bs = concat (map obits os) ++ buf /\
    Forall (fun o => zlen (obits o) = s_size s) os.
Proof.
  induction bs as [|b bs IH]; intros s D; cbn [append_bits map].
  - exists (s_buf s), []. assert (E : set_buf s (s_buf s) = s) by (destruct s; reflexivity). rewrite E.
    split; auto. split; auto. split; [rewrite app_nil_r; auto|constructor].
  - destruct (append_bit_ok s b D) as (b1 & o1 & E1 & D1 & C1 & F1). rewrite E1. cbn [bind].
    destruct (IH _ D1) as (b2 & o2 & E2 & D2 & C2 & F2). rewrite E2. cbn [bind].
    exists b2, (o1 ++ o2). split; [reflexivity|]. split; [exact D2|]. split.
    + cbn [set_buf s_buf] in C2. change (norm b :: map norm bs) with ([norm b] ++ map norm bs).
      rewrite app_assoc, C1, <- app_assoc, C2, map_app, concat_app, <- app_assoc. reflexivity.
    + apply Forall_app; split; auto.
Qed.

(* the bits of an octet *)
Definition width (s : schan) : nat := rate_width (s_rate s).
Definition leqb (a b : list Z) : bool := if list_eq_dec Z.eq_dec a b then true else false.
Definition ext_check (r : i460_rate) : bool :=
  forallb (fun off => forallb (fun x =>
    leqb (map norm (map (Z.land (u8 (Z.shiftl x off))) (rate_masks r))) (field off (rate_width r) x))
    (zseq 0 256)) (zseq 0 (9 - rate_width r)).
Lemma ext_checked : forallb ext_check [R_NONE; R_64k; R_32k; R_16k; R_8k] = true.
Proof. vm_compute. reflexivity. Qed.

Lemma extract_field r off x : 0 <= off -> off + Z.of_nat (rate_width r) <= 8 -> is_byte x ->
  map norm (map (Z.land (u8 (Z.shiftl x off))) (rate_masks r)) = field off (rate_width r) x.
Proof.
  intros H0 H1 Hx. pose proof ext_checked as E. rewrite forallb_forall in E.
  assert (I : ext_check r = true) by (apply E; destruct r; cbn; auto 10).
  unfold ext_check in I. pose proof (forall_zseq _ _ _ I off) as X.
  assert (W : (rate_width r <= 8)%nat) by (destruct r; cbn; lia).
  specialize (X ltac:(lia)). cbv beta in X. pose proof (forall_zseq _ _ _ X x ltac:(unfold is_byte in Hx; lia)) as Y.
  cbv beta in Y. unfold leqb in Y. destruct (list_eq_dec _ _ _); auto. discriminate.
Qed.

(* the place of a sub-channel in the octet *)
Definition placed (s : schan) : Prop := 0 <= s_off s /\ s_off s + Z.of_nat (width s) <= 8.

Lemma extract_bits_ok data : forall s, dready s -> placed s -> rate_none (s_rate s) = false -> Forall is_byte data ->
  exists buf os, extract_bits s data = Ok (set_buf s buf, os) /\ dready (set_buf s buf) /\
    s_buf s ++ fields (s_off s) (width s) data = concat (map obits os) ++ buf /\
    Forall (fun o => zlen (obits o) = s_size s) os.
Proof.
  induction data as [|x data IH]; intros s D PL NN F; cbn [extract_bits].
  - exists (s_buf s), []. assert (E : set_buf s (s_buf s) = s) by (destruct s; reflexivity). rewrite E.
    split; auto. split; auto. split; [cbn; rewrite app_nil_r; auto|constructor].
  - assert (Hx : is_byte x) by exact (Forall_inv F). apply Forall_inv_tail in F.
    unfold extract_octet. destruct PL as [P0 P1].
    destruct (Z.geb_spec (s_off s) 24); [lia|]. rewrite NN.
    destruct (append_bits_ok (map (Z.land (u8 (Z.shiftl x (s_off s)))) (rate_masks (s_rate s))) s D) as (b1 & o1 & E1 & D1 & C1 & F1).
    rewrite E1. cbn [bind]. rewrite extract_field in C1 by (unfold width in P1; auto).
    destruct (IH _ D1 (conj P0 P1) NN F) as (b2 & o2 & E2 & D2 & C2 & F2). rewrite E2. cbn [bind].
    exists b2, (o1 ++ o2). split; [reflexivity|]. split; [exact D2|]. split.
    + cbn [set_buf s_buf s_off] in C2. change (width (set_buf s b1)) with (width s) in C2.
      unfold fields. cbn [map concat]. rewrite app_assoc. unfold width at 1. rewrite C1, <- app_assoc.
      fold (fields (s_off s) (width s) data). rewrite C2, map_app, concat_app, <- app_assoc. reflexivity.
    + apply Forall_app; split; auto.
Qed.

(* ------------------------------------------------------------------ *)
(* the demultiplexer                                                   *)

(* what the call-backs of sub-channel number i are given in the calls os *)
Definition calls (i : Z) (os : list (Z * i460_out)) : list i460_out := map snd (filter (fun p => fst p =? i) os).
Definition got (i : Z) (os : list (Z * i460_out)) : list Z := concat (map obits (calls i os)).

Lemma calls_app i a b : calls i (a ++ b) = calls i a ++ calls i b.
Proof. unfold calls. rewrite filter_app, map_app. auto. Qed.
Lemma got_app i a b : got i (a ++ b) = got i a ++ got i b.
Proof. unfold got. rewrite calls_app, map_app, concat_app. auto. Qed.
Lemma calls_tag i j l : calls j (map (pair i) l) = if i =? j then l else [].
Proof.
  unfold calls. induction l; cbn [map filter fst].
  - destruct (i =? j); auto.
  - destruct (i =? j) eqn:E; cbn [map snd]; rewrite IHl; auto.
Qed.

Definition used (s : schan) : bool := negb (rate_none (s_rate s)).
Definition dok (s : schan) : Prop := used s = true -> dready s /\ placed s.

Definition dstep (s s' : schan) (data : list Z) (cs : list i460_out) : Prop :=
  if used s then exists buf, s' = set_buf s buf /\ dready s' /\
       s_buf s ++ fields (s_off s) (width s) data = concat (map obits cs) ++ buf /\
       Forall (fun o => zlen (obits o) = s_size s) cs
  else s' = s /\ cs = [].

Lemma demux_slow_ok data : Forall is_byte data -> forall ts i, Forall dok ts ->
  exists ts' os, demux_slow i ts data = Ok (ts', os) /\ length ts' = length ts /\
    Forall (fun p => i <= fst p) os /\
    forall n s, nth_error ts n = Some s -> exists s', nth_error ts' n = Some s' /\
      dstep s s' data (calls (i + Z.of_nat n) os).
Proof.
  intros HB. induction ts as [|s ts IH]; intros i F; cbn [demux_slow].
  - exists [], []. repeat split; auto. intros n s E. destruct n; discriminate.
  - assert (Hs : dok s) by exact (Forall_inv F). apply Forall_inv_tail in F.
    destruct (IH (i + 1) F) as (ts' & os & E & L & G & N).
    unfold dok, used in Hs. destruct (rate_none (s_rate s)) eqn:RN.
    + rewrite E. cbn [bind]. exists (s :: ts'), os. split; auto. split; [cbn; auto|]. split.
      { eapply Forall_impl; [|exact G]. cbv beta. intros; lia. }
      intros n s0 E0. destruct n; cbn [nth_error] in *.
      * injection E0 as <-. exists s. split; auto. unfold dstep, used. rewrite RN. cbn [negb]. split; auto.
        unfold calls. replace (filter _ os) with (@nil (Z * i460_out)); auto. symmetry.
        clear - G. induction G; auto. cbn [filter]. destruct (Z.eqb_spec (fst x) (i + Z.of_nat 0)); [lia|auto].
      * destruct (N n s0 E0) as (s' & E1 & E2). exists s'. split; auto.
        replace (i + Z.of_nat (S n)) with (i + 1 + Z.of_nat n) by lia. auto.
    + destruct (Hs eq_refl) as [D PL].
      destruct (extract_bits_ok data s D PL RN HB) as (buf & o1 & E1 & D1 & C1 & F1).
      rewrite E1. cbn [bind]. rewrite E. cbn [bind]. exists (set_buf s buf :: ts'), (map (pair i) o1 ++ os).
      split; auto. split; [cbn; auto|]. split.
      { apply Forall_app; split.
        - rewrite Forall_forall. intros p Hp. apply in_map_iff in Hp. destruct Hp as (y & <- & _). cbn. lia.
        - eapply Forall_impl; [|exact G]. cbv beta. intros; lia. }
      intros n s0 E0. destruct n; cbn [nth_error] in *.
      * injection E0 as <-. eexists. split; [reflexivity|]. unfold dstep, used. rewrite RN. cbn [negb].
        exists buf. split; auto. split; auto. rewrite calls_app, calls_tag.
        replace (i =? i + Z.of_nat 0) with true by (symmetry; apply Z.eqb_eq; lia).
        replace (calls (i + Z.of_nat 0) os) with (@nil i460_out).
        { rewrite app_nil_r. auto. }
        unfold calls. replace (filter _ os) with (@nil (Z * i460_out)); auto.
        clear - G. induction G; auto. cbn [filter]. destruct (Z.eqb_spec (fst x) (i + Z.of_nat 0)); [lia|auto].
      * destruct (N n s0 E0) as (s' & E1' & E2). exists s'. split; auto.
        rewrite calls_app, calls_tag. replace (i =? i + Z.of_nat (S n)) with false by (symmetry; apply Z.eqb_neq; lia).
        cbn [app]. replace (i + Z.of_nat (S n)) with (i + 1 + Z.of_nat n) by lia. auto.
Qed.

(* successive calls of osmo_i460_demux_in *)
Fixpoint demux_run (ts : list schan) (chunks : list (list Z)) : res (list schan * list (Z * i460_out)) :=
  match chunks with
  | [] => Ok (ts, [])
  | c :: cs => do ' (t1, o1) <- osmo_i460_demux_in ts c ;; do ' (t2, o2) <- demux_run t1 cs ;; Ok (t2, o1 ++ o2)
  end.

Lemma dstep_dok s s' data cs : dok s -> dstep s s' data cs -> dok s' /\ used s' = used s /\ s_rate s' = s_rate s /\ s_off s' = s_off s.
Proof.
  intros H. unfold dstep. destruct (used s) eqn:U.
  - intros (buf & -> & D & _). destruct (H U) as [_ PL]. split; [intros _; split; auto|auto].
  - intros (-> & _). auto.
Qed.

Lemma dstep_app s s1 s2 d1 d2 c1 c2 : dstep s s1 d1 c1 -> dstep s1 s2 d2 c2 -> dstep s s2 (d1 ++ d2) (c1 ++ c2).
Proof.
  unfold dstep. destruct (used s) eqn:U.
  - intros (b1 & -> & D1 & C1 & F1). change (used (set_buf s b1)) with (used s). rewrite U.
    intros (b2 & -> & D2 & C2 & F2). exists b2. split; [destruct s; reflexivity|]. split; auto. split.
    + cbn [set_buf s_buf s_off] in C2. change (width (set_buf s b1)) with (width s) in C2.
      unfold fields in *. rewrite map_app, concat_app, app_assoc, C1, <- app_assoc, C2, map_app, concat_app, app_assoc. auto.
    + apply Forall_app; auto.
  - intros (-> & ->). rewrite U. intros (-> & ->). auto.
Qed.

Lemma count_rates ts ts' : length ts' = length ts ->
  (forall n s, nth_error ts n = Some s -> exists s', nth_error ts' n = Some s' /\ s_rate s' = s_rate s) ->
  osmo_i460_subchan_count ts' = osmo_i460_subchan_count ts /\ has_single_64k ts' = has_single_64k ts.
Proof.
  intros L H. assert (E : map s_rate ts' = map s_rate ts).
  { revert ts' L H. induction ts; intros [|b ts'] L H; cbn in L; try lia; auto.
    destruct (H 0%nat a eq_refl) as (s' & E1 & E2). cbn in E1. injection E1 as <-. cbn [map]. f_equal; auto.
    apply IHts; [lia|]. intros n s E. apply (H (S n) s E). }
  assert (C : osmo_i460_subchan_count ts' = osmo_i460_subchan_count ts).
  { unfold osmo_i460_subchan_count. assert (X : forall l, zlen (filter (fun s => negb (rate_none (s_rate s))) l) =
      zlen (filter (fun r => negb (rate_none r)) (map s_rate l))).
    { induction l; auto. cbn [map filter]. destruct (negb _); rewrite ?zlen_cons; lia. }
    rewrite !X, E. auto. }
  split; auto. unfold has_single_64k. rewrite C. destruct (negb _); auto.
  destruct ts, ts'; cbn in E; try discriminate; auto. injection E as -> _. auto.
Qed.

Lemma demux_slow_run chunks : forall ts, Forall dok ts -> has_single_64k ts = false -> Forall (Forall is_byte) chunks ->
  exists ts' os, demux_run ts chunks = Ok (ts', os) /\ length ts' = length ts /\
    forall n s, nth_error ts n = Some s -> exists s', nth_error ts' n = Some s' /\
      dstep s s' (concat chunks) (calls (Z.of_nat n) os).
Proof.
  induction chunks as [|c cs IH]; intros ts D NS FB; cbn [demux_run concat].
  - exists ts, []. split; auto. split; auto. intros n s E. exists s. split; auto. unfold dstep.
    destruct (used s) eqn:U; auto. exists (s_buf s). split; [destruct s; reflexivity|].
    rewrite Forall_forall in D. destruct (D s (nth_error_In _ _ E) U) as [DR _]. split; auto. split; [|constructor].
    cbn. rewrite app_nil_r. auto.
  - assert (Hc : Forall is_byte c) by exact (Forall_inv FB). apply Forall_inv_tail in FB.
    unfold osmo_i460_demux_in. rewrite NS.
    destruct (demux_slow_ok c Hc ts 0 D) as (t1 & o1 & E1 & L1 & _ & N1). rewrite E1. cbn [bind].
    assert (D1 : Forall dok t1).
    { rewrite Forall_forall. intros s' I. apply In_nth_error in I. destruct I as (n & E).
      assert (X : exists s, nth_error ts n = Some s).
      { destruct (nth_error ts n) eqn:Y; eauto. apply nth_error_None in Y.
        assert (n < length t1)%nat by (apply nth_error_Some; congruence). lia. }
      destruct X as (s & X). destruct (N1 n s X) as (s2 & Y1 & Y2). rewrite E in Y1. injection Y1 as <-.
      eapply dstep_dok; eauto. rewrite Forall_forall in D. apply D. eapply nth_error_In; eauto. }
    assert (NS1 : has_single_64k t1 = false).
    { rewrite <- NS. apply count_rates; auto. intros n s E. destruct (N1 n s E) as (s' & Y1 & Y2). exists s'. split; auto.
      eapply dstep_dok; eauto. rewrite Forall_forall in D. apply D. eapply nth_error_In; eauto. }
    destruct (IH t1 D1 NS1 FB) as (t2 & o2 & E2 & L2 & N2). rewrite E2. cbn [bind].
    exists t2, (o1 ++ o2). split; auto. split; [congruence|]. intros n s E.
    destruct (N1 n s E) as (s1 & X1 & X2). destruct (N2 n s1 X1) as (s2 & Y1 & Y2).
    exists s2. split; auto. rewrite calls_app. eapply dstep_app; eauto.
Qed.

(* the fast path: one 64k sub-channel *)
Lemma pbit2ubit_unpack data : data <> [] ->
  exists b n, osmo_pbit2ubit (repeat 0 (Z.to_nat (zlen data * 8))) data (zlen data * 8) = Ok (b, n) /\ b = unpack data.
Proof.
  intros H. assert (0 < zlen data) by (destruct data; [congruence|rewrite zlen_cons; pose proof (zlen_nonneg data); lia]).
  assert (LR : zlen (repeat 0 (Z.to_nat (zlen data * 8))) = zlen data * 8) by (unfold zlen at 1; rewrite repeat_length; lia).
  destruct (pbit2ubit_ok (repeat 0 (Z.to_nat (zlen data * 8))) data (zlen data * 8)) as (o & E & L & J & _).
  - lia.
  - lia.
  - unfold nbytes. replace (zlen data * 8 + 7) with (7 + zlen data * 8) by lia. rewrite Z.div_add by lia. cbn. lia.
  - exists o, (zlen data * 8). split; auto. apply at0_ext; [rewrite unpack_len; lia|].
    intros j Hj. rewrite J by lia. rewrite unpack_nth by lia. destruct (pbit false data j); reflexivity.
Qed.

Lemma demux_fast_run chunks : forall ts, has_single_64k ts = true -> Forall (fun c => c <> []) chunks ->
  (forall s, nth_error ts 0 = Some s -> s_cbits s = true \/ s_cbytes s = true) ->
  exists os, demux_run ts chunks = Ok (ts, os) /\ got 0 os = unpack (concat chunks).
Proof.
  induction chunks as [|c cs IH]; intros ts S F CB; cbn [demux_run concat].
  - exists []. auto.
  - assert (Hc : c <> []) by exact (Forall_inv F). apply Forall_inv_tail in F.
    destruct (IH ts S F CB) as (os & E & G).
    assert (X : exists o, osmo_i460_demux_in ts c = Ok (ts, [(0, o)]) /\ obits o = unpack c).
    { unfold osmo_i460_demux_in. rewrite S. destruct ts as [|s ts]; [discriminate|].
      specialize (CB s eq_refl). destruct (s_cbytes s).
      - exists (OBytes c). auto.
      - destruct CB as [-> | ?]; [|discriminate]. cbn [negb].
        destruct (pbit2ubit_unpack c Hc) as (b & n & -> & ->). cbn [bind]. eexists. split; reflexivity. }
    destruct X as (o & E1 & O1). rewrite E1. cbn [bind]. rewrite E. cbn [bind]. eexists. split; [reflexivity|].
    rewrite got_app, G. unfold got at 1, calls. cbn [filter fst map snd concat]. change (0 =? 0) with true. cbn [map concat snd].
    rewrite app_nil_r, O1. unfold unpack, fields. rewrite map_app, concat_app. auto.
Qed.

(* ------------------------------------------------------------------ *)
(* the multiplexer                                                     *)

Definition msgok (m : list Z) : Prop := m <> [].
Definition later (s : schan) : list (list Z) := if s_empty s then map (@concat Z) (s_refill s) else [].
Record qok (s : schan) : Prop := {
  q_q : Forall msgok (s_queue s);
  q_r : s_empty s = true -> Forall (Forall msgok) (s_refill s) }.

(* what taking bits leaves alone *)
Definition keeps (s s' : schan) : Prop := exists q r, s' = set_refill (set_queue s q) r.
Lemma keeps_refl s : keeps s s.
Proof. exists (s_queue s), (s_refill s). destruct s; reflexivity. Qed.
Lemma keeps_trans a b c : keeps a b -> keeps b c -> keeps a c.
Proof. intros (q & r & ->) (q' & r' & ->). exists q', r'. reflexivity. Qed.
Lemma keeps_rate a b : keeps a b -> s_rate b = s_rate a. Proof. intros (? & ? & ->); auto. Qed.
Lemma keeps_off a b : keeps a b -> s_off b = s_off a. Proof. intros (? & ? & ->); auto. Qed.

Lemma enqueue_all_ok ms : forall s, Forall msgok ms -> enqueue_all s ms = Ok (set_queue s (s_queue s ++ ms)).
Proof.
  induction ms as [|m ms IH]; intros s F; cbn [enqueue_all].
  - rewrite app_nil_r. destruct s; reflexivity.
  - assert (Hm : msgok m) by exact (Forall_inv F). apply Forall_inv_tail in F.
    unfold osmo_i460_mux_enqueue. unfold msgok in Hm.
    assert (0 < zlen m) by (destruct m; [congruence|rewrite zlen_cons; pose proof (zlen_nonneg m); lia]).
    destruct (Z.gtb_spec (zlen m) 0); [|lia]. cbn [negb bind]. rewrite IH by auto. cbn [set_queue s_queue].
    rewrite <- app_assoc. reflexivity.
Qed.

Lemma provide_bit_ok s : qok s ->
  exists s' b, provide_bit s = Ok (s', b) /\ qok s' /\ keeps s s' /\
    forall n, line (S n) (concat (s_queue s)) (later s) =
              let '(l, a, c) := line n (concat (s_queue s')) (later s') in (b :: l, a, c).
Proof.
  intros [Q R].
  assert (PULL : forall s, Forall msgok (s_queue s) -> (s_empty s = true -> Forall (Forall msgok) (s_refill s)) -> s_queue s <> [] ->
    exists s' b, (match s_queue s with
                  | [] => Ok (s, 1)
                  | [] :: _ => Abort
                  | [b] :: q => Ok (set_queue s q, b)
                  | (b :: m) :: q => Ok (set_queue s (m :: q), b)
                  end) = Ok (s', b) /\ qok s' /\ keeps s s' /\ later s' = later s /\
                 concat (s_queue s) = b :: concat (s_queue s')).
  { intros s0 Q0 R0 N0. destruct (s_queue s0) as [|[|b m] q] eqn:E; [congruence| |].
    - assert (X : msgok []) by exact (Forall_inv Q0). unfold msgok in X; congruence.
    - apply Forall_inv_tail in Q0.
      destruct m as [|b2 m].
      + exists (set_queue s0 q), b. split; auto. split; [constructor; auto|]. split; [|split; auto].
        exists q, (s_refill s0). reflexivity.
      + exists (set_queue s0 ((b2 :: m) :: q)), b. split; auto. split; [constructor; auto; cbn [set_queue s_queue]; constructor; auto; discriminate|].
        split; [|split; auto]. exists ((b2 :: m) :: q), (s_refill s0). reflexivity. }
  unfold provide_bit. destruct (s_queue s) as [|m q] eqn:EQ.
  - unfold queue_empty_cb. destruct (s_empty s) eqn:EE.
    + destruct (s_refill s) as [|r rs] eqn:ER.
      * cbn [bind]. rewrite EQ. exists s, 1. split; auto. split; [constructor; rewrite ?EQ, ?ER; auto|].
        split; [apply keeps_refl|]. intros n. unfold later. rewrite EE, ER, EQ. cbn [map concat line].
        destruct (line n [] []) as [[l a] c]. reflexivity.
      * specialize (R eq_refl). assert (Hr : Forall msgok r) by exact (Forall_inv R). apply Forall_inv_tail in R.
        rewrite enqueue_all_ok by auto. cbn [set_refill s_queue]. rewrite EQ. cbn [app bind].
        set (s1 := set_queue (set_refill s rs) r).
        assert (K1 : keeps s s1) by (exists r, rs; destruct s; reflexivity).
        assert (L0 : later s = concat r :: later s1).
        { unfold later. rewrite EE, ER. cbn [s1 set_queue set_refill s_empty s_refill]. rewrite EE. reflexivity. }
        destruct r as [|m q].
        -- exists s1, 1. split; [reflexivity|]. split; [constructor; auto|]. split; auto.
           intros n. rewrite L0. cbn [concat line]. change (s_queue s1) with (@nil (list Z)). cbn [concat].
           destruct (line n [] (later s1)) as [[l a] c]. reflexivity.
        -- destruct (PULL s1) as (s' & b & E & Q' & K & L & C); [exact Hr|intros _; exact R|discriminate|].
           exists s', b. split; [exact E|]. split; auto. split; [exact (keeps_trans _ _ _ K1 K)|].
           intros n. rewrite L0. cbn [concat line] in C |- *. change (concat (s_queue s1)) with (m ++ concat q) in C.
           rewrite C. rewrite <- L.
           destruct (line n (concat (s_queue s')) (later s')) as [[l a] c]. reflexivity.
    + cbn [bind]. rewrite EQ. exists s, 1. split; auto. split; [constructor; rewrite ?EQ, ?EE; auto; discriminate|].
      split; [apply keeps_refl|]. intros n. unfold later. rewrite EE, EQ. cbn [concat line].
      destruct (line n [] []) as [[l a] c]. reflexivity.
  - cbn [bind]. destruct (PULL s) as (s' & b & E & Q' & K & L & C); [rewrite EQ; exact Q|auto|rewrite EQ; discriminate|].
    rewrite EQ in E. exists s', b. split; [rewrite EQ; exact E|]. split; auto. split; auto. intros n.
    rewrite EQ in C. rewrite C. cbn [line]. rewrite <- L. destruct (line n (concat (s_queue s')) (later s')) as [[l a] c]. reflexivity.
Qed.

(* the value built from bits *)
Fixpoint packl (bs : list Z) (pos : Z) (out : Z) : Z :=
  match bs with [] => out | b :: t => packl t (pos - 1) (u8 (Z.lor out (Z.shiftl b pos))) end.

Lemma provide_loop_ok n : forall pos s out, qok s ->
  exists s' bs, provide_loop n pos s out = Ok (s', packl bs pos out) /\ length bs = n /\ qok s' /\ keeps s s' /\
    forall m, line (n + m) (concat (s_queue s)) (later s) =
              let '(l, a, c) := line m (concat (s_queue s')) (later s') in (bs ++ l, a, c).
Proof.
  induction n as [|n IH]; intros pos s out H; cbn [provide_loop].
  - exists s, []. split; auto. split; auto. split; auto. split; [apply keeps_refl|].
    intros m. cbn [plus app]. destruct (line m (concat (s_queue s)) (later s)) as [[l a] c]. reflexivity.
  - destruct (provide_bit_ok s H) as (s1 & b & E1 & Q1 & K1 & L1). rewrite E1. cbn [bind].
    destruct (IH (pos - 1) s1 (u8 (Z.lor out (Z.shiftl b pos))) Q1) as (s2 & bs & E2 & N2 & Q2 & K2 & L2).
    exists s2, (b :: bs). split; [exact E2|]. split; [cbn; auto|]. split; auto.
    split; [exact (keeps_trans _ _ _ K1 K2)|]. intros m. cbn [plus]. rewrite L1, L2.
    destruct (line m (concat (s_queue s2)) (later s2)) as [[l a] c]. reflexivity.
Qed.

(* all bit strings of length w *)
Fixpoint allbits (w : nat) : list (list Z) :=
  match w with O => [[]] | S n => map (cons 0) (allbits n) ++ map (cons 1) (allbits n) end.
Lemma allbits_In bs : bitsof bs -> In bs (allbits (length bs)).
Proof.
  intros F. induction F; cbn [length allbits]; [left; auto|]. apply in_or_app.
  destruct H as [-> | ->]; [left|right]; apply in_map; auto.
Qed.
Definition pack_check (r : i460_rate) : bool :=
  forallb (fun off => forallb (fun bs =>
    let v := Z.shiftr (packl bs 7 0) off in
    forallb (fun k => Bool.eqb (Z.testbit v k)
       ((off <=? 7 - k) && (7 - k <? off + Z.of_nat (rate_width r)) && (at0 bs (7 - k - off) =? 1))
      && Bool.eqb (Z.testbit (Z.shiftr (rate_outmask r) off) k) ((off <=? 7 - k) && (7 - k <? off + Z.of_nat (rate_width r)))) (zseq 0 8)
    && (0 <=? v) && (v <? 256)) (allbits (rate_width r))) (zseq 0 (9 - rate_width r)).
Lemma pack_checked : forallb pack_check [R_NONE; R_64k; R_32k; R_16k; R_8k] = true.
Proof. vm_compute. reflexivity. Qed.

Definition covers (s : schan) (k : Z) : bool := used s && (s_off s <=? 7 - k) && (7 - k <? s_off s + Z.of_nat (width s)).

Lemma pack_ok r off bs : 0 <= off -> off + Z.of_nat (rate_width r) <= 8 -> bitsof bs -> length bs = rate_width r ->
  let v := Z.shiftr (packl bs 7 0) off in
  0 <= v < 256 /\ forall k, 0 <= k < 8 ->
    Z.testbit v k = ((off <=? 7 - k) && (7 - k <? off + Z.of_nat (rate_width r)) && (at0 bs (7 - k - off) =? 1)) /\
    Z.testbit (Z.shiftr (rate_outmask r) off) k = ((off <=? 7 - k) && (7 - k <? off + Z.of_nat (rate_width r))).
Proof.
  intros H0 H1 B L. pose proof pack_checked as E. rewrite forallb_forall in E.
  assert (I : pack_check r = true) by (apply E; destruct r; cbn; auto 10).
  assert (W : (rate_width r <= 8)%nat) by (destruct r; cbn; lia).
  unfold pack_check in I. pose proof (forall_zseq _ _ _ I off ltac:(lia)) as X. cbv beta in X.
  rewrite forallb_forall in X. pose proof (allbits_In bs B) as IB. rewrite L in IB. specialize (X bs IB). cbv zeta in X.
  rewrite !andb_true_iff in X. destruct X as [[X1 X2] X3]. cbv zeta. split; [lia|].
  intros k Hk. pose proof (forall_zseq _ _ _ X1 k ltac:(lia)) as Y. cbv beta in Y.
  apply andb_true_iff in Y. destruct Y as [Y1 Y2]. apply Bool.eqb_prop in Y1, Y2. auto.
Qed.

(* whatever the octets taken for bits are, what they make stays in the field *)
Lemma u8_bits x k : 0 <= k -> Z.testbit (u8 x) k = (k <? 8) && Z.testbit x k.
Proof.
  intros Hk. unfold u8. change 256 with (2 ^ 8). destruct (Z.ltb_spec k 8).
  - rewrite Z.mod_pow2_bits_low by lia. auto.
  - rewrite Z.mod_pow2_bits_high by lia. auto.
Qed.
Lemma packl_low bs : forall pos out k, 0 <= k -> k <= pos - zlen bs -> Z.testbit (packl bs pos out) k = (Z.testbit out k && ((zlen bs =? 0) || (k <? 8))).
Proof.
  induction bs as [|b bs IH]; intros pos out k Hk H; cbn [packl].
  - change (zlen []) with 0. cbn [Z.eqb orb]. rewrite andb_true_r. auto.
  - rewrite zlen_cons in H. pose proof (zlen_nonneg bs). rewrite IH by lia. rewrite u8_bits by lia.
    rewrite Z.lor_spec, Z.shiftl_spec by lia. rewrite (Z.testbit_neg_r b) by lia. rewrite orb_false_r.
    rewrite zlen_cons. destruct (Z.eqb_spec (1 + zlen bs) 0); [lia|].
    destruct (Z.testbit out k), (k <? 8), (zlen bs =? 0); reflexivity.
Qed.
Lemma packl_byte bs : forall pos out, 0 <= out < 256 -> 0 <= packl bs pos out < 256.
Proof.
  induction bs as [|b bs IH]; intros pos out H; cbn [packl]; auto. apply IH. apply Z.mod_pos_bound. lia.
Qed.
Lemma pack_any r off bs : 0 <= off -> off + Z.of_nat (rate_width r) <= 8 -> length bs = rate_width r ->
  let v := Z.shiftr (packl bs 7 0) off in
  0 <= v < 256 /\ forall k, 0 <= k < 8 ->
    ((off <=? 7 - k) && (7 - k <? off + Z.of_nat (rate_width r))) = false -> Z.testbit v k = false.
Proof.
  intros H0 H1 L. cbv zeta. pose proof (packl_byte bs 7 0 ltac:(lia)) as B. split.
  - split; [apply Z.shiftr_nonneg; lia|]. rewrite Z.shiftr_div_pow2 by lia.
    apply Z.le_lt_trans with (packl bs 7 0); [|lia]. apply Z.div_le_upper_bound; [apply Z.pow_pos_nonneg; lia|].
    assert (1 <= 2 ^ off) by (apply (Z.pow_le_mono_r 2 0 off); lia). nia.
  - intros k Hk HC. rewrite Z.shiftr_spec by lia. apply andb_false_iff in HC. destruct HC as [HC|HC].
    + apply Z.leb_gt in HC. destruct (Z.eq_dec (packl bs 7 0) 0) as [->|N]; [apply Z.testbit_0_l|].
      apply Z.bits_above_log2; [lia|]. assert (Z.log2 (packl bs 7 0) < 8) by (apply Z.log2_lt_pow2; [lia|exact (proj2 B)]). lia.
    + apply Z.ltb_ge in HC. rewrite packl_low; [rewrite Z.testbit_0_l; auto|lia|unfold zlen; rewrite L; lia].
Qed.
Lemma mask_ok r off : 0 <= off -> off + Z.of_nat (rate_width r) <= 8 -> forall k, 0 <= k < 8 ->
  Z.testbit (Z.shiftr (rate_outmask r) off) k = ((off <=? 7 - k) && (7 - k <? off + Z.of_nat (rate_width r))).
Proof.
  intros H0 H1 k Hk. apply (pack_ok r off (repeat 0 (rate_width r)) H0 H1); auto; [|apply repeat_length].
  unfold bitsof. rewrite Forall_forall. intros x I. apply repeat_spec in I. left; auto.
Qed.

Definition mok (s : schan) : Prop := used s = true -> placed s /\ qok s.
(* w bits have been taken from s *)
Definition mstep (n : nat) (s s' : schan) (bs : list Z) : Prop :=
  if used s then keeps s s' /\ qok s' /\ exists l0, length l0 = (n * width s)%nat /\ (bitsof l0 -> bs = l0) /\
    forall m, line (n * width s + m) (concat (s_queue s)) (later s) =
              let '(l, a, c) := line m (concat (s_queue s')) (later s') in (l0 ++ l, a, c)
  else s' = s /\ bs = [].

Fixpoint disjoint (ts : list schan) : Prop :=
  match ts with
  | [] => True
  | s :: ts' => (forall s', In s' ts' -> forall k, 0 <= k < 8 -> covers s k && covers s' k = false) /\ disjoint ts'
  end.

Lemma u8_small x : 0 <= x < 256 -> u8 x = x.
Proof. intros. unfold u8. apply Z.mod_small. auto. Qed.

Lemma lor_land_byte x m b : 0 <= x < 256 -> 0 <= b < 256 -> 0 <= Z.lor (Z.land x (Z.lnot m)) b < 256.
Proof.
  intros Hx Hb.
  assert (P : 0 <= Z.lor (Z.land x (Z.lnot m)) b).
  { apply Z.lor_nonneg. split; [|lia]. apply Z.land_nonneg. left; lia. }
  split; auto. destruct (Z.eq_dec (Z.lor (Z.land x (Z.lnot m)) b) 0) as [->|N]; [lia|].
  change 256 with (2 ^ 8). apply Z.log2_lt_pow2; [lia|].
  destruct (Z_lt_ge_dec (Z.log2 (Z.lor (Z.land x (Z.lnot m)) b)) 8) as [|G]; auto. exfalso.
  assert (T : Z.testbit (Z.lor (Z.land x (Z.lnot m)) b) (Z.log2 (Z.lor (Z.land x (Z.lnot m)) b)) = true) by (apply Z.bit_log2; lia).
  remember (Z.log2 (Z.lor (Z.land x (Z.lnot m)) b)) as j. rewrite Z.lor_spec, Z.land_spec in T.
  assert (HI : forall y, 0 <= y < 256 -> Z.testbit y j = false).
  { intros y Hy. destruct (Z.eq_dec y 0) as [->|]; [apply Z.testbit_0_l|]. apply Z.bits_above_log2; [lia|].
    assert (Z.log2 y < 8) by (apply Z.log2_lt_pow2; [lia|exact (proj2 Hy)]). lia. }
  rewrite (HI x), (HI b) in T by auto. discriminate.
Qed.

Lemma field_eq off w x bs : length bs = w -> bitsof bs ->
  (forall j, 0 <= j < Z.of_nat w -> Z.testbit x (7 - off - j) = (at0 bs j =? 1)) -> field off w x = bs.
Proof.
  intros L B H. apply at0_ext; [unfold zlen; rewrite field_len, L; auto|]. intros j Hj.
  unfold zlen in Hj. rewrite field_len in Hj. unfold at0, field.
  set (f := fun j => if Z.testbit x (7 - off - j) then 1 else 0).
  rewrite (nth_indep _ 0 (f 0)) by (rewrite map_length, zseq_length; lia).
  rewrite map_nth.
  assert (N : forall n a i, (i < n)%nat -> nth i (zseq a n) 0 = a + Z.of_nat i).
  { clear. induction n; intros a i Hi; [lia|]. cbn [zseq]. destruct i; cbn [nth]; [lia|]. rewrite IHn by lia. lia. }
  rewrite N by lia. rewrite Z2Nat.id, Z.add_0_l by lia. unfold f. rewrite H by lia. unfold at0.
  assert (I : isbit (nth (Z.to_nat j) bs 0)) by (unfold bitsof in B; rewrite Forall_forall in B; apply B; apply nth_In; lia).
  destruct I as [-> | ->]; reflexivity.
Qed.

Lemma mux_loop_ok ts : forall ret, Forall mok ts -> disjoint ts -> 0 <= ret < 256 ->
  exists ts' x, mux_loop ts ret = Ok (ts', x) /\ length ts' = length ts /\ 0 <= x < 256 /\
    (forall k, 0 <= k < 8 -> (forall s, In s ts -> covers s k = false) -> Z.testbit x k = Z.testbit ret k) /\
    forall n s, nth_error ts n = Some s -> exists s', nth_error ts' n = Some s' /\
      mstep 1 s s' (if used s then field (s_off s) (width s) x else []).
Proof.
  induction ts as [|s ts IH]; intros ret F DJ HR; cbn [mux_loop].
  - exists [], ret. repeat split; auto; try lia. intros n s E. destruct n; discriminate.
  - assert (Hs : mok s) by exact (Forall_inv F). apply Forall_inv_tail in F. destruct DJ as [DJ1 DJ2].
    unfold mok in Hs. destruct (rate_none (s_rate s)) eqn:RN.
    + assert (U : used s = false) by (unfold used; rewrite RN; auto).
      destruct (IH ret F DJ2 HR) as (ts' & x & E & L & X & K & N). rewrite E. cbn [bind].
      exists (s :: ts'), x. split; auto. split; [cbn; auto|]. split; auto. split.
      * intros k Hk HC. apply K; auto. intros s' I. apply HC. right; auto.
      * intros n s0 E0. destruct n; cbn [nth_error] in *; [|auto]. injection E0 as <-. exists s. split; auto.
        unfold mstep. rewrite U. auto.
    + assert (U : used s = true) by (unfold used; rewrite RN; auto). destruct (Hs U) as [[P0 P1] Q]. change (width s) with (rate_width (s_rate s)) in P1.
      unfold provide_bits. rewrite RN.
      destruct (provide_loop_ok (rate_width (s_rate s)) 7 s 0 Q) as (s1 & bs & E1 & L1 & Q1 & K1 & LN). rewrite E1. cbn [bind].
      destruct (Z.geb_spec (s_off s) 32); [lia|]. cbn [bind].
      destruct (pack_any (s_rate s) (s_off s) bs P0 P1 L1) as [V TB]. cbv zeta in V, TB.
      pose proof (pack_ok (s_rate s) (s_off s) bs P0 P1) as PK. cbv zeta in PK.
      pose proof (mask_ok (s_rate s) (s_off s) P0 P1) as MK.
      set (v := Z.shiftr (packl bs 7 0) (s_off s)) in *. set (m := Z.shiftr (rate_outmask (s_rate s)) (s_off s)) in *.
      pose proof (lor_land_byte ret m v HR V) as RB. rewrite (u8_small _ RB).
      destruct (IH _ F DJ2 RB) as (ts' & x & E & L & X & K & N). rewrite E. cbn [bind].
      assert (BIT : forall k, 0 <= k < 8 -> Z.testbit (Z.lor (Z.land ret (Z.lnot m)) v) k =
        if covers s k then Z.testbit v k else Z.testbit ret k).
      { intros k Hk. specialize (TB k Hk). rewrite Z.lor_spec, Z.land_spec, Z.lnot_spec, MK by lia.
        unfold covers. rewrite U. cbn [andb]. change (width s) with (rate_width (s_rate s)).
        destruct ((s_off s <=? 7 - k) && (7 - k <? s_off s + Z.of_nat (rate_width (s_rate s)))); cbn [negb andb orb].
        - rewrite andb_false_r. reflexivity.
        - rewrite andb_true_r, TB, orb_false_r by auto. reflexivity. }
      exists (s1 :: ts'), x. split; auto. split; [cbn; auto|]. split; auto. split.
      * intros k Hk HC. rewrite K by (auto; intros s' I; apply HC; right; auto). rewrite BIT by auto.
        rewrite (HC s) by (left; auto). auto.
      * intros n s0 E0. destruct n; cbn [nth_error] in *; [|auto]. injection E0 as <-. exists s1. split; auto.
        unfold mstep. rewrite U. split; auto. split; auto. exists bs.
        split; [change (width s) with (rate_width (s_rate s)); lia|]. split.
        { intros B1. apply field_eq; auto. intros j Hj. change (width s) with (rate_width (s_rate s)) in Hj.
          assert (CV : covers s (7 - s_off s - j) = true) by (unfold covers; rewrite U; change (width s) with (rate_width (s_rate s)); lia).
          rewrite K.
          - rewrite BIT by lia. rewrite CV. destruct (PK B1 L1) as [_ PK'].
            destruct (PK' (7 - s_off s - j) ltac:(lia)) as [-> _].
            replace ((s_off s <=? 7 - (7 - s_off s - j)) && (7 - (7 - s_off s - j) <? s_off s + Z.of_nat (rate_width (s_rate s)))) with true by lia.
            cbn [andb]. f_equal. f_equal. lia.
          - lia.
          - intros s' I. pose proof (DJ1 s' I (7 - s_off s - j) ltac:(lia)) as D. rewrite CV in D. exact D. }
        intros m0. change (width s) with (rate_width (s_rate s)). rewrite Nat.mul_1_l. apply LN.
Qed.

Lemma mstep_same n s s' bs : mstep n s s' bs -> s_rate s' = s_rate s /\ s_off s' = s_off s.
Proof. unfold mstep. destruct (used s); [intros (K & _); split; [apply keeps_rate|apply keeps_off]; auto|intros [-> _]; auto]. Qed.
Lemma same_mok s s' n bs : mok s -> mstep n s s' bs -> mok s'.
Proof.
  intros H M. destruct (mstep_same _ _ _ _ M) as [E1 E2]. unfold mok, mstep in *. intros U.
  assert (U0 : used s = true) by (unfold used in *; rewrite <- E1; auto). rewrite U0 in M. destruct M as (_ & Q & _).
  destruct (H U0) as [P _]. split; auto. unfold placed, width in *. rewrite E1, E2. auto.
Qed.
Lemma covers_same s s' k : s_rate s' = s_rate s -> s_off s' = s_off s -> covers s' k = covers s k.
Proof. intros E1 E2. unfold covers, used, width. rewrite E1, E2. auto. Qed.
Lemma nth_back (A : Type) (ts ts' : list A) n s' : length ts' = length ts -> nth_error ts' n = Some s' -> exists s, nth_error ts n = Some s.
Proof.
  intros L E. destruct (nth_error ts n) eqn:Y; eauto. apply nth_error_None in Y.
  assert (n < length ts')%nat by (apply nth_error_Some; congruence). lia.
Qed.
Definition alike (ts ts' : list schan) : Prop := length ts' = length ts /\
  forall n s, nth_error ts n = Some s -> exists s', nth_error ts' n = Some s' /\ s_rate s' = s_rate s /\ s_off s' = s_off s.
Lemma alike_in ts ts' s' : alike ts ts' -> In s' ts' -> exists s, In s ts /\ s_rate s' = s_rate s /\ s_off s' = s_off s.
Proof.
  intros [L H] I. apply In_nth_error in I. destruct I as (n & E). destruct (nth_back _ ts ts' n s' L E) as (s & X).
  destruct (H n s X) as (s2 & Y & Z1). rewrite E in Y. injection Y as <-. exists s. split; [eapply nth_error_In; eauto|auto].
Qed.
Lemma alike_disjoint ts : forall ts', alike ts ts' -> disjoint ts -> disjoint ts'.
Proof.
  induction ts as [|s ts IH]; intros [|s' ts'] A D; destruct A as [L H]; cbn in L; try lia; auto.
  cbn [disjoint] in *. destruct D as [D1 D2].
  assert (A : alike ts ts') by (split; [lia|intros n s0 E; apply (H (S n) s0 E)]).
  destruct (H 0%nat s eq_refl) as (s1 & E1 & R1 & O1). cbn in E1. injection E1 as <-.
  split; [|apply IH; auto]. intros s2 I k Hk. destruct (alike_in _ _ _ A I) as (s0 & I0 & R0 & O0).
  rewrite (covers_same s s' k), (covers_same s0 s2 k) by auto. apply D1; auto.
Qed.

Lemma mstep_S n s s1 s2 b1 b2 : mstep 1 s s1 b1 -> mstep n s1 s2 b2 -> mstep (S n) s s2 (b1 ++ b2).
Proof.
  intros M1. destruct (mstep_same _ _ _ _ M1) as [E1 E2]. unfold mstep in *.
  assert (U : used s1 = used s) by (unfold used; rewrite E1; auto). rewrite U. destruct (used s).
  - destruct M1 as (K1 & Q1 & l1 & L1 & B1 & N1). intros (K2 & Q2 & l2 & L2 & B2 & N2).
    assert (W : width s1 = width s) by (unfold width; rewrite E1; auto). rewrite W in *.
    split; [exact (keeps_trans _ _ _ K1 K2)|]. split; auto. exists (l1 ++ l2). split; [rewrite app_length; lia|]. split.
    { intros B. apply Forall_app in B. destruct B as [X Y]. rewrite B1, B2 by auto. auto. }
    intros m. replace (S n * width s + m)%nat with (1 * width s + (n * width s + m))%nat by lia. rewrite N1, N2.
    destruct (line m (concat (s_queue s2)) (later s2)) as [[l a] c]. rewrite app_assoc. auto.
  - destruct M1 as [-> ->]. intros [-> ->]. auto.
Qed.

Lemma mux_out_ok n : forall ts, Forall mok ts -> disjoint ts ->
  exists ts' xs, osmo_i460_mux_out ts n = Ok (ts', xs) /\ length ts' = length ts /\ length xs = n /\ Forall is_byte xs /\
    (forall x k, In x xs -> 0 <= k < 8 -> (forall s, In s ts -> covers s k = false) -> Z.testbit x k = true) /\
    forall i s, nth_error ts i = Some s -> exists s', nth_error ts' i = Some s' /\
      mstep n s s' (if used s then fields (s_off s) (width s) xs else []).
Proof.
  induction n as [|n IH]; intros ts F D; cbn [osmo_i460_mux_out].
  - exists ts, []. split; auto. split; auto. split; auto. split; [constructor|]. split; [intros x k []|].
    intros i s E. exists s. split; auto. unfold mstep. destruct (used s) eqn:U; auto. split; [apply keeps_refl|].
    assert (H : mok s) by (rewrite Forall_forall in F; apply F; eapply nth_error_In; eauto).
    destruct (H U) as [_ Q]. split; auto. exists []. split; [cbn; lia|]. split; [auto|]. intros m. cbn [Nat.mul plus app].
    destruct (line m (concat (s_queue s)) (later s)) as [[l a] c]. auto.
  - unfold mux_timeslot_provide_bits.
    destruct (mux_loop_ok ts 0xff F D ltac:(lia)) as (t1 & x & E1 & L1 & X1 & K1 & N1). rewrite E1. cbn [bind].
    assert (A : alike ts t1).
    { split; auto. intros i s E. destruct (N1 i s E) as (s' & Y & M). exists s'. split; auto. eapply mstep_same; eauto. }
    assert (F1 : Forall mok t1).
    { rewrite Forall_forall. intros s' I. apply In_nth_error in I. destruct I as (i & E). destruct (nth_back _ _ _ _ _ L1 E) as (s & X).
      destruct (N1 i s X) as (s2 & Y & M). rewrite E in Y. injection Y as <-. eapply same_mok; [|exact M].
      rewrite Forall_forall in F; apply F; eapply nth_error_In; eauto. }
    destruct (IH t1 F1 (alike_disjoint _ _ A D)) as (t2 & xs & E2 & L2 & LX & BX & K2 & N2). rewrite E2. cbn [bind].
    exists t2, (x :: xs). split; auto. split; [congruence|]. split; [cbn; auto|]. split; [constructor; auto|]. split.
    + intros y k [<-|I] Hk HC.
      * rewrite K1 by auto. assert (C : k = 0 \/ k = 1 \/ k = 2 \/ k = 3 \/ k = 4 \/ k = 5 \/ k = 6 \/ k = 7) by lia.
        destruct C as [->|[->|[->|[->|[->|[->|[->| ->]]]]]]]; reflexivity.
      * apply (K2 y k I Hk). intros s' I'. destruct (alike_in _ _ _ A I') as (s & I0 & R0 & O0).
        rewrite (covers_same s s' k) by auto. auto.
    + intros i s E. destruct (N1 i s E) as (s1 & Y1 & M1). destruct (N2 i s1 Y1) as (s2 & Y2 & M2). exists s2. split; auto.
      destruct (mstep_same _ _ _ _ M1) as [R1 O1].
      assert (U : used s1 = used s) by (unfold used; rewrite R1; auto).
      assert (W : width s1 = width s) by (unfold width; rewrite R1; auto). rewrite U, W, O1 in M2.
      pose proof (mstep_S n s s1 s2 _ _ M1 M2) as M. destruct (used s); [exact M|exact M].
Qed.

Definition lbits (ls : list (list Z)) : Prop := Forall bitsof ls.
Lemma line_bitsof n : forall now lat, bitsof now -> lbits lat -> bitsof (line_bits n now lat).
Proof.
  unfold line_bits. induction n as [|n IH]; intros now lat B L; cbn [line]; [constructor|].
  destruct now as [|b t].
  - destruct lat as [|[|b t] rs].
    + specialize (IH [] [] B L). destruct (line n [] []) as [[l a] c]. cbn [fst] in *. constructor; [right; auto|auto].
    + apply Forall_inv_tail in L. specialize (IH [] rs B L). destruct (line n [] rs) as [[l a] c]. cbn [fst] in *. constructor; [right; auto|auto].
    + assert (Hb : bitsof (b :: t)) by exact (Forall_inv L). apply Forall_inv_tail in L.
      assert (Hi : isbit b) by exact (Forall_inv Hb). apply Forall_inv_tail in Hb.
      specialize (IH t rs Hb L). destruct (line n t rs) as [[l a] c]. cbn [fst] in *. constructor; auto.
  - assert (Hi : isbit b) by exact (Forall_inv B). apply Forall_inv_tail in B.
    specialize (IH t lat B L). destruct (line n t lat) as [[l a] c]. cbn [fst] in *. constructor; auto.
Qed.

Lemma mstep_line n s s' fl : used s = true -> mstep n s s' fl -> bitsof (concat (s_queue s)) -> lbits (later s) ->
  line (n * width s) (concat (s_queue s)) (later s) = (fl, concat (s_queue s'), later s').
Proof.
  intros U M B L. unfold mstep in M. rewrite U in M. destruct M as (_ & _ & l0 & LL & E & N).
  specialize (N 0%nat). rewrite Nat.add_0_r in N. cbn [line] in N. rewrite app_nil_r in N.
  pose proof (line_bitsof (n * width s) _ _ B L) as X. unfold line_bits in X. rewrite N in X. cbn [fst] in X.
  rewrite E by auto. exact N.
Qed.
