(** Proofs about the T.4 encoder. *)
From Coq Require Import ZArith List Lia Bool.
From Verif Require Import Base S_bits M_bitvec P_bitvec S_t4 M_t4.
Import ListNotations.
Open Scope Z_scope.

(** prefix-free code tables *)
Definition clash (w w' : list bool) : bool :=
  match strip w w', strip w' w with None, None => false | _, _ => true end.
Lemma strip_app w rest : strip w (w ++ rest) = Some rest.
Proof. induction w as [|a w IH]; [reflexivity|]. cbn. rewrite Bool.eqb_reflx. exact IH. Qed.
Lemma strip_none w w' rest : clash w w' = false -> strip w (w' ++ rest) = None.
Proof.
  revert w'. induction w as [|a w IH]; intros [|b w'] H; cbn in *; try discriminate.
  unfold clash in *. cbn in H. destruct a, b; cbn in *; try reflexivity; apply IH; exact H.
Qed.

Lemma read_word_hit tab w n rest i d : (forall j, (j < i)%nat -> clash (fst (nth j tab d)) w = false) ->
  (i < length tab)%nat -> nth i tab d = (w, n) -> read_word tab (w ++ rest) = Some (n, rest).
Proof.
  revert i. induction tab as [|[w0 n0] t IH]; intros i H Hi E; [cbn in Hi; lia|].
  cbn [read_word]. destruct i as [|i].
  - cbn in E. inversion E. subst. rewrite strip_app. reflexivity.
  - rewrite strip_none by (apply (H 0%nat); lia). apply (IH i); [|cbn in Hi; lia | exact E].
    intros j Hj. apply (H (S j)). lia.
Qed.
Lemma read_word_miss tab w rest : forallb (fun e => negb (clash (fst e) w)) tab = true -> read_word tab (w ++ rest) = None.
Proof.
  induction tab as [|[w0 n0] t IH]; [reflexivity|]. cbn. intros H. apply andb_true_iff in H. destruct H as [H1 H2].
  apply negb_true_iff in H1. rewrite strip_none by exact H1. apply IH, H2.
Qed.

(** the bits the model writes for entry i of a table *)
Definition cbits (c n : Z) : list bool := map (fun j => Z.testbit c (n - 1 - j)) (zseq 0 (Z.to_nat n)).
Fixpoint lbeq (a b : list bool) : bool :=
  match a, b with [], [] => true | x :: s, y :: t => Bool.eqb x y && lbeq s t | _, _ => false end.
Lemma lbeq_eq a b : lbeq a b = true -> a = b.
Proof.
  revert b. induction a as [|x a IH]; intros [|y b] H; cbn in H; try discriminate; [reflexivity|].
  apply andb_true_iff in H. destruct H as [H1 H2]. apply Bool.eqb_prop in H1. rewrite H1, (IH b H2). reflexivity.
Qed.
Definition entry_good (b : bool) (i : Z) : bool :=
  let c := at0 (t4_term b) i in let n := at0 (t4_term_length b) i in
  let e := nth (Z.to_nat i) (terms b) ([], 0) in
  (1 <=? n) && (n <=? 20) && lbeq (fst e) (cbits c n) && (snd e =? i) &&
  forallb (fun e' => negb (clash (fst e') (fst e))) (make_ups b) &&
  forallb (fun j => negb (clash (fst (nth (Z.to_nat j) (terms b) ([], 0))) (fst e))) (zseq 0 (Z.to_nat i)).
Definition mk_good (b : bool) (i : Z) : bool :=
  let c := at0 (t4_make_up b) i in let n := at0 (t4_make_up_length b) i in
  let e := nth (Z.to_nat i) (make_ups b) ([], 0) in
  (1 <=? n) && (n <=? 20) && lbeq (fst e) (cbits c n) && (snd e =? 64 * (i + 1)) &&
  forallb (fun j => negb (clash (fst (nth (Z.to_nat j) (make_ups b) ([], 0))) (fst e))) (zseq 0 (Z.to_nat i)).
Lemma tables_good : forallb (fun b => forallb (entry_good b) (zseq 0 64) && forallb (mk_good b) (zseq 0 15)) [true; false] = true.
Proof. vm_compute. reflexivity. Qed.
Lemma tables_len b : zlen (t4_term b) = 64 /\ zlen (t4_term_length b) = 64 /\ zlen (t4_make_up b) = 15 /\ zlen (t4_make_up_length b) = 15 /\
  length (terms b) = 64%nat /\ length (make_ups b) = 15%nat.
Proof. destruct b; vm_compute; auto 10. Qed.

Lemma good_spec b : (forall i, 0 <= i < 64 -> entry_good b i = true) /\ (forall i, 0 <= i < 15 -> mk_good b i = true).
Proof.
  pose proof tables_good as H. cbn [forallb] in H. rewrite !andb_true_iff in H. destruct H as [[H1 H2] [[H3 H4] _]].
  rewrite forallb_forall in H1, H2, H3, H4.
  destruct b; split; intros i Hi; [apply H1 | apply H2 | apply H3 | apply H4]; apply zseq_In; change (Z.of_nat 64) with 64; change (Z.of_nat 15) with 15; lia.
Qed.

Lemma term_read b i rest : 0 <= i < 64 ->
  let w := cbits (at0 (t4_term b) i) (at0 (t4_term_length b) i) in
  read_word (terms b) (w ++ rest) = Some (i, rest) /\ read_word (make_ups b) (w ++ rest) = None /\ 1 <= at0 (t4_term_length b) i <= 20.
Proof.
  intros Hi w. pose proof (proj1 (good_spec b) i Hi) as G. unfold entry_good in G. rewrite !andb_true_iff in G.
  destruct G as [[[[[G1 G2] G3] G4] G5] G6]. apply lbeq_eq in G3. fold w in G3. apply Z.eqb_eq in G4. apply Z.leb_le in G1, G2.
  rewrite G3 in G5, G6. split; [|split; [|lia]].
  - apply (read_word_hit (terms b) w i rest (Z.to_nat i) ([], 0)).
    + intros j Hj. rewrite forallb_forall in G6. specialize (G6 (Z.of_nat j)). rewrite Nat2Z.id in G6.
      apply negb_true_iff, G6, zseq_In. lia.
    + rewrite (proj1 (proj2 (proj2 (proj2 (proj2 (tables_len b)))))). lia.
    + destruct (nth (Z.to_nat i) (terms b) ([], 0)) as [w0 n0]. cbn [fst snd] in *. congruence.
  - apply read_word_miss, G5.
Qed.
Lemma mk_read b i rest : 0 <= i < 15 ->
  let w := cbits (at0 (t4_make_up b) i) (at0 (t4_make_up_length b) i) in
  read_word (make_ups b) (w ++ rest) = Some (64 * (i + 1), rest) /\ 1 <= at0 (t4_make_up_length b) i <= 20.
Proof.
  intros Hi w. pose proof (proj2 (good_spec b) i Hi) as G. unfold mk_good in G. rewrite !andb_true_iff in G.
  destruct G as [[[[G1 G2] G3] G4] G6]. apply lbeq_eq in G3. fold w in G3. apply Z.eqb_eq in G4. apply Z.leb_le in G1, G2.
  rewrite G3 in G6. split; [|lia].
  apply (read_word_hit (make_ups b) w _ rest (Z.to_nat i) ([], 0)).
  - intros j Hj. rewrite forallb_forall in G6. specialize (G6 (Z.of_nat j)). rewrite Nat2Z.id in G6.
    apply negb_true_iff, G6, zseq_In. lia.
  - rewrite (proj2 (proj2 (proj2 (proj2 (proj2 (tables_len b)))))). lia.
  - destruct (nth (Z.to_nat i) (make_ups b) ([], 0)) as [w0 n0]. cbn [fst snd] in *. congruence.
Qed.

(** appended bits *)
Definition bits_of (bv : bitvec) : list bool := map (pbit false (bdata bv)) (zseq 0 (Z.to_nat (cur_bit bv))).

(** [app_or_full bv w bv']: the bits w were appended, or the vector is full now *)
Definition app_or_full (bv : bitvec) (w : list bool) (bv' : bitvec) : Prop :=
  wf bv' /\ cur_bit bv' <= 8 * data_len bv' /\ data_len bv' = data_len bv /\ cur_bit bv <= cur_bit bv' /\
  (cur_bit bv' = 8 * data_len bv \/ bits_of bv' = bits_of bv ++ w).

Lemma zseq_add a m n : zseq a (m + n) = zseq a m ++ zseq (a + Z.of_nat m) n.
Proof.
  revert a. induction m as [|m IH]; intros a; [cbn; rewrite Z.add_0_r; reflexivity|].
  cbn [Nat.add zseq app]. rewrite IH. replace (a + 1 + Z.of_nat m) with (a + Z.of_nat (S m)) by lia. reflexivity.
Qed.
Lemma zseq_map_shift {A} (f : Z -> A) a n : map f (zseq a n) = map (fun j => f (a + j)) (zseq 0 n).
Proof.
  assert (G : forall b, map f (zseq (a + b) n) = map (fun j => f (a + j)) (zseq b n)).
  { induction n as [|n IH]; intros b; [reflexivity|]. cbn [zseq map]. f_equal. rewrite <- IH. f_equal. f_equal. lia. }
  rewrite <- (G 0). rewrite Z.add_0_r. reflexivity.
Qed.

Lemma set_uint_app bv c n : wf bv -> cur_bit bv <= 8 * data_len bv -> 1 <= n <= 20 ->
  app_or_full bv (cbits c n) (snd (bitvec_set_uint bv c n)).
Proof.
  intros W Hc Hn. unfold bitvec_set_uint. rewrite u8_small by (unfold is_byte; lia).
  pose proof (set_u64_ok bv c n false W ltac:(lia)) as G. destruct (bitvec_set_u64 bv c n false) as [rc bv']. cbn [snd].
  destruct G as [_ [Gc [Gl [Gb Gv]]]]. destruct W as [Wb [Wl Wc]].
  split; [split; [exact Gb|]; rewrite Gl; lia|]. split; [lia|]. split; [exact Gl|]. split; [lia|].
  destruct (Z.leb_spec (cur_bit bv + n) (8 * data_len bv)) as [Hf | Hf]; [right | left; lia].
  assert (E : cur_bit bv' = cur_bit bv + n) by lia. unfold bits_of. rewrite E.
  replace (Z.to_nat (cur_bit bv + n)) with (Z.to_nat (cur_bit bv) + Z.to_nat n)%nat by lia.
  rewrite zseq_add, map_app. f_equal.
  - apply map_ext_in. intros j Hj. apply zseq_In in Hj. rewrite Gv by lia.
    destruct (Z.leb_spec (cur_bit bv) j); [lia | reflexivity].
  - unfold cbits. rewrite zseq_map_shift. apply map_ext_in. intros j Hj. apply zseq_In in Hj. rewrite Gv by lia.
    destruct (Z.leb_spec (cur_bit bv) (0 + Z.of_nat (Z.to_nat (cur_bit bv)) + j)); [|lia].
    destruct (Z.ltb_spec (0 + Z.of_nat (Z.to_nat (cur_bit bv)) + j) (cur_bit bv + n)); [|lia].
    destruct (Z.ltb_spec (0 + Z.of_nat (Z.to_nat (cur_bit bv)) + j) (8 * data_len bv)); [|lia].
    cbn [andb]. rewrite xorb_false_l. f_equal. lia.
Qed.

Lemma app_full_trans a w b w' c : app_or_full a w b -> app_or_full b w' c -> app_or_full a (w ++ w') c.
Proof.
  intros [W1 [C1 [L1 [G1 H1]]]] [W2 [C2 [L2 [G2 H2]]]]. split; [exact W2|]. split; [exact C2|]. split; [congruence|]. split; [lia|].
  destruct H2 as [H2 | H2]; [left; congruence|]. destruct H1 as [H1 | H1]; [left; lia|]. right. rewrite H2, H1, app_assoc. reflexivity.
Qed.

(** one run *)
Lemma rle_ok comp len b : wf comp -> cur_bit comp <= 8 * data_len comp -> 1 <= len < 1024 ->
  exists comp' w, t4_rle comp len b = Ok comp' /\ app_or_full comp w comp' /\
    forall rest, read_run b (w ++ rest) = Some (len, rest).
Proof.
  intros W Hc Hl. unfold t4_rle. destruct (tables_len b) as [T1 [T2 [T3 [T4 _]]]].
  pose proof (Z.div_mod len 64 ltac:(lia)) as Hd. pose proof (Z.mod_pos_bound len 64 ltac:(lia)) as Hm.
  set (q := len / 64) in *. set (r := len mod 64) in *. assert (Hq : 0 <= q <= 15) by lia.
  replace (Z.min 15 q) with q by lia. replace (len - 64 * q) with r by lia.
  rewrite (rd_at0 (t4_term b)), (rd_at0 (t4_term_length b)) by lia.
  pose proof (term_read b r) as TR. specialize (fun rest => TR rest ltac:(lia)).
  destruct (Z.leb_spec 1 q) as [H1 | H1].
  - rewrite !rd_at0 by lia. cbn [bind].
    pose proof (mk_read b (q - 1)) as MR. specialize (fun rest => MR rest ltac:(lia)). cbv zeta in MR, TR.
    pose proof (set_uint_app comp (at0 (t4_make_up b) (q - 1)) _ W Hc (proj2 (MR []))) as A1.
    pose proof A1 as [W1 [C1 _]].
    pose proof (set_uint_app _ (at0 (t4_term b) r) _ W1 C1 (proj2 (proj2 (TR [])))) as A2.
    eexists. eexists. split; [reflexivity|]. split; [exact (app_full_trans _ _ _ _ _ A1 A2)|].
    intros rest. unfold read_run. rewrite <- app_assoc. rewrite (proj1 (MR _)). rewrite (proj1 (TR _)). f_equal. f_equal. lia.
  - cbn [bind]. cbv zeta in TR.
    pose proof (set_uint_app comp (at0 (t4_term b) r) _ W Hc (proj2 (proj2 (TR [])))) as A2.
    eexists. eexists. split; [reflexivity|]. split; [exact A2|].
    intros rest. unfold read_run. rewrite (proj1 (proj2 (TR _))). rewrite (proj1 (TR _)). f_equal. f_equal. lia.
Qed.

(** shifted vectors stay octets *)
Lemma zfor_keep {A} (P : A -> Prop) (f : Z -> A -> res A) :
  (forall i s s', P s -> f i s = Ok s' -> P s') -> forall n i s s', P s -> zfor n i f s = Ok s' -> P s'.
Proof.
  intros Hf. induction n as [|n IH]; intros i s s' Hs E; cbn [zfor] in E; [inversion E; subst; exact Hs|].
  destruct (f i s) as [s1| | |] eqn:E1; cbn [bind] in E; try discriminate. exact (IH _ _ _ (Hf _ _ _ Hs E1) E).
Qed.
Lemma wr_bytes d i v d' : bytes d -> is_byte v -> wr d i v = Ok d' -> bytes d'.
Proof.
  intros Hb Hv E. unfold wr in E. destruct (i <? 0); [discriminate|]. destruct (_ <=? i) in E; [discriminate|]. inversion E. apply Forall_upd; assumption.
Qed.
Lemma shiftl_bytes bv n bv' : bytes (bdata bv) -> bitvec_shiftl bv n = Ok bv' -> bytes (bdata bv').
Proof.
  intros Hb. unfold bitvec_shiftl. destruct (n =? 0); [intros E; inversion E; subst; exact Hb|].
  destruct (cur_bit bv <=? n).
  { intros E; inversion E; subst. cbn. apply Forall_forall. intros x Hx. apply in_map_iff in Hx. destruct Hx as [? [<- _]]. unfold is_byte. lia. }
  destruct (memcpy _ _ _ _ _) as [d| | |] eqn:Em; cbn [bind]; try discriminate.
  assert (Hd : bytes d).
  { unfold memcpy in Em. destruct (_ && _ && _ && _ && _) in Em; [|discriminate]. injection Em as <-.
    apply Forall_blit; auto. apply Forall_slice; auto. }
  match goal with |- context[zfor ?nn ?i ?ff ?s0] => destruct (zfor nn i ff s0) as [d2| | |] eqn:Ez; cbn [bind]; try discriminate;
    assert (Hd2 : bytes d2) end.
  { eapply (zfor_keep bytes); [|exact Hd|exact Ez]. intros i s s' Hs. cbv beta.
    destruct (rd s i) as [a| | |]; cbn [bind]; try discriminate. destruct (rd s (i + 1)) as [b| | |]; cbn [bind]; try discriminate.
    intros E. refine (wr_bytes _ _ _ _ Hs _ E). unfold is_byte, u16.
    match goal with |- context[?x mod 65536] => pose proof (Z.mod_pos_bound x 65536 ltac:(lia)) as B; set (y := x mod 65536) in * end.
    rewrite Z.shiftr_div_pow2 by lia. change (2 ^ 8) with 256. split; [apply Z.div_pos; lia | apply Z.div_lt_upper_bound; lia]. }
  destruct (rd d2 _) as [l| | |]; cbn [bind]; try discriminate.
  destruct (wr d2 _ _) as [d3| | |] eqn:Ew; cbn [bind]; try discriminate.
  intros E; inversion E; subst. cbn. exact (wr_bytes _ _ _ _ Hd2 (u8_range _) Ew).
Qed.

(** the run length is at most the bits rounded up to octets *)
Lemma rl_bound bv b r : bytes (bdata bv) -> 0 <= cur_bit bv <= 8 * data_len bv -> bitvec_rl bv b = Ok r -> r <= cur_bit bv + 7.
Proof.
  intros Hb Hc E. unfold bitvec_rl in E. set (lim := if negb (cur_bit bv mod 8 =? 0) then cur_bit bv / 8 + 1 else cur_bit bv / 8) in *.
  assert (HL : 0 <= lim /\ lim <= data_len bv /\ 8 * lim <= cur_bit bv + 7).
  { unfold lim. destruct (Z.eqb_spec (cur_bit bv mod 8) 0); cbn [negb]; lia. }
  destruct (rl_loop_ok (Z.to_nat lim) bv 0 b) as (r' & E' & [[R _]|(R & _)]); auto; try lia;
    rewrite E in E'; inversion E'; subst; lia.
Qed.

Lemma repeat_prefix (f : Z -> bool) b n m : (forall j, 0 <= j < n -> f j = b) -> 0 <= m <= n -> map f (zseq 0 (Z.to_nat m)) = repeat b (Z.to_nat m).
Proof.
  intros H Hm. replace (repeat b (Z.to_nat m)) with (map (fun _ => b) (zseq 0 (Z.to_nat m))).
  - apply map_ext_in. intros j Hj. apply zseq_In in Hj. apply H. lia.
  - assert (G : forall k a, map (fun _ : Z => b) (zseq a k) = repeat b k); [|apply G].
    induction k; intros; cbn; f_equal; auto.
Qed.

(** the loop *)
Definition first_run_ok (vec : bitvec) : Prop :=
  exists n, 0 <= n <= cur_bit vec /\ cur_bit vec - n <= 8 * (data_len vec - 2) /\
    forall i j, 0 <= i < n -> 0 <= j < n -> pbit false (bdata vec) i = pbit false (bdata vec) j.

Lemma loop_ok fuel : forall vec comp rl0 rl1, wf comp -> cur_bit comp <= 8 * data_len comp ->
  bytes (bdata vec) -> 8 * data_len vec < 2 ^ 32 -> 2 <= data_len vec -> 0 <= cur_bit vec <= 8 * data_len vec -> cur_bit vec <= 1016 ->
  first_run_ok vec -> cur_bit vec < Z.of_nat fuel ->
  bitvec_rl vec false = Ok rl0 -> bitvec_rl vec true = Ok rl1 ->
  exists comp' w, t4_loop fuel vec comp rl0 rl1 = Ok comp' /\ app_or_full comp w comp' /\
    (0 < cur_bit vec -> (rl1 <? rl0) = negb (pbit false (bdata vec) 0)) /\
    forall fu rest, cur_bit vec < Z.of_nat fu -> t4_decode fu (negb (rl1 <? rl0)) (w ++ rest) (cur_bit vec) = Some (bits_of vec).
Proof.
  induction fuel as [|fuel IH]; intros vec comp rl0 rl1 Wc Cc Hb Hdl Hd2 Hcb H1016 Hfr Hfu E0 E1; [lia|].
  cbn [t4_loop]. destruct (Z.leb_spec (cur_bit vec) 0) as [Hz | Hz].
  { exists comp, []. assert (cur_bit vec = 0) as Ez by lia.
    split; [reflexivity|]. split; [split; [exact Wc|]; split; [exact Cc|]; split; [reflexivity|]; split; [lia|]; right; rewrite app_nil_r; reflexivity|].
    split; [lia|]. intros [|fu] rest Hf; [lia|]. unfold bits_of. rewrite Ez. reflexivity. }
  destruct (rl_ok vec false Hb Hcb) as [r0 [E0' [A0 [P0 [N0 _]]]]]. rewrite E0 in E0'. inversion E0'; subst r0; clear E0'.
  destruct (rl_ok vec true Hb Hcb) as [r1 [E1' [A1 [P1 [N1 _]]]]]. rewrite E1 in E1'. inversion E1'; subst r1; clear E1'.
  pose proof (rl_bound vec false rl0 Hb Hcb E0) as B0. pose proof (rl_bound vec true rl1 Hb Hcb E1) as B1.
  set (b := negb (rl1 <? rl0)). set (n := if rl1 <? rl0 then rl0 else rl1).
  set (f := pbit false (bdata vec)) in *.
  assert (K : 1 <= n <= cur_bit vec + 7 /\ (forall j, 0 <= j < Z.min n (cur_bit vec) -> f j = b) /\ (n < cur_bit vec -> f n <> b) /\
     (rl1 <? rl0) = negb (f 0)).
  { unfold n, b. destruct (Z.ltb_spec rl1 rl0) as [Hlt | Hge]; cbn [negb].
    - split; [lia|]. split; [exact A0|]. split; [exact N0|]. rewrite A0 by lia. reflexivity.
    - assert (1 <= rl1). { destruct (Z.leb_spec 1 rl1); [assumption|]. assert (rl0 = 0 /\ rl1 = 0) as [Ea Eb] by lia. rewrite Ea in N0. rewrite Eb in N1.
        specialize (N0 ltac:(lia)). specialize (N1 ltac:(lia)). destruct (f 0); congruence. }
      split; [lia|]. split; [exact A1|]. split; [exact N1|]. rewrite A1 by lia. reflexivity. }
  destruct K as [Hn [Hrun [Hend Hcol]]].
  assert (Hf0 : f 0 = b) by (apply Hrun; lia).
  destruct (rle_ok comp n b Wc Cc ltac:(lia)) as [comp1 [w1 [Er [Ar Hr]]]].
  assert (Step : forall vec1, bitvec_shiftl vec n = Ok vec1 ->
     (if rl1 <? rl0
         then do vec <- bitvec_shiftl vec rl0 ;; do comp <- t4_rle comp rl0 false ;; Ok (vec, comp)
         else do vec <- bitvec_shiftl vec rl1 ;; do comp <- t4_rle comp rl1 true ;; Ok (vec, comp)) = Ok (vec1, comp1)).
  { intros vec1 Ev. unfold n, b in Ev, Er. destruct (rl1 <? rl0); cbn [negb] in Er; rewrite Ev; cbn [bind]; rewrite Er; reflexivity. }
  pose proof Ar as [Wc1 [Cc1 [Lc1 _]]].
  destruct (Z.leb_spec (cur_bit vec) n) as [Hge | Hlt].
  - (* last run *)
    destruct (shiftl_all vec n ltac:(lia) Hge) as [vec1 [Ev [Cv [Lv Zv]]]]. rewrite (Step vec1 Ev). cbn [bind].
    pose proof (shiftl_bytes vec n vec1 Hb Ev) as Hb1.
    destruct (rl_ok vec1 false Hb1 ltac:(lia)) as [q0 [F0 _]]. destruct (rl_ok vec1 true Hb1 ltac:(lia)) as [q1 [F1 _]].
    rewrite F0, F1. cbn [bind].
    destruct (IH vec1 comp1 q0 q1) as [comp' [w [El [Al [_ Dl]]]]]; try assumption; try lia.
    { exists 0. split; [lia|]. split; [lia|]. intros; lia. }
    exists comp', (w1 ++ w). split; [exact El|]. split; [exact (app_full_trans _ _ _ _ _ Ar Al)|]. split; [intros _; exact Hcol|].
    intros [|fu] rest Hfu'; [lia|]. cbn [t4_decode]. destruct (Z.leb_spec (cur_bit vec) 0); [lia|].
    rewrite <- app_assoc. fold b. rewrite Hr. destruct (Z.leb_spec (cur_bit vec) n); [|lia].
    f_equal. symmetry. unfold bits_of. fold f. apply (repeat_prefix f b (Z.min n (cur_bit vec))); [exact Hrun | lia].
  - destruct (shiftl_ok vec n Hb Hdl Hd2 ltac:(lia) ltac:(lia)) as [vec1 [Ev [Cv [Lv Pv]]]]. rewrite (Step vec1 Ev). cbn [bind].
    pose proof (shiftl_bytes vec n vec1 Hb Ev) as Hb1.
    destruct (rl_ok vec1 false Hb1 ltac:(lia)) as [q0 [F0 _]]. destruct (rl_ok vec1 true Hb1 ltac:(lia)) as [q1 [F1 _]].
    rewrite F0, F1. cbn [bind].
    assert (Hle : cur_bit vec - n <= 8 * (data_len vec - 2)).
    { destruct Hfr as [m [Hm1 [Hm2 Hm3]]]. destruct (Z.leb_spec m n); [lia|]. exfalso. apply Hend; [exact Hlt|]. rewrite <- Hf0. apply Hm3; lia. }
    destruct (IH vec1 comp1 q0 q1) as [comp' [w [El [Al [Hc1 Dl]]]]]; try assumption; try lia.
    { exists 0. split; [lia|]. split; [lia|]. intros; lia. }
    exists comp', (w1 ++ w). split; [exact El|]. split; [exact (app_full_trans _ _ _ _ _ Ar Al)|]. split; [intros _; exact Hcol|].
    intros [|fu] rest Hfu'; [lia|]. cbn [t4_decode]. destruct (Z.leb_spec (cur_bit vec) 0); [lia|].
    rewrite <- app_assoc. fold b. rewrite Hr. destruct (Z.leb_spec (cur_bit vec) n); [lia|].
    specialize (Hc1 ltac:(lia)). rewrite Pv in Hc1 by lia. rewrite Z.add_0_l in Hc1. fold f in Hc1.
    assert (Ecol : negb b = negb (q1 <? q0)).
    { rewrite Hc1. specialize (Hend Hlt). destruct b, (f n); cbn; congruence. }
    rewrite Ecol. rewrite <- Cv. rewrite (Dl fu rest ltac:(lia)). f_equal. unfold bits_of. rewrite Cv. fold f.
    replace (Z.to_nat (cur_bit vec)) with (Z.to_nat n + Z.to_nat (cur_bit vec - n))%nat by lia. rewrite zseq_add, map_app. f_equal.
    + symmetry. apply (repeat_prefix f b n); [|lia]. intros j Hj. apply Hrun. lia.
    + rewrite (zseq_map_shift f). apply map_ext_in. intros j Hj. apply zseq_In in Hj. rewrite Pv by lia. unfold f. f_equal. lia.
Qed.

Theorem encode_ok bv : bytes (bdata bv) -> 8 * data_len bv < 2 ^ 31 -> 2 <= data_len bv -> 0 <= cur_bit bv <= 8 * data_len bv ->
  cur_bit bv <= 1016 -> first_run_ok bv ->
  osmo_t4_encode bv = Ok (-1, bv) \/
  exists rc bv', osmo_t4_encode bv = Ok (rc, bv') /\ data_len bv' = data_len bv /\ bytes (bdata bv') /\ 0 <= cur_bit bv' < cur_bit bv /\
    rc = b2z (pbit false (bdata bv) 0) /\
    forall rest, t4_decode (S (Z.to_nat (cur_bit bv))) (rc =? 1) (bits_of bv' ++ rest) (cur_bit bv) = Some (bits_of bv).
Proof.
  intros Hb Hl H2 Hc H1016 Hfr. unfold osmo_t4_encode.
  destruct (rl_ok bv false Hb Hc) as [r0 [E0 _]]. destruct (rl_ok bv true Hb Hc) as [r1 [E1 _]]. rewrite E0, E1. cbn [bind].
  set (comp := Bv 0 (repeat 0 (2 * length (bdata bv)))).
  assert (Lc : data_len comp = 2 * data_len bv). { unfold data_len, comp, zlen. cbn [bdata]. rewrite repeat_length. lia. }
  assert (Wc : wf comp).
  { split; [|rewrite Lc; cbn [comp cur_bit]; lia]. cbn [comp bdata]. apply Forall_forall. intros x Hx. apply repeat_spec in Hx. subst. unfold is_byte. lia. }
  replace (Bv (cur_bit bv) (bdata bv)) with bv by (destruct bv; reflexivity).
  destruct (loop_ok (S (Z.to_nat (cur_bit bv))) bv comp r0 r1) as [comp' [w [El [Al [Hcol Dl]]]]]; try assumption; try lia.
  { cbn [comp cur_bit]. lia. }
  rewrite El. cbn [bind]. destruct (Z.ltb_spec (cur_bit comp') (cur_bit bv)) as [Hlt | Hge]; [right | left; reflexivity].
  destruct Al as [[Wb [Wl W0]] [Cl [Ll [_ [Hfull | Happ]]]]]; [lia|].
  specialize (Hcol ltac:(lia)).
  eexists. eexists. split; [reflexivity|].
  assert (Zl : zlen (bdata comp') = 2 * data_len bv) by (fold (data_len comp'); lia).
  split; [|split; [|split; [cbn [cur_bit]; lia|split]]].
  - unfold data_len. cbn [bdata]. rewrite zlen_firstn by (clear - Zl H2; unfold data_len in *; unfold zlen in *; lia). reflexivity.
  - cbn [bdata]. apply Forall_firstn, Wb.
  - rewrite Hcol. destruct (pbit _ _ 0); reflexivity.
  - intros rest. replace ((if r1 <? r0 then 0 else 1) =? 1) with (negb (r1 <? r0)) by (destruct (r1 <? r0); reflexivity).
    rewrite <- (Dl (S (Z.to_nat (cur_bit bv))) rest ltac:(lia)). f_equal. f_equal.
    change (bits_of comp) with (@nil bool) in Happ. cbn [app] in Happ. rewrite <- Happ. unfold bits_of. cbn [cur_bit bdata].
    apply map_ext_in. intros j Hj. apply zseq_In in Hj. unfold pbit. f_equal.
    replace (length (bdata bv)) with (Z.to_nat (data_len bv)) by (unfold data_len, zlen; lia). rewrite at0_firstn by lia.
    destruct (Z.ltb_spec (j / 8) (data_len bv)) as [|Hge]; [reflexivity|]. exfalso. lia.
Qed.
