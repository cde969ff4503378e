(** Proofs about Global Call References. *)
From Verif Require Import Base M_gcr S_gcr.

Lemma be2 a b : is_byte a -> is_byte b -> be_val [a; b] = 256 * a + b.
Proof. intros. unfold be_val. cbn [rev app le_val]. lia. Qed.
Lemma dm node : 256 * (node / 256) + node mod 256 = node.
Proof. pose proof (Z.div_mod node 256). lia. Qed.
Lemma cpy_in l off n : 0 <= off -> off + n <= zlen l -> cpy l off n = Ok (zslice l off n).
Proof. intros. unfold cpy. destruct (Z.ltb_spec off 0), (Z.ltb_spec (zlen l) (off + n)); try lia. reflexivity. Qed.
Lemma cpy_out l off n : zlen l < off + n -> cpy l off n = UB.
Proof. intros. unfold cpy. destruct (Z.ltb_spec (zlen l) (off + n)); [|lia]. rewrite orb_true_r. reflexivity. Qed.

Lemma dec_good g net nl node cr rest : reference net node cr ->
  osmo_dec_gcr g (octets net nl node cr ++ rest) = Ok (zlen net + 10, Gcr (net ++ skipn (length net) (g_net g)) (zlen net) node cr).
Proof.
  intros (Hn & Hd & Hc & Bn & Bc). pose proof (zlen_nonneg rest) as HR.
  assert (Len : zlen (octets net nl node cr ++ rest) = zlen net + 10 + zlen rest).
  { unfold octets. rewrite zlen_app, zlen_cons, zlen_app, zlen_cons. cbn [app]. rewrite !zlen_cons. lia. }
  unfold osmo_dec_gcr. rewrite Len. destruct (Z.ltb_spec (zlen net + 10 + zlen rest) 13); [lia|].
  rewrite rd_at0 by lia. change (at0 (octets net nl node cr ++ rest) 0) with (zlen net). cbn [bind].
  destruct (Z.ltb_spec (zlen net) 3); [lia|]. destruct (Z.ltb_spec 5 (zlen net)); [lia|]. cbn [orb].
  rewrite !cpy_in by lia. rewrite rd_at0 by lia.
  assert (Nd : be_val [node / 256; node mod 256] = node).
  { rewrite be2; [apply dm| |]; unfold is_byte; [split; [apply Z.div_pos; lia|apply Z.div_lt_upper_bound; lia]|apply Z.mod_pos_bound; lia]. }
  clear Len. destruct cr as [|c0 [|c1 [|c2 [|c3 [|c4 [|c5 cr]]]]]]; try (cbn in Hc; discriminate); [|exfalso; rewrite !zlen_cons in Hc; pose proof (zlen_nonneg cr); lia].
  assert (N3 : (exists a b c, net = [a; b; c]) \/ (exists a b c d, net = [a; b; c; d]) \/ (exists a b c d e, net = [a; b; c; d; e])).
  { clear - Hn. destruct net as [|a [|b [|c [|d [|e [|f net]]]]]]; rewrite ?zlen_cons in Hn; change (zlen (@nil Z)) with 0 in Hn; try (exfalso; lia).
    - left. exists a, b, c. reflexivity.
    - right. left. exists a, b, c, d. reflexivity.
    - right. right. exists a, b, c, d, e. reflexivity.
    - exfalso. pose proof (zlen_nonneg net). lia. }
  set (o := octets net nl node [c0; c1; c2; c3; c4] ++ rest).
  assert (K : zslice o 1 (zlen net) = net /\ zslice o (1 + (zlen net + 1)) 2 = [node / 256; node mod 256] /\ at0 o (1 + (zlen net + 1) + 2) = 5 /\
    zslice o (1 + (zlen net + 1) + 2 + 1) 5 = [c0; c1; c2; c3; c4] /\ Z.to_nat (zlen net) = length net).
  { unfold o. clear - N3. destruct N3 as [(a & b & c & ->)|[(a & b & c & d & ->)|(a & b & c & d & e & ->)]]; repeat split. }
  destruct K as (K1 & K2 & K3 & K4 & K5). rewrite K1. cbn [bind]. rewrite K2. cbn [bind]. rewrite K3. cbn [bind]. change (negb (5 =? 5)) with false. cbv iota.
  rewrite K4, K5, Nd. cbn [bind g_net g_node]. f_equal. f_equal. lia.
Qed.

Lemma octets_len net nl node cr : zlen (octets net nl node cr) = zlen net + 5 + zlen cr.
Proof. unfold octets. rewrite zlen_cons, zlen_app, zlen_cons. cbn [app]. rewrite !zlen_cons. lia. Qed.
Lemma octets_at net nl node cr : at0 (octets net nl node cr) 0 = zlen net /\ at0 (octets net nl node cr) (zlen net + 4) = 5.
Proof.
  split; [reflexivity|]. unfold octets. pose proof (zlen_nonneg net). rewrite at0_cons by lia. destruct (Z.eqb_spec (zlen net + 4) 0); [lia|].
  rewrite at0_app by lia. destruct (Z.ltb_spec (zlen net + 4 - 1) (zlen net)); [lia|]. replace (zlen net + 4 - 1 - zlen net) with 3 by lia. reflexivity.
Qed.
Lemma both elem : good elem \/ cut elem -> 13 <= zlen elem /\ 3 <= at0 elem 0 <= 5 /\ at0 elem (at0 elem 0 + 4) = 5.
Proof.
  assert (G : forall more net nl node cr rest, 13 <= zlen elem -> reference net node cr -> elem ++ more = octets net nl node cr ++ rest ->
    13 <= zlen elem /\ 3 <= at0 elem 0 <= 5 /\ at0 elem (at0 elem 0 + 4) = 5).
  { intros more net nl node cr rest L (R1 & _ & R3 & _) E. split; [exact L|]. destruct (octets_at net nl node cr) as (A & B).
    assert (K : forall i, 0 <= i < 13 -> i < zlen (octets net nl node cr) -> at0 elem i = at0 (octets net nl node cr) i).
    { intros i Hi Hj. transitivity (at0 (elem ++ more) i); [rewrite at0_app by lia; destruct (Z.ltb_spec i (zlen elem)); [reflexivity|lia]|].
      rewrite E, at0_app by lia. destruct (Z.ltb_spec i (zlen (octets net nl node cr))); [reflexivity|lia]. }
    rewrite octets_len in K. rewrite (K 0) by lia. rewrite A. rewrite (K (zlen net + 4)) by lia. split; [lia|exact B]. }
  intros [(net & nl & node & cr & rest & R & E)|(L & net & nl & node & cr & more & R & _ & E)].
  - apply (G [] net nl node cr rest); [|exact R|rewrite app_nil_r; exact E]. rewrite E, zlen_app, octets_len. destruct R as (R1 & _ & R3 & _). pose proof (zlen_nonneg rest). lia.
  - apply (G more net nl node cr []); [exact L|exact R|rewrite app_nil_r; exact E].
Qed.
Lemma dec_cases g elem : bytes elem ->
  good elem \/ (cut elem /\ osmo_dec_gcr g elem = UB) \/ (~ good elem /\ ~ cut elem /\ exists rc g', osmo_dec_gcr g elem = Ok (rc, g') /\ rc < 0).
Proof.
  intros B. pose proof (both elem) as Bo.
  destruct (Z_lt_ge_dec (zlen elem) 13) as [L|L].
  { right. right. split; [intros X; destruct (Bo (or_introl X)); lia|]. split; [intros X; destruct (Bo (or_intror X)); lia|].
    unfold osmo_dec_gcr. destruct (Z.ltb_spec (zlen elem) 13); [|lia]. do 2 eexists. split; [reflexivity|unfold EBADMSG; lia]. }
  destruct (Z_lt_ge_dec (at0 elem 0) 3) as [N|N]; [|destruct (Z_lt_ge_dec 5 (at0 elem 0)) as [N'|N']].
  1,2: right; right; split; [intros X; destruct (Bo (or_introl X)); lia|]; split; [intros X; destruct (Bo (or_intror X)); lia|];
    unfold osmo_dec_gcr; destruct (Z.ltb_spec (zlen elem) 13); [lia|]; rewrite rd_at0 by lia; cbn [bind];
    destruct (Z.ltb_spec (at0 elem 0) 3), (Z.ltb_spec 5 (at0 elem 0)); try lia; cbn [orb]; do 2 eexists; (split; [reflexivity|unfold EINVAL; lia]).
  destruct (Z.eq_dec (at0 elem (at0 elem 0 + 4)) 5) as [M|M].
  2: { right. right. split; [intros X; destruct (Bo (or_introl X)) as (_ & _ & X'); contradiction|]. split; [intros X; destruct (Bo (or_intror X)) as (_ & _ & X'); contradiction|].
    unfold osmo_dec_gcr. destruct (Z.ltb_spec (zlen elem) 13); [lia|]. rewrite rd_at0 by lia. cbn [bind].
    destruct (Z.ltb_spec (at0 elem 0) 3), (Z.ltb_spec 5 (at0 elem 0)); try lia. cbn [orb]. rewrite !cpy_in by lia. cbn [bind]. rewrite rd_at0 by lia. cbn [bind].
    replace (1 + (at0 elem 0 + 1) + 2) with (at0 elem 0 + 4) by lia. destruct (Z.eqb_spec (at0 elem (at0 elem 0 + 4)) 5); [contradiction|]. cbn [negb].
    do 2 eexists. split; [reflexivity|unfold ENOENT; lia]. }
  assert (U : zlen elem < at0 elem 0 + 10 -> osmo_dec_gcr g elem = UB).
  { intros X. unfold osmo_dec_gcr. destruct (Z.ltb_spec (zlen elem) 13); [lia|]. rewrite rd_at0 by lia. cbn [bind].
    destruct (Z.ltb_spec (at0 elem 0) 3), (Z.ltb_spec 5 (at0 elem 0)); try lia. cbn [orb]. rewrite (cpy_in elem 1) by lia. cbn [bind]. rewrite (cpy_in elem (1 + (at0 elem 0 + 1))) by lia. cbn [bind]. rewrite rd_at0 by lia. cbn [bind].
    replace (1 + (at0 elem 0 + 1) + 2) with (at0 elem 0 + 4) by lia. rewrite M. change (negb (5 =? 5)) with false. cbv iota. rewrite cpy_out by lia. reflexivity. }
  clear Bo.
  destruct elem as [|e0 [|e1 [|e2 [|e3 [|e4 [|e5 [|e6 [|e7 [|e8 [|e9 [|e10 [|e11 [|e12 r]]]]]]]]]]]]]; try (exfalso; apply L; reflexivity).
  unfold bytes in B. repeat match goal with H : Forall _ (_ :: _) |- _ => inversion H; clear H; subst end.
  change (at0 (e0 :: _) 0) with e0 in *.
  assert (D : forall a b, is_byte a -> is_byte b -> (256 * a + b) / 256 = a /\ (256 * a + b) mod 256 = b /\ 0 <= 256 * a + b < 65536).
  { intros a b Ha Hb. unfold is_byte in *. split; [|split]; [rewrite Z.mul_comm, Z.div_add_l by lia; rewrite Z.div_small by lia; lia|rewrite Z.add_comm, Z.mul_comm, Z.mod_add by lia; apply Z.mod_small; lia|lia]. }
  assert (B0 : is_byte 0) by (unfold is_byte; lia).
  assert (C : e0 = 3 \/ e0 = 4 \/ e0 = 5) by lia. destruct C as [-> |[-> | ->]].
  - left. destruct (D e5 e6) as (D1 & D2 & D3); try assumption. change (e7 = 5) in M. subst e7. exists [e1; e2; e3], e4, (256 * e5 + e6), [e8; e9; e10; e11; e12], r.
    split; [split; [cbn; lia|]; split; [lia|]; split; [reflexivity|]; split; (repeat (apply Forall_cons; [assumption|])); apply Forall_nil|]. unfold octets. rewrite D1, D2. reflexivity.
  - destruct (D e6 e7) as (D1 & D2 & D3); try assumption. change (e8 = 5) in M. subst e8. destruct r as [|r0 r].
    + right. left. split; [|apply U; cbn; lia]. split; [cbn; lia|]. exists [e1; e2; e3; e4], e5, (256 * e6 + e7), [e9; e10; e11; e12; 0], [0].
      split; [split; [cbn; lia|]; split; [lia|]; split; [reflexivity|]; split; (repeat (apply Forall_cons; [assumption|])); apply Forall_nil|]. split; [discriminate|]. unfold octets. rewrite D1, D2. reflexivity.
    + left. match goal with H : Forall _ (_ :: _) |- _ => inversion H; clear H; subst end. exists [e1; e2; e3; e4], e5, (256 * e6 + e7), [e9; e10; e11; e12; r0], r.
      split; [split; [cbn; lia|]; split; [lia|]; split; [reflexivity|]; split; (repeat (apply Forall_cons; [assumption|])); apply Forall_nil|]. unfold octets. rewrite D1, D2. reflexivity.
  - destruct (D e7 e8) as (D1 & D2 & D3); try assumption. change (e9 = 5) in M. subst e9. destruct r as [|r0 [|r1 r]].
    + right. left. split; [|apply U; cbn; lia]. split; [cbn; lia|]. exists [e1; e2; e3; e4; e5], e6, (256 * e7 + e8), [e10; e11; e12; 0; 0], [0; 0].
      split; [split; [cbn; lia|]; split; [lia|]; split; [reflexivity|]; split; (repeat (apply Forall_cons; [assumption|])); apply Forall_nil|]. split; [discriminate|]. unfold octets. rewrite D1, D2. reflexivity.
    + repeat match goal with H : Forall _ (_ :: _) |- _ => inversion H; clear H; subst end. right. left. split; [|apply U; cbn; lia]. split; [cbn; lia|]. exists [e1; e2; e3; e4; e5], e6, (256 * e7 + e8), [e10; e11; e12; r0; 0], [0].
      split; [split; [cbn; lia|]; split; [lia|]; split; [reflexivity|]; split; (repeat (apply Forall_cons; [assumption|])); apply Forall_nil|]. split; [discriminate|]. unfold octets. rewrite D1, D2. reflexivity.
    + repeat match goal with H : Forall _ (_ :: _) |- _ => inversion H; clear H; subst end. left. exists [e1; e2; e3; e4; e5], e6, (256 * e7 + e8), [e10; e11; e12; r0; r1], r.
      split; [split; [cbn; lia|]; split; [lia|]; split; [reflexivity|]; split; (repeat (apply Forall_cons; [assumption|])); apply Forall_nil|]. unfold octets. rewrite D1, D2. reflexivity.
Qed.
