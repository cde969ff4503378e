(* P_ilvdiag.v - diagonal interleaving: a checker for one encoder/decoder pair that guarantees the recovery of every frame
   of every sequence *)
From Verif Require Import Base M_ilvtab M_ilv P_ilv S_ilv.

Definition untouched (t : tree) (W r : Z) : Prop := r < 0 \/ W <= r \/ orig t 2 r = (2%nat, r).
Definition untouchedb (t : tree) (r : Z) : bool := (r <? 0) || ceqb (orig t 2 r) (2%nat, r).

Definition diag_item (t u : tree) (nst nsr : list Z) (S : Z) (x : (nat * Z) * Z * (nat * Z)) : bool :=
  let '((src, pos), dst) := x in
  (0 <=? pos) && (pos <? nth 2 nst 0) && ceqb (orig t 2 pos) src && negb (Nat.eqb (fst src) 2) &&
  ceqb (orig u (fst dst) (snd dst)) (0%nat, pos) && (0 <=? snd dst) && (snd dst <? nth (fst dst) nsr 0) && negb (Nat.eqb (fst dst) 0) &&
  forallb (fun m => untouchedb t (pos - m * S)) (zseq 1 (Z.to_nat (nth 2 nst 0 / S))).

Definition items (n : Z) (pos : Z -> Z) (fl : option Z) : list ((nat * Z) * Z * (nat * Z)) :=
  map (fun k => (((0%nat, k), pos k), (2%nat, k))) (zseq 0 (Z.to_nat n)) ++
  match fl with Some p => [(((3%nat, 0), p), (3%nat, 0))] | None => [] end.

Definition diag (n nj W S : Z) (enc dec : prog) (pos : Z -> Z) (fl : option Z) : bool :=
  (0 <? S) && (0 <=? W) && (0 <=? n) &&
  match trun [n; nj; W; 1] Lf enc, trun [W; nj; n; 1] Lf dec with
  | Some t, Some u => forallb (diag_item t u [n; nj; W; 1] [W; nj; n; 1] S) (items n pos fl)
  | _, _ => false
  end.

Lemma length_4 {A} (l : list A) : length l = 4%nat -> exists a b c d, l = [a; b; c; d].
Proof. destruct l as [|a [|b [|c [|d [|]]]]]; cbn; intros; try lia. eauto. Qed.

Section Diag.
Variables (n nj W S : Z) (enc dec : prog) (pos : Z -> Z) (fl : option Z) (t u : tree).
Hypothesis HS : 0 < S.
Hypothesis HW : 0 <= W.
Hypothesis Hn : 0 <= n.
Hypothesis Ht : trun [n; nj; W; 1] Lf enc = Some t.
Hypothesis Hu : trun [W; nj; n; 1] Lf dec = Some u.
Hypothesis HI : forallb (diag_item t u [n; nj; W; 1] [W; nj; n; 1] S) (items n pos fl) = true.

Definition okf (f : frame) : Prop := zlen (f_bits f) = n /\ zlen (f_scratch f) = nj.
Definition fval (f : frame) (c : nat * Z) : Z := val [f_bits f; f_scratch f; []; [f_flag f]] c.

Lemma tx_ok f air off : okf f -> 0 <= off -> off + W <= zlen air ->
  exists air', tx (fun o => shiftp 2 o enc) air off f = Ok air' /\ zlen air' = zlen air /\
    (forall src p dst, In ((src, p), dst) (items n pos fl) -> at0 air' (p + off) = fval f src) /\
    (forall q, 0 <= q < zlen air -> untouched t W (q - off) -> at0 air' q = at0 air q).
Proof.
  intros [F1 F2] Ho Hl.
  destruct (win_ok _ enc t [f_bits f; f_scratch f; air; [f_flag f]] 2 off Ht) as (e' & X & L & _ & A & B).
  { cbn. lia. } { cbn. lia. } { auto. } { cbn [nth]. auto. } { cbn [nth]. auto. }
  { cbn [map upd nth]. rewrite F1, F2. reflexivity. }
  unfold tx. rewrite X. cbn [bind]. exists (nth 2 e' []). split; auto. cbn [nth] in A, B.
  assert (Z2 : zlen (nth 2 e' []) = zlen air) by (rewrite nth_zlen, L; reflexivity).
  split; auto. split.
  - intros src p dst H. rewrite forallb_forall in HI. specialize (HI _ H). unfold diag_item in HI. rewrite !andb_true_iff in HI.
    destruct HI as (((((((( I1 & I2) & I3) & I4) & I5) & I6) & I7) & I8) & I9). apply ceqb_eq in I3. cbn [nth] in I2.
    apply negb_true_iff, Nat.eqb_neq in I4. rewrite A by (rewrite ?I3; lia). rewrite I3. unfold valw, fval, val.
    destruct (Nat.eqb_spec (fst src) 2); [congruence|]. f_equal. destruct (fst src) as [|[|[|[|]]]]; auto. congruence.
  - intros q Hq U. destruct U as [U|[U|U]]. { apply B; auto; lia. } { apply B; auto; lia. }
    destruct (Z.ltb_spec (q - off) 0). { apply B; auto; lia. } destruct (Z.leb_spec W (q - off)). { apply B; auto; lia. }
    replace q with (q - off + off) at 1 by lia. rewrite A. 2:{ lia. } 2:{ rewrite U. cbn [fst snd]. auto. } rewrite U. unfold valw. cbn [fst snd Nat.eqb nth]. now replace (q - off + off) with q by lia.
Qed.

Lemma item_untouched src p dst m : In ((src, p), dst) (items n pos fl) -> 1 <= m -> untouched t W (p - m * S).
Proof.
  intros H Hm. rewrite forallb_forall in HI. specialize (HI _ H). unfold diag_item in HI. rewrite !andb_true_iff in HI.
  destruct HI as (((((((( I1 & I2) & I3) & I4) & I5) & I6) & I7) & I8) & I9). cbn [nth] in I2, I9.
  destruct (Z.leb_spec m (W / S)).
  - rewrite forallb_forall in I9. specialize (I9 m). unfold untouchedb in I9.
    assert (Im : In m (zseq 1 (Z.to_nat (W / S)))) by (apply zseq_In; lia). specialize (I9 Im). clear Im.
    apply orb_prop in I9 as [I9|I9]. { left; lia. } right; right. now apply ceqb_eq.
  - left. assert (W < S * m). { assert (W / S + 1 <= m) by lia. pose proof (Z.mul_succ_div_gt W S HS). nia. } lia.
Qed.

Lemma tx_all_ok fs : forall air off, Forall okf fs -> 0 <= off ->
  (fs <> [] -> off + S * (Z.of_nat (length fs) - 1) + W <= zlen air) ->
  exists air', tx_all (fun o => shiftp 2 o enc) S air off fs = Ok air' /\ zlen air' = zlen air /\
    (forall q, 0 <= q < zlen air -> (forall m, 0 <= m -> untouched t W (q - off - m * S)) -> at0 air' q = at0 air q) /\
    (forall i f, nth_error fs i = Some f -> forall src p dst, In ((src, p), dst) (items n pos fl) ->
       at0 air' (p + off + S * Z.of_nat i) = fval f src).
Proof.
  induction fs as [|f fs IH]; intros air off F Ho Hl; cbn [tx_all].
  - exists air. split; auto. split; auto. split; auto. intros [|i] f H; discriminate H.
  - inversion F as [|? ? F1 F2]; subst. assert (Hl' : off + S * Z.of_nat (length fs) + W <= zlen air).
    { cbn [length] in Hl. replace (Z.of_nat (length fs)) with (Z.of_nat (Datatypes.S (length fs)) - 1) by lia. apply Hl. discriminate. }
    clear Hl. destruct (tx_ok f air off F1 Ho) as (a1 & X & L1 & A1 & B1). { nia. }
    rewrite X. cbn [bind]. destruct (IH a1 (off + S) F2) as (a2 & X2 & L2 & B2 & A2). { lia. }
    { intros. rewrite L1. replace (off + S + S * (Z.of_nat (length fs) - 1) + W) with (off + S * Z.of_nat (length fs) + W) by ring. auto. }
    exists a2. split; auto. split; [congruence|]. split.
    + intros q Hq U. rewrite B2. { apply B1; auto. specialize (U 0 ltac:(lia)). now replace (q - off - 0 * S) with (q - off) in U by lia. }
      { now rewrite L1. } intros m Hm. specialize (U (m + 1) ltac:(lia)). now replace (q - (off + S) - m * S) with (q - off - (m + 1) * S) by ring.
    + intros [|i] g G src p dst Hin; cbn [nth_error] in G.
      * injection G as <-. replace (p + off + S * Z.of_nat 0) with (p + off) by lia. rewrite B2. { eapply A1; eauto. }
        { rewrite L1. pose proof HI as HJ. rewrite forallb_forall in HJ. specialize (HJ _ Hin). unfold diag_item in HJ. rewrite !andb_true_iff in HJ.
          destruct HJ as (((((((( I1 & I2) & I3) & I4) & I5) & I6) & I7) & I8) & I9). cbn [nth] in I2. nia. }
        intros m Hm. replace (p + off - (off + S) - m * S) with (p - (m + 1) * S) by ring. eapply item_untouched; eauto. lia.
      * replace (p + off + S * Z.of_nat (Datatypes.S i)) with (p + (off + S) + S * Z.of_nat i) by lia. eapply A2; eauto.
Qed.

Lemma rx_ok air off out junk h : 0 <= off -> off + W <= zlen air -> zlen out = n -> zlen junk = nj ->
  exists o' h', rx (fun o => shiftp 0 o dec) air out junk h off = Ok (o', [h']) /\ zlen o' = n /\
    (forall k, 0 <= k < n -> at0 o' k = at0 air (pos k + off)) /\ (forall p, fl = Some p -> h' = at0 air (p + off)).
Proof.
  intros Ho Hl O J.
  destruct (win_ok _ dec u [air; junk; out; [h]] 0 off Hu) as (e' & X & L & A & _ & _).
  { cbn. lia. } { cbn. lia. } { auto. } { cbn [nth]. auto. } { cbn [nth]. auto. }
  { cbn [map upd nth]. rewrite J, O. reflexivity. }
  unfold rx. rewrite X. cbn [bind]. pose proof (exec_length _ _ _ X) as L4. cbn [length] in L4.
  destruct (length_4 e' L4) as (e0 & e1 & e2 & e3 & ->). cbn [nth] in *.
  assert (L2 : zlen e2 = n) by (rewrite <- O; apply (f_equal (fun l => nth 2 l 0)) in L; exact L).
  assert (L3 : zlen e3 = 1) by (apply (f_equal (fun l => nth 3 l 0)) in L; exact L).
  destruct e3 as [|h' [|]]; try (unfold zlen in L3; cbn [length] in L3; lia).
  exists e2, h'. split; auto. split; auto.
  assert (G : forall src p a i, In ((src, p), (a, i)) (items n pos fl) -> at0 (nth a [e0; e1; e2; [h']] []) i = at0 air (p + off)).
  { intros src p a i Hin. pose proof HI as HJ. rewrite forallb_forall in HJ. specialize (HJ _ Hin). unfold diag_item in HJ. rewrite !andb_true_iff in HJ.
    destruct HJ as (((((((( I1 & I2) & I3) & I4) & I5) & I6) & I7) & I8) & I9). cbn [nth fst snd] in *.
    apply negb_true_iff, Nat.eqb_neq in I8. apply ceqb_eq in I5. rewrite A; auto.
    - rewrite I5. reflexivity.
    - lia.
    - rewrite I5. cbn [fst snd]. lia. }
  split.
  - intros k Hk. apply (G (0%nat, k) (pos k) 2%nat k). unfold items. apply in_or_app. left. apply in_map_iff. exists k. split; auto. apply zseq_In. lia.
  - intros p ->. apply (G (3%nat, 0) p 3%nat 0). unfold items. apply in_or_app. right. left. reflexivity.
Qed.

Lemma diag_all fs air : Forall okf fs -> S * (Z.of_nat (length fs) - 1) + W <= zlen air ->
  exists air', tx_all (fun o => shiftp 2 o enc) S air 0 fs = Ok air' /\ zlen air' = zlen air /\
    forall i f, nth_error fs i = Some f -> forall out junk h, zlen out = n -> zlen junk = nj ->
      exists h', rx (fun o => shiftp 0 o dec) air' out junk h (S * Z.of_nat i) = Ok (f_bits f, [h']) /\ (fl <> None -> h' = f_flag f).
Proof.
  intros F Hl. destruct (tx_all_ok fs air 0 F) as (a' & X & L & _ & A). { lia. } { intros. lia. }
  exists a'. split; auto. split; auto. intros i f Hi out junk h O J.
  assert (Hi' : (i < length fs)%nat) by (apply nth_error_Some; congruence).
  destruct (rx_ok a' (S * Z.of_nat i) out junk h) as (o' & h' & R & Lo & Ro & Rh); auto. { nia. } { rewrite L. nia. }
  exists h'. rewrite R. assert (Ff : okf f) by (rewrite Forall_forall in F; apply F; eapply nth_error_In; eauto). destruct Ff as [F1 F2].
  split.
  - f_equal. f_equal. apply (list_ext _ _ 0). { unfold zlen in *. lia. }
    intros k Hk. assert (Hk' : 0 <= Z.of_nat k < n) by (unfold zlen in *; lia). specialize (Ro _ Hk'). unfold at0 at 1 in Ro. rewrite Nat2Z.id in Ro.
    rewrite Ro. specialize (A i f Hi (0%nat, Z.of_nat k) (pos (Z.of_nat k)) (2%nat, Z.of_nat k)).
    rewrite Z.add_0_r in A. rewrite A. { unfold fval, val, at0. cbn. now rewrite Nat2Z.id. }
    unfold items. apply in_or_app. left. apply in_map_iff. exists (Z.of_nat k). split; auto. apply zseq_In. lia.
  - intros Nf. destruct fl as [p|] eqn:Ef; [|congruence]. rewrite (Rh p eq_refl).
    specialize (A i f Hi (3%nat, 0) p (3%nat, 0)). rewrite Z.add_0_r in A. rewrite A; auto. unfold items. apply in_or_app. right. left. reflexivity.
Qed.
End Diag.

Lemma diag_ok n nj W S enc dec pos fl fs air : diag n nj W S enc dec pos fl = true ->
  Forall (fun f => zlen (f_bits f) = n /\ zlen (f_scratch f) = nj) fs -> S * (Z.of_nat (length fs) - 1) + W <= zlen air ->
  exists air', tx_all (fun o => shiftp 2 o enc) S air 0 fs = Ok air' /\ zlen air' = zlen air /\
    forall i f, nth_error fs i = Some f -> forall out junk h, zlen out = n -> zlen junk = nj ->
      exists h', rx (fun o => shiftp 0 o dec) air' out junk h (S * Z.of_nat i) = Ok (f_bits f, [h']) /\ (fl <> None -> h' = f_flag f).
Proof.
  unfold diag. intros D F L. apply andb_prop in D as [D1 D].
  destruct (trun [n; nj; W; 1] Lf enc) as [t|] eqn:T; [|discriminate].
  destruct (trun [W; nj; n; 1] Lf dec) as [u|] eqn:U; [|discriminate].
  eapply diag_all with (t := t) (u := u); eauto; lia.
Qed.
