(* P_nri.v - proofs for C28 *)
From Verif Require Import Base Str M_num M_plmn M_nri S_nri S_plmn P_plmn S_num P_numtext.

Definition vr (r : range) : Prop := 0 <= fst r <= snd r.
Lemma validate255 r : osmo_nri_range_validate r 255 = 0 <-> vr r.
Proof.
  unfold osmo_nri_range_validate, osmo_nri_v_validate, vr, first, last, NRI_BITLEN_MIN, NRI_BITLEN_MAX. destruct r as [a b]. cbn [fst snd].
  change (255 <? 1) with false. change (255 <? 15) with false. cbn [andb].
  destruct (Z.ltb_spec a 0); cbn [negb Z.eqb]; [split; lia|]. destruct (Z.ltb_spec b 0); cbn [negb Z.eqb]; [split; lia|].
  destruct (Z.gtb_spec a b); split; try lia; discriminate.
Qed.
Lemma overlaps_iff r s : vr r -> vr s -> nri_range_overlaps_range r s = true <-> (fst r <= snd s /\ fst s <= snd r).
Proof. unfold nri_range_overlaps_range, nri_v_matches_range, vr, first, last. intros. lia. Qed.
Lemma touches_iff r s : vr r -> vr s -> nri_range_touches r s = true <-> (fst r <= snd s + 1 /\ fst s <= snd r + 1).
Proof. unfold nri_range_touches, nri_range_overlaps_range, nri_v_matches_range, vr, first, last. intros. lia. Qed.
Lemma touches_false r s : vr r -> vr s -> nri_range_touches r s = false <-> (snd s + 2 <= fst r \/ snd r + 2 <= fst s).
Proof. intros H1 H2. pose proof (touches_iff r s H1 H2). destruct (nri_range_touches r s); [split; [discriminate|lia]|split; [|reflexivity]; intros _; lia]. Qed.

(* --- sets --- *)
Lemma has_nil v : has [] v <-> False. Proof. unfold has. split; [intros (a & b & [] & _)|tauto]. Qed.
Lemma has_cons r l v : has (r :: l) v <-> fst r <= v <= snd r \/ has l v.
Proof.
  unfold has. destruct r as [x y]. cbn [fst snd In]. split.
  - intros (a & b & [E|H] & V); [injection E as -> ->; auto|right; eauto].
  - intros [V|(a & b & H & V)]; [exists x, y; auto|exists a, b; auto].
Qed.
Lemma has_app l m v : has (l ++ m) v <-> has l v \/ has m v.
Proof. induction l as [|r l IH]; cbn [app]; [rewrite has_nil; tauto|]. rewrite !has_cons, IH. tauto. Qed.
Lemma gaps_vr low l : 0 <= low -> gaps low l -> Forall vr l.
Proof.
  revert low; induction l as [|[a b] l IH]; intros low H G; [constructor|]. cbn [gaps] in G. constructor; [unfold vr; cbn; lia|]. apply (IH (b + 2)); [lia|tauto].
Qed.
Lemma gaps_mono low low' l : low' <= low -> gaps low l -> gaps low' l.
Proof. destruct l as [|[a b] l]; cbn [gaps]; [auto|]. intros. intuition lia. Qed.
Lemma gaps_app p : forall low a b q, gaps low (p ++ (a, b) :: q) <-> gaps low p /\ Forall (fun r => snd r + 2 <= a) p /\ low <= a <= b /\ b <= 32767 /\ gaps (b + 2) q.
Proof.
  induction p as [|[x y] p IH]; intros low a b q; cbn [app gaps].
  - split; [intros (H & H2 & H3); repeat split; auto; try lia|tauto].
  - rewrite IH. split.
    + intros (H1 & H2 & H3 & H4 & H5 & H6 & H7). repeat split; auto; try lia. constructor; [cbn; lia|auto].
    + intros ((H1 & H2 & H3) & H4 & H5 & H6 & H7). inversion H4 as [|? ? H8 H9]; subst. cbn [snd] in H8. repeat split; auto; lia.
Qed.

(* --- add --- *)
Lemma last_touching_some l add pre x post : last_touching l add = Some (pre, x, post) ->
  l = pre ++ x :: post /\ nri_range_touches x add = true /\ Forall (fun r => nri_range_touches r add = false) post.
Proof.
  revert pre x post; induction l as [|r l IH]; intros pre x post; cbn [last_touching]; [discriminate|].
  destruct (last_touching l add) as [[[p y] q]|] eqn:E.
  - intros H. injection H as <- <- <-. destruct (IH _ _ _ eq_refl) as (-> & T & F). auto.
  - destruct (nri_range_touches r add) eqn:T; [|discriminate]. intros H. injection H as <- <- <-. split; [reflexivity|]. split; [assumption|].
    clear - E. induction l as [|s l IH]; [constructor|]. cbn [last_touching] in E. destruct (last_touching l add) as [[[p y] q]|]; [discriminate|].
    destruct (nri_range_touches s add) eqn:T; [discriminate|]. constructor; auto.
Qed.
Lemma last_touching_none l add : last_touching l add = None -> Forall (fun r => nri_range_touches r add = false) l.
Proof.
  induction l as [|r l IH]; cbn [last_touching]; [constructor|]. destruct (last_touching l add) as [[[p y] q]|]; [discriminate|].
  destruct (nri_range_touches r add) eqn:T; [discriminate|]. constructor; auto.
Qed.
Lemma absorb_pre p : forall low a b, 0 <= low -> 0 <= a <= b -> gaps low p -> Forall (fun r => snd r <= b) p ->
  exists a' p', absorb (a, b) p = ((a', b), p') /\ gaps low p' /\ Forall (fun r => snd r + 2 <= a') p' /\ Z.min low a <= a' <= a /\
    (forall v, (has p' v \/ a' <= v <= b) <-> (has p v \/ a <= v <= b)).
Proof.
  induction p as [|[x y] p IH]; intros low a b Hl Hab G F; cbn [absorb].
  - exists a, []. split; [reflexivity|]. split; [auto|]. split; [constructor|]. split; [lia|]. intros v. tauto.
  - cbn [gaps] in G. destruct G as (G1 & G2 & G3). inversion F as [|? ? F1 F2]; subst. cbn [snd] in F1.
    destruct (nri_range_touches (a, b) (x, y)) eqn:T.
    + apply touches_iff in T; [|unfold vr; cbn; lia|unfold vr; cbn; lia]. cbn [fst snd] in T.
      unfold nri_range_extend, first, last. cbn [fst snd]. rewrite (Z.max_l b y) by lia.
      destruct (IH (y + 2) (Z.min a x) b) as (a' & p' & E & I1 & I2 & I3 & I4); [lia|lia|assumption|assumption|].
      exists a', p'. split; [exact E|]. split; [eapply gaps_mono; [|exact I1]; lia|]. split; [assumption|]. split; [lia|].
      intros v. rewrite has_cons. cbn [fst snd]. rewrite I4. split; [intros [H|H]; [auto|]|intros [[H|H]|H]; [right; lia|auto|right; lia]].
      destruct (Z.leb_spec a v); [right; lia|]. left. left. lia.
    + apply touches_false in T; [|unfold vr; cbn; lia|unfold vr; cbn; lia]. cbn [fst snd] in T.
      destruct (IH (y + 2) a b) as (a' & p' & E & I1 & I2 & I3 & I4); [lia|lia|assumption|assumption|]. rewrite E.
      exists a', ((x, y) :: p'). split; [reflexivity|]. cbn [gaps]. split; [repeat split; auto; lia|]. split; [constructor; [cbn; lia|assumption]|]. split; [lia|].
      intros v. rewrite !has_cons. cbn [fst snd]. specialize (I4 v). tauto.
Qed.
Lemma absorb_post t q : Forall (fun r => nri_range_touches t r = false) q -> absorb t q = (t, q).
Proof. induction 1 as [|r q H _ IH]; cbn [absorb]; [reflexivity|]. rewrite H, IH. reflexivity. Qed.
Lemma insert_sorted l : forall low a b, 0 <= low -> low <= a <= b -> b <= 32767 -> gaps low l -> Forall (fun r => nri_range_touches r (a, b) = false) l ->
  gaps low (nri_ranges_add_entry_sorted l (a, b)).
Proof.
  induction l as [|[x y] l IH]; intros low a b Hl Hab Hb G F; cbn [nri_ranges_add_entry_sorted gaps]; [auto|].
  cbn [gaps] in G. destruct G as (G1 & G2 & G3). inversion F as [|? ? F1 F2]; subst.
  apply touches_false in F1; [|unfold vr; cbn; lia|unfold vr; cbn; lia]. cbn [fst snd] in F1. unfold first. cbn [fst].
  destruct (Z.leb_spec x a).
  - cbn [gaps]. repeat split; auto; try lia. apply IH; auto; lia.
  - cbn [gaps]. repeat split; auto; lia.
Qed.
Lemma insert_has l add v : has (nri_ranges_add_entry_sorted l add) v <-> has l v \/ fst add <= v <= snd add.
Proof.
  induction l as [|r l IH]; cbn [nri_ranges_add_entry_sorted]; [rewrite has_cons; tauto|].
  destruct (first r <=? first add); rewrite !has_cons; [rewrite IH|]; tauto.
Qed.

Lemma add_spec l a b : normal l -> 0 <= a <= b -> b <= 32767 ->
  exists l', osmo_nri_ranges_add l (a, b) = (0, l') /\ normal l' /\ forall v, has l' v <-> has l v \/ a <= v <= b.
Proof.
  intros N Hab Hb. unfold osmo_nri_ranges_add. rewrite (proj2 (validate255 (a, b)) ltac:(unfold vr; cbn; lia)). cbn [Z.eqb negb].
  destruct (last_touching l (a, b)) as [[[pre [x y]] post]|] eqn:E.
  - apply last_touching_some in E as (-> & T & F). unfold normal in *. apply gaps_app in N as (N1 & N2 & N3 & N4 & N5).
    apply touches_iff in T; [|unfold vr; cbn; lia|unfold vr; cbn; lia]. cbn [fst snd] in T.
    unfold nri_range_extend, first, last. cbn [fst snd].
    destruct (absorb_pre pre 0 (Z.min x a) (Z.max y b)) as (a' & p' & E & I1 & I2 & I3 & I4); [lia|lia|assumption| |].
    { eapply Forall_impl; [|exact N2]. cbn. intros. lia. }
    rewrite E. rewrite absorb_post.
    2: { assert (V : Forall vr post) by (apply (gaps_vr (y + 2)); [lia|assumption]).
         assert (B : Forall (fun r => y + 2 <= fst r) post).
         { assert (W : forall low q, gaps low q -> Forall (fun r => low <= fst r) q).
           { clear. intros low q; revert low; induction q as [|[s t] q IH]; intros low G; [constructor|]. cbn [gaps] in G. constructor; [cbn; lia|].
             eapply Forall_impl; [|apply (IH (t + 2)); tauto]. cbn. intros; lia. }
           apply W. assumption. }
         rewrite Forall_forall in *. intros r Hr. specialize (V r Hr). specialize (B r Hr). specialize (F r Hr).
         apply touches_false in F; [|assumption|unfold vr; cbn; lia]. apply touches_false; [unfold vr; cbn; lia|assumption|]. cbn [fst snd] in *. unfold vr in V. lia. }
    eexists. split; [reflexivity|]. split.
    + apply gaps_app. split; [assumption|]. split; [assumption|]. split; [lia|]. split; [lia|].
      destruct post as [|[s t] post]; [exact I|]. cbn [gaps] in *. inversion F as [|? ? F1 _]; subst.
      apply touches_false in F1; [|unfold vr; cbn; lia|unfold vr; cbn; lia]. cbn [fst snd] in F1. intuition lia.
    + intros v. rewrite !has_app, !has_cons. cbn [fst snd]. specialize (I4 v).
      assert (X : Z.min x a <= v <= Z.max y b <-> (x <= v <= y \/ a <= v <= b)) by lia. tauto.
  - apply last_touching_none in E. eexists. split; [reflexivity|]. split; [apply insert_sorted; auto; lia|]. intros v. apply insert_has.
Qed.
Lemma add_invalid l a b : ~ (0 <= a <= b) -> osmo_nri_ranges_add l (a, b) = (-1, l).
Proof.
  intros H. unfold osmo_nri_ranges_add. pose proof (validate255 (a, b)) as V. unfold vr in V. cbn [fst snd] in V.
  destruct (Z.eqb_spec (osmo_nri_range_validate (a, b) 255) 0); [tauto|]. reflexivity.
Qed.

(* --- del --- *)
Lemma s16_small x : -32768 <= x < 32768 -> s16 x = x.
Proof. intros. unfold s16, u16. destruct (Z.ltb_spec (x mod 65536) 32768); lia. Qed.
Lemma del_one_has d r v : vr d -> vr r -> snd r <= 32767 -> has (del_one d r) v <-> (fst r <= v <= snd r /\ ~ fst d <= v <= snd d).
Proof.
  intros Hd Hr Hl. unfold del_one. pose proof (overlaps_iff r d Hr Hd) as O. destruct (nri_range_overlaps_range r d); cbn [negb].
  2: { rewrite has_cons, has_nil. assert (~ (fst r <= snd d /\ fst d <= snd r)) by (intros X; apply O in X; discriminate). unfold vr in *. lia. }
  destruct (proj1 O eq_refl) as [O1 O2]. clear O. unfold nri_v_matches_range, first, last, vr in *. destruct d as [a b], r as [x y]. cbn [fst snd] in *.
  destruct ((a >=? x) && (a <=? y) && (a >? x)) eqn:H, ((b >=? x) && (b <=? y) && (b <? y)) eqn:T; cbn [andb]; rewrite ?has_cons, ?has_nil; cbn [fst snd]; rewrite ?s16_small by lia; lia.
Qed.
Lemma del_has d l v : vr d -> Forall vr l -> Forall (fun r => snd r <= 32767) l -> has (flat_map (del_one d) l) v <-> (has l v /\ ~ fst d <= v <= snd d).
Proof.
  intros Hd. induction l as [|r l IH]; intros F1 F2; cbn [flat_map]; [rewrite has_nil; tauto|].
  inversion F1; inversion F2; subst. rewrite has_app, has_cons, IH, del_one_has by assumption. tauto.
Qed.
Lemma del_gaps d l : vr d -> forall low, 0 <= low -> gaps low l -> gaps low (flat_map (del_one d) l).
Proof.
  intros Hd. induction l as [|[x y] l IH]; intros low Hl G; cbn [flat_map]; [exact I|]. cbn [gaps] in G. destruct G as (G1 & G2 & G3).
  specialize (IH (y + 2) ltac:(lia) G3). generalize dependent (flat_map (del_one d) l). intros q IH.
  unfold del_one. pose proof (overlaps_iff (x, y) d ltac:(unfold vr; cbn; lia) Hd) as O. destruct (nri_range_overlaps_range (x, y) d); cbn [negb]; [|cbn [app gaps]; auto].
  destruct (proj1 O eq_refl) as [O1 O2]. clear O. unfold nri_v_matches_range, first, last, vr in *. destruct d as [a b]. cbn [fst snd] in *.
  destruct ((a >=? x) && (a <=? y) && (a >? x)) eqn:H, ((b >=? x) && (b <=? y) && (b <? y)) eqn:T; cbn [andb app gaps]; rewrite ?s16_small by lia;
    repeat split; try lia; try assumption; try (eapply gaps_mono; [|exact IH]; lia).
Qed.
Lemma gaps_top low l : gaps low l -> Forall (fun r => snd r <= 32767) l.
Proof. revert low; induction l as [|[x y] l IH]; intros low G; cbn [gaps] in G; constructor; [cbn; lia|]. apply (IH (y + 2)). tauto. Qed.
Lemma del_spec l a b : normal l -> 0 <= a <= b ->
  exists l', osmo_nri_ranges_del l (a, b) = (0, l') /\ normal l' /\ forall v, has l' v <-> has l v /\ ~ a <= v <= b.
Proof.
  intros N Hab. unfold osmo_nri_ranges_del. rewrite (proj2 (validate255 (a, b)) ltac:(unfold vr; cbn; lia)). cbn [Z.eqb negb].
  eexists. split; [reflexivity|]. split; [apply del_gaps; [unfold vr; cbn; lia|lia|exact N]|]. intros v. apply del_has; [unfold vr; cbn; lia|eapply gaps_vr; [|exact N]; lia|eapply gaps_top; exact N].
Qed.
Lemma del_invalid l a b : ~ (0 <= a <= b) -> osmo_nri_ranges_del l (a, b) = (-1, l).
Proof.
  intros H. unfold osmo_nri_ranges_del. pose proof (validate255 (a, b)) as V. unfold vr in V. cbn [fst snd] in V.
  destruct (Z.eqb_spec (osmo_nri_range_validate (a, b) 255) 0); [tauto|]. reflexivity.
Qed.

(* --- any history of requests --- *)
Definition apply_req (r : request) (l : list range) : list range :=
  match r with Add a b => snd (osmo_nri_ranges_add l (a, b)) | Del a b => snd (osmo_nri_ranges_del l (a, b)) end.
Definition replay (rs : list request) : list range := fold_right apply_req [] rs.
Lemma replay_spec rs : Forall wf_request rs -> normal (replay rs) /\ forall v, has (replay rs) v <-> wanted rs v.
Proof.
  induction 1 as [|r rs H _ [N IH]]; cbn [replay fold_right wanted]; [split; [exact I|intros; apply has_nil]|].
  fold (replay rs). destruct r as [a b|a b]; cbn [apply_req wf_request] in *.
  - assert (D : 0 <= a <= b \/ ~ 0 <= a <= b) by lia. destruct D as [D|D].
    + destruct (add_spec (replay rs) a b N D ltac:(lia)) as (l' & E & N' & S). rewrite E. cbn [snd]. split; [assumption|]. intros v. rewrite S, IH. unfold valid_pair. tauto.
    + rewrite add_invalid by assumption. cbn [snd]. split; [assumption|]. intros v. rewrite IH. unfold valid_pair. tauto.
  - assert (D : 0 <= a <= b \/ ~ 0 <= a <= b) by lia. destruct D as [D|D].
    + destruct (del_spec (replay rs) a b N D) as (l' & E & N' & S). rewrite E. cbn [snd]. split; [assumption|]. intros v. rewrite S, IH. unfold valid_pair. tauto.
    + rewrite del_invalid by assumption. cbn [snd]. split; [assumption|]. intros v. rewrite IH. unfold valid_pair. tauto.
Qed.

Lemma matches_spec l v : osmo_nri_v_matches_ranges v l = true <-> has l v.
Proof.
  unfold osmo_nri_v_matches_ranges. induction l as [|r l IH]; cbn [existsb]; [rewrite has_nil; split; [discriminate|tauto]|].
  rewrite orb_true_iff, IH, has_cons. unfold nri_v_matches_range, first, last. split; intros [H|H]; auto; left; lia.
Qed.
Lemma overlaps_spec l r : vr r -> Forall vr l -> osmo_nri_range_overlaps_ranges r l = true <-> exists v, has l v /\ fst r <= v <= snd r.
Proof.
  intros Hr. unfold osmo_nri_range_overlaps_ranges. induction 1 as [|s l Hs _ IH]; cbn [existsb].
  - split; [discriminate|]. intros (v & H & _). apply has_nil in H. tauto.
  - rewrite orb_true_iff, IH, (overlaps_iff s r Hs Hr). unfold vr in *. split.
    + intros [H|(v & H & V)]; [exists (Z.max (fst s) (fst r)); rewrite has_cons; split; [left|]; lia|exists v; rewrite has_cons; auto].
    + intros (v & H & V). apply has_cons in H as [H|H]; [left; lia|right; eauto].
Qed.

(* --- limiting a value to the ranges --- *)
Lemma range_max_val n : 1 <= n <= 15 -> s16 (Z.shiftl 1 n - 1) = 2 ^ n - 1.
Proof. intros. rewrite Z.shiftl_mul_pow2, Z.mul_1_l by lia. apply s16_small. assert (2 ^ n <= 2 ^ 15) by (apply Z.pow_le_mono_r; lia). pose proof (pow2_pos n). change (2 ^ 15) with 32768 in *. lia. Qed.
Lemma zseq0 a n : n <= 0 -> zseq a (Z.to_nat n) = [].
Proof. intros. replace (Z.to_nat n) with O by lia. reflexivity. Qed.
Lemma zlen_zseq' a n : 0 <= n -> zlen (zseq a (Z.to_nat n)) = n.
Proof. intros. unfold zlen. rewrite zseq_length. lia. Qed.
Lemma sum_values_spec bl l : 1 <= bl <= 15 -> valid_ranges l -> forall tot, 0 <= tot -> tot + zlen (values bl l) < 2 ^ 32 ->
  sum_values l (2 ^ bl - 1) tot = Some (tot + zlen (values bl l)).
Proof.
  intros Hb. assert (P : 2 <= 2 ^ bl <= 32768) by (split; [change 2 with (2 ^ 1) at 1|change 32768 with (2 ^ 15)]; apply Z.pow_le_mono_r; lia).
  induction 1 as [|[x y] l H _ IH]; intros tot Ht B; cbn [sum_values values flat_map fst snd] in *; [change (zlen (@nil Z)) with 0; f_equal; lia|].
  fold (values bl l) in *. rewrite (proj2 (validate255 (x, y)) ltac:(unfold vr; cbn; lia)). cbn [Z.eqb negb]. unfold first, last. cbn [fst snd]. rewrite zlen_app in *.
  destruct (Z.gtb_spec x (2 ^ bl - 1)).
  - rewrite zseq0 in * by lia. change (zlen (@nil Z)) with 0 in *. rewrite IH by lia. f_equal; lia.
  - rewrite zlen_zseq' in * by lia. pose proof (zlen_nonneg (values bl l)). unfold u32. rewrite Z.mod_small by (change (2 ^ 32) with 4294967296 in B; lia). rewrite IH by lia. f_equal; lia.
Qed.
Lemma pick_spec bl l : 1 <= bl <= 15 -> valid_ranges l -> forall v, 0 <= v < zlen (values bl l) -> v < 32768 -> pick l (2 ^ bl - 1) v = Some (nth (Z.to_nat v) (values bl l) 0).
Proof.
  intros Hb. assert (P : 2 <= 2 ^ bl <= 32768) by (split; [change 2 with (2 ^ 1) at 1|change 32768 with (2 ^ 15)]; apply Z.pow_le_mono_r; lia).
  induction 1 as [|[x y] l H _ IH]; intros v Hv Hv'; cbn [pick values flat_map fst snd] in *; [change (zlen (@nil Z)) with 0 in Hv; lia|].
  fold (values bl l) in *. unfold first, last. cbn [fst snd] in *. rewrite zlen_app in *.
  destruct (Z.gtb_spec x (2 ^ bl - 1)).
  - rewrite zseq0 in * by lia. change (zlen (@nil Z)) with 0 in *. cbn [app]. apply IH; lia.
  - rewrite zlen_zseq' in Hv by lia. set (n := Z.min (2 ^ bl - 1) y - x + 1) in *. assert (Hn : 0 <= n <= 32768) by lia. unfold u32. rewrite (Z.mod_small n) by lia.
    destruct (Z.ltb_spec v n).
    + rewrite app_nth1 by (rewrite zseq_length; lia). rewrite nth_zseq by lia. rewrite s16_small by lia. f_equal. lia.
    + rewrite s16_small by lia. rewrite IH by lia. f_equal. rewrite app_nth2; rewrite zseq_length; [|lia]. f_equal. lia.
Qed.
Lemma limit_spec v l bl : 0 <= v <= 32767 -> 1 <= bl <= 15 -> valid_ranges l -> 0 < zlen (values bl l) < 2 ^ 32 ->
  osmo_nri_v_limit_by_ranges v l bl = Ok (0, nth (Z.to_nat (v mod zlen (values bl l))) (values bl l) 0).
Proof.
  intros Hv Hb F L. unfold osmo_nri_v_limit_by_ranges. replace (bl >=? 31) with false by lia. rewrite range_max_val by lia. replace (v <? 0) with false by lia.
  rewrite sum_values_spec by (auto; lia). rewrite Z.add_0_l. replace (zlen (values bl l) =? 0) with false by lia.
  assert (M : 0 <= v mod zlen (values bl l) < zlen (values bl l)) by (apply Z.mod_pos_bound; lia).
  assert (M2 : v mod zlen (values bl l) <= v) by (apply Z.mod_le; lia).
  rewrite s16_small by lia. rewrite pick_spec by (auto; lia). reflexivity.
Qed.
Lemma limit_empty v l bl : 0 <= v -> 1 <= bl <= 15 -> valid_ranges l -> values bl l = [] -> osmo_nri_v_limit_by_ranges v l bl = UB.
Proof.
  intros Hv Hb F L. unfold osmo_nri_v_limit_by_ranges. replace (bl >=? 31) with false by lia. rewrite range_max_val by lia. replace (v <? 0) with false by lia.
  rewrite sum_values_spec; auto; rewrite ?L; change (zlen (@nil Z)) with 0; try lia. reflexivity.
Qed.
Lemma values_In bl l x : In x (values bl l) <-> has l x /\ x < 2 ^ bl.
Proof.
  induction l as [|[a b] l IH]; cbn [values flat_map fst snd]; [rewrite has_nil; cbn; tauto|]. fold (values bl l).
  rewrite in_app_iff, IH, has_cons, zseq_In. cbn [fst snd]. split; [intros [H|H]; [split; [left|]; lia|tauto]|intros [[H|H] B]; [left; lia|tauto]].
Qed.
Lemma gaps_low low l v : gaps low l -> has l v -> low <= v.
Proof.
  revert low; induction l as [|[x y] l IH]; intros low G H; [apply has_nil in H; tauto|]. cbn [gaps] in G. apply has_cons in H as [H|H]; [cbn in H; lia|].
  specialize (IH (y + 2) ltac:(tauto) H). lia.
Qed.
Lemma zseq_NoDup n : forall a, NoDup (zseq a n).
Proof. induction n; intros a; cbn [zseq]; constructor; auto. rewrite zseq_In. lia. Qed.
Lemma NoDup_app' {A} (l m : list A) : NoDup l -> NoDup m -> (forall x, In x l -> ~ In x m) -> NoDup (l ++ m).
Proof.
  induction 1 as [|x l H _ IH]; intros M D; cbn [app]; [assumption|]. constructor; [rewrite in_app_iff; intros [X|X]; [tauto|apply (D x); cbn; auto]|]. apply IH; auto. intros y Hy. apply D. cbn. auto.
Qed.
Lemma values_NoDup bl low l : gaps low l -> NoDup (values bl l).
Proof.
  revert low; induction l as [|[x y] l IH]; intros low G; cbn [values flat_map fst snd]; [constructor|]. fold (values bl l). cbn [gaps] in G.
  apply NoDup_app'; [apply zseq_NoDup|apply (IH (y + 2)); tauto|]. intros v Hv Hv'. apply zseq_In in Hv. apply values_In in Hv' as [Hv' _]. apply (gaps_low (y + 2)) in Hv'; [lia|tauto].
Qed.
Lemma values_len bl l : 1 <= bl <= 15 -> normal l -> zlen (values bl l) <= 32768.
Proof.
  intros Hb N. assert (P : 2 ^ bl <= 32768) by (change 32768 with (2 ^ 15); apply Z.pow_le_mono_r; lia).
  assert (I : incl (values bl l) (zseq 0 (Z.to_nat 32768))).
  { intros x Hx. apply values_In in Hx as [H1 H2]. apply zseq_In. apply (gaps_low 0) in H1; [lia|exact N]. }
  pose proof (NoDup_incl_length (values_NoDup bl 0 l N) I). rewrite zseq_length in H. unfold zlen. lia.
Qed.
Lemma normal_valid l : normal l -> valid_ranges l.
Proof.
  intros N. pose proof (gaps_vr 0 l ltac:(lia) N) as A. pose proof (gaps_top 0 l N) as B. unfold valid_ranges. rewrite Forall_forall in *. intros r Hr. specialize (A r Hr). specialize (B r Hr). unfold vr in A. lia.
Qed.
Lemma limit_normal l bl : normal l -> 1 <= bl <= 15 -> (exists x, has l x /\ x < 2 ^ bl) ->
  (forall v, 0 <= v <= 32767 -> exists w, osmo_nri_v_limit_by_ranges v l bl = Ok (0, w) /\ has l w /\ 0 <= w < 2 ^ bl) /\
  (forall w, has l w -> w < 2 ^ bl -> exists v, 0 <= v <= 32767 /\ osmo_nri_v_limit_by_ranges v l bl = Ok (0, w)).
Proof.
  intros N Hb (x & Hx & Bx). pose proof (values_len bl l Hb N) as L. pose proof (normal_valid l N) as V.
  assert (X : In x (values bl l)) by (apply values_In; auto).
  assert (L0 : 0 < zlen (values bl l)) by (destruct (values bl l); [destruct X|rewrite zlen_cons; pose proof (zlen_nonneg l0); lia]).
  split.
  - intros v Hv. rewrite limit_spec by (auto; change (2 ^ 32) with 4294967296; lia). eexists. split; [reflexivity|].
    assert (M : 0 <= v mod zlen (values bl l) < zlen (values bl l)) by (apply Z.mod_pos_bound; lia).
    assert (I : In (nth (Z.to_nat (v mod zlen (values bl l))) (values bl l) 0) (values bl l)) by (apply nth_In; unfold zlen in *; lia).
    apply values_In in I as [I1 I2]. split; [assumption|]. split; [apply (gaps_low 0 l); assumption|assumption].
  - intros w Hw Bw. assert (I : In w (values bl l)) by (apply values_In; auto). apply (In_nth _ _ 0) in I as (i & Hi & E).
    exists (Z.of_nat i). unfold zlen in L. split; [lia|]. rewrite limit_spec by (auto; unfold zlen; change (2 ^ 32) with 4294967296; lia).
    rewrite Z.mod_small by (unfold zlen; lia). rewrite Nat2Z.id, E. reflexivity.
Qed.

(* --- TMSI --- *)
Lemma get_spec tmsi n : 0 <= tmsi < 2 ^ 32 -> 1 <= n <= 15 -> osmo_tmsi_nri_v_get tmsi n = (0, nri_of tmsi n).
Proof.
  intros Ht Hn. unfold osmo_tmsi_nri_v_get, NRI_BITLEN_MIN, NRI_BITLEN_MAX. replace ((n <? 1) || (n >? 15)) with false by lia.
  assert (P : 2 <= 2 ^ n <= 32768) by (split; [change 2 with (2 ^ 1) at 1|change 32768 with (2 ^ 15)]; apply Z.pow_le_mono_r; lia).
  f_equal. unfold nri_of. replace (u8 (23 - (n - 1))) with (24 - n) by (unfold u8; rewrite Z.mod_small; lia).
  rewrite Z.shiftl_mul_pow2, Z.mul_1_l by lia. unfold u32. rewrite Z.mod_small by lia. replace (2 ^ n - 1) with (Z.ones n) by (rewrite Z.ones_equiv; lia).
  rewrite Z.land_ones by lia. rewrite Z.shiftr_div_pow2 by lia. apply s16_small. pose proof (Z.mod_pos_bound (tmsi / 2 ^ (24 - n)) (2 ^ n) ltac:(lia)). lia.
Qed.
Lemma bad_bitlen_get tmsi n : ~ 1 <= n <= 15 -> osmo_tmsi_nri_v_get tmsi n = (-1, -1).
Proof. intros. unfold osmo_tmsi_nri_v_get, NRI_BITLEN_MIN, NRI_BITLEN_MAX. replace ((n <? 1) || (n >? 15)) with true by lia. reflexivity. Qed.
Lemma testbit_u32 x i : 0 <= i < 32 -> Z.testbit (u32 x) i = Z.testbit x i.
Proof. intros. unfold u32. change 4294967296 with (2 ^ 32). apply Z.mod_pow2_bits_low. lia. Qed.
Lemma testbit_u32_high x i : 32 <= i -> Z.testbit (u32 x) i = false.
Proof. intros. unfold u32. change 4294967296 with (2 ^ 32). apply Z.mod_pow2_bits_high. lia. Qed.
Lemma set_bits tmsi v n i : 0 <= tmsi < 2 ^ 32 -> 0 <= v <= 32767 -> 1 <= n <= 15 -> 0 <= i ->
  Z.testbit (snd (osmo_tmsi_nri_v_set tmsi v n)) i = if (24 - n <=? i) && (i <=? 23) then Z.testbit v (i - (24 - n)) else Z.testbit tmsi i.
Proof.
  intros Ht Hv Hn Hi. unfold osmo_tmsi_nri_v_set, NRI_BITLEN_MIN, NRI_BITLEN_MAX. replace ((n <? 1) || (n >? 15)) with false by lia. replace (v <? 0) with false by lia. cbn [snd].
  assert (P : 2 <= 2 ^ n <= 32768) by (split; [change 2 with (2 ^ 1) at 1|change 32768 with (2 ^ 15)]; apply Z.pow_le_mono_r; lia).
  replace (u8 (23 - (n - 1))) with (24 - n) by (unfold u8; rewrite Z.mod_small; lia).
  replace (u32 (Z.shiftl 1 n - 1)) with (Z.ones n).
  2: { rewrite Z.shiftl_mul_pow2, Z.mul_1_l by lia. unfold u32. rewrite Z.mod_small by lia. rewrite Z.ones_equiv. lia. }
  replace (u32 v) with v by (unfold u32; rewrite Z.mod_small; lia).
  rewrite Z.lor_spec, !Z.land_spec. destruct (Z.ltb_spec i 32).
  - rewrite !testbit_u32, Z.lnot_spec, testbit_u32 by lia. rewrite !Z.shiftl_spec by lia.
    destruct (Z.leb_spec (24 - n) i), (Z.leb_spec i 23); cbn [andb].
    + rewrite Z.ones_spec_low by lia. cbn [negb]. rewrite andb_false_r, andb_true_r. reflexivity.
    + rewrite Z.ones_spec_high by lia. cbn [negb]. rewrite andb_true_r, andb_false_r, orb_false_r. reflexivity.
    + rewrite (Z.testbit_neg_r (Z.ones n)) by lia. cbn [negb]. rewrite andb_true_r, andb_false_r, orb_false_r. reflexivity.
    + lia.
  - rewrite !testbit_u32_high by lia. rewrite !andb_false_r. cbn [orb]. replace ((24 - n <=? i) && (i <=? 23)) with false by lia.
    symmetry. destruct (Z.eq_dec tmsi 0) as [->|]; [apply Z.testbit_0_l|]. apply Z.bits_above_log2; [lia|]. apply Z.log2_lt_pow2; [lia|]. assert (2 ^ 32 <= 2 ^ i) by (apply Z.pow_le_mono_r; lia). lia.
Qed.
Lemma set_rc tmsi v n : fst (osmo_tmsi_nri_v_set tmsi v n) = 0 <-> 1 <= n <= 15 /\ 0 <= v.
Proof.
  unfold osmo_tmsi_nri_v_set, NRI_BITLEN_MIN, NRI_BITLEN_MAX. destruct ((n <? 1) || (n >? 15)) eqn:E; [cbn [fst]; split; lia|]. destruct (v <? 0) eqn:E2; cbn [fst]; split; lia.
Qed.
Lemma set_fail tmsi v n : fst (osmo_tmsi_nri_v_set tmsi v n) <> 0 -> osmo_tmsi_nri_v_set tmsi v n = (-1, tmsi).
Proof.
  unfold osmo_tmsi_nri_v_set. destruct ((n <? NRI_BITLEN_MIN) || (n >? NRI_BITLEN_MAX)); [reflexivity|]. destruct (v <? 0); [reflexivity|]. cbn [fst]. congruence.
Qed.
Lemma nri_of_bits tmsi n i : 0 <= tmsi -> 1 <= n <= 15 -> 0 <= i -> Z.testbit (nri_of tmsi n) i = if i <? n then Z.testbit tmsi (i + (24 - n)) else false.
Proof.
  intros. unfold nri_of. destruct (Z.ltb_spec i n); [rewrite Z.mod_pow2_bits_low by lia; rewrite Z.div_pow2_bits by lia; reflexivity|apply Z.mod_pow2_bits_high; lia].
Qed.
Lemma set_range tmsi v n : 0 <= tmsi < 2 ^ 32 -> 0 <= v <= 32767 -> 1 <= n <= 15 -> 0 <= snd (osmo_tmsi_nri_v_set tmsi v n) < 2 ^ 32.
Proof.
  intros Ht Hv Hn. assert (NN : 0 <= snd (osmo_tmsi_nri_v_set tmsi v n)).
  { unfold osmo_tmsi_nri_v_set. destruct ((n <? NRI_BITLEN_MIN) || (n >? NRI_BITLEN_MAX)); [cbn; lia|]. destruct (v <? 0); [cbn; lia|]. cbn [snd].
    apply Z.lor_nonneg. split; apply Z.land_nonneg; [left; lia|left; unfold u32; apply Z.mod_pos_bound; lia]. }
  split; [assumption|]. set (x := snd (osmo_tmsi_nri_v_set tmsi v n)) in *. destruct (Z.eq_dec x 0) as [->|]; [lia|]. apply Z.log2_lt_pow2; [lia|].
  destruct (Z.ltb_spec (Z.log2 x) 32); [assumption|]. exfalso.
  assert (B : Z.testbit x (Z.log2 x) = true) by (apply Z.bit_log2; lia). unfold x in B at 1. rewrite set_bits in B by lia.
  replace ((24 - n <=? Z.log2 x) && (Z.log2 x <=? 23)) with false in B by lia.
  destruct (Z.eq_dec tmsi 0) as [->|]; [rewrite Z.testbit_0_l in B; discriminate|]. rewrite Z.bits_above_log2 in B; [discriminate|lia|].
  apply Z.log2_lt_pow2; [lia|]. assert (2 ^ 32 <= 2 ^ (Z.log2 x)) by (apply Z.pow_le_mono_r; lia). lia.
Qed.
Lemma get_set tmsi v n : 0 <= tmsi < 2 ^ 32 -> 0 <= v <= 32767 -> 1 <= n <= 15 -> nri_of (snd (osmo_tmsi_nri_v_set tmsi v n)) n = v mod 2 ^ n.
Proof.
  intros Ht Hv Hn. pose proof (set_range tmsi v n Ht Hv Hn). apply Z.bits_inj'. intros i Hi. rewrite nri_of_bits by lia. destruct (Z.ltb_spec i n).
  - rewrite set_bits by lia. replace ((24 - n <=? i + (24 - n)) && (i + (24 - n) <=? 23)) with true by lia. rewrite Z.mod_pow2_bits_low by lia. f_equal. lia.
  - rewrite Z.mod_pow2_bits_high by lia. reflexivity.
Qed.
Lemma tmsi_limit tmsi l n : 0 <= tmsi < 2 ^ 32 -> 1 <= n <= 15 -> normal l -> (exists x, has l x /\ x < 2 ^ n) ->
  exists t, osmo_tmsi_nri_v_limit_by_ranges tmsi l n = Ok (0, t) /\ has l (nri_of t n) /\ 0 <= t < 2 ^ 32 /\
    (forall i, 0 <= i -> ~ in_nri n i -> Z.testbit t i = Z.testbit tmsi i).
Proof.
  intros Ht Hn N X. unfold osmo_tmsi_nri_v_limit_by_ranges. rewrite get_spec by assumption. cbn [Z.eqb negb].
  assert (P : 2 <= 2 ^ n <= 32768) by (split; [change 2 with (2 ^ 1) at 1|change 32768 with (2 ^ 15)]; apply Z.pow_le_mono_r; lia).
  destruct (limit_normal l n N Hn X) as [L _]. assert (B : 0 <= nri_of tmsi n < 2 ^ n) by (unfold nri_of; apply Z.mod_pos_bound; lia).
  destruct (L (nri_of tmsi n) ltac:(lia)) as (w & E & H & Bw). rewrite E. cbn [bind Z.eqb negb].
  assert (S : osmo_tmsi_nri_v_set tmsi w n = (0, snd (osmo_tmsi_nri_v_set tmsi w n))).
  { destruct (osmo_tmsi_nri_v_set tmsi w n) eqn:Q. pose proof (set_rc tmsi w n) as R. rewrite Q in R. cbn [fst snd] in *. f_equal. apply R. lia. }
  exists (snd (osmo_tmsi_nri_v_set tmsi w n)). split; [f_equal; exact S|].
  rewrite get_set by lia. rewrite Z.mod_small by lia. split; [assumption|]. split; [apply set_range; lia|].
  - intros i Hi NI. rewrite set_bits by lia. unfold in_nri in NI. replace ((24 - n <=? i) && (i <=? 23)) with false by lia. reflexivity.
Qed.
Lemma v_validate_spec v n : osmo_nri_v_validate v n = if v <? 0 then -1 else if (1 <=? n) && ((v <? 2 ^ n) || (15 <=? n)) then 0 else 1.
Proof.
  unfold osmo_nri_v_validate, NRI_BITLEN_MIN, NRI_BITLEN_MAX. destruct (Z.ltb_spec v 0); [reflexivity|]. destruct (Z.ltb_spec n 1); [replace (1 <=? n) with false by lia; reflexivity|].
  replace (1 <=? n) with true by lia. cbn [andb]. destruct (Z.leb_spec 15 n); [rewrite orb_true_r; replace (n <? 15) with false by lia; reflexivity|]. rewrite orb_false_r.
  replace (n <? 15) with true by lia. cbn [andb]. rewrite Z.shiftr_div_pow2 by lia. pose proof (pow2_pos n ltac:(lia)).
  destruct (Z.ltb_spec v (2 ^ n)).
  - rewrite Z.div_small by lia. reflexivity.
  - destruct (Z.eqb_spec (v / 2 ^ n) 0) as [E|]; [|reflexivity]. apply Z.div_small_iff in E; lia.
Qed.

(* --- VTY texts --- *)
Lemma parse_spec n : 0 <= n <= 32767 -> osmo_nri_parse (dec n) = Some n /\ osmo_nri_parse (bs "0x" ++ hex n) = Some n.
Proof.
  intros H. assert (S : s16 n = n).
  { unfold s16, u16. rewrite Z.mod_small by lia. replace (n <? 32768) with true by lia. reflexivity. }
  split; unfold osmo_nri_parse.
  - assert (D := pad_numeral 10 20 0 n ltac:(lia) ltac:(lia) ltac:(lia)). change (pad0 0 (map dig_char (ndig 10 20 n))) with (dec n) in D.
    assert (B : match dec n with a :: b :: _ => if (a =? 48) && (b =? 120) then 16 else 10 | _ => 10 end = 10).
    { pose proof (dec_dchar n ltac:(lia)) as F. destruct (dec n) as [|a [|b t]]; auto. inversion_clear F as [|? ? _ F1]. inversion_clear F1 as [|? ? F2 _].
      unfold dchar in F2. replace (b =? 120) with false by lia. now rewrite andb_false_r. }
    rewrite B. rewrite (str_to_int_numeral (dec n) 10 0 32767 n); [cbn [Z.eqb negb]; now rewrite S|unfold is_s32; lia|unfold is_s32; lia| |lia].
    exists [], [], (dec n), 1, n. repeat split; auto; [left; auto| |lia]. now constructor.
  - assert (D := pad_numeral 16 20 0 n ltac:(lia) ltac:(lia) ltac:(lia)). change (pad0 0 (map dig_char (ndig 16 20 n))) with (hex n) in D.
    change (bs "0x" ++ hex n) with (48 :: 120 :: hex n). cbn [Z.eqb Pos.eqb andb].
    rewrite (str_to_int_numeral (48 :: 120 :: hex n) 16 0 32767 n); [cbn [Z.eqb negb]; now rewrite S|unfold is_s32; lia|unfold is_s32; lia| |lia].
    exists [], [], (48 :: 120 :: hex n), 1, n. repeat split; auto; [left; auto| |lia]. now apply Mhex; auto.
Qed.
