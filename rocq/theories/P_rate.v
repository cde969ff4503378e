(* P_rate.v - proofs about the rate counter model. *)
From Verif Require Import Base M_ident M_rate S_rate.

(* one counter, one event; t is timer_ticks *)
Definition cstep (x : Z * ctr) (e : ev) : Z * ctr :=
  let (t, c) := x in
  match e with
  | EAdd n => (t, rate_ctr_add c n)
  | ETick => (u64 (t + 1), ctr_intv (u64 (t + 1)) c)
  | EDiff => (t, fst (rate_ctr_difference c))
  | EReset => (t, ctr0)
  end.
Definition crun (x : Z * ctr) (h : list ev) : Z * ctr := fold_left cstep h x.

Lemma crun_app x a b : crun x (a ++ b) = crun (crun x a) b.
Proof. apply fold_left_app. Qed.

Lemma total_app a b : total (a ++ b) = total a + total b.
Proof. induction a as [|[]]; cbn [app total]; lia. Qed.
Lemma nticks_app a b : nticks (a ++ b) = nticks a + nticks b.
Proof. induction a as [|[]]; cbn [app nticks]; lia. Qed.
Lemma nticks_nonneg a : 0 <= nticks a.
Proof. induction a as [|[]]; cbn [nticks]; lia. Qed.
Lemma nticks_repeat n : nticks (repeat ETick n) = Z.of_nat n.
Proof. induction n; cbn [repeat nticks]; lia. Qed.

Lemma u64_add a b : u64 (u64 a + b) = u64 (a + b).
Proof. unfold u64. apply Zplus_mod_idemp_l. Qed.

Definition wfc (c : ctr) : Prop := length (ivs c) = 4%nat.

Lemma ie_len c i : length (ivs (interval_expired c i)) = length (ivs c).
Proof. apply upd_length. Qed.

Lemma wfc_intv t c : wfc c -> wfc (ctr_intv t c).
Proof.
  unfold wfc, ctr_intv. intros H. cbn zeta.
  repeat match goal with |- context [if ?b then _ else _] => destruct b end; rewrite ?ie_len; auto.
Qed.

Lemma cur_intv t c : cur (ctr_intv t c) = cur c.
Proof. unfold ctr_intv. cbn zeta. repeat match goal with |- context [if ?b then _ else _] => destruct b end; reflexivity. Qed.
Lemma prev_intv t c : prev (ctr_intv t c) = prev c.
Proof. unfold ctr_intv. cbn zeta. repeat match goal with |- context [if ?b then _ else _] => destruct b end; reflexivity. Qed.

Lemma intv_p t c p : wfc c -> (p < 4)%nat ->
  nth p (ivs (ctr_intv t c)) (0, 0) =
  if t mod period p =? 0 then (cur c, u64 (cur c - fst (nth p (ivs c) (0, 0)))) else nth p (ivs c) (0, 0).
Proof.
  intros W Hp. destruct c as [cu pr iv]. unfold wfc in W. cbn in W.
  destruct iv as [|i0 [|i1 [|i2 [|i3 [|]]]]]; try discriminate W.
  unfold ctr_intv, period.
  change (60 * 60) with 3600. change (24 * 60 * 60) with 86400.
  destruct p as [|[|[|[|]]]]; try lia; cbn [nth]; cbn zeta.
  - rewrite Z.mod_1_r. cbn [Z.eqb].
    repeat match goal with |- context [if ?b then _ else _] => destruct b end; reflexivity.
  - destruct (t mod 60 =? 0), (t mod 3600 =? 0), (t mod 86400 =? 0); reflexivity.
  - destruct (t mod 60 =? 0), (t mod 3600 =? 0), (t mod 86400 =? 0); reflexivity.
  - destruct (t mod 60 =? 0), (t mod 3600 =? 0), (t mod 86400 =? 0); reflexivity.
Qed.

Lemma cstep_wf x e : wfc (snd x) -> wfc (snd (cstep x e)).
Proof. destruct x as [t c], e; cbn; auto; try (apply wfc_intv). reflexivity. Qed.
Lemma crun_wf h : forall x, wfc (snd x) -> wfc (snd (crun x h)).
Proof. induction h; intros x W; cbn [crun fold_left]; auto. apply IHh. now apply cstep_wf. Qed.

Lemma crun_ticks h : forall t c, 0 <= t -> t + nticks h < 18446744073709551616 -> fst (crun (t, c) h) = t + nticks h.
Proof.
  induction h as [|e h IH]; intros t c H0 H1.
  - cbn. lia.
  - pose proof (nticks_nonneg h). destruct e; cbn [crun fold_left cstep]; cbn [nticks] in *.
    + apply IH; lia.
    + fold (crun (u64 (t + 1), ctr_intv (u64 (t + 1)) c) h). rewrite u64_small by (red; lia). rewrite IH; lia.
    + cbn. apply IH; lia.
    + apply IH; lia.
Qed.

Lemma crun_cur h : forall t c, ~ In EReset h -> is_u64 (cur c) -> cur (snd (crun (t, c) h)) = u64 (cur c + total h).
Proof.
  induction h as [|e h IH]; intros t c N U.
  - cbn. rewrite Z.add_0_r. symmetry. now apply u64_small.
  - assert (N' : ~ In EReset h) by (intros X; apply N; right; auto).
    destruct e; cbn [crun fold_left cstep total]; fold crun.
    + fold (crun (t, rate_ctr_add c inc) h). rewrite IH; auto. cbn. rewrite u64_add. f_equal. lia. cbn. apply u64_range.
    + fold (crun (u64 (t + 1), ctr_intv (u64 (t + 1)) c) h). rewrite IH; rewrite ?cur_intv; auto.
    + cbn [rate_ctr_difference fst]. fold (crun (t, Ctr (cur c) (cur c) (ivs c)) h). rewrite IH; auto.
    + exfalso. apply N. left; auto.
Qed.

Lemma crun_prev h : forall t c, ~ In EReset h -> ~ In EDiff h -> prev (snd (crun (t, c) h)) = prev c.
Proof.
  induction h as [|e h IH]; intros t c N M.
  - reflexivity.
  - assert (N' : ~ In EReset h) by (intros X; apply N; right; auto).
    assert (M' : ~ In EDiff h) by (intros X; apply M; right; auto).
    destruct e; cbn [crun fold_left cstep].
    + fold (crun (t, rate_ctr_add c inc) h). rewrite IH; auto.
    + fold (crun (u64 (t + 1), ctr_intv (u64 (t + 1)) c) h). rewrite IH; rewrite ?prev_intv; auto.
    + exfalso. apply M. left; auto.
    + exfalso. apply N. left; auto.
Qed.

Lemma quiet_tl P T e h : quiet P T (e :: h) -> quiet P (T + nticks [e]) h.
Proof.
  intros Q h1 h2 E. specialize (Q (e :: h1) h2). rewrite E in Q. specialize (Q eq_refl).
  change (e :: h1) with ([e] ++ h1) in Q. rewrite nticks_app in Q.
  replace (T + nticks [e] + nticks h1 + 1) with (T + (nticks [e] + nticks h1) + 1) by lia. exact Q.
Qed.

Lemma crun_quiet p h : (p < 4)%nat -> forall t c, ~ In EReset h -> wfc c -> 0 <= t -> t + nticks h < 18446744073709551616 ->
  quiet (period p) t h -> nth p (ivs (snd (crun (t, c) h))) (0, 0) = nth p (ivs c) (0, 0).
Proof.
  intros Hp. induction h as [|e h IH]; intros t c N W T0 T1 Q; [reflexivity|].
  assert (N' : ~ In EReset h) by (intros X; apply N; right; auto).
  pose proof (nticks_nonneg h). pose proof (quiet_tl _ _ _ _ Q) as Q'.
  destruct e; cbn [crun fold_left cstep]; cbn [nticks] in *.
  - fold (crun (t, rate_ctr_add c inc) h). rewrite IH; auto. now rewrite Z.add_0_r in Q'.
  - fold (crun (u64 (t + 1), ctr_intv (u64 (t + 1)) c) h). rewrite u64_small by (red; lia). rewrite Z.add_0_r in Q'.
    rewrite IH; auto; try lia; [|now apply wfc_intv]. rewrite intv_p by auto.
    specialize (Q [] h eq_refl). cbn [nticks] in Q. rewrite Z.add_0_r in Q.
    replace ((t + 1) mod period p =? 0) with false by lia. auto.
  - cbn [rate_ctr_difference fst]. fold (crun (t, Ctr (cur c) (cur c) (ivs c)) h). rewrite IH; auto. now rewrite Z.add_0_r in Q'.
  - exfalso. apply N. left; auto.
Qed.

Lemma not_in_app {A} (x : A) a b : ~ In x (a ++ b) -> ~ In x a /\ ~ In x b.
Proof. intros N; split; intros X; apply N, in_or_app; auto. Qed.

(* value of the interval's "last" at an aligned point *)
Lemma crun_aligned p a t c : (p < 4)%nat -> ~ In EReset a -> wfc c -> cur c = 0 -> fst (nth p (ivs c) (0, 0)) = 0 -> 0 <= t ->
  t + nticks a < 18446744073709551616 -> aligned (period p) t a ->
  fst (nth p (ivs (snd (crun (t, c) a))) (0, 0)) = u64 (total a).
Proof.
  intros Hp N W C0 L0 T0 T1 [-> | (a' & -> & M)].
  - cbn [crun fold_left snd]. rewrite L0. reflexivity.
  - rewrite crun_app. apply not_in_app in N. destruct N as [N1 N2].
    rewrite nticks_app in M, T1. cbn [nticks] in M, T1. pose proof (nticks_nonneg a').
    assert (ET := crun_ticks a' t c T0 ltac:(lia)). assert (EC := crun_cur a' t c N1 ltac:(red; lia)).
    pose proof (crun_wf a' (t, c) W) as W'.
    destruct (crun (t, c) a') as [t' c'] eqn:R. cbn [fst snd] in *. subst t'.
    cbn [crun fold_left cstep snd]. rewrite intv_p by auto. rewrite u64_small by (red; lia).
    replace ((t + nticks a' + 1) mod period p =? 0) with true.
    2:{ symmetry. apply Z.eqb_eq. rewrite <- M. clear. f_equal. lia. }
    cbn [fst]. rewrite EC, C0, total_app. cbn [total]. f_equal; lia.
Qed.

Lemma crun_rate p a b r t : (p < 4)%nat -> ~ In EReset (a ++ (b ++ [ETick]) ++ r) -> 0 <= t ->
  t + nticks (a ++ (b ++ [ETick]) ++ r) < 18446744073709551616 ->
  aligned (period p) t a -> quiet (period p) (t + nticks a) b -> (t + nticks (a ++ b ++ [ETick])) mod period p = 0 ->
  quiet (period p) (t + nticks (a ++ b ++ [ETick])) r ->
  rate (snd (crun (t, ctr0) (a ++ (b ++ [ETick]) ++ r))) p = u64 (total b).
Proof.
  intros Hp N T0 T1 A Q M Q2.
  apply not_in_app in N. destruct N as [Na N]. apply not_in_app in N. destruct N as [N Nr]. apply not_in_app in N. destruct N as [Nb _].
  do 3 rewrite nticks_app in T1. rewrite !nticks_app in M, Q2. cbn [nticks] in *. revert M.
  pose proof (nticks_nonneg a). pose proof (nticks_nonneg b). pose proof (nticks_nonneg r).
  unfold rate. rewrite !crun_app. 
  assert (W0 : wfc ctr0) by reflexivity.
  pose proof (crun_ticks a t ctr0 T0 ltac:(lia)) as ETa.
  pose proof (crun_cur a t ctr0 Na ltac:(cbn; red; lia)) as ECa.
  pose proof (crun_aligned p a t ctr0 Hp Na W0 eq_refl) as EL.
  assert (EL' : fst (nth p (ivs (snd (crun (t, ctr0) a))) (0, 0)) = u64 (total a)).
  { apply EL; auto; try lia. destruct p as [|[|[|[|]]]]; try lia; reflexivity. }
  clear EL. pose proof (crun_wf a (t, ctr0) W0) as Wa.
  destruct (crun (t, ctr0) a) as [ta ca]. cbn [fst snd] in *. subst ta.
  pose proof (crun_ticks b (t + nticks a) ca ltac:(lia) ltac:(lia)) as ETb.
  assert (Ua : is_u64 (cur ca)) by (rewrite ECa; apply u64_range).
  pose proof (crun_cur b (t + nticks a) ca Nb Ua) as ECb.
  pose proof (crun_quiet p b Hp (t + nticks a) ca Nb Wa ltac:(lia) ltac:(lia) Q) as EQ.
  pose proof (crun_wf b (t + nticks a, ca) Wa) as Wb.
  destruct (crun (t + nticks a, ca) b) as [tb cb]. cbn [fst snd] in *. subst tb.
  cbn [crun fold_left cstep snd]. rewrite u64_small by (red; lia).
  fold (crun (t + nticks a + nticks b + 1, ctr_intv (t + nticks a + nticks b + 1) cb) r).
  rewrite crun_quiet; auto; try lia; [|apply wfc_intv; auto|].
  2:{ replace (t + nticks a + nticks b + 1) with (t + (nticks a + (nticks b + 1))) by lia. auto. }
  intros M. rewrite intv_p by auto. replace ((t + nticks a + nticks b + 1) mod period p =? 0) with true.
  2:{ symmetry. apply Z.eqb_eq. rewrite <- M. clear. f_equal. lia. }
  cbn [snd]. rewrite EQ, EL', ECb, ECa. cbn [cur ctr0]. unfold u64.
  rewrite Z.add_0_l. rewrite Zplus_mod_idemp_l, Zminus_mod_idemp_l, Zminus_mod_idemp_r. f_equal. lia.
Qed.

Lemma crun_rate0 p h t : (p < 4)%nat -> ~ In EReset h -> 0 <= t -> t + nticks h < 18446744073709551616 ->
  quiet (period p) t h -> rate (snd (crun (t, ctr0) h)) p = 0.
Proof.
  intros. unfold rate. rewrite crun_quiet; auto; [|reflexivity]. destruct p as [|[|[|[|]]]]; try lia; reflexivity.
Qed.

(* ---------------- from the module to one counter ---------------- *)

Definition look (s : st) (id i : Z) : option ctr :=
  if i <? 0 then None else
  match find_grp (grps s) id with Some g => nth_error (gctrs g) (Z.to_nat i) | None => None end.

Lemma ctr_of_look s id i : ctr_of s id i = match look s id i with Some c => Ok c | None => UB end.
Proof.
  unfold ctr_of, look, rd. destruct (find_grp (grps s) id); destruct (i <? 0); auto.
Qed.

Definition wfs (s : st) : Prop := Forall (fun g => gid g < next s) (grps s) /\ is_u64 (ticks s) /\ 0 <= next s.

Lemma find_map f l id : (forall g, gid (f g) = gid g) -> find_grp (map f l) id = option_map f (find_grp l id).
Proof.
  intros H. induction l as [|g l IH]; cbn [map find_grp option_map]; auto. rewrite H. destruct (gid g =? id); auto.
Qed.

Lemma nth_error_upd {A} (l : list A) n m v : nth_error (upd l n v) m =
  if Nat.eqb n m then match nth_error l m with Some _ => Some v | None => None end else nth_error l m.
Proof.
  revert n m. induction l as [|x l IH]; intros [|n] [|m]; cbn [upd nth_error Nat.eqb]; auto.
  destruct (Nat.eqb n m); auto.
Qed.

Lemma find_gid l id g : find_grp l id = Some g -> gid g = id.
Proof. induction l as [|x l IH]; cbn [find_grp]; [discriminate|]. destruct (Z.eqb_spec (gid x) id); auto. congruence. Qed.

Lemma look_set s id i c id' i' c0 : look s id i = Some c0 ->
  look (set_ctr s id i c) id' i' = if (id =? id') && (i =? i') then Some c else look s id' i'.
Proof.
  intros L. unfold look, set_ctr, on_group in *. cbn [grps].
  destruct (Z.ltb_spec i 0); [discriminate|].
  destruct (find_grp (grps s) id) as [g0|] eqn:F0; [|discriminate].
  destruct (Z.ltb_spec i' 0).
  { replace ((id =? id') && (i =? i')) with false; auto. destruct (id =? id'); cbn [andb]; auto. lia. }
  rewrite find_map. 2:{ intros g. destruct (gid g =? id); reflexivity. }
  destruct (find_grp (grps s) id') as [g|] eqn:F; cbn [option_map].
  - rewrite (find_gid _ _ _ F). destruct (Z.eqb_spec id' id) as [->|D].
    + rewrite F in F0. injection F0 as ->. rewrite Z.eqb_refl. cbn [andb gctrs]. rewrite nth_error_upd.
      destruct (Z.eqb_spec i i') as [->|D]. { rewrite Nat.eqb_refl, L. auto. }
      replace (Nat.eqb (Z.to_nat i) (Z.to_nat i')) with false; auto. symmetry. apply Nat.eqb_neq. lia.
    + replace (id =? id') with false by lia. reflexivity.
  - replace (id =? id') with false; auto. symmetry. apply Z.eqb_neq. congruence.
Qed.

Lemma wfs_set s id i c : wfs s -> wfs (set_ctr s id i c).
Proof.
  intros [F T]. split; auto. cbn. apply Forall_map. eapply Forall_impl; [|apply F]. cbn. intros g Hg. destruct (gid g =? id); auto.
Qed.

Lemma look_tick s id i c : look s id i = Some c -> look (one_tick s) id i = Some (ctr_intv (u64 (ticks s + 1)) c).
Proof.
  unfold look, one_tick. cbn [grps]. destruct (i <? 0); [discriminate|]. rewrite find_map by reflexivity.
  destruct (find_grp (grps s) id); cbn [option_map]; [|discriminate]. cbn [rate_ctr_group_intv gctrs]. intros L.
  now apply map_nth_error.
Qed.

Lemma wfs_tick s : wfs s -> wfs (one_tick s).
Proof.
  intros [F [T N]]. split; [|split; [apply u64_range|auto]]. cbn. apply Forall_map. eapply Forall_impl; [|apply F]. auto.
Qed.

Lemma look_ticks n : forall s id i c, wfs s -> look s id i = Some c ->
  wfs (tick_loop s n) /\ (ticks (tick_loop s n), look (tick_loop s n) id i) =
  let (t, c') := crun (ticks s, c) (repeat ETick n) in (t, Some c').
Proof.
  induction n as [|n IH]; intros s id i c W L; cbn [tick_loop repeat].
  - split; auto. cbn. now rewrite L.
  - destruct (IH (one_tick s) id i (ctr_intv (u64 (ticks s + 1)) c)) as [A B]; auto using wfs_tick, look_tick.
Qed.

Lemma find_filter l id x : x <> id -> find_grp (filter (fun g => negb (gid g =? id)) l) x = find_grp l x.
Proof.
  intros D. induction l as [|g l IH]; cbn [filter find_grp]; auto. destruct (Z.eqb_spec (gid g) id); cbn [negb].
  - replace (gid g =? x) with false by lia. auto.
  - cbn [find_grp]. destruct (gid g =? x); auto.
Qed.

Lemma find_fresh s x : wfs s -> next s <= x -> find_grp (grps s) x = None.
Proof.
  intros [F _] H. induction F as [|g l Hg F IH]; cbn [find_grp]; auto. replace (gid g =? x) with false by lia. auto.
Qed.

Lemma alloc_wf s d idx s' id : wfs s -> rate_ctr_group_alloc s d idx = (s', id) -> wfs s'.
Proof.
  intros W. pose proof W as (F & T & N). unfold rate_ctr_group_alloc.
  destruct (if desc_validate d then Some d else desc_mangle d); intros E; injection E as <- <-; auto.
  split; [|split; auto]; cbn; [|lia]. constructor; cbn; [lia|]. eapply Forall_impl; [|apply F]. cbn. intros; lia.
Qed.

Lemma alloc_ticks s d idx s' id : rate_ctr_group_alloc s d idx = (s', id) -> ticks s' = ticks s.
Proof.
  unfold rate_ctr_group_alloc. destruct (if desc_validate d then Some d else desc_mangle d); intros E; injection E as <- <-; auto.
Qed.

Lemma step_wf s o s' r : wfs s -> step s o = Ok (s', r) -> wfs s'.
Proof.
  intros W. destruct o; cbn [step].
  - intros E. injection E as E. eapply alloc_wf; eauto.
  - unfold rate_ctr_group_free. destruct (find_grp (grps s) id); cbn [bind]; intros E; inversion E; subst.
    destruct W as (F & T & N). split; [|split; auto]. cbn. apply Forall_forall. rewrite Forall_forall in F. intros g1 Hg. apply filter_In in Hg. apply F; tauto.
  - destruct (ctr_of s id i); cbn [bind]; intros E; inversion E; subst. now apply wfs_set.
  - destruct (ctr_of s id i); cbn [bind rate_ctr_difference]; intros E; inversion E; subst. now apply wfs_set.
  - destruct (ctr_of s id i); cbn [bind]; intros E; inversion E; subst. now apply wfs_set.
  - unfold rate_ctr_group_reset. destruct (find_grp (grps s) id); cbn [bind]; intros E; inversion E; subst.
    destruct W as (F & T & N). split; [|split; auto]. cbn. apply Forall_map. eapply Forall_impl; [|apply F]. cbn. intros g' Hg. destruct (gid g' =? id); auto.
  - unfold rate_ctr_timer_cb. destruct (expire_count <=? 0); cbn [bind]; intros E; inversion E; subst.
    generalize (Z.to_nat expire_count). intros n. clear E. revert s W. induction n; intros s W; cbn [tick_loop]; auto using wfs_tick.
Qed.

Lemma step_look s o s' r id i c : wfs s -> step s o = Ok (s', r) -> look s id i = Some c -> o <> OFree id ->
  (ticks s', look s' id i) = let (t, c') := crun (ticks s, c) (concerns id i o) in (t, Some c').
Proof.
  intros W E L NF. destruct o; cbn [step concerns] in *.
  - injection E as E. rewrite (alloc_ticks _ _ _ _ _ E). cbn [crun fold_left]. f_equal. unfold rate_ctr_group_alloc in E.
    destruct (if desc_validate d then Some d else desc_mangle d); injection E as <- <-; auto.
    unfold look in *. cbn [grps find_grp gid]. destruct (i <? 0); auto.
    destruct (Z.eqb_spec (next s) id) as [<-|]; auto. rewrite find_fresh in L by (auto; lia). discriminate.
  - unfold rate_ctr_group_free in E. destruct (find_grp (grps s) id0); cbn [bind] in E; inversion E; subst.
    cbn [crun fold_left ticks]. f_equal. unfold look in *. cbn [grps]. rewrite find_filter; auto. congruence.
  - rewrite ctr_of_look in E. destruct (look s id0 i0) as [c0|] eqn:L0; cbn [bind] in E; inversion E; subst.
    rewrite (look_set _ _ _ _ _ _ _ L0). cbn [ticks set_ctr on_group].
    destruct (Z.eqb_spec id0 id), (Z.eqb_spec i0 i); cbn [andb crun fold_left cstep]; rewrite ?L; auto.
    subst. rewrite L in L0. now injection L0 as ->.
  - rewrite ctr_of_look in E. destruct (look s id0 i0) as [c0|] eqn:L0; cbn [bind rate_ctr_difference] in E; inversion E; subst.
    rewrite (look_set _ _ _ _ _ _ _ L0). cbn [ticks set_ctr on_group].
    destruct (Z.eqb_spec id0 id), (Z.eqb_spec i0 i); cbn [andb crun fold_left cstep rate_ctr_difference fst]; rewrite ?L; auto.
    subst. rewrite L in L0. now injection L0 as ->.
  - rewrite ctr_of_look in E. destruct (look s id0 i0) as [c0|] eqn:L0; cbn [bind] in E; inversion E; subst.
    rewrite (look_set _ _ _ _ _ _ _ L0). cbn [ticks set_ctr on_group].
    destruct (Z.eqb_spec id0 id), (Z.eqb_spec i0 i); cbn [andb crun fold_left cstep]; rewrite ?L; auto.
  - unfold rate_ctr_group_reset in E. destruct (find_grp (grps s) id0) as [g0|] eqn:F0; cbn [bind] in E; inversion E; subst.
    cbn [ticks on_group]. unfold look in *. cbn [grps on_group]. destruct (i <? 0); [discriminate|].
    rewrite find_map. 2:{ intros g. destruct (gid g =? id0); reflexivity. }
    destruct (find_grp (grps s) id) as [g|] eqn:F; [|discriminate]. cbn [option_map]. rewrite (find_gid _ _ _ F).
    destruct (Z.eqb_spec id0 id) as [->|D].
    + rewrite Z.eqb_refl. cbn [gctrs crun fold_left cstep]. f_equal. eapply map_nth_error in L. rewrite L. reflexivity.
    + replace (id =? id0) with false by lia. rewrite L. reflexivity.
  - unfold rate_ctr_timer_cb in E. destruct (expire_count <=? 0); cbn [bind] in E; inversion E; subst.
    now apply look_ticks.
Qed.

Lemma run_wf os : forall s s' rs, wfs s -> run s os = Ok (s', rs) -> wfs s'.
Proof.
  induction os as [|o os IH]; cbn [run]; intros s s' rs W E. { now inversion E; subst. }
  apply bind_Ok_inv in E as ((s1, r1) & E1 & E). apply bind_Ok_inv in E as ((s2, rs2) & E2 & E). inversion E; subst.
  eapply IH; [|eauto]. eapply step_wf; eauto.
Qed.

Lemma run_look os : forall s s' rs id i c, wfs s -> run s os = Ok (s', rs) -> look s id i = Some c -> ~ In (OFree id) os ->
  (ticks s', look s' id i) = let (t, c') := crun (ticks s, c) (history id i os) in (t, Some c').
Proof.
  induction os as [|o os IH]; cbn [run]; intros s s' rs id i c W E L N.
  - inversion E; subst. cbn. now rewrite L.
  - apply bind_Ok_inv in E as ((s1, r1) & E1 & E). apply bind_Ok_inv in E as ((s2, rs2) & E2 & E). inversion E; subst.
    pose proof (step_look s o s1 r1 id i c W E1 L ltac:(intros ->; apply N; left; auto)) as S.
    unfold history. cbn [flat_map]. rewrite crun_app. destruct (crun (ticks s, c) (concerns id i o)) as [t1 c1].
    injection S as S1 S2. rewrite <- S1. eapply IH; eauto. eapply step_wf; eauto. intros X; apply N; right; auto.
Qed.

Lemma tick_loop_ticks n : forall s, is_u64 (ticks s) -> ticks (tick_loop s n) = u64 (ticks s + Z.of_nat n).
Proof.
  induction n; intros s U; cbn [tick_loop]. { rewrite Z.add_0_r, u64_small; auto. }
  rewrite IHn by apply u64_range. cbn [one_tick ticks]. rewrite u64_add. f_equal. lia.
Qed.

Lemma step_secs s o s' r : is_u64 (ticks s) -> step s o = Ok (s', r) -> 0 <= secs [o] /\ ticks s' = u64 (ticks s + secs [o]).
Proof.
  intros U. destruct o; cbn [step secs fold_right].
  - intros E. injection E as E. rewrite (alloc_ticks _ _ _ _ _ E), Z.add_0_r, u64_small; auto. lia.
  - unfold rate_ctr_group_free. destruct (find_grp (grps s) id); cbn [bind]; intros E; inversion E; subst. cbn. rewrite Z.add_0_r, u64_small; auto. lia.
  - destruct (ctr_of s id i); cbn [bind]; intros E; inversion E; subst. cbn. rewrite Z.add_0_r, u64_small; auto. lia.
  - destruct (ctr_of s id i); cbn [bind rate_ctr_difference]; intros E; inversion E; subst. cbn. rewrite Z.add_0_r, u64_small; auto. lia.
  - destruct (ctr_of s id i); cbn [bind]; intros E; inversion E; subst. cbn. rewrite Z.add_0_r, u64_small; auto. lia.
  - unfold rate_ctr_group_reset. destruct (find_grp (grps s) id); cbn [bind]; intros E; inversion E; subst. cbn. rewrite Z.add_0_r, u64_small; auto. lia.
  - unfold rate_ctr_timer_cb. destruct (Z.leb_spec expire_count 0); cbn [bind]; intros E; inversion E; subst.
    split; [lia|]. rewrite tick_loop_ticks by auto. f_equal. lia.
Qed.

Lemma secs_cons o os : secs (o :: os) = secs [o] + secs os.
Proof. destruct o; cbn [secs fold_right]; fold (secs os); lia. Qed.
Lemma secs_app a b : secs (a ++ b) = secs a + secs b.
Proof. induction a; cbn [app]; auto. rewrite secs_cons, (secs_cons a a0). lia. Qed.

Lemma run_secs os : forall s s' rs, is_u64 (ticks s) -> run s os = Ok (s', rs) -> 0 <= secs os /\ ticks s' = u64 (ticks s + secs os).
Proof.
  induction os as [|o os IH]; cbn [run]; intros s s' rs U E.
  - inversion E; subst. cbn. rewrite Z.add_0_r, u64_small; auto. lia.
  - apply bind_Ok_inv in E as ((s1, r1) & E1 & E). apply bind_Ok_inv in E as ((s2, rs2) & E2 & E). inversion E; subst.
    destruct (step_secs _ _ _ _ U E1) as [A B]. destruct (IH s1 s' rs2) as [A' B']; auto. rewrite B; apply u64_range.
    rewrite secs_cons. split; [lia|]. rewrite B', B, u64_add. f_equal. lia.
Qed.

Lemma history_nticks id i os s s' rs : is_u64 (ticks s) -> run s os = Ok (s', rs) -> nticks (history id i os) = secs os.
Proof.
  revert s s' rs. induction os as [|o os IH]; cbn [run]; intros s s' rs U E; auto.
  apply bind_Ok_inv in E as ((s1, r1) & E1 & E). apply bind_Ok_inv in E as ((s2, rs2) & E2 & E). inversion E; subst.
  destruct (step_secs _ _ _ _ U E1) as [A B]. unfold history. cbn [flat_map]. rewrite nticks_app, secs_cons. f_equal.
  - destruct o; cbn [concerns secs fold_right] in *; try (destruct ((_ =? _) && (_ =? _))); try (destruct (_ =? _)); cbn [nticks]; auto.
    rewrite nticks_repeat. lia.
  - eapply IH; [|eauto]. rewrite B; apply u64_range.
Qed.

Lemma alloc_look s d idx s' id i : wfs s -> rate_ctr_group_alloc s d idx = (s', id) -> id <> -1 -> 0 <= i < zlen (dctrs d) ->
  look s' id i = Some ctr0.
Proof.
  intros W E N Hi. unfold rate_ctr_group_alloc in E.
  destruct (if desc_validate d then Some d else desc_mangle d) as [d'|] eqn:D; injection E as <- <-; [|congruence].
  assert (L : length (dctrs d') = length (dctrs d)).
  { destruct (desc_validate d); [now injection D as ->|]. unfold desc_mangle in D. destruct (desc_validate _); [|discriminate].
    injection D as <-. cbn. apply map_length. }
  unfold look. cbn [grps find_grp gid]. replace (i <? 0) with false by lia. rewrite Z.eqb_refl. cbn [gctrs].
  apply nth_error_repeat. unfold zlen in Hi. lia.
Qed.
