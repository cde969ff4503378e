(* P_rategrp.v - proofs about the registry of rate counter groups. *)
From Verif Require Import Base M_ident M_rate S_rate P_rate.

Definition key (g : group) : list Z * Z := (dname (gdesc g), gidx g).
Definition keys (s : st) := map key (grps s).

Lemma name_eqb_spec a b : reflect (a = b) (name_eqb a b).
Proof. unfold name_eqb. destruct (list_eq_dec Z.eq_dec a b); constructor; auto. Qed.

Lemma by_name_some l n x g : get_group_by_name_idx l n x = Some g -> In g l /\ key g = (n, x).
Proof.
  induction l as [|h l IH]; cbn [get_group_by_name_idx]; [discriminate|].
  destruct (name_eqb_spec (dname (gdesc h)) n); cbn [andb].
  - destruct (Z.eqb_spec (gidx h) x); intros E.
    + injection E as ->. unfold key. subst. split; [left|]; auto.
    + apply IH in E. split; [right|]; tauto.
  - intros E. apply IH in E. split; [right|]; tauto.
Qed.

Lemma by_name_none l n x : get_group_by_name_idx l n x = None -> ~ In (n, x) (map key l).
Proof.
  induction l as [|h l IH]; cbn [get_group_by_name_idx map]; auto.
  intros E [H|H].
  - unfold key in H. injection H as H1 H2. destruct (name_eqb_spec (dname (gdesc h)) n); try congruence.
    cbn [andb] in E. replace (gidx h =? x) with true in E by lia. discriminate.
  - destruct (name_eqb (dname (gdesc h)) n && (gidx h =? x)); [discriminate|]. apply IH; auto.
Qed.

Lemma NoDup_key_inj l g h : NoDup (map key l) -> In g l -> In h l -> key g = key h -> g = h.
Proof.
  induction l as [|x l IH]; cbn [map]; intros N Hg Hh E; [contradiction|]. inversion N as [|? ? NI N']; subst.
  destruct Hg as [->|Hg], Hh as [->|Hh]; auto.
  - exfalso. apply NI. rewrite E. now apply in_map.
  - exfalso. apply NI. rewrite <- E. now apply in_map.
Qed.

Lemma unused_ge l n : forall i, Forall (fun g => 0 <= gidx g < 4294967295) l -> i <= unused_idx l n i.
Proof.
  induction l as [|g l IH]; intros i F; cbn [unused_idx]; [lia|]. inversion F as [|? ? Hg F']; subst.
  destruct (name_eqb (dname (gdesc g)) n); auto. specialize (IH (if i <=? gidx g then u32 (gidx g + 1) else i) F').
  rewrite u32_small in IH by (red; lia). rewrite u32_small by (red; lia). destruct (Z.leb_spec i (gidx g)); lia.
Qed.

Lemma unused_gt l n : forall i, Forall (fun g => 0 <= gidx g < 4294967295) l ->
  forall g, In g l -> dname (gdesc g) = n -> gidx g < unused_idx l n i.
Proof.
  induction l as [|g l IH]; intros i F x Hx E; [contradiction|]. cbn [unused_idx]. inversion F as [|? ? Hg F']; subst.
  destruct Hx as [->|Hx].
  - destruct (name_eqb_spec (dname (gdesc x)) (dname (gdesc x))) as [_|]; [|congruence].
    pose proof (unused_ge l (dname (gdesc x)) (if i <=? gidx x then u32 (gidx x + 1) else i) F') as G.
    rewrite u32_small in G by (red; lia). rewrite u32_small by (red; lia). destruct (Z.leb_spec i (gidx x)); lia.
  - destruct (name_eqb (dname (gdesc g)) (dname (gdesc x))); auto.
Qed.

Lemma unused_le l n b : forall i, Forall (fun g => 0 <= gidx g <= b) l -> b < 4294967295 -> i <= b + 1 -> unused_idx l n i <= b + 1.
Proof.
  induction l as [|g l IH]; intros i F B I; cbn [unused_idx]; auto. inversion F as [|? ? Hg F']; subst.
  destruct (name_eqb (dname (gdesc g)) n); auto. apply IH; auto. rewrite u32_small by (red; lia). destruct (i <=? gidx g); lia.
Qed.

(* an allocation with legal names and an index at most m *)
Definition ok_alloc (m : Z) (o : op) : Prop :=
  match o with OAlloc d idx => desc_validate d = true /\ 0 <= idx <= m | _ => True end.

Definition good (b : Z) (s : st) : Prop := NoDup (keys s) /\ Forall (fun g => 0 <= gidx g <= b) (grps s).

Lemma keys_map f l : (forall g, key (f g) = key g) -> map key (map f l) = map key l.
Proof. intros H. rewrite map_map. apply map_ext. auto. Qed.

Lemma bnd_map (P : Z -> Prop) f l : (forall g, key (f g) = key g) -> Forall (fun g => P (gidx g)) l -> Forall (fun g => P (gidx g)) (map f l).
Proof.
  intros H F. apply Forall_map. eapply Forall_impl; [|apply F]. intros g Hg. specialize (H g). unfold key in H. injection H as _ ->. auto.
Qed.

Lemma NoDup_filter_map l (f : group -> bool) : NoDup (map key l) -> NoDup (map key (filter f l)).
Proof.
  induction l as [|x l IH]; cbn [map filter]; intros N; auto. inversion N as [|? ? NI N']; subst.
  destruct (f x); cbn [map]; auto. constructor; auto. intros X. apply NI. apply in_map_iff in X as (y & E & Hy).
  apply filter_In in Hy. rewrite <- E. now apply in_map.
Qed.

Lemma on_group_key id f g : (forall x, key (f x) = key x) -> key (if gid g =? id then f g else g) = key g.
Proof. intros H. destruct (gid g =? id); auto. Qed.

Lemma good_alloc b s d idx s' id : good b s -> 0 <= idx <= b -> b < 4294967294 -> desc_validate d = true ->
  rate_ctr_group_alloc s d idx = (s', id) ->
  good (b + 1) s' /\ exists i, grps s' = Grp id d i (repeat ctr0 (length (dctrs d))) :: grps s /\
    (get_group_by_name_idx (grps s) (dname d) idx = None -> i = idx) /\
    (get_group_by_name_idx (grps s) (dname d) idx <> None -> Forall (fun g => dname (gdesc g) = dname d -> gidx g < i) (grps s)).
Proof.
  intros [N F] I B V. unfold rate_ctr_group_alloc. rewrite V.
  set (i := match get_group_by_name_idx (grps s) (dname d) idx with Some _ => _ | None => _ end).
  intros E. injection E as <- <-.
  assert (F1 : Forall (fun g => 0 <= gidx g < 4294967295) (grps s)) by (eapply Forall_impl; [|apply F]; cbn; intros; lia).
  assert (F2 : Forall (fun g => 0 <= gidx g <= b + 1) (grps s)) by (eapply Forall_impl; [|apply F]; cbn; intros; lia).
  assert (U : ~ In (dname d, i) (keys s) /\ 0 <= i <= b + 1).
  { unfold i. destruct (get_group_by_name_idx (grps s) (dname d) idx) eqn:G.
    - split. 2:{ split; [exact (unused_ge _ _ 0 F1)|apply (unused_le _ _ b 0 F); lia]. }
      intros X. apply in_map_iff in X as (g' & K & Hg). unfold key in K. injection K as K1 K2.
      pose proof (unused_gt (grps s) (dname d) 0 F1 g' Hg K1). lia.
    - split; [now apply by_name_none|lia]. }
  destruct U as [U1 U2]. split.
  - split; cbn; constructor; auto.
  - exists i. split; [reflexivity|]. unfold i. destruct (get_group_by_name_idx (grps s) (dname d) idx) eqn:G; split; intros X; auto; try congruence.
    apply Forall_forall. intros x Hx Nx. exact (unused_gt _ _ 0 F1 x Hx Nx).
Qed.

Lemma good_weaken b b' s : good b s -> b <= b' -> good b' s.
Proof. intros [N F] H. split; auto. eapply Forall_impl; [|apply F]. cbn; intros; lia. Qed.

Lemma good_map b s s' f : good b s -> grps s' = map f (grps s) -> (forall g, key (f g) = key g) -> good b s'.
Proof.
  intros [N F] E K. split; unfold keys; rewrite E.
  - rewrite keys_map; auto.
  - apply (bnd_map (fun i => 0 <= i <= b)); auto.
Qed.

Lemma good_ticks b n : forall s, good b s -> good b (tick_loop s n).
Proof. induction n; intros s G; cbn [tick_loop]; auto. apply IHn. eapply good_map; eauto; reflexivity. Qed.

Lemma good_step m b s o s' r : good b s -> m <= b -> b < 4294967294 -> ok_alloc m o -> step s o = Ok (s', r) -> good (b + 1) s'.
Proof.
  intros G M B A. destruct o; cbn [step ok_alloc] in *.
  - intros E. injection E as E. eapply good_alloc; eauto; try tauto. lia.
  - unfold rate_ctr_group_free. destruct (find_grp (grps s) id); cbn [bind]; intros E; inversion E; subst.
    destruct G as [N F]. split; cbn. { apply NoDup_filter_map; auto. }
    apply Forall_forall. rewrite Forall_forall in F. intros g' Hg. apply filter_In in Hg. assert (X := F g' ltac:(tauto)). lia.
  - destruct (ctr_of s id i); cbn [bind]; intros E; inversion E; subst. apply (good_weaken b); [|lia]. eapply good_map; eauto; [reflexivity|]. intros; now apply on_group_key.
  - destruct (ctr_of s id i); cbn [bind rate_ctr_difference]; intros E; inversion E; subst. apply (good_weaken b); [|lia]. eapply good_map; eauto; [reflexivity|]. intros; now apply on_group_key.
  - destruct (ctr_of s id i); cbn [bind]; intros E; inversion E; subst. apply (good_weaken b); [|lia]. eapply good_map; eauto; [reflexivity|]. intros; now apply on_group_key.
  - unfold rate_ctr_group_reset. destruct (find_grp (grps s) id); cbn [bind]; intros E; inversion E; subst. apply (good_weaken b); [|lia]. eapply good_map; eauto; [reflexivity|]. intros; now apply on_group_key.
  - unfold rate_ctr_timer_cb. destruct (expire_count <=? 0); cbn [bind]; intros E; inversion E; subst. apply (good_weaken b); [|lia]. now apply good_ticks.
Qed.

Lemma good_run m os : forall b s s' rs, good b s -> m <= b -> b + zlen os < 4294967295 -> Forall (ok_alloc m) os -> run s os = Ok (s', rs) -> good (b + zlen os) s'.
Proof.
  induction os as [|o os IH]; cbn [run]; intros b s s' rs G M B A E.
  - inversion E; subst. eapply good_weaken; eauto. unfold zlen; cbn; lia.
  - apply bind_Ok_inv in E as ((s1, r1) & E1 & E). apply bind_Ok_inv in E as ((s2, rs2) & E2 & E). inversion E; subst.
    inversion A as [|? ? A1 A2]; subst. rewrite zlen_cons in *. pose proof (zlen_nonneg os).
    replace (b + (1 + zlen os)) with (b + 1 + zlen os) by lia. eapply IH; eauto; try lia. eapply good_step; eauto. lia.
Qed.

Lemma good_run0 m os s rs : 0 <= m -> m + zlen os < 4294967295 -> Forall (ok_alloc m) os -> run st0 os = Ok (s, rs) -> good (m + zlen os) s.
Proof. intros. eapply (good_run m os m st0); eauto; try lia. split; constructor. Qed.

(* registered groups always have valid names *)
Definition named (s : st) : Prop := Forall (fun g => desc_validate (gdesc g) = true) (grps s).

Lemma named_map s s' f : named s -> grps s' = map f (grps s) -> (forall g, gdesc (f g) = gdesc g) -> named s'.
Proof.
  intros N E H. unfold named. rewrite E. apply Forall_map. eapply Forall_impl; [|apply N]. intros g Hg. now rewrite H.
Qed.

Lemma named_step s o s' r : named s -> step s o = Ok (s', r) -> named s'.
Proof.
  intros N. destruct o; cbn [step].
  - intros E. injection E as E. unfold rate_ctr_group_alloc in E. destruct (desc_validate d) eqn:V.
    + injection E as <- <-. constructor; auto.
    + unfold desc_mangle in E. destruct (desc_validate (Desc _ _)) eqn:V'; injection E as <- <-; auto. constructor; auto.
  - unfold rate_ctr_group_free. destruct (find_grp (grps s) id); cbn [bind]; intros E; inversion E; subst.
    unfold named in *. cbn. rewrite Forall_forall in *. intros g' Hg. apply filter_In in Hg. apply N; tauto.
  - destruct (ctr_of s id i); cbn [bind]; intros E; inversion E; subst. eapply named_map; eauto; [reflexivity|]. intros; cbn. destruct (gid g =? id); auto.
  - destruct (ctr_of s id i); cbn [bind rate_ctr_difference]; intros E; inversion E; subst. eapply named_map; eauto; [reflexivity|]. intros; cbn. destruct (gid g =? id); auto.
  - destruct (ctr_of s id i); cbn [bind]; intros E; inversion E; subst. eapply named_map; eauto; [reflexivity|]. intros; cbn. destruct (gid g =? id); auto.
  - unfold rate_ctr_group_reset. destruct (find_grp (grps s) id); cbn [bind]; intros E; inversion E; subst. eapply named_map; eauto; [reflexivity|]. intros x; cbn. destruct (gid x =? id); auto.
  - unfold rate_ctr_timer_cb. destruct (expire_count <=? 0); cbn [bind]; intros E; inversion E; subst.
    clear E. revert s N. induction (Z.to_nat expire_count); intros s N; cbn [tick_loop]; auto. apply IHn. eapply named_map; eauto; reflexivity.
Qed.

Lemma named_run os : forall s s' rs, named s -> run s os = Ok (s', rs) -> named s'.
Proof.
  induction os as [|o os IH]; cbn [run]; intros s s' rs N E. { now inversion E; subst. }
  apply bind_Ok_inv in E as ((s1, r1) & E1 & E). apply bind_Ok_inv in E as ((s2, rs2) & E2 & E). inversion E; subst.
  eapply IH; [|eauto]. eapply named_step; eauto.
Qed.
