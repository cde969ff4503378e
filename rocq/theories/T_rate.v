(* C36 rate counters, C50 registry of counter groups *)
From Verif Require Import Base Str M_ident M_rate S_rate P_rate P_rategrp.
From Coq Require Import String.

(* any program: a history os1 of calls, the allocation of a group, then any further calls os2 that do not free it.
   What a counter holds is a function of the events that concern it since the allocation (or its last reset):
   h is the history since then.  T = number of one-second ticks before h. *)
Definition scene os1 d idx os2 id i pre h s : Prop :=
  exists s1 r1 s2 rs, run st0 os1 = Ok (s1, r1) /\ rate_ctr_group_alloc s1 d idx = (s2, id) /\ id <> -1 /\
    run s2 os2 = Ok (s, rs) /\ ~ In (OFree id) os2 /\ 0 <= i < zlen (dctrs d) /\
    secs (os1 ++ os2) < 18446744073709551616 /\
    history id i os2 = pre ++ h /\ fresh pre /\ ~ In EReset h.

Lemma scene_crun os1 d idx os2 id i pre h s : scene os1 d idx os2 id i pre h s ->
  ctr_of s id i = Ok (snd (crun (secs os1 + nticks pre, ctr0) h)) /\ 0 <= secs os1 + nticks pre /\
  secs os1 + nticks pre + nticks h < 18446744073709551616.
Proof.
  intros (s1 & r1 & s2 & rs & R1 & A & N & R2 & NF & Hi & B & E & F & NR).
  assert (W1 : wfs s1) by (eapply run_wf; [|eauto]; split; [apply Forall_nil|split; cbn; [red|]; lia]).
  pose proof (alloc_wf _ _ _ _ _ W1 A) as W2. pose proof (alloc_look _ _ _ _ _ i W1 A N Hi) as L.
  destruct (run_secs os1 st0 s1 r1) as [S1 T1]; auto. { cbn; red; lia. }
  pose proof (alloc_ticks _ _ _ _ _ A) as T2. destruct W2 as (W2a & W2b & W2c).
  pose proof (history_nticks id i os2 s2 s rs W2b R2) as HN. rewrite E, nticks_app in HN.
  rewrite secs_app in B. pose proof (nticks_nonneg h). pose proof (nticks_nonneg pre).
  cbn [ticks st0] in T1. rewrite Z.add_0_l, u64_small in T1 by (red; lia).
  split; [|split; lia].
  pose proof (run_look os2 s2 s rs id i ctr0 (conj W2a (conj W2b W2c)) R2 L NF) as RL.
  rewrite ctr_of_look. rewrite E, crun_app, T2, T1 in RL.
  assert (P : crun (secs os1, ctr0) pre = (secs os1 + nticks pre, ctr0)).
  { destruct F as [-> | (p' & ->)]. { cbn. f_equal. lia. }
    rewrite crun_app. rewrite nticks_app in *. cbn [nticks] in *.
    pose proof (crun_ticks p' (secs os1) ctr0 S1 ltac:(lia)) as TT.
    destruct (crun (secs os1, ctr0) p') as [t c]. cbn in *. f_equal. lia. }
  rewrite P in RL. destruct (crun (secs os1 + nticks pre, ctr0) h) as [t c]. injection RL as _ ->. reflexivity.
Qed.

(* the value is the sum of everything added, modulo 2^64 *)
Theorem C36_value : forall os1 d idx os2 id i pre h s, scene os1 d idx os2 id i pre h s ->
  exists c, ctr_of s id i = Ok c /\ cur c = total h mod 2 ^ 64.
Proof.
  intros * S. pose proof S as (s1 & r1 & s2 & rs & _ & _ & _ & _ & _ & _ & _ & _ & _ & NR).
  destruct (scene_crun _ _ _ _ _ _ _ _ _ S) as (E & _ & _). eexists. split; [apply E|].
  rewrite crun_cur; auto. cbn; red; lia.
Qed.
Print Assumptions C36_value.

(* the rate of interval p (0 second, 1 minute, 2 hour, 3 day) is exactly what was added during the last completed
   interval: b is what happened between two consecutive boundaries of that interval (or between the start and the
   first boundary), and no boundary has passed since *)
Theorem C36_rate : forall os1 d idx os2 id i pre h s p a b r, scene os1 d idx os2 id i pre h s -> (p < 4)%nat ->
  let T := secs os1 + nticks pre in
  h = a ++ (b ++ [ETick]) ++ r ->
  aligned (period p) T a -> quiet (period p) (T + nticks a) b ->
  (T + nticks (a ++ b ++ [ETick])) mod period p = 0 -> quiet (period p) (T + nticks (a ++ b ++ [ETick])) r ->
  exists c, ctr_of s id i = Ok c /\ rate c p = total b mod 2 ^ 64.
Proof.
  intros * S Hp T -> A Q M Q2. pose proof S as (s1 & r1 & s2 & rs & _ & _ & _ & _ & _ & _ & _ & _ & _ & NR).
  destruct (scene_crun _ _ _ _ _ _ _ _ _ S) as (E & B1 & B2). eexists. split; [apply E|]. now apply crun_rate.
Qed.
Print Assumptions C36_rate.

(* before the first boundary the rate is 0 *)
Theorem C36_rate_initial : forall os1 d idx os2 id i pre h s p, scene os1 d idx os2 id i pre h s -> (p < 4)%nat ->
  quiet (period p) (secs os1 + nticks pre) h -> exists c, ctr_of s id i = Ok c /\ rate c p = 0.
Proof.
  intros * S Hp Q. pose proof S as (s1 & r1 & s2 & rs & _ & _ & _ & _ & _ & _ & _ & _ & _ & NR).
  destruct (scene_crun _ _ _ _ _ _ _ _ _ S) as (E & B1 & B2). eexists. split; [apply E|]. now apply crun_rate0.
Qed.
Print Assumptions C36_rate_initial.

(* rate_ctr_difference returns exactly what was added since the previous query (as a 64-bit signed number) *)
Theorem C36_difference : forall os1 d idx os2 id i pre q h s, scene os1 d idx os2 id i pre (q ++ h) s ->
  queried q -> ~ In EDiff h ->
  exists s', step s (ODiff id i) = Ok (s', s64 (total h)) /\ forall c, ctr_of s id i = Ok c -> exists c', ctr_of s' id i = Ok c' /\ cur c' = cur c /\ ivs c' = ivs c.
Proof.
  intros * S Q ND. pose proof S as (s1 & r1 & s2 & rs & _ & _ & _ & _ & _ & _ & _ & _ & _ & NR).
  destruct (scene_crun _ _ _ _ _ _ _ _ _ S) as (E & B1 & B2). cbn [step]. rewrite E. cbn [bind rate_ctr_difference].
  eexists. split.
  - f_equal. f_equal. apply not_in_app in NR. destruct NR as [NR1 NR2]. rewrite crun_app.
    set (T := secs os1 + nticks pre) in *.
    pose proof (crun_cur q T ctr0 NR1 ltac:(cbn; red; lia)) as C1.
    assert (P1 : prev (snd (crun (T, ctr0) q)) = u64 (total q)).
    { destruct Q as [-> | (q' & ->)]; [reflexivity|]. rewrite crun_app. apply not_in_app in NR1. destruct NR1 as [NR1 _].
      pose proof (crun_cur q' T ctr0 NR1 ltac:(cbn; red; lia)) as C2. destruct (crun (T, ctr0) q') as [t c]. cbn in *. rewrite C2, total_app. cbn. f_equal. lia. }
    destruct (crun (T, ctr0) q) as [t c]. cbn [snd] in *. rewrite crun_cur, crun_prev; auto. 2:{ rewrite C1. apply u64_range. }
    rewrite P1, C1. cbn [cur ctr0]. unfold s64. replace (u64 (u64 (u64 (0 + total q) + total h) - u64 (total q))) with (u64 (total h)); auto.
    unfold u64. rewrite Z.add_0_l, Zplus_mod_idemp_l, Zminus_mod_idemp_l, Zminus_mod_idemp_r. f_equal. lia.
  - intros c Ec. injection Ec as <-. rewrite ctr_of_look in *.
    destruct (look s id i) as [c0|] eqn:L; [|discriminate]. rewrite (look_set _ _ _ _ _ _ _ L), !Z.eqb_refl. cbn [andb].
    eexists. split; [reflexivity|]. cbn. auto.
Qed.
Print Assumptions C36_difference.

Example C36_nonvacuous : exists os1 d idx os2 id i pre h s,
  scene os1 d idx os2 id i pre h s /\
  exists a b r, h = a ++ (b ++ [ETick]) ++ r /\ total b = 12 /\ aligned 60 (secs os1 + nticks pre) a /\
    (secs os1 + nticks pre + nticks (a ++ b ++ [ETick])) mod 60 = 0 /\
    exists c, ctr_of s id i = Ok c /\ rate c 1 = 12 /\ rate c 0 = 0 /\ rate c 2 = 0 /\ cur c = 19.
Proof.
  exists [OTimer 60], (Desc (bs "grp") [bs "x"; bs "y"]), 3,
    [OAdd 0 1 5; OReset 0 1; OAdd 0 1 5; OTimer 10; OAdd 0 0 99; OAdd 0 1 7; OTimer 50; OAdd 0 1 7], 0, 1,
    [EAdd 5; EReset], ([EAdd 5] ++ repeat ETick 10 ++ [EAdd 7] ++ repeat ETick 50 ++ [EAdd 7]).
  eexists. split.
  - eexists _, _, _, _. split; [vm_compute; reflexivity|]. split; [vm_compute; reflexivity|]. split; [discriminate|].
    split; [vm_compute; reflexivity|]. split; [cbn; intuition congruence|]. split; [vm_compute; intuition congruence|].
    split; [reflexivity|]. split; [vm_compute; reflexivity|]. split; [right; eexists [_]; reflexivity|].
    intros X. repeat (destruct X as [X|X]; [discriminate|]). contradiction.
  - exists [], ([EAdd 5] ++ repeat ETick 10 ++ [EAdd 7] ++ repeat ETick 49), [EAdd 7].
    split; [reflexivity|]. split; [reflexivity|]. split; [left; auto|]. split; [reflexivity|].
    eexists. split; [vm_compute; reflexivity|]. vm_compute. auto.
Qed.

(* C50: as long as group and counter names are legal identifiers and the requested indices stay m with room for
   one more per call below 2^32, no two live groups ever share name and index ... *)
Theorem C50_unique : forall m os s rs, 0 <= m -> m + zlen os < 2 ^ 32 - 1 -> Forall (ok_alloc m) os -> run st0 os = Ok (s, rs) ->
  NoDup (map (fun g => (dname (gdesc g), gidx g)) (grps s)).
Proof. intros m os s rs M B F R. pose proof (good_run0 m os s rs M ltac:(lia) F R) as [N _]. exact N. Qed.
Print Assumptions C50_unique.

(* ... so a lookup returns the group of that name and index exactly when there is one *)
Theorem C50_lookup : forall m os s rs name idx g, 0 <= m -> m + zlen os < 2 ^ 32 - 1 -> Forall (ok_alloc m) os -> run st0 os = Ok (s, rs) ->
  (get_group_by_name_idx (grps s) name idx = Some g <-> In g (grps s) /\ dname (gdesc g) = name /\ gidx g = idx).
Proof.
  intros m os s rs name idx g M B F R. pose proof (good_run0 m os s rs M ltac:(lia) F R) as [N _]. split.
  - intros E. apply by_name_some in E as [A K]. unfold key in K. injection K as <- <-. auto.
  - intros (I & <- & <-). destruct (get_group_by_name_idx (grps s) (dname (gdesc g)) (gidx g)) as [h|] eqn:G.
    + apply by_name_some in G as [A K]. f_equal. eapply NoDup_key_inj; eauto.
    + exfalso. apply by_name_none in G. apply G. change (dname (gdesc g), gidx g) with (key g). now apply in_map.
Qed.
Print Assumptions C50_lookup.

(* an allocation succeeds, gives the requested index if it is free for that name and otherwise one above all used;
   all counters start at zero and no other group changes *)
Theorem C50_alloc : forall m os s rs d idx, 0 <= m -> m + zlen os < 2 ^ 32 - 2 -> Forall (ok_alloc m) os -> run st0 os = Ok (s, rs) ->
  desc_validate d = true -> 0 <= idx <= m ->
  exists s' id i, rate_ctr_group_alloc s d idx = (s', id) /\
    grps s' = Grp id d i (repeat ctr0 (List.length (dctrs d))) :: grps s /\
    ~ In (dname d, i) (map (fun g => (dname (gdesc g), gidx g)) (grps s)) /\
    (~ In (dname d, idx) (map (fun g => (dname (gdesc g), gidx g)) (grps s)) -> i = idx) /\
    (In (dname d, idx) (map (fun g => (dname (gdesc g), gidx g)) (grps s)) -> forall g, In g (grps s) -> dname (gdesc g) = dname d -> gidx g < i).
Proof.
  intros m os s rs d idx M B F R V I. pose proof (good_run0 m os s rs M ltac:(lia) F R) as G. pose proof (zlen_nonneg os).
  destruct (rate_ctr_group_alloc s d idx) as [s' id] eqn:A.
  destruct (good_alloc (m + zlen os) s d idx s' id G ltac:(lia) ltac:(lia) V A) as ([N _] & i & E & X & Y).
  exists s', id, i. split; auto. split; auto. unfold keys in N. rewrite E in N. cbn [map] in N. split; [now inversion N|].
  split.
  - intros NI. apply X. destruct (get_group_by_name_idx (grps s) (dname d) idx) as [g|] eqn:L; auto. exfalso. apply NI.
    apply by_name_some in L as [IG K]. rewrite <- K. apply (in_map key). auto.
  - intros IN g Hg Ng. rewrite Forall_forall in Y. apply Y; auto. intros L. apply by_name_none in L. apply L. exact IN.
Qed.
Print Assumptions C50_alloc.

(* the counter found by name is the first of that name; none is found exactly if there is none *)
Theorem C50_counter_by_name : forall g name,
  match rate_ctr_get_by_name g name with
  | Some i => 0 <= i /\ nth_error (dctrs (gdesc g)) (Z.to_nat i) = Some name /\
              forall j, 0 <= j < i -> nth_error (dctrs (gdesc g)) (Z.to_nat j) <> Some name
  | None => ~ In name (dctrs (gdesc g))
  end.
Proof.
  intros g name. unfold rate_ctr_get_by_name. generalize (dctrs (gdesc g)). intros l.
  assert (G : forall l i, 0 <= i -> match name_pos l name i with
    | Some k => i <= k /\ nth_error l (Z.to_nat (k - i)) = Some name /\ forall j, i <= j < k -> nth_error l (Z.to_nat (j - i)) <> Some name
    | None => ~ In name l end).
  { clear l. induction l as [|x l IH]; intros i Hi; cbn [name_pos]; [intros []|]. unfold name_eqb. destruct (list_eq_dec Z.eq_dec x name) as [->|N].
    - rewrite Z.sub_diag. split; [lia|]. split; [reflexivity|]. lia.
    - specialize (IH (i + 1) ltac:(lia)). destruct (name_pos l name (i + 1)) as [k|].
      + destruct IH as (A & B & C). split; [lia|]. split.
        * replace (Z.to_nat (k - i)) with (S (Z.to_nat (k - (i + 1)))) by lia. exact B.
        * intros j Hj. destruct (Z.eq_dec j i) as [->|Nj]. { rewrite Z.sub_diag. cbn. congruence. }
          replace (Z.to_nat (j - i)) with (S (Z.to_nat (j - (i + 1)))) by lia. cbn [nth_error]. apply C. lia.
      + intros [->|I]; auto. }
  specialize (G l 0 ltac:(lia)). destruct (name_pos l name 0) as [k|]; auto. rewrite Z.sub_0_r in G. destruct G as (A & B & C).
  split; auto. split; auto. intros j Hj. specialize (C j Hj). rewrite Z.sub_0_r in C. auto.
Qed.
Print Assumptions C50_counter_by_name.

(* for every history, names included: all registered names are legal identifiers *)
Theorem C50_names : forall os s rs, run st0 os = Ok (s, rs) ->
  forall g, In g (grps s) -> forall n, n = dname (gdesc g) \/ In n (dctrs (gdesc g)) -> osmo_identifier_valid (Some n) = true.
Proof.
  intros os s rs R g Hg n Hn. pose proof (named_run os st0 s rs ltac:(constructor) R) as N. unfold named in N. rewrite Forall_forall in N.
  specialize (N g Hg). unfold desc_validate in N. apply andb_prop in N as [N1 N2]. destruct Hn as [->|Hn]; auto.
  rewrite forallb_forall in N2. auto.
Qed.
Print Assumptions C50_names.

(* not so when a name has to be rewritten ('.' becomes ':'): the check for duplicates uses the original name *)
Theorem C50_mangled_refuted : exists os s rs, run st0 os = Ok (s, rs) /\ rs = [0; 1] /\ ~ NoDup (map (fun g => (dname (gdesc g), gidx g)) (grps s)).
Proof.
  exists [OAlloc (Desc (bs "a.b") [bs "x"]) 0; OAlloc (Desc (bs "a.b") [bs "x"]) 0]. eexists _, _.
  split; [vm_compute; reflexivity|]. split; auto. cbn. intros N. inversion N as [|? ? X _]. apply X. left; auto.
Qed.
Print Assumptions C50_mangled_refuted.

(* nor when the index UINT_MAX is in use: the replacement index wraps around to one that may be taken *)
Theorem C50_wrap_refuted : exists os s rs, Forall (ok_alloc 4294967295) os /\ run st0 os = Ok (s, rs) /\
  ~ NoDup (map (fun g => (dname (gdesc g), gidx g)) (grps s)).
Proof.
  set (d := Desc (bs "a") [bs "x"]).
  exists [OAlloc d 4294967295; OAlloc d 0; OAlloc d 4294967295; OAlloc d 4294967295; OAlloc d 0]. eexists _, _.
  split; [repeat constructor; cbn; lia|]. split; [vm_compute; reflexivity|].
  vm_compute. intros N. repeat match goal with H : NoDup (_ :: _) |- _ => inversion H; clear H; subst end. cbn in *. intuition.
Qed.
Print Assumptions C50_wrap_refuted.

Example C50_nonvacuous : exists s rs, run st0 [OAlloc (Desc (bs "bts") [bs "x"]) 5; OAlloc (Desc (bs "bts") [bs "x"]) 5; OAlloc (Desc (bs "bts") [bs "x"]) 2; OFree 0; OTimer 3] = Ok (s, rs)
  /\ map gidx (grps s) = [2; 6] /\ Forall (ok_alloc 5) [OAlloc (Desc (bs "bts") [bs "x"]) 5; OAlloc (Desc (bs "bts") [bs "x"]) 5; OAlloc (Desc (bs "bts") [bs "x"]) 2; OFree 0; OTimer 3].
Proof. eexists _, _. split; [vm_compute; reflexivity|]. split; [reflexivity|]. repeat constructor; cbn; lia. Qed.
