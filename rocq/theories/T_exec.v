(** C67: the environment of child processes (exec.c). *)
From Verif Require Import Base M_exec S_exec P_exec.

(** The filter: the permitted entries, in order, as many as fit in front of the null pointer; nothing behind is touched; the
    value returned counts the null pointer. For any environment, any whitelist and any array. *)
Theorem C67_filter : forall w wm l lm out, env w wm -> env l lm -> out <> [] ->
  exists k, sub (permitted w) l k /\ let kept := firstn (length out - 1) k in
    osmo_environment_filter (Some out) (zlen out) (Some lm) (Some wm) = Ok (zlen kept + 1, map Some kept ++ None :: skipn (S (length kept)) out).
Proof.
  intros w wm l lm out W L O. destruct (sub_total (permitted w) (permitted_dec w) l) as [k S]. exists k. split; [exact S|].
  apply (filter_ok w wm l lm out k); auto.
Qed.
Print Assumptions C67_filter.
(** [sub] determines the list of permitted entries; it has all of them and no others. *)
Theorem C67_filter_exact : forall w l k, sub (permitted w) l k ->
  (forall k', sub (permitted w) l k' -> k' = k) /\ (forall e, In e k <-> In e l /\ permitted w e).
Proof.
  intros w l k S. split; [intros k' S'; apply (sub_unique _ _ _ S' _ S)|].
  induction S as [|x l k P S IH|x l k P S IH]; intros e; cbn [In]; [tauto| |].
  - rewrite IH. split; [intros [->|[A B]]; auto|intros [[->|A] B]; auto].
  - rewrite IH. split; [intros [A B]; auto|intros [[->|A] B]; [contradiction|auto]].
Qed.
Print Assumptions C67_filter_exact.
Theorem C67_filter_only : forall w wm l lm out n out', env w wm -> env l lm -> out <> [] ->
  osmo_environment_filter (Some out) (zlen out) (Some lm) (Some wm) = Ok (n, out') ->
  zlen out' = zlen out /\ exists es, env es out' /\ n = zlen es + 1 /\ Forall (fun e => In e l /\ permitted w e) es.
Proof.
  intros w wm l lm out n out' W L O E. destruct (C67_filter w wm l lm out W L O) as (k & S & F). cbv zeta in F. rewrite E in F. injection F as Fn Fo. subst n out'. clear E.
  set (kept := firstn (length out - 1) k). assert (K : (length kept < length out)%nat) by (unfold kept; rewrite firstn_length; destruct out; [congruence|cbn [length]; lia]).
  fold kept. split; [destruct out as [|o1 out1]; [congruence|]; unfold zlen; rewrite app_length, map_length; cbn [length] in *; rewrite skipn_length; lia|].
  exists kept. split; [eexists; reflexivity|]. split; [reflexivity|]. apply Forall_forall. intros e I. apply (C67_filter_exact w l k S).
  rewrite <- (firstn_skipn (length out - 1) k). apply in_or_app. left. exact I.
Qed.
Print Assumptions C67_filter_only.
Theorem C67_filter_args : forall out n inp wl,
  osmo_environment_filter None n inp wl = Err (- EINVAL) /\ osmo_environment_filter out n inp None = Err (- EINVAL) /\
  osmo_environment_filter out 0 inp wl = Err (- EINVAL) /\
  (forall o r w, n <> 0 -> osmo_environment_filter (Some (o :: r)) n None (Some w) = Ok (1, None :: r)).
Proof.
  intros out n inp wl. split; [reflexivity|]. split; [destruct out; reflexivity|]. split; [destruct out, wl; reflexivity|].
  intros o r w N. unfold osmo_environment_filter. apply Z.eqb_neq in N. rewrite N. rewrite wr0. reflexivity.
Qed.
Print Assumptions C67_filter_args.
(** "PATH=/bin", "LD=x", "PAT", "PA=1=2" with the list PATH, PA, and an array of four. *)
Example C67_filter_nonvacuous : osmo_environment_filter (Some (repeat (Some [7]) 4)) 4
  (Some [Some [80;65;84;72;61;47]; Some [76;68;61;120]; Some [80;65;84]; Some [80;65;61;49;61;50]; None])
  (Some [Some [80;65;84;72]; Some [80;65]; None]) = Ok (3, [Some [80;65;84;72;61;47]; Some [80;65;61;49;61;50]; None; Some [7]]) /\
  permitted [[80;65;84;72]; [80;65]] [80;65;61;49;61;50].
Proof.
  split; [vm_compute; reflexivity|]. exists [80;65], [49;61;50]. repeat split; [|right; left; reflexivity|cbn; lia].
  intros [H|[H|[]]]; discriminate.
Qed.

(** Appending keeps the entries there are, adds the new ones in order as far as there is room, and ends the array. *)
Theorem C67_append : forall a rest l lm n, env l lm -> n = zlen a + 1 + zlen rest ->
  let kept := firstn (length rest) l in
  osmo_environment_append (Some (map Some a ++ None :: rest)) n (Some lm) = Ok (zlen a + zlen kept + 1, map Some (a ++ kept) ++ None :: skipn (length kept) rest).
Proof. exact append_ok. Qed.
Print Assumptions C67_append.
Theorem C67_append_args : forall out n inp a rest,
  osmo_environment_append None n inp = Err (- EINVAL) /\ osmo_environment_append out 0 inp = Err (- EINVAL) /\
  (n <> 0 -> exists rc, osmo_environment_append (Some (map Some a ++ None :: rest)) n None = Ok (rc, map Some a ++ None :: rest)).
Proof.
  intros out n inp a rest. split; [reflexivity|]. split; [destruct out; reflexivity|]. intros N. unfold osmo_environment_append.
  apply Z.eqb_neq in N. rewrite N, seek_ok. cbn [bind]. rewrite Z.add_0_l. destruct (Z.eqb_spec (zlen a) 0) as [E|E]; [|eauto].
  assert (a = []) by (destruct a; [reflexivity|rewrite zlen_cons in E; pose proof (zlen_nonneg a); lia]). subst a.
  cbn [map app]. rewrite wr0. cbn [bind app]. eauto.
Qed.
Print Assumptions C67_append_args.
(** With nothing to append the value returned does not count the null pointer, unless the array was empty: *)
Theorem C67_append_count_refuted : forall a rest, a <> [] ->
  osmo_environment_append (Some (map Some a ++ None :: rest)) (zlen a + 1 + zlen rest) None = Ok (zlen a, map Some a ++ None :: rest) /\
  osmo_environment_append (Some (map Some a ++ None :: rest)) (zlen a + 1 + zlen rest) (Some [None]) = Ok (zlen a + 1, map Some a ++ None :: rest).
Proof.
  intros a rest N. assert (Z1 : 0 < zlen a) by (destruct a; [congruence|rewrite zlen_cons; pose proof (zlen_nonneg a); lia]). split.
  - unfold osmo_environment_append. pose proof (zlen_nonneg rest). destruct (Z.eqb_spec (zlen a + 1 + zlen rest) 0); [lia|].
    rewrite seek_ok. cbn [bind]. rewrite Z.add_0_l. destruct (Z.eqb_spec (zlen a) 0); [lia|reflexivity].
  - rewrite (append_ok a rest [] [None]); [|exists []; reflexivity|reflexivity]. rewrite firstn_nil. cbn [length skipn]. rewrite app_nil_r.
    change (zlen (@nil (list Z))) with 0. rewrite Z.add_0_r. reflexivity.
Qed.
Print Assumptions C67_append_count_refuted.

(** The environment a shell command is given: permitted entries of the own environment (none without a whitelist), then the
    additional ones; at most 1023 in all, always ended; whatever the array held before. *)
Theorem C67_child : forall mem l lm wl add, length mem = 1024%nat -> env l lm ->
  match wl with Some (w, wm) => env w wm | None => True end -> match add with Some (d, dm) => env d dm | None => True end ->
  exists k, match wl with Some (w, _) => sub (permitted w) l k | None => k = [] end /\
  exists e, child_env mem (Some lm) (option_map snd wl) (option_map snd add) = Ok e /\ length e = 1024%nat /\
    env (firstn 1023 (firstn 1023 k ++ match add with Some (d, _) => d | None => [] end)) e.
Proof.
  intros mem l lm wl add M L W D. destruct mem as [|m0 mem]; [discriminate|]. injection M as M. unfold child_env.
  rewrite wr0. cbn [bind app].
  assert (A : forall k rest, (length k + length rest = 1023)%nat -> exists e,
    match option_map snd add with None => Ok (map Some k ++ None :: rest) | Some _ => do r <- osmo_environment_append (Some (map Some k ++ None :: rest)) 1024 (option_map snd add) ;; Ok (snd r) end = Ok e /\
    length e = 1024%nat /\ env (firstn 1023 (k ++ match add with Some (d, _) => d | None => [] end)) e).
  { intros k rest KL. destruct add as [[d dm]|]; cbn [option_map snd].
    - rewrite (append_ok k rest d dm 1024 D) by (unfold zlen; lia). cbn [bind snd]. eexists. split; [reflexivity|].
      assert (Q : (length (firstn (length rest) d) <= length rest)%nat) by (rewrite firstn_length; lia).
      split; [rewrite app_length, map_length, app_length; cbn [length]; rewrite skipn_length; lia|].
      rewrite firstn_app. rewrite (firstn_all2 k) by lia. replace (1023 - length k)%nat with (length rest) by lia. eexists. reflexivity.
    - eexists. split; [reflexivity|]. split; [rewrite app_length, map_length; cbn [length]; lia|]. rewrite app_nil_r, firstn_all2 by lia. eexists. reflexivity. }
  destruct wl as [[w wm]|]; cbn [option_map snd].
  - destruct (sub_total (permitted w) (permitted_dec w) l) as [k S]. exists k. split; [exact S|].
    pose proof (filter_ok w wm l lm (None :: mem) k W L ltac:(discriminate) S) as F. cbv zeta in F.
    replace (zlen (None :: mem)) with 1024 in F by (unfold zlen; cbn [length]; lia). rewrite F. cbn [bind snd length]. rewrite M. cbn [Nat.sub].
    change (1024 - 1)%nat with 1023%nat. set (kept := firstn 1023 k). assert (K : (length kept <= 1023)%nat) by (unfold kept; rewrite firstn_length; lia).
    apply A. cbn [skipn]. rewrite skipn_length. lia.
  - exists []. split; [reflexivity|]. cbn [bind]. destruct (A [] mem) as (e & E & LE & EE); [cbn [length]; lia|]. exists e. auto.
Qed.
Print Assumptions C67_child.
Example C67_child_nonvacuous : exists e, child_env (repeat (Some [9]) 1024) (Some [Some [65;61]; Some [66;61]; None]) (Some [Some [66]; None]) (Some [Some [67;61]; None]) = Ok e /\
  firstn 4 e = [Some [66;61]; Some [67;61]; None; Some [9]].
Proof.
  assert (H : match child_env (repeat (Some [9]) 1024) (Some [Some [65;61]; Some [66;61]; None]) (Some [Some [66]; None]) (Some [Some [67;61]; None]) with
    Ok e => firstn 4 e = [Some [66;61]; Some [67;61]; None; Some [9]] | _ => False end) by (vm_compute; reflexivity).
  destruct (child_env _ _ _ _) as [e| | |]; try contradiction. exists e. auto.
Qed.
