(* C17: use counting *)
From Verif Require Import Base M_use S_use P_use.

(* any history of get/put, free and make_static calls with non-NULL tokens and amounts other than INT32_MIN:
   never undefined; results and per-token counts are exactly those of a table of integers (S_use.v: an amount
   changes its own token by exactly that much, or is refused with -ERANGE / -ENOMEM changing nothing, and no
   other token changes); a token has at most one entry *)
Theorem C17_history : forall os, Forall op_ok os ->
  exists l rs f, u_run [] os = Ok (l, rs) /\ sp_run (fun _ => 0) os rs f /\
    (forall s, osmo_use_count_by l (Some s) = f s) /\
    forall s i j, (i < length l)%nat -> (j < length l)%nat ->
      euse (nth i l (En None 0)) = Some s -> euse (nth j l (En None 0)) = Some s -> i = j.
Proof. exact use_history. Qed.
Print Assumptions C17_history.

(* one call from any reachable list, in numbers: the count afterwards and the result *)
Theorem C17_get_put : forall os l rs al cb s c, Forall op_ok os -> u_run [] os = Ok (l, rs) -> -2147483648 < c <= 2147483647 ->
  exists l' r, get_put al cb l (Some s) c = Ok (l', r) /\
    (forall x, x <> s -> osmo_use_count_by l' (Some x) = osmo_use_count_by l (Some x)) /\
    let v := osmo_use_count_by l (Some s) in let v' := osmo_use_count_by l' (Some s) in
    ((-2147483648 <= v + c <= 2147483647 -> al = true -> v' = v + c /\ r = if c =? 0 then 0 else match cb with Some x => x | None => 0 end) /\
     (~ (-2147483648 <= v + c <= 2147483647) -> v' = v /\ r = - ERANGE)) /\
    (v' = v + c \/ v' = v).
Proof.
  intros os l rs al cb s c F E Hc. destruct (run_ok os []) as (l0 & rs0 & E0 & W & _); auto. { split; constructor. }
  rewrite E in E0. injection E0 as <- <-. destruct (get_put_ok al cb l s c W Hc) as (l' & r & G & _ & S).
  exists l', r. split; auto. fold (tab l s) (tab l' s). unfold fits in *.
  assert (V : fits (tab l s)).
  { destruct (in_dec (list_eq_dec Z.eq_dec) s (names l)) as [Hi|Hi].
    - apply in_names, Exists_exists in Hi. destruct Hi as ([u v] & Hi & Eu). cbn in Eu. subst. rewrite (by_in l s v); [|apply W|auto].
      destruct W as [_ FW]. rewrite Forall_forall in FW. apply (FW _ Hi).
    - rewrite by_notin by auto. unfold fits; lia. }
  unfold fits in V.
  inversion S; subst; unfold same, updated, fits in *; split; try (intros; fold (tab l x) (tab l' x)).
  - match goal with H : forall x : list Z, _ |- _ => apply H; auto | H : _ /\ _ |- _ => apply H; auto end.
  - cbn zeta. rewrite H5. split; [split|]; [intros; split; [lia|auto]|intros; lia|auto].
  - match goal with H : forall x : list Z, _ |- _ => apply H; auto | H : _ /\ _ |- _ => apply H; auto end.
  - cbn zeta. match goal with H : _ /\ _ |- _ => destruct H as [-> _] end. split; [split|]; [|lia|auto]. intros. split; auto. replace (c =? 0) with false by lia. auto.
  - match goal with H : forall x : list Z, _ |- _ => apply H; auto | H : _ /\ _ |- _ => apply H; auto end.
  - cbn zeta. match goal with H : forall x : list Z, _ |- _ => rewrite H end. split; [split|]; [intros; lia|auto|auto].
  - match goal with H : forall x : list Z, _ |- _ => apply H; auto | H : _ /\ _ |- _ => apply H; auto end.
  - cbn zeta. match goal with H : forall x : list Z, _ |- _ => rewrite H end. split; [split|]; [discriminate|lia|auto].
Qed.
Print Assumptions C17_get_put.

(* the total of non-negative counts is their sum, clamped at INT32_MAX *)
Theorem C17_total : forall l, Forall (fun e => 0 <= ecount e <= 2147483647) l ->
  osmo_use_count_total l = Ok (Z.min (fold_right (fun e a => ecount e + a) 0 l) 2147483647).
Proof. exact total_ok. Qed.
Print Assumptions C17_total.

(* with mixed signs the total is not the clamped sum: the clamping is applied entry by entry *)
Theorem C17_total_mixed_refuted : exists os l rs, Forall op_ok os /\ u_run [] os = Ok (l, rs) /\
  fold_right (fun e a => ecount e + a) 0 l = 2147483647 /\ osmo_use_count_total l = Ok 2147483646.
Proof.
  exists [UGet true None (Some [97]) 2147483647; UGet true None (Some [98]) 1; UGet true None (Some [99]) (-1)].
  eexists _, _. split; [repeat constructor; cbn; lia|]. split; [vm_compute; reflexivity|]. split; vm_compute; reflexivity.
Qed.
Print Assumptions C17_total_mixed_refuted.

(* NULL token together with static entries: the count is not found again *)
Theorem C17_null_token_refuted : exists l r, u_run [] [UStatic 2; UGet true None None 5] = Ok (l, [0; r]) /\
  r = 0 /\ osmo_use_count_by l None = 0.
Proof. eexists _, _. split; [vm_compute; reflexivity|]. split; vm_compute; reflexivity. Qed.
Print Assumptions C17_null_token_refuted.

(* amount INT32_MIN: undefined (negation overflow) when the count is negative *)
Theorem C17_int_min_undefined : forall al cb l s, tab l s < 0 -> get_put al cb l (Some s) (-2147483648) = UB.
Proof.
  intros al cb l s H. unfold get_put. change (-2147483648 =? 0) with false. cbv iota. unfold tab, osmo_use_count_by in H.
  destruct (find l (Some s)) as [n|] eqn:E; [|lia]. replace (ecount (nth n l (En None 0)) =? 0) with false by lia.
  unfold count_safe, neg32, INT32_MIN. change (-2147483648 <? 0) with true. replace (ecount (nth n l (En None 0)) <? 0) with true by lia. reflexivity.
Qed.
Print Assumptions C17_int_min_undefined.

Example C17_nonvacuous :
  let os := [UStatic 1; UGet true None (Some [97]) 2; UGet true (Some 7) (Some [98]) 2147483647; UGet true None (Some [98]) 1;
             UGet true None (Some [97]) (-2); UGet false None (Some [99]) 3; UFree (Some [98])] in
  Forall op_ok os /\
  match u_run [] os with
  | Ok (l, rs) => rs = [0; 0; 7; - ERANGE; 0; 0; 0] /\ map euse l = [Some [99]] /\ osmo_use_count_by l (Some [99]) = 3
  | _ => False end.
Proof. split; [repeat constructor; cbn; lia|]. vm_compute. split; [|split]; reflexivity. Qed.
