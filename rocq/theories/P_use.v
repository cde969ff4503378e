From Verif Require Import Base M_use S_use.

Fixpoint names (l : list entry) : list (list Z) :=
  match l with [] => [] | e :: t => match euse e with Some s => s :: names t | None => names t end end.
Definition wf (l : list entry) : Prop :=
  NoDup (names l) /\ Forall (fun e => fits (ecount e) /\ (euse e = None -> ecount e = 0)) l.
Definition tab (l : list entry) : table := fun s => osmo_use_count_by l (Some s).

Lemma tok_eqb_spec a b : reflect (a = b) (tok_eqb a b).
Proof. unfold tok_eqb. destruct (tok_dec a b); constructor; auto. Qed.

Lemma nodup_ins {A} (s : A) a b : NoDup (a ++ b) -> ~ In s (a ++ b) -> NoDup (a ++ s :: b).
Proof. intros H1 H2. apply (NoDup_Add (a := s) (l := a ++ b)); [apply Add_app|split; auto]. Qed.

Lemma names_app a b : names (a ++ b) = names a ++ names b.
Proof. induction a as [|e a IH]; cbn [names app]; auto. destruct (euse e); rewrite IH; auto. Qed.

Lemma by_cons e l u : osmo_use_count_by (e :: l) u = if tok_eqb (euse e) u then ecount e else osmo_use_count_by l u.
Proof. unfold osmo_use_count_by. cbn [find]. destruct (tok_eqb (euse e) u); [reflexivity|]. destruct (find l u); reflexivity. Qed.

Lemma find_split l u n : find l u = Some n ->
  exists a b, l = a ++ nth n l (En None 0) :: b /\ length a = n /\ euse (nth n l (En None 0)) = u /\ Forall (fun e => euse e <> u) a.
Proof.
  revert n; induction l as [|e l IH]; intros n H; cbn [find] in H; [discriminate|].
  destruct (tok_eqb_spec (euse e) u).
  - injection H as <-. exists [], l. cbn. auto.
  - destruct (find l u) as [m|] eqn:E; [|discriminate]. injection H as <-. destruct (IH m eq_refl) as (a & b & E1 & E2 & E3 & E4).
    exists (e :: a), b. cbn [nth length app]. split; [f_equal; auto|]. split; [lia|]. auto.
Qed.
Lemma find_none l u : find l u = None -> Forall (fun e => euse e <> u) l.
Proof.
  induction l as [|e l IH]; cbn [find]; intros H; auto. destruct (tok_eqb_spec (euse e) u); [discriminate|].
  destruct (find l u); [discriminate|]. auto.
Qed.
Lemma find_zero_split l n : find_zero l = Some n ->
  exists a b, l = a ++ nth n l (En None 0) :: b /\ length a = n /\ ecount (nth n l (En None 0)) = 0.
Proof.
  revert n; induction l as [|e l IH]; intros n H; cbn [find_zero] in H; [discriminate|].
  destruct (Z.eqb_spec (ecount e) 0).
  - injection H as <-. exists [], l. cbn. auto.
  - destruct (find_zero l) as [m|] eqn:E; [|discriminate]. injection H as <-. destruct (IH m eq_refl) as (a & b & E1 & E2 & E3).
    exists (e :: a), b. cbn [nth length app]. split; [f_equal; auto|]. split; [lia|]. auto.
Qed.
Lemma del_app {A} (a : list A) x b : del (a ++ x :: b) (length a) = a ++ b.
Proof. induction a; cbn; auto. f_equal. auto. Qed.
Lemma upd_app (a : list entry) x b y : upd (a ++ x :: b) (length a) y = a ++ y :: b.
Proof. induction a; cbn; auto. f_equal. auto. Qed.

Lemma in_names s l : In s (names l) <-> Exists (fun e => euse e = Some s) l.
Proof.
  induction l as [|e l IH]; cbn [names]. { split; [intros []|inversion 1]. }
  destruct (euse e) as [s0|] eqn:E.
  - cbn [In]. rewrite IH. split.
    + intros [->|H]; [left; auto|right; auto].
    + inversion 1; subst; [left; congruence|right; auto].
  - rewrite IH. split; [right; auto|inversion 1; subst; [congruence|auto]].
Qed.

(* value by token, independent of the order *)
Lemma by_in l s v : NoDup (names l) -> In (En (Some s) v) l -> tab l s = v.
Proof.
  induction l as [|e l IH]; intros ND Hi; [destruct Hi|]. unfold tab. rewrite by_cons. cbn [names] in ND.
  destruct Hi as [->|Hi].
  - cbn [euse ecount]. destruct (tok_eqb_spec (Some s) (Some s)); congruence.
  - destruct (tok_eqb_spec (euse e) (Some s)) as [E|E].
    + exfalso. rewrite E in ND. inversion ND; subst. apply H1. apply in_names. apply Exists_exists. eexists; split; eauto.
    + apply IH; auto. destruct (euse e); auto. inversion ND; auto.
Qed.
Lemma by_notin l s : ~ In s (names l) -> tab l s = 0.
Proof.
  induction l as [|e l IH]; intros H; [reflexivity|]. unfold tab. rewrite by_cons. destruct (tok_eqb_spec (euse e) (Some s)) as [E|E].
  - exfalso. apply H. cbn [names]. rewrite E. left; auto.
  - apply IH. intros Hi. apply H. cbn [names]. destruct (euse e); [right|]; auto.
Qed.

Lemma tab_perm l l' : NoDup (names l) -> NoDup (names l') -> (forall s v, In (En (Some s) v) l <-> In (En (Some s) v) l') -> same (tab l) (tab l').
Proof.
  intros N1 N2 H s. destruct (in_dec (list_eq_dec Z.eq_dec) s (names l)) as [Hi|Hi].
  - apply in_names, Exists_exists in Hi. destruct Hi as ([u v] & Hi & E). cbn in E. subst. rewrite (by_in l s v), (by_in l' s v); auto. apply H; auto.
  - rewrite (by_notin l s); auto. apply by_notin. intros Hi2. apply Hi. apply in_names, Exists_exists in Hi2.
    destruct Hi2 as ([u v] & Hi2 & E). cbn in E. subst. apply H in Hi2. apply in_names, Exists_exists. eexists; split; eauto.
Qed.

Lemma count_safe_ok val add : fits val -> -2147483648 < add <= 2147483647 ->
  (fits (val + add) -> count_safe val add = Ok (true, val + add)) /\
  (~ fits (val + add) -> exists c, count_safe val add = Ok (false, c)).
Proof.
  unfold fits, count_safe, neg32, INT32_MIN, INT32_MAX. intros Hv Ha.
  replace (add =? -2147483648) with false by lia. split; intros H.
  - destruct (Z.ltb_spec add 0), (Z.ltb_spec val 0); cbn [andb bind].
    + replace (val - -2147483648 <? - add) with false by lia. replace (0 <? add) with false by lia. cbn [andb].
      replace ((-2147483648 <=? val + add) && (val + add <=? 2147483647)) with true by lia. auto.
    + replace (0 <? add) with false by lia. cbn [andb]. replace ((-2147483648 <=? val + add) && (val + add <=? 2147483647)) with true by lia. auto.
    + replace (0 <? val) with false by lia. rewrite andb_false_r. cbn [andb]. replace ((-2147483648 <=? val + add) && (val + add <=? 2147483647)) with true by lia. auto.
    + replace (2147483647 - val <? add) with false by lia. rewrite andb_false_r. replace ((-2147483648 <=? val + add) && (val + add <=? 2147483647)) with true by lia. auto.
  - destruct (Z.ltb_spec add 0), (Z.ltb_spec val 0); cbn [andb bind]; try lia.
    + replace (val - -2147483648 <? - add) with true by lia. eauto.
    + replace (0 <? add) with true by lia. replace (0 <? val) with true by lia. replace (2147483647 - val <? add) with true by lia. cbn [andb]. eauto.
Qed.

(* the part of get_put after the entry is chosen: l = a ++ e :: b *)
Lemma finish a e b s change cb : wf (a ++ e :: b) -> euse e = Some s -> -2147483648 < change <= 2147483647 -> change <> 0 ->
  let l := a ++ e :: b in
  exists l' r, (let '(l, n) := if ecount e =? 0 then (del l (length a) ++ [e], (length (del l (length a)))) else (l, length a) in
    do ' (ok, v) <- count_safe (ecount e) change ;;
    if negb ok then Ok (l, - ERANGE)
    else Ok (upd l n (En (euse e) v), match cb with Some rc => rc | None => 0 end)) = Ok (l', r : Z) /\
    wf l' /\
    ((fits (ecount e + change) /\ r = match cb with Some rc => rc | None => 0 end /\ updated (tab l) (tab l') s (ecount e + change)) \/
     (~ fits (ecount e + change) /\ r = - ERANGE /\ same (tab l) (tab l'))).
Proof.
  intros W Es Hc Hc0 l. unfold l in *. clear l. destruct W as [ND F].
  assert (Fe : fits (ecount e)). { rewrite Forall_forall in F. apply F. apply in_or_app. right; left; auto. }
  destruct (count_safe_ok (ecount e) change Fe Hc) as [C1 C2].
  (* after the optional move, the list is some a' ++ e :: b' with the same members *)
  assert (M : exists a' b', (if ecount e =? 0 then (del (a ++ e :: b) (length a) ++ [e], length (del (a ++ e :: b) (length a))) else (a ++ e :: b, length a)) = (a' ++ e :: b', length a') /\
     NoDup (names (a' ++ e :: b')) /\ (forall x, In x (a' ++ e :: b') <-> In x (a ++ e :: b)) /\ (names a' ++ names b' = names a ++ names b)).
  { destruct (ecount e =? 0).
    - exists (a ++ b), []. rewrite del_app. split; auto. split.
      + rewrite names_app in ND. cbn [names] in ND. rewrite Es in ND. rewrite !names_app. cbn [names]. rewrite Es.
        apply NoDup_remove in ND. destruct ND as [N1 N2]. apply nodup_ins; rewrite app_nil_r; auto.
      + split; [|rewrite names_app; cbn [names]; rewrite app_nil_r; auto]. intros x. rewrite !in_app_iff. cbn [In]. tauto.
    - exists a, b. split; auto. split; auto. split; [tauto|auto]. }
  destruct M as (a' & b' & EM & ND' & In' & NM). rewrite EM.
  assert (F' : Forall (fun e => fits (ecount e) /\ (euse e = None -> ecount e = 0)) (a' ++ e :: b')).
  { rewrite Forall_forall in *. intros x Hx. apply F, In', Hx. }
  assert (Eadd : forall y, names (a' ++ En (Some s) y :: b') = names (a' ++ e :: b')) by (intros y; rewrite !names_app; cbn [names euse]; rewrite Es; auto).
  destruct (Z_le_dec (-2147483648) (ecount e + change)) as [L1|L1]; [destruct (Z_le_dec (ecount e + change) 2147483647) as [L2|L2]|].
  - assert (Ft : fits (ecount e + change)) by (split; auto). rewrite (C1 Ft). cbn [bind negb]. rewrite upd_app, Es.
    eexists _, _. split; [reflexivity|]. split.
    { split; [rewrite Eadd; auto|]. rewrite Forall_forall in *. intros x Hx. apply in_app_or in Hx. destruct Hx as [Hx|[<-|Hx]].
      - apply F'. apply in_or_app; auto.
      - cbn. split; [auto|discriminate].
      - apply F'. apply in_or_app; right; right; auto. }
    left. split; auto. split; auto. split.
    + apply by_in; [rewrite Eadd; auto|]. apply in_or_app; right; left; auto.
    + intros x Hx. destruct (in_dec (list_eq_dec Z.eq_dec) x (names (a ++ e :: b))) as [Hi|Hi].
      * apply in_names, Exists_exists in Hi. destruct Hi as ([u v] & Hi & Eu). cbn in Eu. subst.
        rewrite (by_in (a ++ e :: b) x v); auto. apply by_in; [rewrite Eadd; auto|].
        apply In' in Hi. apply in_app_or in Hi. apply in_or_app. destruct Hi as [Hi|[Hi|Hi]]; auto; [|right; right; auto].
        exfalso. subst e. cbn in Es. congruence.
      * rewrite (by_notin (a ++ e :: b)); auto. apply by_notin. rewrite Eadd. intros Hi2. apply Hi.
        apply in_names, Exists_exists in Hi2. destruct Hi2 as (z & Hz & Ez). apply in_names, Exists_exists. exists z. split; auto. apply In'; auto.
  - assert (NF : ~ fits (ecount e + change)) by (unfold fits; lia). destruct (C2 NF) as (c & E). rewrite E. cbn [bind negb].
    eexists _, _. split; [reflexivity|]. split; [split; auto|]. right. split; auto. split; auto. apply tab_perm; auto. intros s0 v0. rewrite In'. tauto.
  - assert (NF : ~ fits (ecount e + change)) by (unfold fits; lia). destruct (C2 NF) as (c & E). rewrite E. cbn [bind negb].
    eexists _, _. split; [reflexivity|]. split; [split; auto|]. right. split; auto. split; auto. apply tab_perm; auto. intros s0 v0. rewrite In'. tauto.
Qed.

Lemma not_in_names l s : Forall (fun e => euse e <> Some s) l -> ~ In s (names l).
Proof. intros F Hi. apply in_names, Exists_exists in Hi. destruct Hi as (e & He & Ee). rewrite Forall_forall in F. apply (F e He); auto. Qed.

Lemma get_put_ok al cb l s change : wf l -> -2147483648 < change <= 2147483647 ->
  exists l' r, get_put al cb l (Some s) change = Ok (l', r) /\ wf l' /\ sp (tab l) (UGet al cb (Some s) change) r (tab l').
Proof.
  intros W Hc. unfold get_put. destruct (Z.eqb_spec change 0).
  { subst. exists l, 0. split; auto. split; auto. constructor. intros x; auto. }
  destruct (find l (Some s)) as [m|] eqn:Ef.
  - destruct (find_split _ _ _ Ef) as (a & b & El & Ea & Eu & _). remember (nth m l (En None 0)) as e eqn:He. rewrite El, <- Ea.
    rewrite El in W. destruct (finish a e b s change cb W Eu Hc n) as (l' & r & E & W' & D). rewrite E. exists l', r. split; auto. split; auto.
    assert (Ts : tab (a ++ e :: b) s = ecount e).
    { apply by_in; [apply W|]. apply in_or_app; right; left. destruct e; cbn in *; congruence. }
    destruct D as [(D1 & -> & D2)|(D1 & -> & D2)].
    + rewrite <- Ts in *. apply sp_get; auto.
    + rewrite <- Ts in *. apply sp_range; auto.
  - pose proof (find_none _ _ Ef) as Nn. pose proof (not_in_names _ _ Nn) as Nin. pose proof (by_notin l s Nin) as T0.
    destruct (find_zero l) as [m|] eqn:Ez.
    + destruct (find_zero_split _ _ Ez) as (a & b & El & Ea & Ec). remember (nth m l (En None 0)) as e eqn:He.
      set (e' := En (Some s) (ecount e)). assert (Eu : upd l m e' = a ++ e' :: b) by (rewrite El, <- Ea; apply upd_app).
      assert (Hn : nth m (upd l m e') (En None 0) = e').
      { rewrite Eu, <- Ea. rewrite app_nth2 by lia. rewrite Nat.sub_diag. reflexivity. }
      rewrite Hn, Eu, <- Ea. destruct W as [ND F].
      assert (W' : wf (a ++ e' :: b)).
      { split.
        - rewrite El in ND, Nin. rewrite names_app in *. cbn [names] in *. replace (euse e') with (Some s) by reflexivity.
          destruct (euse e).
          + apply NoDup_remove in ND. destruct ND as [N1 N2]. apply nodup_ins; auto. intros Hi. apply Nin. apply in_app_or in Hi. apply in_or_app. destruct Hi; [left|right; right]; auto.
          + apply nodup_ins; auto.
        - rewrite El in F. apply Forall_app in F. destruct F as [F1 F2]. inversion F2; subst. apply Forall_app. split; auto. constructor; auto.
          unfold e'. cbn. split; [tauto|discriminate]. }
      destruct (finish a e' b s change cb W' eq_refl Hc n) as (l' & r & E & W2 & D). rewrite E. exists l', r. split; auto. split; auto.
      assert (Ce : ecount e' = 0) by (unfold e'; auto). rewrite Ce in D.
      (* the table does not change by repurposing *)
      assert (Sm : same (tab l) (tab (a ++ e' :: b))).
      { intros x. destruct (list_eq_dec Z.eq_dec x s) as [->|Hne].
        - rewrite T0. apply by_in; [apply W'|]. apply in_or_app; right; left. unfold e'. rewrite Ec. auto.
        - destruct (in_dec (list_eq_dec Z.eq_dec) x (names l)) as [Hi|Hi].
          + apply in_names, Exists_exists in Hi. destruct Hi as ([u v] & Hi & Eux). cbn in Eux. subst u. rewrite (by_in l x v); auto.
            rewrite El in Hi. apply in_app_or in Hi. destruct Hi as [Hi|[Hi|Hi]].
            * apply by_in; [apply W'|]. apply in_or_app; auto.
            * (* the repurposed entry had count 0 *) rewrite Hi in Ec. cbn in Ec. subst v. apply by_notin. rewrite names_app. cbn [names]. replace (euse e') with (Some s) by reflexivity.
              rewrite El in ND. rewrite names_app in ND. cbn [names] in ND. rewrite Hi in ND. cbn [euse] in ND. apply NoDup_remove_2 in ND.
              intros Hi3. apply ND. apply in_app_or in Hi3. apply in_or_app. destruct Hi3 as [Hi3|[Hi3|Hi3]]; auto. congruence.
            * apply by_in; [apply W'|]. apply in_or_app; right; right; auto.
          + rewrite (by_notin l); auto. apply by_notin. intros Hi2. apply Hi. rewrite El. rewrite names_app in *. cbn [names] in *. replace (euse e') with (Some s) in Hi2 by reflexivity.
            apply in_app_or in Hi2. apply in_or_app. destruct Hi2 as [Hi2|[Hi2|Hi2]]; auto; [congruence|]. right. destruct (euse e); [right|]; auto. }
      destruct D as [(D1 & -> & D2)|(D1 & -> & D2)].
      * apply sp_get; auto; rewrite T0; auto. destruct D2 as [D2 D3]. split; auto. intros x Hx. rewrite D3 by auto. apply Sm.
      * apply sp_range; rewrite ?T0; auto. intros x. rewrite D2. apply Sm.
    + destruct al.
      * assert (Hn : nth (length l) (l ++ [En (Some s) 0]) (En None 0) = En (Some s) 0) by (rewrite app_nth2, Nat.sub_diag by lia; reflexivity). rewrite Hn.
        destruct W as [ND F].
        assert (W' : wf (l ++ En (Some s) 0 :: [])).
        { split.
          - rewrite names_app. cbn [names euse]. apply nodup_ins; rewrite app_nil_r; auto.
          - apply Forall_app. split; auto. constructor; auto. cbn. unfold fits. split; [lia|auto]. }
        destruct (finish l (En (Some s) 0) [] s change cb W' eq_refl Hc n) as (l' & r & E & W2 & D). rewrite E. exists l', r. split; auto. split; auto.
        cbn [ecount] in D.
        assert (Sm : same (tab l) (tab (l ++ [En (Some s) 0]))).
        { intros x. destruct (list_eq_dec Z.eq_dec x s) as [->|Hne].
          - rewrite T0. apply by_in; [apply W'|]. apply in_or_app; right; left; auto.
          - destruct (in_dec (list_eq_dec Z.eq_dec) x (names l)) as [Hi|Hi].
            + apply in_names, Exists_exists in Hi. destruct Hi as ([u v] & Hi & Eux). cbn in Eux. subst u. rewrite (by_in l x v); auto.
              apply by_in; [apply W'|]. apply in_or_app; auto.
            + rewrite (by_notin l); auto. apply by_notin. intros Hi2. apply Hi. rewrite names_app in Hi2. cbn [names euse] in Hi2.
              apply in_app_or in Hi2. destruct Hi2 as [Hi2|[Hi2|[]]]; auto. congruence. }
        destruct D as [(D1 & -> & D2)|(D1 & -> & D2)].
        -- apply sp_get; auto; rewrite T0; auto. destruct D2 as [D2 D3]. split; auto. intros x Hx. rewrite D3 by auto. apply Sm.
        -- apply sp_range; rewrite ?T0; auto. intros x. rewrite D2. apply Sm.
      * exists l, (- ENOMEM). split; auto. split; auto. apply sp_nomem; auto. intros x; auto.
Qed.

Lemma free_ok l s : wf l -> wf (free_entry l (Some s)) /\ updated (tab l) (tab (free_entry l (Some s))) s 0.
Proof.
  intros [ND F]. unfold free_entry. destruct (find l (Some s)) as [m|] eqn:Ef.
  - destruct (find_split _ _ _ Ef) as (a & b & El & Ea & Eu & _). remember (nth m l (En None 0)) as e eqn:He. rewrite El, <- Ea, del_app.
    rewrite El in ND, F. assert (ND2 : NoDup (names (a ++ b)) /\ ~ In s (names (a ++ b))).
    { rewrite !names_app in *. cbn [names] in ND. rewrite Eu in ND. apply NoDup_remove in ND. auto. }
    split.
    + split; [apply ND2|]. apply Forall_app in F. destruct F as [F1 F2]. inversion F2; subst. apply Forall_app; auto.
    + split; [apply by_notin; apply ND2|]. intros x Hx. destruct (in_dec (list_eq_dec Z.eq_dec) x (names (a ++ b))) as [Hi|Hi].
      * apply in_names, Exists_exists in Hi. destruct Hi as ([u v] & Hi & Eux). cbn in Eux. subst u. rewrite (by_in (a ++ b) x v); auto; [|apply ND2].
        symmetry. apply by_in; auto. apply in_app_or in Hi. apply in_or_app. destruct Hi; [|right; right]; auto.
      * rewrite (by_notin (a ++ b)); auto. symmetry. apply by_notin. intros Hi2. apply Hi. rewrite !names_app in *. cbn [names] in Hi2. rewrite Eu in Hi2.
        apply in_app_or in Hi2. apply in_or_app. destruct Hi2 as [Hi2|[Hi2|Hi2]]; auto. congruence.
  - split; [split; auto|]. pose proof (not_in_names _ _ (find_none _ _ Ef)). split; [apply by_notin; auto|auto].
Qed.

Lemma static_ok l n : wf l -> wf (make_static l n) /\ same (tab l) (tab (make_static l n)).
Proof.
  intros [ND F]. unfold make_static.
  assert (Nr : names (repeat (En None 0) n) = []) by (induction n; cbn; auto).
  assert (W : wf (l ++ repeat (En None 0) n)).
  { split; [rewrite names_app, Nr, app_nil_r; auto|]. apply Forall_app. split; auto. apply Forall_forall. intros x Hx. apply repeat_spec in Hx. subst. cbn. unfold fits. split; [lia|auto]. }
  split; auto. apply tab_perm; auto; [apply W|]. intros s v. rewrite in_app_iff. split; [auto|]. intros [H|H]; auto. apply repeat_spec in H. discriminate.
Qed.

Lemma run_ok os : forall l, wf l -> Forall op_ok os -> exists l' rs, u_run l os = Ok (l', rs) /\ wf l' /\ sp_run (tab l) os rs (tab l').
Proof.
  induction os as [|o os IH]; intros l W F; cbn [u_run].
  - exists l, []. split; auto. split; auto. constructor. intros x; auto.
  - inversion F as [|? ? Ho F']; subst.
    assert (S : exists l1 r, u_step l o = Ok (l1, r) /\ wf l1 /\ sp (tab l) o r (tab l1)).
    { destruct o as [a cb [s|] c|[s|]|n]; cbn [op_ok] in Ho; try contradiction; cbn [u_step].
      - apply get_put_ok; auto.
      - destruct (free_ok l s W) as [W1 U]. eexists _, _. split; [reflexivity|]. split; auto. constructor; auto.
      - destruct (static_ok l n W) as [W1 U]. eexists _, _. split; [reflexivity|]. split; auto. constructor; auto. }
    destruct S as (l1 & r & E & W1 & S). destruct (IH l1 W1 F') as (l2 & rs & E2 & W2 & S2).
    rewrite E. cbn [bind]. rewrite E2. cbn [bind]. exists l2, (r :: rs). split; auto. split; auto. econstructor; eauto.
Qed.

Definition unique (l : list entry) (s : list Z) : Prop :=
  forall i j, (i < length l)%nat -> (j < length l)%nat -> euse (nth i l (En None 0)) = Some s -> euse (nth j l (En None 0)) = Some s -> i = j.
Lemma names_unique l s : NoDup (names l) -> unique l s.
Proof.
  induction l as [|e l IH]; intros ND i j Hi Hj Ei Ej; [cbn in *; lia|]. cbn [length] in *.
  assert (NDl : NoDup (names l)) by (cbn [names] in ND; destruct (euse e); auto; inversion ND; auto).
  destruct i as [|i], j as [|j]; cbn [nth] in *; auto.
  - exfalso. cbn [names] in ND. rewrite Ei in ND. inversion ND; subst. apply H1. apply in_names, Exists_exists. exists (nth j l (En None 0)). split; auto. apply nth_In. lia.
  - exfalso. cbn [names] in ND. rewrite Ej in ND. inversion ND; subst. apply H1. apply in_names, Exists_exists. exists (nth i l (En None 0)). split; auto. apply nth_In. lia.
  - f_equal. apply IH; auto; lia.
Qed.

Lemma use_history os : Forall op_ok os ->
  exists l rs f, u_run [] os = Ok (l, rs) /\ sp_run (fun _ => 0) os rs f /\
    (forall s, osmo_use_count_by l (Some s) = f s) /\ forall s, unique l s.
Proof.
  intros F. destruct (run_ok os []) as (l & rs & E & W & S); auto. { split; [constructor|constructor]. }
  exists l, rs, (tab l). split; auto. split; [exact S|]. split; [auto|]. intros s. apply names_unique. apply W.
Qed.

Fixpoint csum (l : list entry) : Z := match l with [] => 0 | e :: t => ecount e + csum t end.
Lemma total_loop_ok l : forall t, 0 <= t <= 2147483647 -> Forall (fun e => 0 <= ecount e <= 2147483647) l ->
  total_loop l t = Ok (Z.min (t + csum l) 2147483647).
Proof.
  induction l as [|e l IH]; intros t Ht F; cbn [total_loop csum]. { f_equal. lia. }
  inversion F; subst. assert (0 <= csum l) by (clear -H2; induction H2; cbn [csum]; lia).
  assert (Ec : exists b, count_safe t (ecount e) = Ok (b, Z.min (t + ecount e) 2147483647)).
  { unfold count_safe, INT32_MAX, INT32_MIN. replace (ecount e <? 0) with false by lia. cbn [andb bind].
    destruct (Z.ltb_spec 0 (ecount e)), (Z.ltb_spec 0 t); cbn [andb]; try (replace ((-2147483648 <=? t + ecount e) && (t + ecount e <=? 2147483647)) with true by lia; eexists; do 2 f_equal; lia).
    destruct (Z.ltb_spec (2147483647 - t) (ecount e)); [eexists; do 2 f_equal; lia|].
    replace ((-2147483648 <=? t + ecount e) && (t + ecount e <=? 2147483647)) with true by lia. eexists; do 2 f_equal; lia. }
  destruct Ec as [b Ec]. rewrite Ec. cbn [bind]. rewrite IH by (auto; lia). f_equal. lia.
Qed.
Lemma total_ok l : Forall (fun e => 0 <= ecount e <= 2147483647) l -> osmo_use_count_total l = Ok (Z.min (csum l) 2147483647).
Proof. intros F. unfold osmo_use_count_total. rewrite total_loop_ok by (auto; lia). reflexivity. Qed.
