From Verif Require Import Base M_rbtree S_rbtree P_rbtree.

Fixpoint cl (k : ctx) : list Z := match k with [] => [] | F L _ _ _ :: k => cl k | F Rt _ x s :: k => cl k ++ inorder s ++ [x] end.
Fixpoint cr (k : ctx) : list Z := match k with [] => [] | F L _ x s :: k => x :: inorder s ++ cr k | F Rt _ _ _ :: k => cr k end.
Lemma inorder_cl k : forall t, inorder (plug k t) = cl k ++ inorder t ++ cr k.
Proof.
  induction k as [|[d c x s] k IH]; intros t; cbn [plug cl cr]. { rewrite app_nil_r. auto. }
  destruct d; rewrite IH; cbn [mk inorder]; rewrite <- ?app_assoc; cbn [app]; rewrite <- ?app_assoc; auto.
Qed.

Lemma zip_in t : forall x, In x (inorder t) -> exists k c l r, t = plug k (T c l x r).
Proof.
  induction t as [|c l IHl y r IHr]; intros x H; cbn [inorder] in H; [destruct H|]. apply in_app_or in H. destruct H as [H|[->|H]].
  - destruct (IHl x H) as (k & c0 & l0 & r0 & ->). exists (k ++ [F L c y r]), c0, l0, r0. rewrite plug_app. auto.
  - exists [], c, l, r. auto.
  - destruct (IHr x H) as (k & c0 & l0 & r0 & ->). exists (k ++ [F Rt c y l]), c0, l0, r0. rewrite plug_app. auto.
Qed.
Lemma nodup_split {A} (x : A) a b a' b' : NoDup (a ++ x :: b) -> a ++ x :: b = a' ++ x :: b' -> a = a' /\ b = b'.
Proof.
  revert a'. induction a as [|y a IH]; intros a' N H; destruct a' as [|y' a']; cbn [app] in *.
  - injection H as ->. auto.
  - injection H as -> ->. exfalso. inversion N; subst. apply H1. apply in_or_app. right; left; auto.
  - injection H as -> <-. exfalso. inversion N; subst. apply H1. apply in_or_app. right; left; auto.
  - injection H as -> H. inversion N; subst. destruct (IH a' H3 H). split; congruence.
Qed.

Lemma fuel_plug k t (f : nat) : (length (inorder (plug k t)) <= f)%nat -> (length k + length (inorder t) <= f)%nat.
Proof. rewrite <- !size_inorder. pose proof (size_plug k t). lia. Qed.

(* ---- rb_erase ---- *)
Lemma erase_ok h t x a b fuel : Zp h [] t -> rb_tree t -> inorder t = a ++ x :: b -> (length (inorder t) + 2 <= fuel)%nat ->
  exists h' t', rb_erase fuel h x = Ok h' /\ Zp h' [] t' /\ rb_tree t' /\ inorder t' = a ++ b.
Proof.
  intros H Hrb Hi Hf. pose proof (proj2 (holds_Zp _ _) H) as (_ & _ & ND & _).
  assert (Hin : In x (inorder t)) by (rewrite Hi; apply in_or_app; right; left; auto).
  destruct (zip_in _ _ Hin) as (k & c & l & r & ->).
  assert (Hab : a = cl k ++ inorder l /\ b = inorder r ++ cr k).
  { rewrite inorder_cl in Hi, ND. cbn [inorder] in Hi, ND. apply (nodup_split x); [rewrite <- Hi; exact ND|]. rewrite <- Hi. rewrite <- ?app_assoc. cbn [app]. rewrite <- ?app_assoc. auto. }
  destruct Hab as [-> ->]. apply Zunplug in H. pose proof Hf as Hf1. assert (Hf2 : (length k + length (inorder (T c l x r)) + 2 <= fuel)%nat).
  { rewrite <- !size_inorder in *. pose proof (size_plug k (T c l x r)). lia. } clear Hf1.
  destruct (Zp_get _ _ _ _ _ _ H) as [Gx Hx0]. unfold rb_erase. rewrite Gx. cbn [bind nleft nright npar ncol].
  assert (Al : addr l =? 0 = match l with E => true | _ => false end). { apply (addr_0 (F L c x r :: k)). pose proof (Zmk _ (F L c x r) _ _ H) as Q. apply Q. }
  assert (Ar : addr r =? 0 = match r with E => true | _ => false end). { apply (addr_0 (F Rt c x l :: k)). pose proof (Zmk _ (F Rt c x l) _ _ H) as Q. apply Q. }
  destruct ((addr l =? 0) || (addr r =? 0)) eqn:E1.
  - (* at most one child *)
    set (ch := match l with E => r | _ => l end). assert (Hch : (l = E /\ ch = r) \/ (r = E /\ ch = l)).
    { unfold ch. rewrite Al, Ar in E1. destruct l; [left; auto|]. destruct r; [right; auto|discriminate]. }
    assert (Ec : (if addr l =? 0 then addr r else addr l) = addr ch) by (rewrite Al; unfold ch; destruct l; auto).
    unfold unlink1. cbn [nleft nright npar ncol]. cbv zeta. rewrite Ec. rewrite spo_model. cbn [bind]. rewrite (repl_eq (fun n p => nleft p =? n)) by auto.
    destruct (unlink1_ok h k c l x r ch H Hch) as (h1 & -> & Z1). cbn [bind].
    assert (Hio : inorder (plug k ch) = (cl k ++ inorder l) ++ inorder r ++ cr k).
    { rewrite inorder_cl. destruct Hch as [[-> ->]|[-> ->]]; cbn [inorder]; rewrite <- ?app_assoc; auto. }
    destruct (unplug_rb _ _ Hrb) as (n & Hc & Ht & Hb). destruct c.
    + exists h1, (plug k ch). split; auto. split; [apply Zplug; auto|]. split; auto. apply plug_rb with n; auto.
      * cbn [rb] in Ht. destruct Hch as [[-> ->]|[-> ->]]; tauto.
      * left. cbn [rb] in Ht. destruct Hch as [[-> ->]|[-> ->]]; tauto.
    + cbn [rb] in Ht. destruct n as [|n]; [contradiction|]. destruct (erase_color_ok k ch h1 n fuel) as (h' & t' & E' & Z' & I' & R'); auto; [lia| |].
      * apply rb_rbw. destruct Hch as [[-> ->]|[-> ->]]; tauto.
      * exists h', t'. split; auto. split; auto. split; auto. rewrite I'. auto.
  - assert (Hl : l <> E) by (intros ->; cbn in E1; discriminate). assert (Hr : r <> E) by (intros ->; cbn in E1; rewrite orb_true_r in E1; discriminate).
    destruct (min_split r Hr) as (p & d & y & e & -> & Hp & _).
    assert (Hlp : (length p < fuel)%nat). { rewrite <- !size_inorder in *. cbn [size] in Hf2. pose proof (size_plug p (T d E y e)). cbn [size] in *. lia. }
    destruct (unlink2_ok h k c l x p d y e fuel H Hl Hp Hlp) as (h1 & E2 & Z1). rewrite E2. cbn [bind]. clear E2.
    (* the tree with y in the place of x, focused on the hole *)
    set (K := p ++ F Rt c y l :: k). assert (ZK : Zp h1 K e). { apply Zunplug. unfold K. rewrite plug_app. cbn [plug mk]. apply Zplug. exact Z1. }
    assert (Hio : inorder (plug K e) = (cl k ++ inorder l) ++ inorder (plug p (T d E y e)) ++ cr k).
    { unfold K. rewrite plug_app. cbn [plug mk]. rewrite inorder_cl. cbn [inorder]. rewrite !inorder_cl. cbn [inorder app].
      assert (Q : cl p = []) by (clear - Hp; induction p as [|[[|] ? ? ?] p IH]; cbn in *; tauto). rewrite Q. cbn [app]. repeat (progress (rewrite <- ?app_assoc; cbn [app])). reflexivity. }
    assert (Hrb' : rb_tree (plug (p ++ F Rt c x l :: k) (T d E y e))) by (rewrite plug_app; exact Hrb).
    destruct (unplug_rb _ _ Hrb') as (n & Hc & Ht & Hb). apply (rbc_rename p Rt c x y l k) in Hc. fold K in Hc.
    assert (HlK : (length K + 2 <= fuel)%nat). { unfold K. rewrite app_length. cbn [length]. rewrite <- !size_inorder in *. cbn [size] in Hf2. pose proof (size_plug p (T d E y e)). cbn [size] in *. destruct l; [congruence|]. cbn [size] in *. lia. }
    fold K. destruct d.
    + exists h1, (plug K e). split; auto. split; [apply Zplug; auto|]. split; auto. apply plug_rb with n; cbn [rb] in Ht; tauto.
    + cbn [rb] in Ht. destruct n as [|n]; [contradiction|]. destruct (erase_color_ok K e h1 n fuel) as (h' & t' & E' & Z' & I' & R'); auto. { apply rb_rbw. tauto. }
      exists h', t'. split; auto. split; auto. split; auto. rewrite I'. auto.
Qed.

(* ---- insertion ---- *)
Lemma link_ok h k n : Zp h k E -> n <> 0 -> cntC n k = 0 -> forall lf, (match k with [] => True | F L _ _ _ :: _ => lf = true | F Rt _ _ _ :: _ => lf = false end) ->
  exists h', link_node h n (cid k) lf = Ok h' /\ Zp h' k (T R E n E).
Proof.
  intros (HC & _ & Hk & H0) Hn Hnk lf Hlf. unfold link_node. rewrite modify_nz by auto. cbn [bind]. set (h1 := put h n _).
  assert (Q1 : forall z, z <> n -> mem h1 z = mem h z) by (intros z Hz; unfold h1; apply mem_put_ne; auto).
  assert (M1 : mem h1 n = Nd (cid k) R 0 0) by (unfold h1; apply mem_put_eq).
  assert (Hok : ok k (T R E n E)).
  { split; [intros z; specialize (Hk z)|]; cbn [cnt] in *; [|replace (0 =? n) with false by lia; cbn [b2z]; lia].
    destruct (Z.eqb_spec z n); [subst; cbn [b2z]; lia|cbn [b2z]; lia]. }
  destruct k as [|[d c x s] k]; cbn [cid] in *.
  - exists (set_root h1 n). split; auto. split; [reflexivity|]. split; auto. cbn. auto.
  - assert (Hx0 : x <> 0) by (apply (cid_nz (F d c x s :: k) E); [split; auto|discriminate]).
    replace (x =? 0) with false by lia. cbn [cellsC addr] in HC. destruct HC as (Mx & Cs & Ck).
    cbn [cntC] in Hnk. assert (Hxn : x <> n) by (intros ->; rewrite Z.eqb_refl in Hnk; cbn [b2z] in Hnk; nn n; lia).
    assert (Kx : cnt x s = 0 /\ cntC x k = 0). { specialize (Hk x). cbn [cntC cnt] in Hk. rewrite Z.eqb_refl in Hk. cbn [b2z] in Hk. nn x. lia. } destruct Kx as [Kxs Kxk].
    assert (Kn : cnt n s = 0 /\ cntC n k = 0) by (nn n; lia). destruct Kn as [Kns Knk].
    assert (Fr : forall v, cells (put h1 x v) s x /\ cellsC (put h1 x v) k x).
    { intros v. split; [apply cells_frame with h|apply cellsC_frame with h]; auto; intros z Hz; rewrite mem_put_ne by (intros ->; lia); apply Q1; intros ->; lia. }
    destruct d; subst lf.
    + unfold set_left. rewrite modify_nz by auto. rewrite (Q1 x) by auto. rewrite Mx. cbn [npar ncol nright]. eexists. split; [reflexivity|]. split; [|split; auto].
      * cbn [cellsC addr]. rewrite mem_put_eq. split; auto.
      * cbn [cells cid addr]. rewrite mem_put_ne by auto. auto.
    + unfold set_right. rewrite modify_nz by auto. rewrite (Q1 x) by auto. rewrite Mx. cbn [npar ncol nleft]. eexists. split; [reflexivity|]. split; [|split; auto].
      * cbn [cellsC addr]. rewrite mem_put_eq. split; auto.
      * cbn [cells cid addr]. rewrite mem_put_ne by auto. auto.
Qed.

Lemma descend_ok go h : forall t k fuel lf, Zp h k t -> (size t < fuel)%nat ->
  (match k with [] => True | F L _ _ _ :: _ => lf = true | F Rt _ _ _ :: _ => lf = false end) ->
  exists k2 lf2, descend fuel h go (addr t) (cid k) lf = Ok (cid (k2 ++ k), lf2) /\ plug k2 E = t /\
    (match k2 ++ k with [] => True | F L _ _ _ :: _ => lf2 = true | F Rt _ _ _ :: _ => lf2 = false end) /\
    (forall a b, inorder t = a ++ b -> (forall z, In z a -> go z = false) -> (forall z, In z b -> go z = true) -> cl k2 = a /\ cr k2 = b).
Proof.
  induction t as [|c l IHl x r IHr]; intros k fuel lf H Hf Hlf; (destruct fuel as [|fuel]; [lia|]); cbn [descend].
  - cbn [addr]. exists [], lf. split; auto. split; auto. split; auto. intros a b Hi _ _. cbn [inorder] in Hi. symmetry in Hi. apply app_eq_nil in Hi. destruct Hi; subst; auto.
  - destruct (Zp_get _ _ _ _ _ _ H) as [Gx Hx0]. cbn [addr]. replace (x =? 0) with false by lia. rewrite Gx. cbn [bind nleft nright]. cbn [size] in Hf.
    destruct (go x) eqn:Eg.
    + destruct (IHl (F L c x r :: k) fuel true) as (k2 & lf2 & E2 & P2 & L2 & S2); auto; [apply Zmk; exact H|lia|]. cbn [cid] in E2. rewrite E2.
      exists (k2 ++ [F L c x r]), lf2. rewrite <- app_assoc. cbn [app]. split; auto. split; [rewrite plug_app; cbn [plug mk]; congruence|]. split; auto.
      intros a b Hi Ha Hb. cbn [inorder] in Hi.
      (* x is in b *)
      assert (exists b', b = b' ++ x :: inorder r /\ inorder l = a ++ b').
      { assert (Hnx : ~ In x a) by (intros Q; apply Ha in Q; congruence). clear - Hi Hnx. revert a Hi Hnx. induction (inorder l) as [|z m IH]; intros a Hi Hnx; cbn [app] in Hi.
        - destruct a as [|z a]; [exists []; auto|]. cbn in Hi. injection Hi as -> Hi. exfalso. apply Hnx. left; auto.
        - destruct a as [|z' a]; [exists (z :: m); auto|]. cbn [app] in Hi. injection Hi as -> Hi. destruct (IH a Hi) as (b' & E1 & E2). { intros Q; apply Hnx; right; auto. }
          exists b'. split; auto. cbn. congruence. }
      destruct H0 as (b' & -> & Hl). destruct (S2 a b' Hl Ha) as [Q1 Q2]. { intros z Hz. apply Hb. apply in_or_app. auto. }
      clear - Q1 Q2. subst. split.
      * clear. induction k2 as [|[[|] ? ? ?] k2 IH]; cbn [app cl]; auto. rewrite IH. auto.
      * clear. induction k2 as [|[[|] ? ? ?] k2 IH]; cbn [app cr]; [rewrite app_nil_r; auto| |auto]. rewrite IH. rewrite <- app_assoc. auto.
    + destruct (IHr (F Rt c x l :: k) fuel false) as (k2 & lf2 & E2 & P2 & L2 & S2); auto; [apply Zmk; exact H|lia|]. cbn [cid] in E2. rewrite E2.
      exists (k2 ++ [F Rt c x l]), lf2. rewrite <- app_assoc. cbn [app]. split; auto. split; [rewrite plug_app; cbn [plug mk]; congruence|]. split; auto.
      intros a b Hi Ha Hb. cbn [inorder] in Hi.
      assert (exists a', a = inorder l ++ x :: a' /\ inorder r = a' ++ b).
      { assert (Hnx : ~ In x b) by (intros Q; apply Hb in Q; congruence). clear - Hi Hnx. revert a Hi. induction (inorder l) as [|z m IH]; intros a Hi; cbn [app] in *.
        - destruct a as [|z a]; [cbn in Hi; subst b; exfalso; apply Hnx; left; auto|]. cbn in Hi. injection Hi as -> Hi. exists a. auto.
        - destruct a as [|z' a]. { cbn in Hi. exfalso. apply Hnx. subst b. right. apply in_or_app; right; left; auto. }
          cbn [app] in Hi. injection Hi as -> Hi. destruct (IH a Hi) as (a' & E1 & E2). exists a'. split; auto. congruence. }
      destruct H0 as (a' & -> & Hl). destruct (S2 a' b Hl) as [Q1 Q2]. { intros z Hz. apply Ha. apply in_or_app. right; right; auto. } { auto. }
      clear - Q1 Q2. subst. split.
      * clear. induction k2 as [|[[|] ? ? ?] k2 IH]; cbn [app cl]; auto. rewrite IH. rewrite <- !app_assoc. cbn [app]. auto.
      * clear. induction k2 as [|[[|] ? ? ?] k2 IH]; cbn [app cr]; auto. rewrite IH. auto.
Qed.

Lemma insert_color_ok h k n fuel : Zp h k (T R E n E) -> rb_tree (plug k E) -> (length k < fuel)%nat ->
  exists h' t', rb_insert_color fuel h n = Ok h' /\ Zp h' [] t' /\ rb_tree t' /\ inorder t' = cl k ++ n :: cr k.
Proof.
  intros H Hrb Hf. destruct (unplug_rb _ _ Hrb) as (m & Hc & Hm & _). cbn [rb] in Hm. subst m.
  destruct (insert_loop_ok (length k) k E n E h O fuel) as (h1 & t1 & E1 & Z1 & I1 & m & R1); auto. { cbn. tauto. }
  unfold rb_insert_color. rewrite E1. cbn [bind]. rewrite (root_addr _ _ Z1).
  destruct t1 as [|c l x r]. { exfalso. rewrite inorder_cl in I1. cbn [inorder app] in I1. destruct (cl k); discriminate. }
  cbn [addr]. destruct (set_color_ok _ _ _ _ _ _ B Z1) as (h2 & -> & Z2). exists h2, (T B l x r). split; auto. split; auto. split.
  - split; [exact I|]. destruct c; cbn [rb] in R1; [exists (S m); cbn [rb]; tauto|exists m; exact R1].
  - rewrite inorder_cl in I1. cbn [inorder app] in *. rewrite I1. auto.
Qed.

Lemma insert_ok h t go n fuel : Zp h [] t -> rb_tree t -> n <> 0 -> ~ In n (inorder t) -> (length (inorder t) + 1 < fuel)%nat ->
  exists h' t' a b, insert_by fuel h go n = Ok h' /\ Zp h' [] t' /\ rb_tree t' /\ inorder t = a ++ b /\ inorder t' = a ++ n :: b /\
    forall a2 b2, inorder t = a2 ++ b2 -> (forall z, In z a2 -> go z = false) -> (forall z, In z b2 -> go z = true) -> a = a2 /\ b = b2.
Proof.
  intros H Hrb Hn Hnin Hf. unfold insert_by. rewrite (root_addr _ _ H). change 0 with (cid []) at 1. rewrite <- size_inorder in Hf.
  destruct (descend_ok go h t [] fuel false H) as (k & lf & E2 & P2 & L2 & S2); [lia|auto|]. rewrite app_nil_r in *. rewrite E2. cbn [bind].
  subst t. apply Zunplug in H.
  assert (Hcn : cntC n k = 0). { rewrite <- cnt_in in Hnin. rewrite cnt_plug in Hnin. cbn [cnt] in Hnin. nn n. lia. }
  destruct (link_ok h k n H Hn Hcn lf L2) as (h1 & -> & Z1). cbn [bind].
  destruct (insert_color_ok h1 k n fuel Z1 Hrb) as (h2 & t2 & -> & Z2 & R2 & I2). { pose proof (size_plug k E). lia. }
  exists h2, t2, (cl k), (cr k). split; auto. split; auto. split; auto. split; [rewrite inorder_cl; auto|]. split; auto.
Qed.

(* ---- first, last, next, prev ---- *)
Fixpoint allR (k : ctx) : Prop := match k with [] => True | F Rt _ _ _ :: k => allR k | _ => False end.
Lemma max_split t : t <> E -> exists k d y e, t = plug k (T d e y E) /\ allR k.
Proof.
  induction t as [|c l _ x r IHr]; intros H; [congruence|]. destruct r as [|cr0 lr xr rr].
  - exists [], c, x, l. split; [reflexivity|]. exact I.
  - destruct (IHr ltac:(discriminate)) as (k & d & y & e & Ht & Ha). exists (k ++ [F Rt c x l]), d, y, e.
    rewrite plug_app. cbn [plug mk]. rewrite <- Ht. split; auto. clear - Ha. induction k as [|[[|] cc xx ss] k IH]; cbn in *; auto.
Qed.
Lemma rightmost_ok h c k : forall d y e b fuel, allR k -> cells h (plug k (T d e y E)) b -> cnt 0 (plug k (T d e y E)) = 0 -> (length k < fuel)%nat -> c = addr (plug k (T d e y E)) ->
  rightmost fuel h c = Ok y.
Proof.
  remember (length k) as m eqn:Em. revert k c Em. induction m as [|m IH]; intros k c Em d y e b fuel Ha Hc H0 Hf ->.
  - destruct k; [|discriminate]. destruct fuel as [|fuel]; [lia|]. cbn [plug addr cells cnt] in *. destruct Hc as (Hy & _). cbn [rightmost].
    assert (y <> 0) by (intros ->; rewrite Z.eqb_refl in H0; cbn [b2z] in H0; nn 0; lia). rewrite get_nz by auto. rewrite Hy. reflexivity.
  - destruct (exists_last (l := k) ltac:(intros ->; discriminate)) as (k' & [d0 c0 x0 s0] & ->). rewrite app_length in Em. cbn in Em.
    assert (Ha' : allR k' /\ d0 = Rt). { clear - Ha. induction k' as [|[[|] cc xx ss] k' IH]; cbn in *; [destruct d0; tauto|tauto|auto]. } destruct Ha' as [Ha' ->].
    rewrite plug_app in *. cbn [plug mk] in *. cbn [addr cells cnt] in *. destruct Hc as (Hx & Hl & Hr). destruct fuel as [|fuel]; [lia|]. cbn [rightmost].
    assert (x0 <> 0) by (intros ->; rewrite Z.eqb_refl in H0; cbn [b2z] in H0; nn 0; lia). rewrite get_nz by auto. rewrite Hx. cbn [bind nright].
    assert (addr (plug k' (T d e y E)) <> 0). { intros Eb. assert (A : 1 <= cnt (addr (plug k' (T d e y E))) (plug k' (T d e y E))) by (apply addr_cnt, plug_ne; discriminate). rewrite Eb in A. nn 0. lia. }
    replace (addr (plug k' (T d e y E)) =? 0) with false by lia. apply IH with (k := k') (d := d) (e := e) (b := x0); auto; try lia. nn 0. lia.
Qed.
Lemma cl_allL k : allL k -> cl k = [].
Proof. induction k as [|[[|] ? ? ?] k IH]; cbn; tauto. Qed.
Lemma cr_allR k : allR k -> cr k = [].
Proof. induction k as [|[[|] ? ? ?] k IH]; cbn; tauto. Qed.

(* the first and last element of a list, 0 if empty *)
Lemma leftmost_hd h t b fuel : cells h t b -> cnt 0 t = 0 -> t <> E -> (length (inorder t) < fuel)%nat -> leftmost fuel h (addr t) = Ok (hd 0 (inorder t)).
Proof.
  intros Hc H0 Hne Hf. destruct (min_split t Hne) as (k & d & y & e & -> & Ha & _). rewrite inorder_cl, (cl_allL _ Ha). cbn [inorder app hd].
  eapply leftmost_ok; eauto. pose proof (fuel_plug k (T d E y e) _ (Nat.le_refl _)). lia.
Qed.
Lemma rightmost_last h t b fuel : cells h t b -> cnt 0 t = 0 -> t <> E -> (length (inorder t) < fuel)%nat -> rightmost fuel h (addr t) = Ok (last (inorder t) 0).
Proof.
  intros Hc H0 Hne Hf. destruct (max_split t Hne) as (k & d & y & e & -> & Ha). rewrite inorder_cl, (cr_allR _ Ha). cbn [inorder]. rewrite app_nil_r, app_assoc, last_last.
  eapply rightmost_ok; eauto. pose proof (fuel_plug k (T d e y E) _ (Nat.le_refl _)). lia.
Qed.

Lemma first_ok h t fuel : Zp h [] t -> (length (inorder t) < fuel)%nat -> rb_first fuel h = Ok (hd 0 (inorder t)).
Proof.
  intros H Hf. unfold rb_first. rewrite (root_addr _ _ H), (addr_0 [] t) by apply H. destruct t as [|c l x r] eqn:Et; auto. rewrite <- Et in *.
  destruct H as (_ & Hc & _ & H0). eapply leftmost_hd; eauto. subst; discriminate.
Qed.
Lemma last_ok h t fuel : Zp h [] t -> (length (inorder t) < fuel)%nat -> rb_last fuel h = Ok (last (inorder t) 0).
Proof.
  intros H Hf. unfold rb_last. rewrite (root_addr _ _ H), (addr_0 [] t) by apply H. destruct t as [|c l x r] eqn:Et; auto. rewrite <- Et in *.
  destruct H as (_ & Hc & _ & H0). eapply rightmost_last; eauto. subst; discriminate.
Qed.

Lemma up_next_ok h k : forall t fuel, Zp h k t -> t <> E -> (length k < fuel)%nat -> up_next fuel h (addr t) = Ok (hd 0 (cr k)).
Proof.
  induction k as [|[d c p s] k IH]; intros t fuel H Hne Hf; (destruct fuel as [|fuel]; [lia|]); cbn [up_next]; (destruct t as [|ct l x r] eqn:Et; [congruence|]); destruct (Zp_get _ _ _ _ _ _ H) as [G Hx0]; cbn [addr]; rewrite G; cbn [bind npar cid].
  - reflexivity.
  - pose proof (mkZ _ _ _ _ H) as H1. destruct d; cbn [mk] in H1; destruct (Zp_get _ _ _ _ _ _ H1) as [Gp Hp0]; replace (p =? 0) with false by lia; rewrite Gp; cbn [bind nright].
    + pose proof (sib_ne _ _ _ _ _ _ H1 ltac:(discriminate)) as Q. cbn [addr] in Q. replace (x =? addr s) with false by lia. cbn [cr hd]. auto.
    + cbn [addr]. rewrite Z.eqb_refl. cbn [cr]. apply (IH (T c s p (T ct l x r)) fuel H1); [discriminate|cbn [length] in Hf; lia].
Qed.
Lemma up_prev_ok h k : forall t fuel, Zp h k t -> t <> E -> (length k < fuel)%nat -> up_prev fuel h (addr t) = Ok (last (cl k) 0).
Proof.
  induction k as [|[d c p s] k IH]; intros t fuel H Hne Hf; (destruct fuel as [|fuel]; [lia|]); cbn [up_prev]; (destruct t as [|ct l x r] eqn:Et; [congruence|]); destruct (Zp_get _ _ _ _ _ _ H) as [G Hx0]; cbn [addr]; rewrite G; cbn [bind npar cid].
  - reflexivity.
  - pose proof (mkZ _ _ _ _ H) as H1. destruct d; cbn [mk] in H1; destruct (Zp_get _ _ _ _ _ _ H1) as [Gp Hp0]; replace (p =? 0) with false by lia; rewrite Gp; cbn [bind nleft].
    + cbn [addr]. rewrite Z.eqb_refl. cbn [cl]. apply (IH (T c (T ct l x r) p s) fuel H1); [discriminate|cbn [length] in Hf; lia].
    + pose proof (sib_ne' _ _ _ _ _ _ H1 ltac:(discriminate)) as Q. cbn [addr] in Q. replace (x =? addr s) with false by lia. cbn [cl]. rewrite app_assoc, last_last. auto.
Qed.

Lemma zip_split h t x a b : Zp h [] t -> inorder t = a ++ x :: b -> exists k c l r, t = plug k (T c l x r) /\ a = cl k ++ inorder l /\ b = inorder r ++ cr k.
Proof.
  intros H Hi. pose proof (proj2 (holds_Zp _ _) H) as (_ & _ & ND & _).
  assert (Hin : In x (inorder t)) by (rewrite Hi; apply in_or_app; right; left; auto).
  destruct (zip_in _ _ Hin) as (k & c & l & r & ->). exists k, c, l, r. split; auto.
  rewrite inorder_cl in Hi, ND. cbn [inorder] in Hi, ND. apply (nodup_split x); [rewrite <- Hi; exact ND|]. rewrite <- Hi. rewrite <- ?app_assoc. cbn [app]. rewrite <- ?app_assoc. auto.
Qed.
Lemma hd_app {A} (d : A) a b : a <> [] -> hd d (a ++ b) = hd d a.
Proof. destruct a; auto. congruence. Qed.
Lemma last_app {A} (d : A) a b : b <> [] -> last (a ++ b) d = last b d.
Proof. intros H. destruct (exists_last H) as (b' & x & ->). rewrite app_assoc, !last_last. auto. Qed.
Lemma inorder_ne t : t <> E -> inorder t <> [].
Proof. destruct t; [congruence|]. cbn [inorder]. destruct (inorder t1); discriminate. Qed.

Lemma next_ok h t x a b fuel : Zp h [] t -> inorder t = a ++ x :: b -> (length (inorder t) < fuel)%nat -> rb_next fuel h x = Ok (hd 0 b).
Proof.
  intros H Hi Hf. destruct (zip_split _ _ _ _ _ H Hi) as (k & c & l & r & -> & -> & ->). pose proof (fuel_plug k (T c l x r) _ (Nat.le_refl _)) as Hl.
  apply Zunplug in H. unfold rb_next. destruct (Zp_get _ _ _ _ _ _ H) as [G Hx0]. rewrite G. cbn [bind npar nright].
  assert (Hcx : cid k =? x = false). { destruct k as [|f k]; [cbn [cid]; lia|]. pose proof (nz_ne _ _ _ _ _ _ _ H). lia. } rewrite Hcx.
  pose proof (Zmk _ (F Rt c x l) _ _ H) as Hr. rewrite (addr_0 (F Rt c x l :: k) r) by apply Hr. cbn [inorder] in Hl. rewrite app_length in Hl. cbn [length] in Hl.
  destruct r as [|cr0 lr xr rr] eqn:Er.
  - cbn [inorder app]. apply (up_next_ok h k (T c l x E) fuel H); [discriminate|lia].
  - rewrite <- Er in *. rewrite hd_app by (apply inorder_ne; subst; discriminate). destruct Hr as (_ & Hc & _ & H0). eapply leftmost_hd; eauto. { nn 0. lia. } { subst; discriminate. } lia.
Qed.
Lemma prev_ok h t x a b fuel : Zp h [] t -> inorder t = a ++ x :: b -> (length (inorder t) < fuel)%nat -> rb_prev fuel h x = Ok (last a 0).
Proof.
  intros H Hi Hf. destruct (zip_split _ _ _ _ _ H Hi) as (k & c & l & r & -> & -> & ->). pose proof (fuel_plug k (T c l x r) _ (Nat.le_refl _)) as Hl.
  apply Zunplug in H. unfold rb_prev. destruct (Zp_get _ _ _ _ _ _ H) as [G Hx0]. rewrite G. cbn [bind npar nleft].
  assert (Hcx : cid k =? x = false). { destruct k as [|f k]; [cbn [cid]; lia|]. pose proof (nz_ne _ _ _ _ _ _ _ H). lia. } rewrite Hcx.
  pose proof (Zmk _ (F L c x r) _ _ H) as Hr. rewrite (addr_0 (F L c x r :: k) l) by apply Hr. cbn [inorder] in Hl. rewrite app_length in Hl. cbn [length] in Hl.
  destruct l as [|cr0 lr xr rr] eqn:Er.
  - cbn [inorder]. rewrite app_nil_r. apply (up_prev_ok h k (T c E x r) fuel H); [discriminate|lia].
  - rewrite <- Er in *. rewrite last_app by (apply inorder_ne; subst; discriminate). destruct Hr as (_ & Hc & _ & H0). eapply rightmost_last; eauto. { nn 0. lia. } { subst; discriminate. } lia.
Qed.

(* ---- height ---- *)
Lemma height_nn t : 0 <= height t. Proof. induction t; cbn [height]; lia. Qed.
Lemma rb_height t : forall n, rb t n -> height t <= 2 * Z.of_nat n + (if red t then 1 else 0).
Proof.
  induction t as [|c l IHl x r IHr]; intros n H; cbn [height]; [cbn [red]; lia|]. destruct c; cbn [rb red] in *.
  - destruct H as (Hl & Hr & Bl & Br). specialize (IHl n Hl). specialize (IHr n Hr).
    replace (red l) with false in IHl by (destruct l as [|[|] ? ? ?]; auto; contradiction). replace (red r) with false in IHr by (destruct r as [|[|] ? ? ?]; auto; contradiction). lia.
  - destruct n as [|n]; [contradiction|]. destruct H as (Hl & Hr). specialize (IHl n Hl). specialize (IHr n Hr). destruct (red l), (red r); lia.
Qed.
Lemma rb_size t : forall n, rb t n -> 2 ^ Z.of_nat n <= Z.of_nat (size t) + 1.
Proof.
  induction t as [|c l IHl x r IHr]; intros n H; cbn [size]. { cbn [rb] in H. subst. cbn. lia. }
  destruct c; cbn [rb] in H.
  - destruct H as (Hl & Hr & _). specialize (IHl n Hl). lia.
  - destruct n as [|n]; [contradiction|]. destruct H as (Hl & Hr). specialize (IHl n Hl). specialize (IHr n Hr). rewrite Nat2Z.inj_succ, Z.pow_succ_r by lia. lia.
Qed.
Lemma rb_log t : rb_tree t -> height t <= 2 * Z.log2 (zlen (inorder t) + 1).
Proof.
  intros (Hb & n & H). pose proof (rb_height t n H) as Hh. replace (red t) with false in Hh by (destruct t as [|[|] ? ? ?]; auto; contradiction).
  pose proof (rb_size t n H) as Hs. rewrite size_inorder in Hs. unfold zlen. assert (Z.of_nat n <= Z.log2 (Z.of_nat (length (inorder t)) + 1)); [|lia].
  apply Z.log2_le_pow2; lia.
Qed.

(* ---- rb_replace_node ---- *)
Lemma replace_ok h k c l x r n : Zp h k (T c l x r) -> n <> 0 -> cntC n k + cnt n (T c l x r) = 0 ->
  exists h', rb_replace_node h x n = Ok h' /\ Zp h' k (T c l n r).
Proof.
  intros (HC & HT & Hok) Hn Hnc. pose proof Hok as [Hk H0]. cbn [cells addr cnt] in *. destruct HT as (Mx & Cl & Cr).
  assert (Hx0 : x <> 0) by (intros ->; rewrite Z.eqb_refl in H0; cbn [b2z] in H0; nn 0; lia).
  assert (Kx : cntC x k = 0 /\ cnt x l = 0 /\ cnt x r = 0). { pose proof (Hk x) as Q. rewrite Z.eqb_refl in Q. cbn [b2z] in Q. nn x. lia. } destruct Kx as (Kxk & Kxl & Kxr).
  assert (Kn : cntC n k = 0 /\ cnt n l = 0 /\ cnt n r = 0 /\ n <> x). { nn n. split; [lia|]. split; [lia|]. split; [lia|]. intros ->. rewrite Z.eqb_refl in Hnc. cbn [b2z] in Hnc. lia. }
  destruct Kn as (Knk & Knl & Knr & Hnx).
  assert (Al : l <> E -> addr l <> 0 /\ addr l <> x /\ addr l <> n /\ cntC (addr l) k = 0 /\ cnt (addr l) r = 0).
  { intros Hne. pose proof (addr_cnt l Hne) as A. pose proof (Hk (addr l)) as Q. nn (addr l). split; [intros X; rewrite X in *; nn 0; lia|]. split; [intros X; rewrite X in *; lia|]. split; [intros X; rewrite X in *; lia|]. lia. }
  assert (Ar : r <> E -> addr r <> 0 /\ addr r <> x /\ addr r <> n /\ cntC (addr r) k = 0 /\ cnt (addr r) l = 0).
  { intros Hne. pose proof (addr_cnt r Hne) as A. pose proof (Hk (addr r)) as Q. nn (addr r). split; [intros X; rewrite X in *; nn 0; lia|]. split; [intros X; rewrite X in *; lia|]. split; [intros X; rewrite X in *; lia|]. lia. }
  assert (El : l = E \/ l <> E) by (destruct l; [left; auto|right; discriminate]). assert (Er : r = E \/ r <> E) by (destruct r; [left; auto|right; discriminate]).
  unfold rb_replace_node. rewrite get_nz by auto. rewrite Mx. cbn [bind npar].
  assert (RE : (if cid k =? 0 then Ok (set_root h n) else do p <- get h (cid k);; (if x =? nleft p then set_left h (cid k) n else set_right h (cid k) n)) = repl (fun n p => n =? nleft p) h (cid k) x n) by reflexivity.
  rewrite RE. destruct (repl_ok (fun n p => n =? nleft p) h k x n (T c l x r)) as (h1 & -> & C1 & M1); auto; try (intros; subst; lia). cbn [bind].
  assert (Q1 : forall z, cntC z k = 0 -> mem h1 z = mem h z).
  { intros z Hz. apply M1. destruct k as [|f k]; [cbn [cid]; destruct (Z.eq_dec z 0); auto|left]. intros ->. pose proof (cid_cnt (f :: k) ltac:(discriminate)). lia. }
  rewrite (get_nz h1 x) by auto. rewrite (Q1 x), Mx by auto. cbn [bind nleft]. rewrite spo_model. cbn [bind]. remember (spo h1 (addr l) n) as h2 eqn:E2.
  assert (Q2 : forall z, l = E \/ z <> addr l -> mem h2 z = mem h1 z). { intros z [-> |Hz]; rewrite E2; [reflexivity|apply spo_ne; auto]. }
  assert (Dl : forall z, z = x \/ z = n \/ 1 <= cntC z k \/ 1 <= cnt z r -> l = E \/ z <> addr l).
  { intros z Hz. destruct El as [?|X]; [auto|right]. destruct (Al X) as (A1 & A2 & A3 & A4 & A5). intros ->. destruct Hz as [?|[?|[?|?]]]; try congruence; lia. }
  assert (Dr : forall z, z = x \/ z = n \/ 1 <= cntC z k \/ 1 <= cnt z l -> r = E \/ z <> addr r).
  { intros z Hz. destruct Er as [?|X]; [auto|right]. destruct (Ar X) as (A1 & A2 & A3 & A4 & A5). intros ->. destruct Hz as [?|[?|[?|?]]]; try congruence; lia. }
  rewrite (get_nz h2 x) by auto. rewrite (Q2 x) by (apply Dl; auto). rewrite (Q1 x), Mx by auto. cbn [bind nright]. rewrite spo_model. cbn [bind]. remember (spo h2 (addr r) n) as h3 eqn:E3.
  assert (Q3 : forall z, r = E \/ z <> addr r -> mem h3 z = mem h2 z). { intros z [-> |Hz]; rewrite E3; [reflexivity|apply spo_ne; auto]. }
  rewrite (get_nz h3 x) by auto. rewrite (Q3 x) by (apply Dr; auto). rewrite (Q2 x) by (apply Dl; auto). rewrite (Q1 x), Mx by auto. cbn [bind]. rewrite modify_nz by auto.
  eexists. split; [reflexivity|]. set (h4 := put h3 n _). assert (Q4 : forall z, z <> n -> mem h4 z = mem h3 z) by (intros z Hz; unfold h4; apply mem_put_ne; auto).
  split; [|split].
  - cbn [addr]. apply cellsC_frame with h1; auto. { unfold h4. cbn [put root]. rewrite E3, spo_root, E2, spo_root. auto. }
    intros z Hz. rewrite Q4 by (intros ->; lia). rewrite Q3 by (apply Dr; auto). apply Q2. apply Dl; auto.
  - cbn [cells]. split; [unfold h4; apply mem_put_eq|]. split.
    + apply cells_re with h x; auto.
      * intros z. specialize (Hk z). nn z. lia.
      * intros z Hz Hne. rewrite Q4 by (intros ->; lia). rewrite Q3 by (apply Dr; auto). rewrite Q2 by auto. apply Q1. specialize (Hk z). nn z. lia.
      * intros X. destruct (Al X) as (A1 & A2 & A3 & A4 & A5). rewrite Q4 by auto. rewrite Q3. 2:{ destruct Er as [?|Y]; [auto|right]. intros Q. destruct (Ar Y) as (_ & _ & _ & _ & A6). rewrite <- Q in A6. pose proof (addr_cnt l X). lia. }
        rewrite E2, spo_eq by auto. rewrite Q1; auto.
    + apply cells_re with h x; auto.
      * intros z. specialize (Hk z). nn z. lia.
      * intros z Hz Hne. rewrite Q4 by (intros ->; lia). rewrite Q3 by auto. rewrite Q2 by (apply Dl; auto). apply Q1. specialize (Hk z). nn z. lia.
      * intros X. destruct (Ar X) as (A1 & A2 & A3 & A4 & A5). rewrite Q4 by auto. rewrite E3, spo_eq by auto. rewrite Q2. 2:{ destruct El as [?|Y]; [auto|right]. intros Q. rewrite Q in A5. pose proof (addr_cnt l Y). lia. }
        rewrite Q1; auto.
  - split; cbn [cnt].
    + intros z. specialize (Hk z). destruct (Z.eqb_spec z n) as [->|]; cbn [b2z]; [lia|]. nn z. lia.
    + replace (0 =? n) with false by lia. cbn [b2z]. nn 0. lia.
Qed.

Lemma replace_seq h t x n a b : Zp h [] t -> rb_tree t -> inorder t = a ++ x :: b -> n <> 0 -> ~ In n (inorder t) ->
  exists h' t', rb_replace_node h x n = Ok h' /\ Zp h' [] t' /\ rb_tree t' /\ inorder t' = a ++ n :: b.
Proof.
  intros H Hrb Hi Hn Hnin. destruct (zip_split _ _ _ _ _ H Hi) as (k & c & l & r & -> & -> & ->). apply Zunplug in H.
  destruct (replace_ok h k c l x r n H Hn) as (h' & E' & Z').
  { rewrite <- cnt_in in Hnin. rewrite cnt_plug in Hnin. nn n. lia. }
  exists h', (plug k (T c l n r)). split; auto. split; [apply Zplug; auto|]. split.
  - destruct (unplug_rb _ _ Hrb) as (m & Hc & Ht & Hb). apply plug_rb with m; auto.
  - rewrite inorder_cl. cbn [inorder]. rewrite <- ?app_assoc. cbn [app]. auto.
Qed.

Lemma remove_eq_split (l1 : list Z) x l2 : NoDup (l1 ++ x :: l2) -> forall z, In z (l1 ++ l2) <-> (In z (l1 ++ x :: l2) /\ z <> x).
Proof.
  intros ND z. apply NoDup_remove in ND. destruct ND as [_ Hn]. rewrite !in_app_iff in *. cbn [In]. split.
  - intros H. split; [tauto|]. intros ->. tauto.
  - intros [[?|[?|?]] ?]; auto. congruence.
Qed.
Lemma rb_run_ok fuel : forall os h t set, Zp h [] t -> rb_tree t -> (forall z, In z set <-> In z (inorder t)) -> legal set os ->
  (length (inorder t) + length os + 2 <= fuel)%nat ->
  exists h' t', rb_run fuel h os = Ok h' /\ Zp h' [] t' /\ rb_tree t' /\ seq_run (inorder t) os (inorder t').
Proof.
  induction os as [|o os IH]; intros h t set H Hrb Hset Hl Hf; cbn [rb_run].
  - exists h, t. split; auto. split; auto. split; auto. constructor.
  - cbn [length] in Hf. pose proof (proj2 (holds_Zp _ _) H) as (_ & _ & ND & _). destruct o as [go n|n|v n]; cbn [legal] in Hl; cbn [rb_step].
    + destruct Hl as (Hn & Hnin & Hl). rewrite Hset in Hnin. destruct (insert_ok h t go n fuel H Hrb Hn Hnin) as (h1 & t1 & a & b & -> & Z1 & R1 & I1 & I2 & _); [lia|]. cbn [bind].
      destruct (IH h1 t1 (n :: set) Z1 R1) as (h2 & t2 & E2 & Z2 & R2 & S2); auto.
      { intros z. rewrite I2. cbn [In]. rewrite Hset, I1. rewrite !in_app_iff. cbn [In]. tauto. }
      { rewrite I2. rewrite I1 in Hf. rewrite app_length in *. cbn [length]. lia. }
      exists h2, t2. split; auto. split; auto. split; auto. econstructor; [|exact S2]. rewrite I1, I2. constructor.
    + destruct Hl as (Hin & Hl). rewrite Hset in Hin. destruct (in_split _ _ Hin) as (a & b & I1). destruct (erase_ok h t n a b fuel H Hrb I1) as (h1 & t1 & -> & Z1 & R1 & I2); [lia|]. cbn [bind].
      destruct (IH h1 t1 (remove Z.eq_dec n set) Z1 R1) as (h2 & t2 & E2 & Z2 & R2 & S2); auto.
      { intros z. rewrite I2. rewrite I1 in ND. rewrite (remove_eq_split a n b ND). rewrite <- I1, <- Hset. split; [intros Q; apply in_remove in Q; tauto|intros [? ?]; apply in_in_remove; auto]. }
      { rewrite I2. rewrite I1 in Hf. rewrite app_length in *. cbn [length] in *. lia. }
      exists h2, t2. split; auto. split; auto. split; auto. econstructor; [|exact S2]. rewrite I1, I2. constructor.
    + destruct Hl as (Hin & Hn & Hnin & Hl). rewrite Hset in Hin, Hnin. destruct (in_split _ _ Hin) as (a & b & I1). destruct (replace_seq h t v n a b H Hrb I1 Hn Hnin) as (h1 & t1 & -> & Z1 & R1 & I2). cbn [bind].
      destruct (IH h1 t1 (n :: remove Z.eq_dec v set) Z1 R1) as (h2 & t2 & E2 & Z2 & R2 & S2); auto.
      { intros z. rewrite I2. rewrite I1 in ND. pose proof (remove_eq_split a v b ND z) as Q. rewrite <- I1, <- Hset in Q. cbn [In]. rewrite in_app_iff. cbn [In]. rewrite in_app_iff in Q.
        assert (In z (remove Z.eq_dec v set) <-> In z set /\ z <> v) by (split; [intros X; apply in_remove in X; tauto|intros [? ?]; apply in_in_remove; auto]). tauto. }
      { rewrite I2. rewrite I1 in Hf. rewrite app_length in *. cbn [length] in *. lia. }
      exists h2, t2. split; auto. split; auto. split; auto. econstructor; [|exact S2]. rewrite I1, I2. constructor.
Qed.

(* ---- the same with S_rbtree's vocabulary ---- *)
Lemma history_thm : forall os h fuel, legal [] os -> (length os + 2 <= fuel)%nat ->
  exists h' t, rb_run fuel (empty_root h) os = Ok h' /\ holds h' t /\ rb_tree t /\ seq_run [] os (inorder t) /\ height t <= 2 * Z.log2 (zlen (inorder t) + 1).
Proof.
  intros os h fuel Hl Hf. destruct (rb_run_ok fuel os (empty_root h) E []) as (h' & t & E' & Z' & R' & S'); auto.
  { split; [reflexivity|]. split; [exact I|]. split; cbn; intros; lia. } { split; [exact I|]. exists O. reflexivity. } { cbn. tauto. }
  exists h', t. split; auto. split; [apply holds_Zp; auto|]. split; auto. split; auto. apply rb_log; auto.
Qed.
Lemma insert_thm h t go n fuel : holds h t -> rb_tree t -> n <> 0 -> ~ In n (inorder t) -> (length (inorder t) + 1 < fuel)%nat ->
  exists h' t' a b, insert_by fuel h go n = Ok h' /\ holds h' t' /\ rb_tree t' /\ inorder t = a ++ b /\ inorder t' = a ++ n :: b.
Proof.
  intros H R Hn Hni Hf. destruct (insert_ok h t go n fuel (proj1 (holds_Zp _ _) H) R Hn Hni Hf) as (h' & t' & a & b & Q1 & Q2 & Q3 & Q4 & Q5 & _).
  exists h', t', a, b. rewrite holds_Zp. auto.
Qed.
Fixpoint sorted_by (key : Z -> Z) (l : list Z) : Prop :=
  match l with [] => True | x :: r => (forall y, In y r -> key x <= key y) /\ sorted_by key r end.
Lemma sorted_split key n l : sorted_by key l -> exists a b, l = a ++ b /\ (forall z, In z a -> key z <= key n) /\ (forall z, In z b -> key n < key z) /\
  a = filter (fun z => key z <=? key n) l /\ b = filter (fun z => key n <? key z) l.
Proof.
  induction l as [|x l IH]; intros H. { exists [], []. cbn. intuition. }
  destruct H as [H1 H2]. destruct (Z_le_gt_dec (key x) (key n)).
  - destruct (IH H2) as (a & b & -> & Ha & Hb & Ea & Eb). exists (x :: a), b. cbn [app filter In]. replace (key x <=? key n) with true by lia. replace (key n <? key x) with false by lia.
    split; auto. split; [intros z [<-|Hz]; auto|]. split; auto. split; congruence.
  - exists [], (x :: l). assert (Q : forall z, In z (x :: l) -> key n < key z) by (intros z [<-|Hz]; [lia|specialize (H1 z Hz); lia]). split; auto. split; [intros z []|]. split; auto.
    clear - Q. split.
    + induction (x :: l) as [|y m IH]; auto. cbn [filter]. pose proof (Q y (or_introl eq_refl)). replace (key y <=? key n) with false by lia. apply IH. intros z Hz. apply Q. right; auto.
    + induction (x :: l) as [|y m IH]; auto. cbn [filter]. pose proof (Q y (or_introl eq_refl)). replace (key n <? key y) with true by lia. f_equal. apply IH. intros z Hz. apply Q. right; auto.
Qed.
Lemma insert_sorted_thm h t key n fuel : holds h t -> rb_tree t -> n <> 0 -> ~ In n (inorder t) -> (length (inorder t) + 1 < fuel)%nat -> sorted_by key (inorder t) ->
  exists h' t', insert_by fuel h (fun z => key n <? key z) n = Ok h' /\ holds h' t' /\ rb_tree t' /\ sorted_by key (inorder t') /\
    inorder t' = filter (fun z => key z <=? key n) (inorder t) ++ n :: filter (fun z => key n <? key z) (inorder t).
Proof.
  intros H R Hn Hni Hf Hs. destruct (insert_ok h t (fun z => key n <? key z) n fuel (proj1 (holds_Zp _ _) H) R Hn Hni Hf) as (h' & t' & a & b & Q1 & Q2 & Q3 & Q4 & Q5 & Q6).
  destruct (sorted_split key n _ Hs) as (a2 & b2 & E2 & Ha & Hb & Ea & Eb).
  destruct (Q6 a2 b2 E2) as [-> ->]. { intros z Hz. specialize (Ha z Hz). lia. } { intros z Hz. specialize (Hb z Hz). lia. }
  exists h', t'. rewrite holds_Zp. split; auto. split; auto. split; auto. rewrite Q5. split; [|congruence].
  rewrite E2 in Hs. clear - Hs Ha Hb. induction a2 as [|x a2 IH]; cbn [app sorted_by] in *.
  - split; auto. intros y Hy. specialize (Hb y Hy). lia.
  - destruct Hs as [Hs1 Hs2]. split.
    + intros y Hy. apply in_app_or in Hy. destruct Hy as [Hy|[<-|Hy]]; [apply Hs1; apply in_or_app; auto|apply Ha; left; auto|apply Hs1; apply in_or_app; auto].
    + apply IH; auto. intros z Hz. apply Ha. right; auto.
Qed.
Lemma erase_thm h t x a b fuel : holds h t -> rb_tree t -> inorder t = a ++ x :: b -> (length (inorder t) + 2 <= fuel)%nat ->
  exists h' t', rb_erase fuel h x = Ok h' /\ holds h' t' /\ rb_tree t' /\ inorder t' = a ++ b.
Proof. intros H. apply holds_Zp in H. intros. destruct (erase_ok h t x a b fuel) as (h' & t' & ? & ? & ? & ?); auto. exists h', t'. rewrite holds_Zp. auto. Qed.
Lemma replace_thm h t x n a b : holds h t -> rb_tree t -> inorder t = a ++ x :: b -> n <> 0 -> ~ In n (inorder t) ->
  exists h' t', rb_replace_node h x n = Ok h' /\ holds h' t' /\ rb_tree t' /\ inorder t' = a ++ n :: b.
Proof. intros H. apply holds_Zp in H. intros. destruct (replace_seq h t x n a b) as (h' & t' & ? & ? & ? & ?); auto. exists h', t'. rewrite holds_Zp. auto. Qed.
Lemma walk_thm h t fuel : holds h t -> (length (inorder t) < fuel)%nat ->
  rb_first fuel h = Ok (hd 0 (inorder t)) /\ rb_last fuel h = Ok (last (inorder t) 0) /\
  forall a x b, inorder t = a ++ x :: b -> rb_next fuel h x = Ok (hd 0 b) /\ rb_prev fuel h x = Ok (last a 0).
Proof.
  intros H Hf. apply holds_Zp in H. split; [apply first_ok; auto|]. split; [apply last_ok; auto|]. intros a x b Hi. split; [eapply next_ok; eauto|eapply prev_ok; eauto].
Qed.
