From Verif Require Import Base M_rbtree S_rbtree.

(* ---- counting addresses ---- *)
Fixpoint cnt (z : Z) (t : tree) : Z := match t with E => 0 | T _ l x r => b2z (z =? x) + cnt z l + cnt z r end.
Lemma b2z_nn b : 0 <= b2z b. Proof. destruct b; cbn; lia. Qed.
Lemma cnt_nn z t : 0 <= cnt z t.
Proof. induction t; cbn [cnt]; [lia|]. pose proof (b2z_nn (z =? x)). lia. Qed.

Inductive dir := L | Rt.
Inductive frame := F (d : dir) (c : color) (x : Z) (s : tree).
Definition ctx := list frame.
Definition mk (f : frame) (t : tree) : tree := match f with F L c x s => T c t x s | F Rt c x s => T c s x t end.
Fixpoint plug (k : ctx) (t : tree) : tree := match k with [] => t | f :: k => plug k (mk f t) end.
Definition cid (k : ctx) : Z := match k with [] => 0 | F _ _ x _ :: _ => x end.
Fixpoint cntC (z : Z) (k : ctx) : Z := match k with [] => 0 | F _ _ x s :: k => b2z (z =? x) + cnt z s + cntC z k end.
Lemma cntC_nn z k : 0 <= cntC z k.
Proof. induction k as [|[d c x s] k IH]; cbn [cntC]; [lia|]. pose proof (b2z_nn (z =? x)). pose proof (cnt_nn z s). lia. Qed.
Lemma cnt_plug z k : forall t, cnt z (plug k t) = cntC z k + cnt z t.
Proof. induction k as [|[d c x s] k IH]; intros t; cbn [plug cntC]; [lia|]. rewrite IH. destruct d; cbn [mk cnt]; lia. Qed.

Fixpoint cellsC (h : heap) (k : ctx) (p : Z) : Prop :=
  match k with
  | [] => root h = p
  | F d c x s :: k => mem h x = (match d with L => Nd (cid k) c p (addr s) | Rt => Nd (cid k) c (addr s) p end) /\ cells h s x /\ cellsC h k x
  end.
Definition ok (k : ctx) (t : tree) : Prop := (forall z, cntC z k + cnt z t <= 1) /\ cntC 0 k + cnt 0 t = 0.
Definition Zp (h : heap) (k : ctx) (t : tree) : Prop := cellsC h k (addr t) /\ cells h t (cid k) /\ ok k t.

Lemma Zp_move h f k t : Zp h (f :: k) t <-> Zp h k (mk f t).
Proof.
  unfold Zp, ok. destruct f as [d c x s]. destruct d; cbn [mk cellsC cells cid cntC cnt addr].
  - split; intros (H1 & H2 & H3 & H4); (split; [|split; [|split]]); try tauto; intros; try specialize (H3 z); lia.
  - split; intros (H1 & H2 & H3 & H4); (split; [|split; [|split]]); try tauto; intros; try specialize (H3 z); lia.
Qed.
Lemma Zp_plug h k : forall t, Zp h k t <-> Zp h [] (plug k t).
Proof. induction k as [|f k IH]; intros t; cbn [plug]; [tauto|]. rewrite Zp_move. apply IH. Qed.

Lemma Zplug h k t : Zp h k t -> Zp h [] (plug k t).
Proof. apply Zp_plug. Qed.
Lemma Zunplug h k t : Zp h [] (plug k t) -> Zp h k t.
Proof. apply Zp_plug. Qed.

Lemma cnt_in z t : 1 <= cnt z t <-> In z (inorder t).
Proof.
  induction t; cbn [cnt inorder]. { split; [lia|intros []]. }
  rewrite in_app_iff. cbn [In]. rewrite <- IHt1, <- IHt2. pose proof (cnt_nn z t1). pose proof (cnt_nn z t2).
  destruct (Z.eqb_spec z x); cbn [b2z]; lia.
Qed.
Lemma cnt_occ z t : Z.of_nat (count_occ Z.eq_dec (inorder t) z) = cnt z t.
Proof.
  induction t; cbn [cnt inorder]; [reflexivity|]. rewrite count_occ_app. cbn [count_occ].
  destruct (Z.eq_dec x z), (Z.eqb_spec z x); cbn [b2z]; try lia.
Qed.
Lemma holds_Zp h t : holds h t <-> Zp h [] t.
Proof.
  unfold holds, Zp, ok. cbn [cellsC cid cntC]. rewrite (NoDup_count_occ Z.eq_dec). rewrite <- cnt_in.
  pose proof (cnt_nn 0 t). split.
  - intros (H1 & H2 & H3 & H4). split; auto. split; auto. split; [|lia]. intros z. specialize (H3 z). rewrite <- cnt_occ. lia.
  - intros (H1 & H2 & H3 & H4). split; auto. split; auto. split; [|lia]. intros z. specialize (H3 z). rewrite <- cnt_occ in H3. lia.
Qed.

Lemma cells_frame h h' t : forall p, cells h t p -> (forall z, 1 <= cnt z t -> mem h' z = mem h z) -> cells h' t p.
Proof.
  induction t; intros p H Hf; cbn [cells cnt] in *; auto. destruct H as (H1 & H2 & H3).
  split; [|split].
  - rewrite Hf; auto. rewrite Z.eqb_refl. cbn [b2z]. pose proof (cnt_nn x t1). pose proof (cnt_nn x t2). lia.
  - apply IHt1; auto. intros z Hz. apply Hf. pose proof (b2z_nn (z =? x)). pose proof (cnt_nn z t2). lia.
  - apply IHt2; auto. intros z Hz. apply Hf. pose proof (b2z_nn (z =? x)). pose proof (cnt_nn z t1). lia.
Qed.
Lemma cells_re h h' t p p' : cells h t p -> (forall z, cnt z t <= 1) ->
  (forall z, 1 <= cnt z t -> z <> addr t -> mem h' z = mem h z) ->
  (t <> E -> mem h' (addr t) = Nd p' (ncol (mem h (addr t))) (nleft (mem h (addr t))) (nright (mem h (addr t)))) -> cells h' t p'.
Proof.
  destruct t; intros H Hu Hf Hr; cbn [cells cnt addr] in *; auto. destruct H as (H1 & H2 & H3).
  pose proof (Hu x) as Hx. rewrite Z.eqb_refl in Hx. cbn [b2z] in Hx. pose proof (cnt_nn x t1). pose proof (cnt_nn x t2).
  split; [|split].
  - rewrite Hr by discriminate. rewrite H1. reflexivity.
  - apply cells_frame with h; auto. intros z Hz. apply Hf. { pose proof (b2z_nn (z =? x)). pose proof (cnt_nn z t2). lia. } intros ->. lia.
  - apply cells_frame with h; auto. intros z Hz. apply Hf. { pose proof (b2z_nn (z =? x)). pose proof (cnt_nn z t1). lia. } intros ->. lia.
Qed.
Lemma cellsC_frame h h' k : forall p, cellsC h k p -> root h' = root h -> (forall z, 1 <= cntC z k -> mem h' z = mem h z) -> cellsC h' k p.
Proof.
  induction k as [|[d c x s] k IH]; intros p H Hr Hf; cbn [cellsC cntC] in *; [congruence|]. destruct H as (H1 & H2 & H3).
  split; [|split].
  - rewrite Hf; auto. rewrite Z.eqb_refl. cbn [b2z]. pose proof (cnt_nn x s). pose proof (cntC_nn x k). lia.
  - apply cells_frame with h; auto. intros z Hz. apply Hf. pose proof (b2z_nn (z =? x)). pose proof (cntC_nn z k). lia.
  - apply IH; auto. intros z Hz. apply Hf. pose proof (b2z_nn (z =? x)). pose proof (cnt_nn z s). lia.
Qed.

(* non-negativity of everything about z *)
Ltac nn z := repeat match goal with
  | |- context [cnt z ?t] => lazymatch goal with H : 0 <= cnt z t |- _ => fail | _ => pose proof (cnt_nn z t) end
  | H0 : context [cnt z ?t] |- _ => lazymatch goal with H : 0 <= cnt z t |- _ => fail | _ => pose proof (cnt_nn z t) end
  | |- context [cntC z ?t] => lazymatch goal with H : 0 <= cntC z t |- _ => fail | _ => pose proof (cntC_nn z t) end
  | H0 : context [cntC z ?t] |- _ => lazymatch goal with H : 0 <= cntC z t |- _ => fail | _ => pose proof (cntC_nn z t) end
  | |- context [z =? ?y] => lazymatch goal with H : 0 <= b2z (z =? y) |- _ => fail | _ => pose proof (b2z_nn (z =? y)) end
  | H0 : context [z =? ?y] |- _ => lazymatch goal with H : 0 <= b2z (z =? y) |- _ => fail | _ => pose proof (b2z_nn (z =? y)) end
  end.

Lemma addr_cnt t : t <> E -> 1 <= cnt (addr t) t.
Proof. destruct t; [congruence|]. intros _. cbn [cnt addr]. rewrite Z.eqb_refl. nn x. cbn [b2z] in *. lia. Qed.
Lemma cid_cnt k : k <> [] -> 1 <= cntC (cid k) k.
Proof. destruct k as [|[d c x s] k]; [congruence|]. intros _. cbn [cntC cid]. rewrite Z.eqb_refl. nn x. cbn [b2z] in *. lia. Qed.
Lemma addr_nz k t : ok k t -> t <> E -> addr t <> 0.
Proof. intros [_ H] Ht E0. pose proof (addr_cnt t Ht). rewrite E0 in *. nn 0. lia. Qed.
Lemma cid_nz k t : ok k t -> k <> [] -> cid k <> 0.
Proof. intros [_ H] Ht E0. pose proof (cid_cnt k Ht). rewrite E0 in *. nn 0. lia. Qed.
Lemma addr_0 k t : ok k t -> (addr t =? 0) = match t with E => true | _ => false end.
Proof. intros H. destruct t; auto. pose proof (addr_nz k _ H ltac:(discriminate)). cbn in *. lia. Qed.

(* reading the focus *)
Lemma Zp_get h k c l x r : Zp h k (T c l x r) -> get h x = Ok (Nd (cid k) c (addr l) (addr r)) /\ x <> 0.
Proof.
  intros (H1 & (H2 & _) & H3). pose proof (addr_nz _ _ H3 ltac:(discriminate)) as Hx. cbn in Hx. split; auto.
  unfold get. replace (x =? 0) with false by lia. rewrite H2. auto.
Qed.
Lemma get_nz h n : n <> 0 -> get h n = Ok (mem h n).
Proof. intros. unfold get. replace (n =? 0) with false by lia. auto. Qed.
Lemma modify_nz h n f : n <> 0 -> modify h n f = Ok (put h n (f (mem h n))).
Proof. intros. unfold modify. replace (n =? 0) with false by lia. auto. Qed.
Lemma mem_put_eq h n v : mem (put h n v) n = v.
Proof. cbn. rewrite Z.eqb_refl. auto. Qed.
Lemma mem_put_ne h n v z : z <> n -> mem (put h n v) z = mem h z.
Proof. intros. cbn. replace (z =? n) with false by lia. auto. Qed.

(* the "if parent ... parent->left/right = new else root = new" step, in its three spellings *)
Definition repl (t1 : Z -> node -> bool) (h : heap) (parent n new : Z) : res heap :=
  if parent =? 0 then Ok (set_root h new) else
  do p <- get h parent ;; if t1 n p then set_left h parent new else set_right h parent new.
Lemma repl_ok t1 h k n new u :
  (forall v, nleft v = n -> nright v <> n -> t1 n v = true) -> (forall v, nright v = n -> nleft v <> n -> t1 n v = false) ->
  cellsC h k n -> ok k u -> cntC n k = 0 -> n <> 0 ->
  exists h', repl t1 h (cid k) n new = Ok h' /\ cellsC h' k new /\ forall z, z <> cid k \/ z = 0 -> mem h' z = mem h z.
Proof.
  intros Ta Tb H Hok Hn Hn0. unfold repl. destruct k as [|[d c x s] k]; cbn [cid].
  - exists (set_root h new). split; auto. cbn. auto.
  - pose proof (cid_nz _ _ Hok ltac:(discriminate)) as Hx. cbn [cid] in Hx. replace (x =? 0) with false by lia.
    rewrite get_nz by auto. cbn [bind]. cbn [cellsC] in H. destruct H as (H1 & H2 & H3). rewrite H1.
    cbn [cntC] in Hn. assert (Hs : addr s <> n).
    { intros <-. destruct s as [|cs ls y rs]; [cbn in Hn0; lia|]. pose proof (addr_cnt (T cs ls y rs) ltac:(discriminate)). nn (addr (T cs ls y rs)). lia. }
    assert (Fr : forall v, cells (put h x v) s x /\ cellsC (put h x v) k x).
    { destruct Hok as [Hk _]. specialize (Hk x). cbn [cntC] in Hk. rewrite Z.eqb_refl in Hk. cbn [b2z] in Hk. nn x. intros v. split.
      - apply cells_frame with h; auto. intros z Hz. apply mem_put_ne. intros ->. lia.
      - apply cellsC_frame with h; auto. intros z Hz. apply mem_put_ne. intros ->. lia. }
    destruct d.
    + rewrite Ta by (cbn; auto). unfold set_left. rewrite modify_nz by auto. rewrite H1. eexists. split; [reflexivity|]. split.
      * cbn [cellsC]. rewrite mem_put_eq. cbn. split; [auto|apply Fr].
      * intros z [Hz| ->]; apply mem_put_ne; auto.
    + rewrite Tb by (cbn; auto). unfold set_right. rewrite modify_nz by auto. rewrite H1. eexists. split; [reflexivity|]. split.
      * cbn [cellsC]. rewrite mem_put_eq. cbn. split; [auto|apply Fr].
      * intros z [Hz| ->]; apply mem_put_ne; auto.
Qed.

(* spo: "if (p) rb_set_parent(p, q)" *)
Definition spo (h : heap) (p q : Z) : heap := if p =? 0 then h else put h p (Nd q (ncol (mem h p)) (nleft (mem h p)) (nright (mem h p))).
Lemma spo_ne h p q z : z <> p -> mem (spo h p q) z = mem h z.
Proof. intros. unfold spo. destruct (p =? 0); auto. apply mem_put_ne; auto. Qed.
Lemma spo_eq h p q : p <> 0 -> mem (spo h p q) p = Nd q (ncol (mem h p)) (nleft (mem h p)) (nright (mem h p)).
Proof. intros. unfold spo. replace (p =? 0) with false by lia. apply mem_put_eq. Qed.
Lemma spo_root h p q : root (spo h p q) = root h.
Proof. unfold spo. destruct (p =? 0); auto. Qed.

Lemma ok_distinct k t a b : ok k t -> 1 <= cntC a k -> 1 <= cnt b t -> a <> b.
Proof. intros [H _] Ha Hb ->. specialize (H b). lia. Qed.

(* u <> v by counting: Hk is the "at most once" hypothesis *)
Ltac dst Hk := let He := fresh "He" in intros He;
  match type of He with ?u = ?v =>
    pose proof (Hk v) as Hk'; try rewrite He in *; try rewrite <- He in *; cbn [cntC cnt] in *; rewrite ?Z.eqb_refl in *; cbn [b2z] in *; nn v; nn u; lia end.

Lemma rotate_left_ok h k c a x d b y e : Zp h k (T c a x (T d b y e)) ->
  exists h', rotate_left h x = Ok h' /\ Zp h' k (T d (T c a x b) y e).
Proof.
  intros (HC & HT & Hok). pose proof Hok as [Hk H0]. cbn [cells addr] in HT. destruct HT as (Mx & Ca & My & Cb & Ce). cbn [addr] in HC.
  assert (Kx : forall z, z = x -> cntC z k = 0 /\ cnt z a = 0 /\ cnt z b = 0 /\ cnt z e = 0 /\ b2z (z =? y) = 0).
  { intros z ->. specialize (Hk x). cbn [cnt] in Hk. rewrite Z.eqb_refl in Hk. cbn [b2z] in Hk. nn x. lia. }
  specialize (Kx x eq_refl). destruct Kx as (Kxk & Kxa & Kxb & Kxe & Kxy).
  assert (Ky : cntC y k = 0 /\ cnt y a = 0 /\ cnt y b = 0 /\ cnt y e = 0).
  { pose proof (Hk y) as Hy. cbn [cnt] in Hy. rewrite Z.eqb_refl in Hy. cbn [b2z] in Hy. nn y. lia. }
  destruct Ky as (Kyk & Kya & Kyb & Kye).
  assert (Hxy : x <> y) by (intros ->; rewrite Z.eqb_refl in Kxy; cbn in Kxy; lia).
  cbn [cnt] in H0. assert (Hx0 : x <> 0) by (intros ->; rewrite Z.eqb_refl in H0; cbn [b2z] in H0; nn 0; lia).
  assert (Hy0 : y <> 0) by (intros ->; rewrite Z.eqb_refl in H0; cbn [b2z] in H0; nn 0; lia).
  assert (Hb0 : b <> E -> addr b <> 0 /\ addr b <> x /\ addr b <> y /\ cntC (addr b) k = 0 /\ cnt (addr b) a = 0 /\ cnt (addr b) e = 0).
  { intros Hb. pose proof (addr_cnt b Hb) as Ab. pose proof (Hk (addr b)) as Hkb. cbn [cnt] in Hkb. nn (addr b).
    split; [|split; [|split]]; try (intros Eb; rewrite Eb in *; nn 0; lia). lia. }
  assert (Ek : k <> [] -> cid k <> x /\ cid k <> y /\ cnt (cid k) a = 0 /\ cnt (cid k) b = 0 /\ cnt (cid k) e = 0).
  { intros Hb. pose proof (cid_cnt k Hb) as Ab. pose proof (Hk (cid k)) as Hkb. cbn [cnt] in Hkb. nn (cid k).
    split; [|split]; try (intros Eb; rewrite Eb in *; lia). lia. }
  unfold rotate_left. rewrite (get_nz h x) by auto. rewrite Mx. cbn [bind nright npar]. rewrite (get_nz h y) by auto. rewrite My. cbn [bind nleft].
  unfold set_right at 1. rewrite modify_nz by auto. cbn [bind]. rewrite Mx. cbn [npar ncol nleft]. remember (put h x (Nd (cid k) c (addr a) (addr b))) as h1 eqn:Eh1.
  assert (M1y : mem h1 y = Nd x d (addr b) (addr e)) by (rewrite Eh1, mem_put_ne; auto).
  remember (spo h1 (addr b) x) as h2 eqn:Eh2.
  replace (if addr b =? 0 then Ok h1 else do w <- get h1 y;; set_parent h1 (nleft w) x) with (Ok h2).
  2:{ rewrite Eh2. unfold spo. destruct (Z.eqb_spec (addr b) 0); auto. rewrite get_nz by auto. cbn [bind]. rewrite M1y. cbn [nleft]. unfold set_parent. rewrite modify_nz by auto. auto. }
  cbn [bind]. assert (M2y : mem h2 y = Nd x d (addr b) (addr e)).
  { rewrite Eh2. destruct b as [|cb lb xb rb']; [unfold spo; cbn; auto|]. rewrite spo_ne; auto. destruct (Hb0 ltac:(discriminate)) as (_ & _ & Q & _). auto. }
  unfold set_left at 1. rewrite modify_nz by auto. cbn [bind]. rewrite M2y. cbn [npar ncol nright].
  remember (put h2 y (Nd x d x (addr e))) as h3 eqn:Eh3.
  unfold set_parent at 1. rewrite modify_nz by auto. cbn [bind]. replace (mem h3 y) with (Nd x d x (addr e)) by (rewrite Eh3, mem_put_eq; auto). cbn [ncol nleft nright].
  remember (put h3 y (Nd (cid k) d x (addr e))) as h4 eqn:Eh4.
  (* h4 agrees with h outside x, y, addr b *)
  assert (M4 : forall z, z <> x -> z <> y -> (z <> addr b \/ b = E) -> mem h4 z = mem h z).
  { intros z Z1 Z2 Z3. rewrite Eh4, mem_put_ne, Eh3, mem_put_ne, Eh2 by auto.
    destruct Z3 as [Z3| ->]; [rewrite spo_ne by auto|unfold spo; cbn]; rewrite Eh1, mem_put_ne; auto. }
  assert (M4x : mem h4 x = Nd (cid k) c (addr a) (addr b)).
  { rewrite Eh4, mem_put_ne, Eh3, mem_put_ne, Eh2 by auto. destruct b as [|cb lb xb rb']; [unfold spo; cbn; rewrite Eh1; apply mem_put_eq|].
    rewrite spo_ne by (destruct (Hb0 ltac:(discriminate)) as (_ & Q & _); auto). rewrite Eh1; apply mem_put_eq. }
  assert (M4y : mem h4 y = Nd (cid k) d x (addr e)) by (rewrite Eh4; apply mem_put_eq).
  assert (M4b : b <> E -> mem h4 (addr b) = Nd x (ncol (mem h (addr b))) (nleft (mem h (addr b))) (nright (mem h (addr b)))).
  { intros Hb. destruct (Hb0 Hb) as (Q0 & Q1 & Q2 & _). rewrite Eh4, mem_put_ne, Eh3, mem_put_ne, Eh2, spo_eq by auto. rewrite Eh1, mem_put_ne; auto. }
  assert (R4 : root h4 = root h) by (rewrite Eh4, Eh3; cbn [root put]; rewrite Eh2, spo_root, Eh1; auto).
  clear Eh1 Eh2 Eh3 Eh4 M1y M2y.
  assert (C4 : cellsC h4 k x).
  { apply cellsC_frame with h; auto. intros z Hz. apply M4; try (intros ->; lia). destruct b; [auto|left]. intros ->. destruct (Hb0 ltac:(discriminate)) as (_ & _ & _ & Q & _). lia. }
  destruct (repl_ok (fun n p => n =? nleft p) h4 k x y (T c a x (T d b y e))) as (h5 & E5 & C5 & M5); auto; try (intros; subst; lia).
  unfold repl in E5. rewrite E5. cbn [bind]. unfold set_parent. rewrite modify_nz by auto.
  assert (M5x : mem h5 x = Nd (cid k) c (addr a) (addr b)).
  { rewrite M5; auto. destruct k as [|f k]; [cbn; auto|left]. destruct (Ek ltac:(discriminate)); auto. }
  rewrite M5x. cbn [ncol nleft nright]. eexists. split; [reflexivity|].
  assert (M5' : forall z, cntC z k = 0 -> z <> x -> mem (put h5 x (Nd y c (addr a) (addr b))) z = mem h4 z).
  { intros z Hz Hzx. rewrite mem_put_ne by auto. apply M5. destruct k as [|f k]; [destruct (Z.eq_dec z 0); cbn; auto|left]. intros ->. pose proof (cid_cnt (f :: k) ltac:(discriminate)). lia. }
  split; [|split].
  - cbn [addr]. apply cellsC_frame with h5; auto. intros z Hz. rewrite mem_put_ne; auto. intros ->. lia.
  - cbn [cells addr]. rewrite mem_put_eq. rewrite M5' by auto. rewrite M4y. split; auto. split; [split; auto; split|].
    + apply cells_frame with h; auto. intros z Hz. assert (cntC z k = 0) by (specialize (Hk z); cbn [cnt] in Hk; nn z; lia).
      assert (z <> x) by (intros ->; lia). rewrite M5' by auto. apply M4; auto. { intros ->; lia. }
      destruct b; [auto|left]. intros ->. destruct (Hb0 ltac:(discriminate)) as (_ & _ & _ & _ & Q & _). lia.
    + apply cells_re with h y; auto.
      * intros z. specialize (Hk z). cbn [cnt] in Hk. nn z. lia.
      * intros z Hz Hne. assert (cntC z k = 0) by (specialize (Hk z); cbn [cnt] in Hk; nn z; lia).
        assert (z <> x) by (intros ->; lia). rewrite M5' by auto. apply M4; auto. intros ->; lia.
      * intros Hb. destruct (Hb0 Hb) as (Q0 & Q1 & Q2 & Q3 & _). rewrite M5' by auto. apply M4b; auto.
    + apply cells_frame with h; auto. intros z Hz. assert (cntC z k = 0) by (specialize (Hk z); cbn [cnt] in Hk; nn z; lia).
      assert (z <> x) by (intros ->; lia). rewrite M5' by auto. apply M4; auto. { intros ->; lia. }
      destruct b; [auto|left]. intros ->. destruct (Hb0 ltac:(discriminate)) as (_ & _ & _ & _ & _ & Q). lia.
  - split; cbn [cnt]; intros; try specialize (Hk z); cbn [cnt] in *; lia.
Qed.

Lemma rotate_right_ok h k c a x d b y e : Zp h k (T c (T d e y b) x a) ->
  exists h', rotate_right h x = Ok h' /\ Zp h' k (T d e y (T c b x a)).
Proof.
  intros (HC & HT & Hok). pose proof Hok as [Hk H0]. cbn [cells addr] in HT. destruct HT as (Mx & (My & Ce & Cb) & Ca). cbn [addr] in HC.
  assert (Kx : forall z, z = x -> cntC z k = 0 /\ cnt z a = 0 /\ cnt z b = 0 /\ cnt z e = 0 /\ b2z (z =? y) = 0).
  { intros z ->. specialize (Hk x). cbn [cnt] in Hk. rewrite Z.eqb_refl in Hk. cbn [b2z] in Hk. nn x. lia. }
  specialize (Kx x eq_refl). destruct Kx as (Kxk & Kxa & Kxb & Kxe & Kxy).
  assert (Ky : cntC y k = 0 /\ cnt y a = 0 /\ cnt y b = 0 /\ cnt y e = 0).
  { pose proof (Hk y) as Hy. cbn [cnt] in Hy. rewrite Z.eqb_refl in Hy. cbn [b2z] in Hy. nn y. lia. }
  destruct Ky as (Kyk & Kya & Kyb & Kye).
  assert (Hxy : x <> y) by (intros ->; rewrite Z.eqb_refl in Kxy; cbn in Kxy; lia).
  cbn [cnt] in H0. assert (Hx0 : x <> 0) by (intros ->; rewrite Z.eqb_refl in H0; cbn [b2z] in H0; nn 0; lia).
  assert (Hy0 : y <> 0) by (intros ->; rewrite Z.eqb_refl in H0; cbn [b2z] in H0; nn 0; lia).
  assert (Hb0 : b <> E -> addr b <> 0 /\ addr b <> x /\ addr b <> y /\ cntC (addr b) k = 0 /\ cnt (addr b) a = 0 /\ cnt (addr b) e = 0).
  { intros Hb. pose proof (addr_cnt b Hb) as Ab. pose proof (Hk (addr b)) as Hkb. cbn [cnt] in Hkb. nn (addr b).
    split; [|split; [|split]]; try (intros Eb; rewrite Eb in *; nn 0; lia). lia. }
  assert (Ek : k <> [] -> cid k <> x /\ cid k <> y /\ cnt (cid k) a = 0 /\ cnt (cid k) b = 0 /\ cnt (cid k) e = 0).
  { intros Hb. pose proof (cid_cnt k Hb) as Ab. pose proof (Hk (cid k)) as Hkb. cbn [cnt] in Hkb. nn (cid k).
    split; [|split]; try (intros Eb; rewrite Eb in *; lia). lia. }
  unfold rotate_right. rewrite (get_nz h x) by auto. rewrite Mx. cbn [bind nleft npar]. rewrite (get_nz h y) by auto. rewrite My. cbn [bind nright].
  unfold set_left at 1. rewrite modify_nz by auto. cbn [bind]. rewrite Mx. cbn [npar ncol nright]. remember (put h x (Nd (cid k) c (addr b) (addr a))) as h1 eqn:Eh1.
  assert (M1y : mem h1 y = Nd x d (addr e) (addr b)) by (rewrite Eh1, mem_put_ne; auto).
  remember (spo h1 (addr b) x) as h2 eqn:Eh2.
  replace (if addr b =? 0 then Ok h1 else do w <- get h1 y;; set_parent h1 (nright w) x) with (Ok h2).
  2:{ rewrite Eh2. unfold spo. destruct (Z.eqb_spec (addr b) 0); auto. rewrite get_nz by auto. cbn [bind]. rewrite M1y. cbn [nright]. unfold set_parent. rewrite modify_nz by auto. auto. }
  cbn [bind]. assert (M2y : mem h2 y = Nd x d (addr e) (addr b)).
  { rewrite Eh2. destruct b as [|cb lb xb rb']; [unfold spo; cbn; auto|]. rewrite spo_ne; auto. destruct (Hb0 ltac:(discriminate)) as (_ & _ & Q & _). auto. }
  unfold set_right at 1. rewrite modify_nz by auto. cbn [bind]. rewrite M2y. cbn [npar ncol nleft].
  remember (put h2 y (Nd x d (addr e) x)) as h3 eqn:Eh3.
  unfold set_parent at 1. rewrite modify_nz by auto. cbn [bind]. replace (mem h3 y) with (Nd x d (addr e) x) by (rewrite Eh3, mem_put_eq; auto). cbn [ncol nleft nright].
  remember (put h3 y (Nd (cid k) d (addr e) x)) as h4 eqn:Eh4.
  (* h4 agrees with h outside x, y, addr b *)
  assert (M4 : forall z, z <> x -> z <> y -> (z <> addr b \/ b = E) -> mem h4 z = mem h z).
  { intros z Z1 Z2 Z3. rewrite Eh4, mem_put_ne, Eh3, mem_put_ne, Eh2 by auto.
    destruct Z3 as [Z3| ->]; [rewrite spo_ne by auto|unfold spo; cbn]; rewrite Eh1, mem_put_ne; auto. }
  assert (M4x : mem h4 x = Nd (cid k) c (addr b) (addr a)).
  { rewrite Eh4, mem_put_ne, Eh3, mem_put_ne, Eh2 by auto. destruct b as [|cb lb xb rb']; [unfold spo; cbn; rewrite Eh1; apply mem_put_eq|].
    rewrite spo_ne by (destruct (Hb0 ltac:(discriminate)) as (_ & Q & _); auto). rewrite Eh1; apply mem_put_eq. }
  assert (M4y : mem h4 y = Nd (cid k) d (addr e) x) by (rewrite Eh4; apply mem_put_eq).
  assert (M4b : b <> E -> mem h4 (addr b) = Nd x (ncol (mem h (addr b))) (nleft (mem h (addr b))) (nright (mem h (addr b)))).
  { intros Hb. destruct (Hb0 Hb) as (Q0 & Q1 & Q2 & _). rewrite Eh4, mem_put_ne, Eh3, mem_put_ne, Eh2, spo_eq by auto. rewrite Eh1, mem_put_ne; auto. }
  assert (R4 : root h4 = root h) by (rewrite Eh4, Eh3; cbn [root put]; rewrite Eh2, spo_root, Eh1; auto).
  clear Eh1 Eh2 Eh3 Eh4 M1y M2y.
  assert (C4 : cellsC h4 k x).
  { apply cellsC_frame with h; auto. intros z Hz. apply M4; try (intros ->; lia). destruct b; [auto|left]. intros ->. destruct (Hb0 ltac:(discriminate)) as (_ & _ & _ & Q & _). lia. }
  destruct (repl_ok (fun n p => negb (n =? nright p)) h4 k x y (T c (T d e y b) x a)) as (h5 & E5 & C5 & M5); auto; try (intros; subst; lia).
  unfold repl in E5. assert (X5 : forall p : node, (if x =? nright p then set_right h4 (cid k) y else set_left h4 (cid k) y) = (if negb (x =? nright p) then set_left h4 (cid k) y else set_right h4 (cid k) y)) by (intros p; destruct (x =? nright p); auto).
  replace (do p <- get h4 (cid k);; (if x =? nright p then set_right h4 (cid k) y else set_left h4 (cid k) y)) with (do p <- get h4 (cid k);; (if negb (x =? nright p) then set_left h4 (cid k) y else set_right h4 (cid k) y)) by (destruct (get h4 (cid k)); cbn [bind]; auto). rewrite E5. cbn [bind]. unfold set_parent. rewrite modify_nz by auto.
  assert (M5x : mem h5 x = Nd (cid k) c (addr b) (addr a)).
  { rewrite M5; auto. destruct k as [|f k]; [cbn; auto|left]. destruct (Ek ltac:(discriminate)); auto. }
  rewrite M5x. cbn [ncol nleft nright]. eexists. split; [reflexivity|].
  assert (M5' : forall z, cntC z k = 0 -> z <> x -> mem (put h5 x (Nd y c (addr b) (addr a))) z = mem h4 z).
  { intros z Hz Hzx. rewrite mem_put_ne by auto. apply M5. destruct k as [|f k]; [destruct (Z.eq_dec z 0); cbn; auto|left]. intros ->. pose proof (cid_cnt (f :: k) ltac:(discriminate)). lia. }
  split; [|split].
  - cbn [addr]. apply cellsC_frame with h5; auto. intros z Hz. rewrite mem_put_ne; auto. intros ->. lia.
  - cbn [cells addr]. rewrite mem_put_eq. rewrite M5' by auto. rewrite M4y. split; auto. split; [|split; auto; split].
    + apply cells_frame with h; auto. intros z Hz. assert (cntC z k = 0) by (specialize (Hk z); cbn [cnt] in Hk; nn z; lia).
      assert (z <> x) by (intros ->; lia). rewrite M5' by auto. apply M4; auto. { intros ->; lia. }
      destruct b; [auto|left]. intros ->. destruct (Hb0 ltac:(discriminate)) as (_ & _ & _ & _ & _ & Q). lia.
    + apply cells_re with h y; auto.
      * intros z. specialize (Hk z). cbn [cnt] in Hk. nn z. lia.
      * intros z Hz Hne. assert (cntC z k = 0) by (specialize (Hk z); cbn [cnt] in Hk; nn z; lia).
        assert (z <> x) by (intros ->; lia). rewrite M5' by auto. apply M4; auto. intros ->; lia.
      * intros Hb. destruct (Hb0 Hb) as (Q0 & Q1 & Q2 & Q3 & _). rewrite M5' by auto. apply M4b; auto.
    + apply cells_frame with h; auto. intros z Hz. assert (cntC z k = 0) by (specialize (Hk z); cbn [cnt] in Hk; nn z; lia).
      assert (z <> x) by (intros ->; lia). rewrite M5' by auto. apply M4; auto. { intros ->; lia. }
      destruct b; [auto|left]. intros ->. destruct (Hb0 ltac:(discriminate)) as (_ & _ & _ & _ & Q & _). lia.
  - split; cbn [cnt]; intros; try specialize (Hk z); cbn [cnt] in *; lia.
Qed.

Definition red (t : tree) : bool := match t with T R _ _ _ => true | _ => false end.
Lemma red_ok h k t f : Zp h (f :: k) t -> red_ptr h (addr t) = red t.
Proof.
  intros (_ & H & Hok). unfold red_ptr. rewrite (addr_0 _ _ Hok). destruct t as [|c l x r]; auto. cbn [cells addr] in *. destruct H as [-> _]. cbn. destruct c; auto.
Qed.
Lemma red_get h p v : get h p = Ok v -> red_ptr h p = is_red (ncol v).
Proof. unfold get, red_ptr. destruct (p =? 0); [discriminate|]. intros H; injection H as <-. auto. Qed.
Lemma set_color_ok h k c a x b c' : Zp h k (T c a x b) -> exists h', set_color h x c' = Ok h' /\ Zp h' k (T c' a x b).
Proof.
  intros H. destruct (Zp_get _ _ _ _ _ _ H) as [Hg Hx]. destruct H as (HC & HT & Hok). unfold set_color. rewrite modify_nz by auto. eexists. split; [reflexivity|].
  cbn [cells] in HT. destruct HT as (Mx & Ca & Cb). rewrite Mx. cbn [npar nleft nright]. pose proof (proj1 Hok x) as Hk. cbn [cnt] in Hk. rewrite Z.eqb_refl in Hk. cbn [b2z] in Hk. nn x.
  split; [|split].
  - cbn [addr] in *. apply cellsC_frame with h; auto. intros z Hz. apply mem_put_ne. intros ->; lia.
  - cbn [cells]. rewrite mem_put_eq. split; auto. split; (apply cells_frame with h; auto; intros z Hz; apply mem_put_ne; intros ->; lia).
  - exact Hok.
Qed.

Lemma inorder_plug k : forall t t', inorder t = inorder t' -> inorder (plug k t) = inorder (plug k t').
Proof. induction k as [|[d c x s] k IH]; intros t t' H; cbn [plug]; auto. apply IH. destruct d; cbn [mk inorder]; rewrite H; auto. Qed.

Definition topB (k : ctx) : Prop := match k with F _ B _ _ :: _ => True | _ => False end.
Fixpoint rbc (k : ctx) (n : nat) : Prop :=
  match k with
  | [] => True
  | F _ R x s :: k => rb s n /\ blk s /\ topB k /\ rbc k n
  | F _ B x s :: k => rb s n /\ rbc k (S n)
  end.
Lemma plug_rb k : forall t n, rbc k n -> rb t n -> (blk t \/ topB k) -> rb_tree (plug k t).
Proof.
  induction k as [|[d c x s] k IH]; intros t n Hc Ht Hb; cbn [plug].
  - destruct Hb as [Hb|[]]. split; eauto.
  - cbn [rbc topB] in *. destruct c.
    + destruct Hb as [Hb|[]]. apply IH with n; [tauto| |tauto]. destruct d; cbn [mk rb]; tauto.
    + apply IH with (S n); [tauto| |]; destruct d; cbn; tauto.
Qed.
Lemma unplug_rb k : forall t, rb_tree (plug k t) -> exists n, rbc k n /\ rb t n /\ (blk t \/ topB k).
Proof.
  induction k as [|[d c x s] k IH]; intros t H; cbn [plug] in H.
  - destruct H as (H1 & n & H2). exists n. cbn. auto.
  - destruct (IH _ H) as (n & H1 & H2 & H3). destruct c.
    + exists n. cbn [rbc topB]. destruct d; cbn [mk rb blk] in *; tauto.
    + destruct d; cbn [mk rb] in H2; (destruct n as [|n]; [contradiction|]); exists n; cbn [rbc topB]; tauto.
Qed.

(* the focus after moving up once or twice *)
Ltac up H := apply Zp_move in H; cbn [mk] in H.

Lemma exit_ins h f k c a x b : Zp h (F f c 0 E :: k) (T R a x b) -> False.
Proof. intros (_ & _ & _ & H). cbn [cntC] in H. rewrite Z.eqb_refl in H. cbn [b2z] in H. nn 0. lia. Qed.

(* the loop stops below a black parent or at the root *)
Lemma ins_stop f h k a x b : Zp h k (T R a x b) -> (k = [] \/ topB k) -> insert_loop (S f) h x = Ok h.
Proof.
  intros H Hk. cbn [insert_loop]. destruct (Zp_get _ _ _ _ _ _ H) as [-> Hx]. cbn [bind npar].
  destruct Hk as [-> |Hk]; [reflexivity|]. destruct k as [|[d [|] p s] k]; try contradiction. cbn [cid].
  up H. assert (Hp : exists v, get h p = Ok v /\ ncol v = B). { destruct d; cbn [mk] in H; destruct (Zp_get _ _ _ _ _ _ H) as [-> _]; eexists; split; reflexivity. }
  destruct Hp as (v & Hp & Hv). rewrite (red_get _ _ _ Hp), Hv. reflexivity.
Qed.

Lemma mkZ h f k t : Zp h (f :: k) t -> Zp h k (mk f t).
Proof. apply Zp_move. Qed.
Lemma Zmk h f k t : Zp h k (mk f t) -> Zp h (f :: k) t.
Proof. apply Zp_move. Qed.

Lemma nz_ne h k c a x b f : Zp h (f :: k) (T c a x b) -> x <> cid (f :: k).
Proof. intros (_ & _ & H & _). intros E0. specialize (H x). pose proof (cid_cnt (f :: k) ltac:(discriminate)). rewrite <- E0 in *. cbn [cnt] in H. rewrite Z.eqb_refl in H. cbn [b2z] in H. nn x. lia. Qed.
(* distinct siblings *)
Lemma sib_ne h k c l x r : Zp h k (T c l x r) -> l <> E -> addr l <> addr r.
Proof.
  intros (_ & _ & H & H0) Hl E0. pose proof (addr_cnt l Hl). specialize (H (addr l)). cbn [cnt] in *. destruct r as [|cr lr xr rr].
  - cbn [addr] in E0. rewrite E0 in *. nn 0. lia.
  - pose proof (addr_cnt (T cr lr xr rr) ltac:(discriminate)). rewrite <- E0 in *. nn (addr l). lia.
Qed.
Lemma sib_ne' h k c l x r : Zp h k (T c l x r) -> r <> E -> addr l <> addr r.
Proof.
  intros (_ & _ & H & H0) Hl E0. pose proof (addr_cnt r Hl). specialize (H (addr r)). cbn [cnt] in *. destruct l as [|cr lr xr rr].
  - cbn [addr] in E0. rewrite <- E0 in *. nn 0. lia.
  - pose proof (addr_cnt (T cr lr xr rr) ltac:(discriminate)). rewrite E0 in *. nn (addr r). lia.
Qed.

Lemma insert_loop_ok : forall m k a x b h n fuel, (length k <= m)%nat -> (length k < fuel)%nat ->
  Zp h k (T R a x b) -> rb (T R a x b) n -> rbc k n ->
  exists h' t', insert_loop fuel h x = Ok h' /\ Zp h' [] t' /\ inorder t' = inorder (plug k (T R a x b)) /\ exists n', rb t' n'.
Proof.
  induction m as [|m IH]; intros k a x b h n fuel Hm Hf H Hrb Hc.
  { destruct k; [|cbn in Hm; lia]. destruct fuel; [lia|]. exists h, (T R a x b). split; [apply (ins_stop fuel h [] a x b); auto|]. split; auto. split; auto. eauto. }
  destruct k as [|[d1 [|] p s] k].
  { destruct fuel; [lia|]. exists h, (T R a x b). split; [apply (ins_stop fuel h [] a x b); auto|]. split; auto. split; auto. eauto. }
  2:{ destruct fuel; [lia|]. exists h, (plug (F d1 B p s :: k) (T R a x b)). split; [apply (ins_stop fuel h (F d1 B p s :: k) a x b); cbn [topB]; auto|].
      split; [apply Zplug; auto|]. split; auto. destruct (plug_rb _ _ _ Hc Hrb) as [_ Q]; cbn [topB]; auto. }
  (* red parent: there is a black grandparent *)
  cbn [rbc] in Hc. destruct Hc as (Hs & Hbs & Ht & Hc). destruct k as [|[d2 [|] g u] k]; try contradiction. clear Ht.
  cbn [rbc] in Hc. destruct Hc as (Hu & Hc). cbn [length] in *. destruct fuel as [|fuel]; [lia|].
  pose proof (mkZ _ _ _ _ H) as H1. pose proof (mkZ _ _ _ _ H1) as H2. set (P := mk (F d1 R p s) (T R a x b)) in *.
  assert (GP : get h p = Ok (Nd g R (match d1 with L => x | Rt => addr s end) (match d1 with L => addr s | Rt => x end))).
  { destruct d1; destruct (Zp_get _ _ _ _ _ _ H1) as [-> _]; auto. }
  assert (AP : addr P = p) by (destruct d1; auto).
  assert (Hp0 : p <> 0). { destruct d1; destruct (Zp_get _ _ _ _ _ _ H1); auto. }
  destruct d2; cbn [mk] in H2.
  - (* parent is the left child *)
    cbn [insert_loop]. destruct (Zp_get _ _ _ _ _ _ H) as [-> Hx0]. cbn [bind npar cid]. rewrite (red_get _ _ _ GP). cbn [ncol is_red negb]. rewrite GP. cbn [bind npar].
    destruct (Zp_get _ _ _ _ _ _ H2) as [Gg Hg0]. rewrite Gg. cbn [bind nleft nright]. rewrite AP, Z.eqb_refl.
    assert (Ru : red_ptr h (addr u) = red u). { apply (red_ok h k u (F Rt B g P)). apply Zmk. exact H2. }
    rewrite Ru. destruct u as [|[|] ul uy ur]; cbn [red]; cbv iota.
    2:{ (* red uncle *) cbn [addr].
      destruct (set_color_ok h (F Rt B g P :: k) R ul uy ur B) as (h1 & -> & Z1). { apply Zmk. exact H2. }
      cbn [bind addr]. apply mkZ in Z1. cbn [mk] in Z1.
      assert (SP : exists h2, set_color h1 p B = Ok h2 /\ Zp h2 k (T B (mk (F d1 B p s) (T R a x b)) g (T B ul uy ur))).
      { destruct d1; unfold P in Z1; cbn [mk] in Z1.
        - destruct (set_color_ok h1 (F L B g (T B ul uy ur) :: k) R (T R a x b) p s B) as (h2 & -> & Z2); [apply Zmk; exact Z1|]. exists h2. split; auto. apply mkZ in Z2. exact Z2.
        - destruct (set_color_ok h1 (F L B g (T B ul uy ur) :: k) R s p (T R a x b) B) as (h2 & -> & Z2); [apply Zmk; exact Z1|]. exists h2. split; auto. apply mkZ in Z2. exact Z2. }
      destruct SP as (h2 & -> & Z2). cbn [bind]. destruct (set_color_ok _ _ _ _ _ _ R Z2) as (h3 & -> & Z3). cbn [bind].
      destruct (IH k (mk (F d1 B p s) (T R a x b)) g (T B ul uy ur) h3 (S n) fuel) as (h' & t' & E' & Z' & I' & R'); try lia; auto.
      { cbn [rb] in Hu, Hrb |- *. destruct d1; cbn [mk rb blk]; tauto. }
      exists h', t'. split; auto. split; auto. split; auto. rewrite I'. cbn [plug]. apply inorder_plug. unfold P. destruct d1; cbn [mk inorder]; auto. }
    all: destruct d1; cbn [mk] in *.
    all: cbn [nright].
    + (* left-left, uncle E *)
      assert (Hne : addr s =? x = false). { pose proof (sib_ne _ _ _ _ _ _ H1 ltac:(discriminate)) as Q. cbn [addr] in Q. lia. } rewrite Hne. cbn [bind].
      destruct (set_color_ok _ _ _ _ _ _ B H1) as (h1 & -> & Z1). cbn [bind]. apply mkZ in Z1. cbn [mk] in Z1.
      destruct (set_color_ok _ _ _ _ _ _ R Z1) as (h2 & -> & Z2). cbn [bind]. destruct (rotate_right_ok _ _ _ _ _ _ _ _ _ Z2) as (h3 & -> & Z3). cbn [bind].
      destruct fuel as [|fuel]; [lia|]. exists h3, (plug k (T B (T R a x b) p (T R s g E))).
      split; [eapply ins_stop; [apply (Zmk _ (F L B p (T R s g E))); exact Z3|right; cbn; auto]|]. split; [apply Zplug; auto|].
      split; [cbn [plug mk]; apply inorder_plug; cbn [inorder mk]; rewrite <- ?app_assoc; cbn [app]; rewrite <- ?app_assoc; auto|].
      destruct (plug_rb k (T B (T R a x b) p (T R s g E)) (S n) Hc) as [_ Q]; cbn [rb blk] in *; try tauto; eauto.
    + (* left-right, uncle E *)
      rewrite Z.eqb_refl. destruct (rotate_left_ok _ _ _ _ _ _ _ _ _ H1) as (h0 & -> & Z0). cbn [bind].
      destruct (set_color_ok _ _ _ _ _ _ B Z0) as (h1 & -> & Z1). cbn [bind]. apply mkZ in Z1. cbn [mk] in Z1.
      destruct (set_color_ok _ _ _ _ _ _ R Z1) as (h2 & -> & Z2). cbn [bind]. destruct (rotate_right_ok _ _ _ _ _ _ _ _ _ Z2) as (h3 & -> & Z3). cbn [bind].
      destruct fuel as [|fuel]; [lia|]. exists h3, (plug k (T B (T R s p a) x (T R b g E))).
      split; [eapply ins_stop; [apply (Zmk _ (F L B x (T R b g E))); exact Z3|right; cbn; auto]|]. split; [apply Zplug; auto|].
      split; [cbn [plug mk]; apply inorder_plug; cbn [inorder mk]; rewrite <- ?app_assoc; cbn [app]; rewrite <- ?app_assoc; auto|].
      destruct (plug_rb k (T B (T R s p a) x (T R b g E)) (S n) Hc) as [_ Q]; cbn [rb blk] in *; try tauto; eauto.
    + (* left-left, uncle black *)
      assert (Hne : addr s =? x = false). { pose proof (sib_ne _ _ _ _ _ _ H1 ltac:(discriminate)) as Q. cbn [addr] in Q. lia. } rewrite Hne. cbn [bind].
      destruct (set_color_ok _ _ _ _ _ _ B H1) as (h1 & -> & Z1). cbn [bind]. apply mkZ in Z1. cbn [mk] in Z1.
      destruct (set_color_ok _ _ _ _ _ _ R Z1) as (h2 & -> & Z2). cbn [bind]. destruct (rotate_right_ok _ _ _ _ _ _ _ _ _ Z2) as (h3 & -> & Z3). cbn [bind].
      destruct fuel as [|fuel]; [lia|]. set (u := T B ul uy ur) in *. exists h3, (plug k (T B (T R a x b) p (T R s g u))).
      split; [eapply ins_stop; [apply (Zmk _ (F L B p (T R s g u))); exact Z3|right; cbn; auto]|]. split; [apply Zplug; auto|].
      split; [cbn [plug mk]; apply inorder_plug; cbn [inorder mk]; rewrite <- ?app_assoc; cbn [app]; rewrite <- ?app_assoc; auto|].
      assert (Bu : blk u) by exact I. clearbody u. destruct (plug_rb k (T B (T R a x b) p (T R s g u)) (S n) Hc) as [_ Q]; cbn [rb blk] in *; try tauto; eauto.
    + rewrite Z.eqb_refl. destruct (rotate_left_ok _ _ _ _ _ _ _ _ _ H1) as (h0 & -> & Z0). cbn [bind].
      destruct (set_color_ok _ _ _ _ _ _ B Z0) as (h1 & -> & Z1). cbn [bind]. apply mkZ in Z1. cbn [mk] in Z1.
      destruct (set_color_ok _ _ _ _ _ _ R Z1) as (h2 & -> & Z2). cbn [bind]. destruct (rotate_right_ok _ _ _ _ _ _ _ _ _ Z2) as (h3 & -> & Z3). cbn [bind].
      destruct fuel as [|fuel]; [lia|]. set (u := T B ul uy ur) in *. exists h3, (plug k (T B (T R s p a) x (T R b g u))).
      split; [eapply ins_stop; [apply (Zmk _ (F L B x (T R b g u))); exact Z3|right; cbn; auto]|]. split; [apply Zplug; auto|].
      split; [cbn [plug mk]; apply inorder_plug; cbn [inorder mk]; rewrite <- ?app_assoc; cbn [app]; rewrite <- ?app_assoc; auto|].
      assert (Bu : blk u) by exact I. clearbody u. destruct (plug_rb k (T B (T R s p a) x (T R b g u)) (S n) Hc) as [_ Q]; cbn [rb blk] in *; try tauto; eauto.
  - (* parent is the right child *)
    cbn [insert_loop]. destruct (Zp_get _ _ _ _ _ _ H) as [-> Hx0]. cbn [bind npar cid]. rewrite (red_get _ _ _ GP). cbn [ncol is_red negb]. rewrite GP. cbn [bind npar].
    destruct (Zp_get _ _ _ _ _ _ H2) as [Gg Hg0]. rewrite Gg. cbn [bind nleft nright].
    assert (Hpu : p =? addr u = false). { pose proof (sib_ne' _ _ _ _ _ _ H2) as Q. rewrite AP in Q. assert (P <> E) by (destruct d1; discriminate). specialize (Q H0). lia. } rewrite Hpu.
    assert (Ru : red_ptr h (addr u) = red u). { apply (red_ok h k u (F L B g P)). apply Zmk. exact H2. }
    rewrite Ru. destruct u as [|[|] ul uy ur]; cbn [red]; cbv iota.
    2:{ (* red uncle *) cbn [addr].
      destruct (set_color_ok h (F L B g P :: k) R ul uy ur B) as (h1 & -> & Z1). { apply Zmk. exact H2. }
      cbn [bind addr]. apply mkZ in Z1. cbn [mk] in Z1.
      assert (SP : exists h2, set_color h1 p B = Ok h2 /\ Zp h2 k (T B (T B ul uy ur) g (mk (F d1 B p s) (T R a x b)))).
      { destruct d1; unfold P in Z1; cbn [mk] in Z1.
        - destruct (set_color_ok h1 (F Rt B g (T B ul uy ur) :: k) R (T R a x b) p s B) as (h2 & -> & Z2); [apply Zmk; exact Z1|]. exists h2. split; auto. apply mkZ in Z2. exact Z2.
        - destruct (set_color_ok h1 (F Rt B g (T B ul uy ur) :: k) R s p (T R a x b) B) as (h2 & -> & Z2); [apply Zmk; exact Z1|]. exists h2. split; auto. apply mkZ in Z2. exact Z2. }
      destruct SP as (h2 & -> & Z2). cbn [bind]. destruct (set_color_ok _ _ _ _ _ _ R Z2) as (h3 & -> & Z3). cbn [bind].
      destruct (IH k (T B ul uy ur) g (mk (F d1 B p s) (T R a x b)) h3 (S n) fuel) as (h' & t' & E' & Z' & I' & R'); try lia; auto.
      { cbn [rb] in Hu, Hrb |- *. destruct d1; cbn [mk rb blk]; tauto. }
      exists h', t'. split; auto. split; auto. split; auto. rewrite I'. cbn [plug]. apply inorder_plug. unfold P. destruct d1; cbn [mk inorder]; auto. }
    all: destruct d1; cbn [mk] in *.
    all: cbn [nleft].
    + rewrite Z.eqb_refl. destruct (rotate_right_ok _ _ _ _ _ _ _ _ _ H1) as (h0 & -> & Z0). cbn [bind].
      destruct (set_color_ok _ _ _ _ _ _ B Z0) as (h1 & -> & Z1). cbn [bind]. apply mkZ in Z1. cbn [mk] in Z1.
      destruct (set_color_ok _ _ _ _ _ _ R Z1) as (h2 & -> & Z2). cbn [bind]. destruct (rotate_left_ok _ _ _ _ _ _ _ _ _ Z2) as (h3 & -> & Z3). cbn [bind].
      destruct fuel as [|fuel]; [lia|]. exists h3, (plug k (T B (T R E g a) x (T R b p s))).
      split; [eapply ins_stop; [apply (Zmk _ (F Rt B x (T R E g a))); exact Z3|right; cbn; auto]|]. split; [apply Zplug; auto|].
      split; [cbn [plug mk]; apply inorder_plug; cbn [inorder mk]; rewrite <- ?app_assoc; cbn [app]; rewrite <- ?app_assoc; auto|].
      destruct (plug_rb k (T B (T R E g a) x (T R b p s)) (S n) Hc) as [_ Q]; cbn [rb blk] in *; try tauto; eauto.
    + assert (Hne : addr s =? x = false). { pose proof (sib_ne' _ _ _ _ _ _ H1 ltac:(discriminate)) as Q. cbn [addr] in Q. lia. } rewrite Hne. cbn [bind].
      destruct (set_color_ok _ _ _ _ _ _ B H1) as (h1 & -> & Z1). cbn [bind]. apply mkZ in Z1. cbn [mk] in Z1.
      destruct (set_color_ok _ _ _ _ _ _ R Z1) as (h2 & -> & Z2). cbn [bind]. destruct (rotate_left_ok _ _ _ _ _ _ _ _ _ Z2) as (h3 & -> & Z3). cbn [bind].
      destruct fuel as [|fuel]; [lia|]. exists h3, (plug k (T B (T R E g s) p (T R a x b))).
      split; [eapply ins_stop; [apply (Zmk _ (F Rt B p (T R E g s))); exact Z3|right; cbn; auto]|]. split; [apply Zplug; auto|].
      split; [cbn [plug mk]; apply inorder_plug; cbn [inorder mk]; rewrite <- ?app_assoc; cbn [app]; rewrite <- ?app_assoc; auto|].
      destruct (plug_rb k (T B (T R E g s) p (T R a x b)) (S n) Hc) as [_ Q]; cbn [rb blk] in *; try tauto; eauto.
    + rewrite Z.eqb_refl. destruct (rotate_right_ok _ _ _ _ _ _ _ _ _ H1) as (h0 & -> & Z0). cbn [bind].
      destruct (set_color_ok _ _ _ _ _ _ B Z0) as (h1 & -> & Z1). cbn [bind]. apply mkZ in Z1. cbn [mk] in Z1.
      destruct (set_color_ok _ _ _ _ _ _ R Z1) as (h2 & -> & Z2). cbn [bind]. destruct (rotate_left_ok _ _ _ _ _ _ _ _ _ Z2) as (h3 & -> & Z3). cbn [bind].
      destruct fuel as [|fuel]; [lia|]. set (u := T B ul uy ur) in *. exists h3, (plug k (T B (T R u g a) x (T R b p s))).
      split; [eapply ins_stop; [apply (Zmk _ (F Rt B x (T R u g a))); exact Z3|right; cbn; auto]|]. split; [apply Zplug; auto|].
      split; [cbn [plug mk]; apply inorder_plug; cbn [inorder mk]; rewrite <- ?app_assoc; cbn [app]; rewrite <- ?app_assoc; auto|].
      assert (Bu : blk u) by exact I. clearbody u. destruct (plug_rb k (T B (T R u g a) x (T R b p s)) (S n) Hc) as [_ Q]; cbn [rb blk] in *; try tauto; eauto.
    + assert (Hne : addr s =? x = false). { pose proof (sib_ne' _ _ _ _ _ _ H1 ltac:(discriminate)) as Q. cbn [addr] in Q. lia. } rewrite Hne. cbn [bind].
      destruct (set_color_ok _ _ _ _ _ _ B H1) as (h1 & -> & Z1). cbn [bind]. apply mkZ in Z1. cbn [mk] in Z1.
      destruct (set_color_ok _ _ _ _ _ _ R Z1) as (h2 & -> & Z2). cbn [bind]. destruct (rotate_left_ok _ _ _ _ _ _ _ _ _ Z2) as (h3 & -> & Z3). cbn [bind].
      destruct fuel as [|fuel]; [lia|]. set (u := T B ul uy ur) in *. exists h3, (plug k (T B (T R u g s) p (T R a x b))).
      split; [eapply ins_stop; [apply (Zmk _ (F Rt B p (T R u g s))); exact Z3|right; cbn; auto]|]. split; [apply Zplug; auto|].
      split; [cbn [plug mk]; apply inorder_plug; cbn [inorder mk]; rewrite <- ?app_assoc; cbn [app]; rewrite <- ?app_assoc; auto|].
      assert (Bu : blk u) by exact I. clearbody u. destruct (plug_rb k (T B (T R u g s) p (T R a x b)) (S n) Hc) as [_ Q]; cbn [rb blk] in *; try tauto; eauto.
Qed.

(* ---- deletion ---- *)
Lemma fix_left_ok rec h k c t p oa y ob n : Zp h k (T c t p (T B oa y ob)) -> rb t n -> rb oa n -> rb ob n ->
  (exists h', fix_left rec h p y = rec h' p (cid k) /\ Zp h' k (T c t p (T R oa y ob)) /\ blk oa /\ blk ob) \/
  (exists h' l z r, fix_left rec h p y = Ok (h', root h') /\ Zp h' k (T c l z r) /\ rb l (S n) /\ rb r (S n) /\ blk l /\ blk r /\
     inorder (T c l z r) = inorder (T c t p (T B oa y ob))).
Proof.
  intros H Ht Ha Hb. pose proof (Zmk _ (F Rt c p t) _ _ H) as Ho. destruct (Zp_get _ _ _ _ _ _ Ho) as [Go Hy0]. unfold fix_left. rewrite Go. cbn [bind nleft nright].
  assert (Ra : red_ptr h (addr oa) = red oa) by (apply (red_ok h (F Rt c p t :: k) oa (F L B y ob)); apply Zmk; exact Ho).
  assert (Rb : red_ptr h (addr ob) = red ob) by (apply (red_ok h (F Rt c p t :: k) ob (F Rt B y oa)); apply Zmk; exact Ho).
  rewrite Ra, Rb. destruct (red ob) eqn:Eb.
  - (* outer child red *)
    right. rewrite andb_false_r. cbn [negb bind]. destruct ob as [|[|] b1 z b2]; try discriminate.
    destruct (Zp_get _ _ _ _ _ _ H) as [-> Hp0]. cbn [bind ncol]. destruct (set_color_ok _ _ _ _ _ _ c Ho) as (h1 & -> & Z1). cbn [bind].
    apply mkZ in Z1; cbn [mk] in Z1. destruct (set_color_ok _ _ _ _ _ _ B Z1) as (h2 & -> & Z2). cbn [bind].
    pose proof (Zmk _ (F Rt B p t) _ _ Z2) as Z2'. destruct (Zp_get _ _ _ _ _ _ Z2') as [-> _]. cbn [bind nright addr].
    apply (Zmk _ (F Rt c y oa)) in Z2'. destruct (set_color_ok _ _ _ _ _ _ B Z2') as (h3 & -> & Z3). cbn [bind]. apply mkZ in Z3; cbn [mk] in Z3. apply mkZ in Z3; cbn [mk] in Z3.
    destruct (rotate_left_ok _ _ _ _ _ _ _ _ _ Z3) as (h4 & -> & Z4). cbn [bind].
    exists h4, (T B t p oa), y, (T B b1 z b2). split; auto.
    split; auto. cbn [rb blk] in *. split; [tauto|]. split; [tauto|]. split; auto. split; auto. cbn [inorder]. rewrite <- ?app_assoc. cbn [app]. auto.
  - destruct (red oa) eqn:Ea; cbn [negb andb].
    + (* inner child red *)
      right. destruct oa as [|[|] a1 z a2]; try discriminate. cbn [addr].
      destruct (set_color_ok h (F L B y ob :: F Rt c p t :: k) R a1 z a2 B) as (h1 & -> & Z1). { apply Zmk. exact Ho. } cbn [bind].
      apply mkZ in Z1; cbn [mk] in Z1. destruct (set_color_ok _ _ _ _ _ _ R Z1) as (h2 & -> & Z2). cbn [bind].
      destruct (rotate_right_ok _ _ _ _ _ _ _ _ _ Z2) as (h3 & -> & Z3). cbn [bind]. pose proof (mkZ _ _ _ _ Z3) as Z3'; cbn [mk] in Z3'.
      destruct (Zp_get _ _ _ _ _ _ Z3') as [G3 Hp0]. rewrite G3. cbn [bind nright addr]. rewrite G3. cbn [bind ncol].
      destruct (set_color_ok _ _ _ _ _ _ c Z3) as (h4 & -> & Z4). cbn [bind]. apply mkZ in Z4; cbn [mk] in Z4.
      destruct (set_color_ok _ _ _ _ _ _ B Z4) as (h5 & -> & Z5). cbn [bind]. pose proof (Zmk _ (F Rt B p t) _ _ Z5) as Z5'.
      destruct (Zp_get _ _ _ _ _ _ Z5') as [-> _]. cbn [bind nright addr]. apply (Zmk _ (F Rt c z a1)) in Z5'.
      destruct (set_color_ok _ _ _ _ _ _ B Z5') as (h6 & -> & Z6). cbn [bind]. apply mkZ in Z6; cbn [mk] in Z6. apply mkZ in Z6; cbn [mk] in Z6.
      destruct (rotate_left_ok _ _ _ _ _ _ _ _ _ Z6) as (h7 & -> & Z7). cbn [bind].
      exists h7, (T B t p a1), z, (T B a2 y ob). split; auto. split; auto. cbn [rb blk] in *. split; [tauto|]. split; [tauto|]. split; auto. split; auto.
      cbn [inorder]. rewrite <- ?app_assoc. cbn [app]. rewrite <- ?app_assoc. auto.
    + (* both black *)
      left. destruct (set_color_ok _ _ _ _ _ _ R Ho) as (h1 & -> & Z1). cbn [bind]. apply mkZ in Z1; cbn [mk] in Z1.
      destruct (Zp_get _ _ _ _ _ _ Z1) as [-> _]. cbn [bind npar]. exists h1. split; auto. split; auto.
      split; [destruct oa as [|[|]]; cbn; auto; discriminate|destruct ob as [|[|]]; cbn; auto; discriminate].
Qed.

Lemma fix_right_ok rec h k c t p oa y ob n : Zp h k (T c (T B ob y oa) p t) -> rb t n -> rb oa n -> rb ob n ->
  (exists h', fix_right rec h p y = rec h' p (cid k) /\ Zp h' k (T c (T R ob y oa) p t) /\ blk oa /\ blk ob) \/
  (exists h' l z r, fix_right rec h p y = Ok (h', root h') /\ Zp h' k (T c l z r) /\ rb l (S n) /\ rb r (S n) /\ blk l /\ blk r /\
     inorder (T c l z r) = inorder (T c (T B ob y oa) p t)).
Proof.
  intros H Ht Ha Hb. pose proof (Zmk _ (F L c p t) _ _ H) as Ho. destruct (Zp_get _ _ _ _ _ _ Ho) as [Go Hy0]. unfold fix_right. rewrite Go. cbn [bind nleft nright].
  assert (Ra : red_ptr h (addr oa) = red oa) by (apply (red_ok h (F L c p t :: k) oa (F Rt B y ob)); apply Zmk; exact Ho).
  assert (Rb : red_ptr h (addr ob) = red ob) by (apply (red_ok h (F L c p t :: k) ob (F L B y oa)); apply Zmk; exact Ho).
  rewrite Ra, Rb. destruct (red ob) eqn:Eb.
  - (* outer child red *)
    right. cbn [negb andb bind]. destruct ob as [|[|] b1 z b2]; try discriminate.
    destruct (Zp_get _ _ _ _ _ _ H) as [-> Hp0]. cbn [bind ncol]. destruct (set_color_ok _ _ _ _ _ _ c Ho) as (h1 & -> & Z1). cbn [bind].
    apply mkZ in Z1; cbn [mk] in Z1. destruct (set_color_ok _ _ _ _ _ _ B Z1) as (h2 & -> & Z2). cbn [bind].
    pose proof (Zmk _ (F L B p t) _ _ Z2) as Z2'. destruct (Zp_get _ _ _ _ _ _ Z2') as [-> _]. cbn [bind nleft addr].
    apply (Zmk _ (F L c y oa)) in Z2'. destruct (set_color_ok _ _ _ _ _ _ B Z2') as (h3 & -> & Z3). cbn [bind]. apply mkZ in Z3; cbn [mk] in Z3. apply mkZ in Z3; cbn [mk] in Z3.
    destruct (rotate_right_ok _ _ _ _ _ _ _ _ _ Z3) as (h4 & -> & Z4). cbn [bind].
    exists h4, (T B b1 z b2), y, (T B oa p t). split; auto.
    split; auto. cbn [rb blk] in *. split; [tauto|]. split; [tauto|]. split; auto. split; auto. cbn [inorder]. rewrite <- ?app_assoc. cbn [app]. auto.
  - destruct (red oa) eqn:Ea; cbn [negb andb].
    + (* inner child red *)
      right. destruct oa as [|[|] a2 z a1]; try discriminate. cbn [addr].
      destruct (set_color_ok h (F Rt B y ob :: F L c p t :: k) R a2 z a1 B) as (h1 & -> & Z1). { apply Zmk. exact Ho. } cbn [bind].
      apply mkZ in Z1; cbn [mk] in Z1. destruct (set_color_ok _ _ _ _ _ _ R Z1) as (h2 & -> & Z2). cbn [bind].
      destruct (rotate_left_ok _ _ _ _ _ _ _ _ _ Z2) as (h3 & -> & Z3). cbn [bind]. pose proof (mkZ _ _ _ _ Z3) as Z3'; cbn [mk] in Z3'.
      destruct (Zp_get _ _ _ _ _ _ Z3') as [G3 Hp0]. rewrite G3. cbn [bind nleft addr]. rewrite G3. cbn [bind ncol].
      destruct (set_color_ok _ _ _ _ _ _ c Z3) as (h4 & -> & Z4). cbn [bind]. apply mkZ in Z4; cbn [mk] in Z4.
      destruct (set_color_ok _ _ _ _ _ _ B Z4) as (h5 & -> & Z5). cbn [bind]. pose proof (Zmk _ (F L B p t) _ _ Z5) as Z5'.
      destruct (Zp_get _ _ _ _ _ _ Z5') as [-> _]. cbn [bind nleft addr]. apply (Zmk _ (F L c z a1)) in Z5'.
      destruct (set_color_ok _ _ _ _ _ _ B Z5') as (h6 & -> & Z6). cbn [bind]. apply mkZ in Z6; cbn [mk] in Z6. apply mkZ in Z6; cbn [mk] in Z6.
      destruct (rotate_right_ok _ _ _ _ _ _ _ _ _ Z6) as (h7 & -> & Z7). cbn [bind].
      exists h7, (T B ob y a2), z, (T B a1 p t). split; auto. split; auto. cbn [rb blk] in *. split; [tauto|]. split; [tauto|]. split; auto. split; auto.
      cbn [inorder]. rewrite <- ?app_assoc. cbn [app]. rewrite <- ?app_assoc. auto.
    + (* both black *)
      left. destruct (set_color_ok _ _ _ _ _ _ R Ho) as (h1 & -> & Z1). cbn [bind]. apply mkZ in Z1; cbn [mk] in Z1.
      destruct (Zp_get _ _ _ _ _ _ Z1) as [-> _]. cbn [bind npar]. exists h1. split; auto. split; auto.
      split; [destruct oa as [|[|]]; cbn; auto; discriminate|destruct ob as [|[|]]; cbn; auto; discriminate].
Qed.

Ltac inord := cbn [inorder]; repeat (progress (rewrite <- ?app_assoc; cbn [app])); reflexivity.
Lemma root_in h k : forall p, k <> [] -> cellsC h k p -> 1 <= cntC (root h) k.
Proof.
  induction k as [|[d c x s] k IH]; intros p Hk H; [congruence|]. cbn [cellsC cntC] in *. destruct H as (_ & _ & H).
  destruct k as [|f k]; cbn [cellsC] in *.
  - rewrite H, Z.eqb_refl. cbn [b2z cntC]. nn x. lia.
  - specialize (IH x ltac:(discriminate) H). nn (root h). lia.
Qed.
Lemma not_root h f k t : Zp h (f :: k) t -> addr t =? root h = false.
Proof.
  intros (H & _ & Hok). assert (Hr : 1 <= cntC (root h) (f :: k)) by (apply root_in with (addr t); [discriminate|auto]). apply Z.eqb_neq. intros E0. destruct Hok as [Hk H0].
  destruct t as [|c l x r]; [rewrite <- E0 in Hr; cbn [addr cnt] in *; lia|].
  pose proof (addr_cnt (T c l x r) ltac:(discriminate)). rewrite E0 in *. specialize (Hk (root h)). lia.
Qed.
Lemma root_addr h t : Zp h [] t -> root h = addr t.
Proof. intros (H & _). exact H. Qed.

Definition rbw (t : tree) (n : nat) : Prop :=
  match t with
  | E => n = O
  | T R l x r => rb l n /\ rb r n
  | T B l x r => match n with O => False | S m => rb l m /\ rb r m end
  end.
Lemma rb_rbw t n : rb t n -> rbw t n.
Proof. destruct t as [|[|] l x r]; cbn; tauto. Qed.
Lemma rbw_rb t n : rbw t n -> red t = false -> rb t n.
Proof. destruct t as [|[|] l x r]; cbn; try discriminate; tauto. Qed.

(* leaving the loop: a red focus, or the root *)
Lemma ec_exit f h k t n q : Zp h k t -> rbw t n -> rbc k (S n) -> (red t = true \/ k = []) ->
  exists h' t', erase_color (S f) h (addr t) q = Ok h' /\ Zp h' [] t' /\ inorder t' = inorder (plug k t) /\ rb_tree t'.
Proof.
  intros H Hw Hc Hex.
  assert (EL : erase_loop (S f) h (addr t) q = Ok (h, addr t)).
  { cbn [erase_loop]. destruct Hex as [Hr| ->].
    - assert (Q : red_ptr h (addr t) = true). { destruct t as [|[|] l x r]; try discriminate. cbn [addr]. destruct (Zp_get _ _ _ _ _ _ H) as [G _]. rewrite (red_get _ _ _ G). auto. }
      rewrite Q. cbn. auto.
    - rewrite (root_addr _ _ H), Z.eqb_refl, andb_false_r. auto. }
  unfold erase_color. rewrite EL. cbn [bind]. rewrite (addr_0 k t) by apply H. destruct t as [|c l x r].
  - destruct Hex as [Hr| ->]; [discriminate|]. exists h, E. split; auto. split; auto. split; auto. split; [exact I|]. exists O. reflexivity.
  - cbn [addr]. destruct (set_color_ok _ _ _ _ _ _ B H) as (h' & -> & Z'). exists h', (plug k (T B l x r)). split; auto. split; [apply Zplug; auto|].
    split; [apply inorder_plug; auto|]. destruct c.
    + cbn [rbw] in Hw. apply plug_rb with (S n); cbn [rb blk]; auto.
    + destruct Hex as [Hr| ->]; [discriminate|]. cbn [plug]. split; [exact I|]. exists n. exact Hw.
Qed.

(* leaving through "break": the root is painted black again *)
Lemma ec_break h k t' : Zp h k t' -> rb_tree (plug k t') -> (k = [] -> t' <> E) ->
  exists h2, (if root h =? 0 then Ok h else set_color h (root h) B) = Ok h2 /\ Zp h2 [] (plug k t').
Proof.
  intros H Hrb Hne. apply Zplug in H. rewrite (root_addr _ _ H), (addr_0 [] _) by apply H.
  destruct (plug k t') as [|c l x r] eqn:Ep. { exists h. auto. }
  cbn [addr]. destruct (set_color_ok _ _ _ _ _ _ B H) as (h2 & -> & Z2). exists h2. split; auto. destruct c; auto. destruct Hrb as [[] _].
Qed.

Lemma erase_color_ok : forall k t h n fuel, (length k + 2 <= fuel)%nat -> Zp h k t -> rbw t n -> rbc k (S n) ->
  exists h' t', erase_color fuel h (addr t) (cid k) = Ok h' /\ Zp h' [] t' /\ inorder t' = inorder (plug k t) /\ rb_tree t'.
Proof.
  induction k as [|[d c p o] k IH]; intros t h n fuel Hf H Hw Hc; (destruct fuel as [|fuel]; [lia|]).
  { eapply ec_exit; eauto. }
  destruct (red t) eqn:Er. { eapply ec_exit; eauto. }
  pose proof (rbw_rb _ _ Hw Er) as Ht. cbn [length] in Hf.
  assert (Hro : rb o (S n) /\ (c = R -> blk o /\ topB k /\ rbc k (S n)) /\ (c = B -> rbc k (S (S n)))).
  { cbn [rbc] in Hc. destruct c; [split; [tauto|split; [tauto|discriminate]]|split; [tauto|split; [discriminate|tauto]]]. }
  destruct Hro as (Hro & HcR & HcB). assert (Hone : o <> E) by (intros ->; cbn in Hro; discriminate).
  assert (Rt0 : red_ptr h (addr t) = false) by (rewrite (red_ok _ _ _ _ H); auto).
  pose proof (not_root _ _ _ _ H) as Nr. pose proof (mkZ _ _ _ _ H) as H1. cbn [cid]. 
  assert (Fin : forall k2 h2 l z r n2, Zp h2 k2 (T c l z r) -> rbc k2 n2 -> rb (T c l z r) n2 -> (blk (T c l z r) \/ topB k2) -> inorder (plug k2 (T c l z r)) = inorder (plug (F d c p o :: k) t) ->
     exists h' t', (do ' (h, n) <- Ok (h2, root h2);; (if n =? 0 then Ok h else set_color h n B)) = Ok h' /\ Zp h' [] t' /\ inorder t' = inorder (plug (F d c p o :: k) t) /\ rb_tree t').
  { intros k2 h2 l z r n2 Z2 Hc2 Hr2 Hb2 Hi. cbn [bind]. pose proof (plug_rb _ _ _ Hc2 Hr2 Hb2) as Hrb.
    destruct (ec_break _ _ _ Z2 Hrb ltac:(discriminate)) as (h3 & -> & Z3). eexists _, _. split; [reflexivity|]. split; [exact Z3|]. split; auto. }
  assert (FinB : forall k2 h2 l z r n2, Zp h2 k2 (T R l z r) -> rbc k2 n2 -> rb (T R l z r) n2 -> topB k2 -> inorder (plug k2 (T R l z r)) = inorder (plug (F d c p o :: k) t) ->
     exists h' t', (do ' (h, n) <- Ok (h2, root h2);; (if n =? 0 then Ok h else set_color h n B)) = Ok h' /\ Zp h' [] t' /\ inorder t' = inorder (plug (F d c p o :: k) t) /\ rb_tree t').
  { intros k2 h2 l z r n2 Z2 Hc2 Hr2 Hb2 Hi. cbn [bind]. pose proof (plug_rb _ _ _ Hc2 Hr2 (or_intror Hb2)) as Hrb.
    destruct (ec_break _ _ _ Z2 Hrb ltac:(discriminate)) as (h3 & -> & Z3). eexists _, _. split; [reflexivity|]. split; [exact Z3|]. split; auto. }
  unfold erase_color. cbn [erase_loop]. rewrite Rt0, Nr. cbn [negb andb].
  destruct d; cbn [mk] in H1; destruct (Zp_get _ _ _ _ _ _ H1) as [Gp Hp0]; rewrite Gp; cbn [bind nleft nright].
  - (* left child *)
    rewrite Z.eqb_refl. pose proof (Zmk _ (F Rt c p t) _ _ H1) as Ho. destruct o as [|co oa y ob]; [congruence|]. destruct (Zp_get _ _ _ _ _ _ Ho) as [Go Hy0].
    cbn [addr]. rewrite Go. cbn [bind ncol]. destruct co; cbn [is_red].
    + (* red sibling *)
      destruct c; [destruct (HcR eq_refl) as ([] & _)|]. specialize (HcB eq_refl). cbn [rb] in Hro. destruct Hro as (Hoa & Hob & Boa & Bob).
      destruct (set_color_ok _ _ _ _ _ _ B Ho) as (h1 & -> & Z1). cbn [bind]. apply mkZ in Z1; cbn [mk] in Z1. destruct (set_color_ok _ _ _ _ _ _ R Z1) as (h2 & -> & Z2). cbn [bind].
      destruct (rotate_left_ok _ _ _ _ _ _ _ _ _ Z2) as (h3 & -> & Z3). cbn [bind]. pose proof (Zmk _ (F L B y ob) _ _ Z3) as Z3'. destruct (Zp_get _ _ _ _ _ _ Z3') as [-> _]. cbn [bind nright].
      destruct oa as [|[|] a1 z a2]; try contradiction; [discriminate|]. cbn [addr rb] in *. destruct Hoa as (Ha1 & Ha2).
      destruct (fix_left_ok (erase_loop fuel) _ _ _ _ _ _ _ _ n Z3' Ht Ha1 Ha2) as [(h4 & -> & Z4 & B1 & B2)|(h4 & l & w & r & -> & Z4 & Rl & Rr & Bl & Br & Hi)].
      * destruct fuel as [|fuel]; [lia|]. destruct (ec_exit fuel h4 (F L B y ob :: k) (T R t p (T R a1 z a2)) n y Z4) as (h' & t' & E' & Z' & I' & R').
        { cbn [rbw rb]. tauto. } { cbn [rbc]. tauto. } { auto. }
        exists h', t'. split; [exact E'|]. split; auto. split; auto. rewrite I'. cbn [plug mk]. apply inorder_plug. inord.
      * apply (FinB _ _ _ _ _ (S n) Z4). { cbn [rbc]. split; auto. } { cbn [rb]. tauto. } { exact I. }
        cbn [plug mk]. apply inorder_plug. cbn [inorder] in Hi |- *. rewrite Hi. inord.
    + cbn [bind]. cbn [rb] in Hro. destruct Hro as (Hoa & Hob).
      destruct (fix_left_ok (erase_loop fuel) _ _ _ _ _ _ _ _ n H1 Ht Hoa Hob) as [(h4 & -> & Z4 & B1 & B2)|(h4 & l & w & r & -> & Z4 & Rl & Rr & Bl & Br & Hi)].
      * destruct c.
        -- destruct (HcR eq_refl) as (_ & Tk & Hck). destruct fuel as [|fuel]; [lia|]. destruct (ec_exit fuel h4 k (T R t p (T R oa y ob)) n (cid k) Z4) as (h' & t' & E' & Z' & I' & R'); auto.
           { cbn [rbw rb]. tauto. }
           exists h', t'. split; [exact E'|]. split; auto. split; auto. rewrite I'. cbn [plug mk]. apply inorder_plug. auto.
        -- destruct (IH (T B t p (T R oa y ob)) h4 (S n) fuel) as (h' & t' & E' & Z' & I' & R'); auto; try lia.
           { cbn [rbw rb]. tauto. }
           exists h', t'. split; [exact E'|]. split; auto. split; auto. rewrite I'. cbn [plug mk]. apply inorder_plug. auto.
      * destruct c.
        -- destruct (HcR eq_refl) as (_ & Tk & Hck). apply (Fin _ _ _ _ _ (S n) Z4); auto. { cbn [rb]. tauto. } cbn [plug mk]. apply inorder_plug. auto.
        -- apply (Fin _ _ _ _ _ (S (S n)) Z4); auto. { cbn [rb]. tauto. } { left; exact I. } cbn [plug mk]. apply inorder_plug. auto.
  - (* right child *)
    assert (Hne : addr o =? addr t = false). { pose proof (sib_ne _ _ _ _ _ _ H1 Hone). lia. } rewrite Hne.
    pose proof (Zmk _ (F L c p t) _ _ H1) as Ho. destruct o as [|co ob y oa]; [congruence|]. destruct (Zp_get _ _ _ _ _ _ Ho) as [Go Hy0].
    cbn [addr]. rewrite Go. cbn [bind ncol]. destruct co; cbn [is_red].
    + (* red sibling *)
      destruct c; [destruct (HcR eq_refl) as ([] & _)|]. specialize (HcB eq_refl). cbn [rb] in Hro. destruct Hro as (Hob & Hoa & Bob & Boa).
      destruct (set_color_ok _ _ _ _ _ _ B Ho) as (h1 & -> & Z1). cbn [bind]. apply mkZ in Z1; cbn [mk] in Z1. destruct (set_color_ok _ _ _ _ _ _ R Z1) as (h2 & -> & Z2). cbn [bind].
      destruct (rotate_right_ok _ _ _ _ _ _ _ _ _ Z2) as (h3 & -> & Z3). cbn [bind]. pose proof (Zmk _ (F Rt B y ob) _ _ Z3) as Z3'. destruct (Zp_get _ _ _ _ _ _ Z3') as [-> _]. cbn [bind nleft].
      destruct oa as [|[|] a2 z a1]; try contradiction; [discriminate|]. cbn [addr rb] in *. destruct Hoa as (Ha2 & Ha1).
      destruct (fix_right_ok (erase_loop fuel) _ _ _ _ _ _ _ _ n Z3' Ht Ha1 Ha2) as [(h4 & -> & Z4 & B1 & B2)|(h4 & l & w & r & -> & Z4 & Rl & Rr & Bl & Br & Hi)].
      * destruct fuel as [|fuel]; [lia|]. destruct (ec_exit fuel h4 (F Rt B y ob :: k) (T R (T R a2 z a1) p t) n y Z4) as (h' & t' & E' & Z' & I' & R').
        { cbn [rbw rb]. tauto. } { cbn [rbc]. tauto. } { auto. }
        exists h', t'. split; [exact E'|]. split; auto. split; auto. rewrite I'. cbn [plug mk]. apply inorder_plug. inord.
      * apply (FinB _ _ _ _ _ (S n) Z4). { cbn [rbc]. split; auto. } { cbn [rb]. tauto. } { exact I. }
        cbn [plug mk]. apply inorder_plug. cbn [inorder] in Hi |- *. rewrite Hi. inord.
    + cbn [bind]. cbn [rb] in Hro. destruct Hro as (Hob & Hoa).
      destruct (fix_right_ok (erase_loop fuel) _ _ _ _ _ _ _ _ n H1 Ht Hoa Hob) as [(h4 & -> & Z4 & B1 & B2)|(h4 & l & w & r & -> & Z4 & Rl & Rr & Bl & Br & Hi)].
      * destruct c.
        -- destruct (HcR eq_refl) as (_ & Tk & Hck). destruct fuel as [|fuel]; [lia|]. destruct (ec_exit fuel h4 k (T R (T R ob y oa) p t) n (cid k) Z4) as (h' & t' & E' & Z' & I' & R'); auto.
           { cbn [rbw rb]. tauto. }
           exists h', t'. split; [exact E'|]. split; auto. split; auto. rewrite I'. cbn [plug mk]. apply inorder_plug. auto.
        -- destruct (IH (T B (T R ob y oa) p t) h4 (S n) fuel) as (h' & t' & E' & Z' & I' & R'); auto; try lia.
           { cbn [rbw rb]. tauto. }
           exists h', t'. split; [exact E'|]. split; auto. split; auto. rewrite I'. cbn [plug mk]. apply inorder_plug. auto.
      * destruct c.
        -- destruct (HcR eq_refl) as (_ & Tk & Hck). apply (Fin _ _ _ _ _ (S n) Z4); auto. { cbn [rb]. tauto. } cbn [plug mk]. apply inorder_plug. auto.
        -- apply (Fin _ _ _ _ _ (S (S n)) Z4); auto. { cbn [rb]. tauto. } { left; exact I. } cbn [plug mk]. apply inorder_plug. auto.
Qed.

(* ---- unlinking a node ---- *)
Lemma spo_model h p q : (if p =? 0 then Ok h else set_parent h p q) = Ok (spo h p q).
Proof. unfold spo. destruct (Z.eqb_spec p 0); auto. unfold set_parent. rewrite modify_nz by auto. auto. Qed.

(* a node with at most one child *)
Lemma unlink1_ok h k c l x r ch : Zp h k (T c l x r) -> ((l = E /\ ch = r) \/ (r = E /\ ch = l)) ->
  exists h', repl (fun n p => nleft p =? n) (spo h (addr ch) (cid k)) (cid k) x (addr ch) = Ok h' /\ Zp h' k ch.
Proof.
  intros (HC & HT & Hok) Hch. pose proof Hok as [Hk H0]. cbn [cells addr] in *. destruct HT as (Mx & Cl & Cr). cbn [cnt] in *.
  assert (Hcnt : forall z, cnt z l + cnt z r = cnt z ch) by (intros z; destruct Hch as [[-> ->]|[-> ->]]; cbn [cnt]; lia).
  assert (Cch : cells h ch x) by (destruct Hch as [[-> ->]|[-> ->]]; auto).
  assert (Hx0 : x <> 0) by (intros ->; rewrite Z.eqb_refl in H0; cbn [b2z] in H0; nn 0; lia).
  assert (Kx : cntC x k = 0 /\ cnt x ch = 0). { pose proof (Hk x) as Q. rewrite Z.eqb_refl in Q. cbn [b2z] in Q. pose proof (Hcnt x). nn x. lia. }
  assert (Hc0 : ch <> E -> addr ch <> 0 /\ cntC (addr ch) k = 0).
  { intros Hne. pose proof (addr_cnt ch Hne) as A. pose proof (Hk (addr ch)) as Q. pose proof (Hcnt (addr ch)). nn (addr ch). split; [|lia]. intros Eb. rewrite Eb in *. pose proof (Hcnt 0). nn 0. lia. }
  assert (C1 : cellsC (spo h (addr ch) (cid k)) k x).
  { apply cellsC_frame with h; auto. { apply spo_root. } intros z Hz. destruct ch as [|cc cl cx cr]; [auto|]. apply spo_ne. intros ->. destruct (Hc0 ltac:(discriminate)). lia. }
  destruct (repl_ok (fun n p => nleft p =? n) (spo h (addr ch) (cid k)) k x (addr ch) (T c l x r)) as (h' & E' & C' & M'); auto; try (intros; subst; lia); try apply Kx.
  exists h'. split; auto. split; auto. split.
  - assert (Q : forall z, cntC z k = 0 -> mem h' z = mem (spo h (addr ch) (cid k)) z).
    { intros z Hz. apply M'. destruct k as [|f k]; [cbn [cid]; destruct (Z.eq_dec z 0); auto|left]. intros ->. pose proof (cid_cnt (f :: k) ltac:(discriminate)). lia. }
    apply cells_re with h x; auto.
    + intros z. specialize (Hk z). pose proof (Hcnt z). nn z. lia.
    + intros z Hz Hne. rewrite Q by (specialize (Hk z); pose proof (Hcnt z); nn z; lia). apply spo_ne; auto.
    + intros Hne. destruct (Hc0 Hne). rewrite Q by auto. apply spo_eq; auto.
  - split; [intros z; specialize (Hk z); pose proof (Hcnt z); nn z; lia|]. pose proof (Hcnt 0). nn 0. lia.
Qed.

(* context prefixes below a given parent *)
Definition cidb (k : ctx) (b : Z) : Z := match k with [] => b | F _ _ x _ :: _ => x end.
Fixpoint cellsP (h : heap) (k : ctx) (b p : Z) : Prop :=
  match k with
  | [] => True
  | F d c x s :: k => mem h x = (match d with L => Nd (cidb k b) c p (addr s) | Rt => Nd (cidb k b) c (addr s) p end) /\ cells h s x /\ cellsP h k b x
  end.
Lemma cells_plug h k : forall t b, cells h (plug k t) b <-> cells h t (cidb k b) /\ cellsP h k b (addr t).
Proof.
  induction k as [|[d c x s] k IH]; intros t b; cbn [plug cellsP cidb]; [tauto|]. rewrite IH. destruct d; cbn [mk cells addr]; tauto.
Qed.
Lemma cellsP_frame h h' k b : forall p, cellsP h k b p -> (forall z, 1 <= cntC z k -> mem h' z = mem h z) -> cellsP h' k b p.
Proof.
  induction k as [|[d c x s] k IH]; intros p H Hf; cbn [cellsP cntC] in *; auto. destruct H as (H1 & H2 & H3).
  split; [|split].
  - rewrite Hf; auto. rewrite Z.eqb_refl. cbn [b2z]. nn x. lia.
  - apply cells_frame with h; auto. intros z Hz. apply Hf. nn z. lia.
  - apply IH; auto. intros z Hz. apply Hf. nn z. lia.
Qed.
Fixpoint allL (k : ctx) : Prop := match k with [] => True | F L _ _ _ :: k => allL k | _ => False end.
Lemma min_split t : t <> E -> exists k d y e, t = plug k (T d E y e) /\ allL k /\ (k = [] -> t = T d E y e).
Proof.
  induction t as [|c l IHl x r _]; intros H; [congruence|]. destruct l as [|cl ll xl rl].
  - exists [], c, x, r. split; [reflexivity|]. split; [exact I|auto].
  - destruct (IHl ltac:(discriminate)) as (k & d & y & e & Ht & Ha & _). exists (k ++ [F L c x r]), d, y, e.
    assert (P : forall k u, plug (k ++ [F L c x r]) u = T c (plug k u) x r). { clear. induction k as [|f k IH]; intros u; cbn [plug app]; auto. }
    rewrite P, <- Ht. split; auto. split; [|intros X; destruct k; discriminate]. clear - Ha. induction k as [|[[|] cc xx ss] k IH]; cbn in *; auto.
Qed.
Lemma plug_ne k t : t <> E -> plug k t <> E.
Proof. revert t; induction k as [|[[|] c x s] k IH]; intros t H; cbn [plug mk]; auto; apply IH; discriminate. Qed.
Lemma plug_addr k : forall t t', k <> [] -> addr (plug k t) = addr (plug k t').
Proof. induction k as [|[[|] c x s] k IH]; intros t t' H; [congruence| |]; cbn [plug mk]; (destruct k as [|f k]; [reflexivity|apply IH; discriminate]). Qed.

Fixpoint size (t : tree) : nat := match t with E => O | T _ l _ r => S (size l + size r) end.
Lemma leftmost_ok h c k : forall d y e b fuel, allL k -> cells h (plug k (T d E y e)) b -> cnt 0 (plug k (T d E y e)) = 0 -> (length k < fuel)%nat -> c = addr (plug k (T d E y e)) ->
  leftmost fuel h c = Ok y.
Proof.
  remember (length k) as m eqn:Em. revert k c Em. induction m as [|m IH]; intros k c Em d y e b fuel Ha Hc H0 Hf ->.
  - destruct k; [|discriminate]. destruct fuel as [|fuel]; [lia|]. cbn [plug addr cells cnt] in *. destruct Hc as (Hy & _). cbn [leftmost].
    assert (y <> 0) by (intros ->; rewrite Z.eqb_refl in H0; cbn [b2z] in H0; nn 0; lia). rewrite get_nz by auto. rewrite Hy. reflexivity.
  - (* split the outermost frame off *)
    destruct (exists_last (l := k) ltac:(intros ->; discriminate)) as (k' & [d0 c0 x0 s0] & ->). rewrite app_length in Em. cbn in Em.
    assert (Ha' : allL k' /\ d0 = L). { clear - Ha. induction k' as [|[[|] cc xx ss] k' IH]; cbn in *; [destruct d0; tauto|auto|tauto]. } destruct Ha' as [Ha' ->].
    assert (P : forall u, plug (k' ++ [F L c0 x0 s0]) u = T c0 (plug k' u) x0 s0). { clear. induction k' as [|f k IH]; intros u; cbn [plug app]; auto. }
    rewrite P in *. cbn [addr cells cnt] in *. destruct Hc as (Hx & Hl & Hr). destruct fuel as [|fuel]; [lia|]. cbn [leftmost].
    assert (x0 <> 0) by (intros ->; rewrite Z.eqb_refl in H0; cbn [b2z] in H0; nn 0; lia). rewrite get_nz by auto. rewrite Hx. cbn [bind nleft].
    assert (addr (plug k' (T d E y e)) <> 0). { intros Eb. assert (A : 1 <= cnt (addr (plug k' (T d E y e))) (plug k' (T d E y e))) by (apply addr_cnt, plug_ne; discriminate). rewrite Eb in A. nn 0. lia. }
    replace (addr (plug k' (T d E y e)) =? 0) with false by lia. apply IH with (k := k') (d := d) (e := e) (b := x0); auto; try lia. nn 0. lia.
Qed.

(* the last steps of the two-children case: y takes the place of x *)
Lemma take_place h k c l x w dy rp y r' : cellsC h k y -> mem h x = Nd (cid k) c (addr l) w -> mem h y = Nd rp dy 0 (addr r') ->
  cells h l x -> cells h r' y -> l <> E -> ok k (T c l y r') -> cntC x k = 0 -> cnt x l = 0 -> cnt x r' = 0 -> x <> y -> x <> 0 ->
  exists h', (forall A (K : heap -> res A), (do ov <- get h x ;;
      do h <- modify h y (fun w => Nd (npar ov) (ncol ov) (nleft w) (nright w)) ;;
      do ov <- get h x ;;
      do h <- set_left h y (nleft ov) ;;
      do ov <- get h x ;;
      do h <- set_parent h (nleft ov) y ;; K h) = K h') /\ Zp h' k (T c l y r').
Proof.
  intros HC Mx My Cl Cr Hl Hok Kxk Kxl Kxr Hxy Hx0. pose proof Hok as [Hk H0]. cbn [cnt] in *.
  assert (Hy0 : y <> 0) by (intros ->; rewrite Z.eqb_refl in H0; cbn [b2z] in H0; nn 0; lia).
  assert (Ky : cntC y k = 0 /\ cnt y l = 0 /\ cnt y r' = 0). { pose proof (Hk y) as Q. rewrite Z.eqb_refl in Q. cbn [b2z] in Q. nn y. lia. } destruct Ky as (Kyk & Kyl & Kyr).
  pose proof (addr_cnt l Hl) as Al. assert (Hl0 : addr l <> 0) by (intros Q; rewrite Q in *; nn 0; lia).
  assert (Hly : addr l <> y) by (intros Q; rewrite Q in *; lia). assert (Hlx : addr l <> x) by (intros Q; rewrite Q in *; lia).
  assert (Kl : cntC (addr l) k = 0 /\ cnt (addr l) r' = 0) by (pose proof (Hk (addr l)) as Q; nn (addr l); lia). destruct Kl as (Klk & Klr).
  eexists. split. 2: shelve. intros A K.
  rewrite get_nz by auto. rewrite Mx. cbn [bind npar ncol]. rewrite modify_nz by auto. rewrite My. cbn [bind nleft nright].
  rewrite get_nz by auto. rewrite mem_put_ne by auto. rewrite Mx. cbn [bind nleft]. unfold set_left. rewrite modify_nz by auto. rewrite mem_put_eq. cbn [bind npar ncol nright].
  rewrite get_nz by auto. rewrite !mem_put_ne by auto. rewrite Mx. cbn [bind nleft]. unfold set_parent. rewrite modify_nz by auto. cbn [bind].
  rewrite !mem_put_ne by auto. reflexivity.
  Unshelve. set (h' := put _ _ _).
  assert (Q : forall z, z <> addr l -> z <> y -> mem h' z = mem h z) by (intros z Z1 Z2; unfold h'; rewrite !mem_put_ne; auto).
  split; [|split].
  - cbn [addr]. apply cellsC_frame with h; auto. intros z Hz. apply Q; intros ->; lia.
  - cbn [cells]. split; [unfold h'; rewrite mem_put_ne, mem_put_eq; auto|]. split.
    + apply cells_re with h x; auto.
      * intros z. specialize (Hk z). nn z. lia.
      * intros z Hz Hne. apply Q; auto. intros ->. lia.
      * intros _. unfold h'. rewrite mem_put_eq. auto.
    + apply cells_frame with h; auto. intros z Hz. apply Q; intros ->; lia.
  - auto.
Qed.

Lemma repl_eq t1 h p n new A (K : heap -> res A) : (forall v, t1 n v = (nleft v =? n)) ->
  (do h <- (if p =? 0 then Ok (set_root h new) else do v <- get h p ;; (if nleft v =? n then set_left h p new else set_right h p new)) ;; K h) =
  (do h <- repl t1 h p n new ;; K h).
Proof. intros H. unfold repl. destruct (p =? 0); auto. destruct (get h p); cbn [bind]; auto. rewrite H. auto. Qed.

Lemma inorder_ctx k : exists a b, forall t, inorder (plug k t) = a ++ inorder t ++ b.
Proof.
  induction k as [|[d c x s] k IH]; cbn [plug]. { exists [], []. intros t. cbn. rewrite app_nil_r. auto. }
  destruct IH as (a & b & H). destruct d.
  - exists a, (x :: inorder s ++ b). intros t. rewrite H. cbn [mk inorder]. rewrite <- app_assoc. auto.
  - exists (a ++ inorder s ++ [x]), b. intros t. rewrite H. cbn [mk inorder]. rewrite <- !app_assoc. cbn. auto.
Qed.
Lemma plug_app a b t : plug (a ++ b) t = plug b (plug a t).
Proof. revert t; induction a as [|f a IH]; intros t; cbn [app plug]; auto. Qed.
Lemma rbc_rename a d c x y s k n : rbc (a ++ F d c x s :: k) n -> rbc (a ++ F d c y s :: k) n.
Proof.
  revert n; induction a as [|[d0 c0 x0 s0] a IH]; intros n; cbn [app rbc]; auto.
  destruct c0; [|intros [? ?]; split; auto]. intros (H1 & H2 & H3 & H4). split; auto. split; auto. split; auto. destruct a as [|[? [|] ? ?] a]; auto.
Qed.
Lemma topB_rename a d c x y s k : topB (a ++ F d c x s :: k) -> topB (a ++ F d c y s :: k).
Proof. destruct a as [|[? [|] ? ?] a]; auto. Qed.
Lemma size_plug k : forall t, (length k + size t <= size (plug k t))%nat.
Proof. induction k as [|[d c x s] k IH]; intros t; cbn [plug length]; [lia|]. pose proof (IH (mk (F d c x s) t)). destruct d; cbn [mk size] in *; lia. Qed.
Lemma size_inorder t : size t = length (inorder t).
Proof. induction t; cbn [size inorder]; auto. rewrite app_length. cbn [length]. lia. Qed.
Lemma cntC_app z a b : cntC z (a ++ b) = cntC z a + cntC z b.
Proof. induction a as [|[d c x s] a IH]; cbn [app cntC]; lia. Qed.
Lemma cidb_app p k x d c s : cidb p x = cid (p ++ F d c x s :: k).
Proof. destruct p as [|[? ? ? ?] p]; auto. Qed.

(* the two-children case up to (excluding) the rebalancing *)
Lemma unlink2_ok h k c l x p d y e fuel : Zp h k (T c l x (plug p (T d E y e))) -> l <> E -> allL p -> (length p < fuel)%nat ->
  exists h', unlink2 fuel h x (Nd (cid k) c (addr l) (addr (plug p (T d E y e)))) = Ok (h', addr e, cid (p ++ F Rt c y l :: k), d) /\
    Zp h' k (T c l y (plug p e)).
Proof.
  intros H Hl Ha Hf. unfold unlink2. cbv zeta. cbn [nright].
  destruct H as (HC & HT & Hok). pose proof Hok as [Hk H0]. cbn [cells addr] in *. destruct HT as (Mx & Cl & Cr).
  assert (Hk' : forall z, cntC z k + (b2z (z =? x) + cnt z l + (cntC z p + (b2z (z =? y) + cnt z e))) <= 1).
  { intros z. specialize (Hk z). cbn [cnt] in Hk. rewrite cnt_plug in Hk. cbn [cnt] in Hk. lia. }
  assert (H0' : cntC 0 k + (b2z (0 =? x) + cnt 0 l + (cntC 0 p + (b2z (0 =? y) + cnt 0 e))) = 0).
  { cbn [cnt] in H0. rewrite cnt_plug in H0. cbn [cnt] in H0. lia. }
  assert (Hx0 : x <> 0) by (intros ->; rewrite Z.eqb_refl in H0'; cbn [b2z] in H0'; nn 0; lia).
  assert (Hy0 : y <> 0) by (intros ->; rewrite Z.eqb_refl in H0'; cbn [b2z] in H0'; nn 0; lia).
  assert (Kx : cntC x k = 0 /\ cnt x l = 0 /\ cntC x p = 0 /\ b2z (x =? y) = 0 /\ cnt x e = 0). { pose proof (Hk' x) as Q. rewrite Z.eqb_refl in Q. cbn [b2z] in Q. nn x. lia. }
  destruct Kx as (Kxk & Kxl & Kxp & Kxy & Kxe). assert (Hxy : x <> y) by (intros ->; rewrite Z.eqb_refl in Kxy; cbn in Kxy; lia).
  assert (Ky : cntC y k = 0 /\ cnt y l = 0 /\ cntC y p = 0 /\ cnt y e = 0). { pose proof (Hk' y) as Q. rewrite Z.eqb_refl in Q. cbn [b2z] in Q. nn y. lia. }
  destruct Ky as (Kyk & Kyl & Kyp & Kye).
  rewrite (leftmost_ok h (addr (plug p (T d E y e))) p d y e x fuel); auto.
  2:{ rewrite cnt_plug. cbn [cnt]. nn 0. lia. }
  cbn [bind]. rewrite (get_nz h x) by auto. rewrite Mx. cbn [bind npar].
  rewrite (repl_eq (fun n p => nleft p =? n)) by auto.
  destruct (repl_ok (fun n p => nleft p =? n) h k x y (T c l x (plug p (T d E y e)))) as (h1 & -> & C1 & M1); auto; try (intros; subst; lia).
  cbn [bind].
  assert (Q1 : forall z, cntC z k = 0 -> mem h1 z = mem h z).
  { intros z Hz. apply M1. destruct k as [|f k]; [cbn [cid]; destruct (Z.eq_dec z 0); auto|left]. intros ->. pose proof (cid_cnt (f :: k) ltac:(discriminate)). lia. }
  assert (Cl1 : cells h1 l x) by (apply cells_frame with h; auto; intros z Hz; apply Q1; specialize (Hk' z); nn z; lia).
  assert (Cr1 : cells h1 (plug p (T d E y e)) x). { apply cells_frame with h; auto; intros z Hz; apply Q1. rewrite cnt_plug in Hz. cbn [cnt] in Hz. specialize (Hk' z); nn z; lia. }
  assert (Mx1 : mem h1 x = Nd (cid k) c (addr l) (addr (plug p (T d E y e)))) by (rewrite Q1; auto).
  clear M1 Q1 HC Mx Cl Cr. rewrite (get_nz h1 y) by auto.
  pose proof Cr1 as Cr1'. apply cells_plug in Cr1'. destruct Cr1' as [Ty Py]. cbn [cells addr] in Ty, Py. destruct Ty as (My & _ & Ce).
  rewrite My. cbn [bind nright npar ncol addr].
  assert (Okf : ok k (T c l y (plug p e))).
  { split; [intros z; specialize (Hk' z)|]; cbn [cnt]; rewrite cnt_plug; nn z; nn 0; try lia. }
  destruct p as [|[d0 c0 q s] p].
  - cbn [cidb plug] in *. rewrite Z.eqb_refl. cbn [bind].
    destruct (take_place h1 k c l x y d x y e) as (h' & E' & Z'); auto. exists h'. split; auto.
    etransitivity; [apply E'|]. reflexivity.
  - cbn [allL] in Ha. destruct d0; [|contradiction]. cbn [cidb] in *.
    cbn [cntC] in *.
    assert (Kq : cntC q k = 0 /\ cnt q l = 0 /\ cnt q s = 0 /\ cntC q p = 0 /\ cnt q e = 0 /\ b2z (q =? x) = 0 /\ b2z (q =? y) = 0). { pose proof (Hk' q) as Q. rewrite Z.eqb_refl in Q. cbn [b2z] in Q. nn q. lia. }
    destruct Kq as (Kqk & Kql & Kqs & Kqp & Kqe & Kqx & Kqy).
    assert (Hqx : q <> x) by (intros ->; rewrite Z.eqb_refl in Kqx; cbn in Kqx; lia).
    assert (Hqy : q <> y) by (intros ->; rewrite Z.eqb_refl in Kqy; cbn in Kqy; lia).
    assert (Hq0 : q <> 0) by (intros ->; rewrite Z.eqb_refl in H0'; cbn [b2z] in H0'; nn 0; lia).
    replace (q =? x) with false by lia. rewrite spo_model. cbn [bind]. remember (spo h1 (addr e) q) as h2 eqn:Eh2.
    assert (Ae : e <> E -> addr e <> 0 /\ cntC (addr e) k = 0 /\ cnt (addr e) l = 0 /\ cnt (addr e) s = 0 /\ cntC (addr e) p = 0 /\ addr e <> x /\ addr e <> y /\ addr e <> q).
    { intros Hne. pose proof (addr_cnt e Hne) as A. pose proof (Hk' (addr e)) as Q. nn (addr e).
      split; [intros X; rewrite X in *; nn 0; lia|]. split; [lia|]. split; [lia|]. split; [lia|]. split; [lia|].
      split; [intros X; rewrite X in *; lia|]. split; intros X; rewrite X in *; lia. }
    assert (Q2 : forall z, (e = E \/ z <> addr e) -> mem h2 z = mem h1 z). { intros z [-> |Hz]; rewrite Eh2; [reflexivity|apply spo_ne; auto]. }
    assert (Q2' : forall z, 1 <= cntC z k \/ 1 <= cnt z l \/ 1 <= cnt z s \/ 1 <= cntC z p \/ z = x \/ z = y \/ z = q -> mem h2 z = mem h1 z).
    { intros z Hz. apply Q2. destruct e as [|ce el ex er]; [auto|right]. destruct (Ae ltac:(discriminate)) as (A1 & A2 & A3 & A4 & A5 & A6 & A7 & A8). intros ->.
      destruct Hz as [|[|[|[|[|[|]]]]]]; try lia; congruence. }
    cbn [cellsP] in Py. destruct Py as (Mq & Cs & Pp).
    unfold set_left at 1. rewrite modify_nz by auto. cbn [bind]. rewrite (Q2' q) by tauto. rewrite Mq. cbn [npar ncol nright].
    remember (put h2 q (Nd (cidb p x) c0 (addr e) (addr s))) as h3 eqn:Eh3.
    assert (C3 : cells h3 (plug (F L c0 q s :: p) e) x).
    { apply cells_plug. cbn [cidb cellsP]. split; [|split; [|split]].
      - apply cells_re with h1 y; auto.
        + intros z. specialize (Hk' z). nn z. lia.
        + intros z Hz Hne. rewrite Eh3, mem_put_ne by (intros ->; lia). apply Q2; auto.
        + intros Hne. destruct (Ae Hne) as (A1 & _ & _ & _ & _ & _ & _ & A8). rewrite Eh3, mem_put_ne by auto. rewrite Eh2. apply spo_eq; auto.
      - rewrite Eh3, mem_put_eq. auto.
      - apply cells_frame with h1; auto. intros z Hz. rewrite Eh3, mem_put_ne by (intros ->; lia). apply Q2'. tauto.
      - apply cellsP_frame with h1; auto. intros z Hz. rewrite Eh3, mem_put_ne by (intros ->; lia). apply Q2'. tauto. }
    assert (Q3 : forall z, 1 <= cntC z k \/ 1 <= cnt z l \/ z = x \/ z = y -> mem h3 z = mem h1 z).
    { intros z Hz. rewrite Eh3, mem_put_ne. { apply Q2'. tauto. } intros ->. destruct Hz as [|[|[|]]]; try lia; congruence. }
    assert (R3 : root h3 = root h1) by (rewrite Eh3; cbn [put root]; rewrite Eh2, spo_root; auto).
    rewrite (get_nz h3 x) by auto. rewrite (Q3 x) by tauto. rewrite Mx1. cbn [bind nright].
    unfold set_right at 1. rewrite modify_nz by auto. cbn [bind]. rewrite (Q3 y) by tauto. rewrite My. cbn [npar ncol nleft].
    remember (put h3 y (Nd q d 0 (addr (plug (F L c0 q s :: p) (T d E y e))))) as h4 eqn:Eh4.
    rewrite (get_nz h4 x) by auto. assert (Mx4 : mem h4 x = mem h1 x) by (rewrite Eh4, mem_put_ne by auto; apply Q3; tauto). rewrite Mx4, Mx1. cbn [bind nright].
    rewrite (plug_addr (F L c0 q s :: p) (T d E y e) e) by discriminate. set (r' := plug (F L c0 q s :: p) e) in *.
    assert (Hr' : r' <> E). { unfold r'. cbn [plug mk]. apply plug_ne. discriminate. }
    pose proof (addr_cnt r' Hr') as Ar. assert (Kr : forall z, cnt z r' = b2z (z =? q) + cnt z s + cntC z p + cnt z e) by (intros z; unfold r'; rewrite cnt_plug; cbn [cntC]; lia).
    assert (Hr0 : addr r' <> 0) by (intros X; rewrite X in *; rewrite Kr in Ar; nn 0; lia).
    assert (Hra : cntC (addr r') k = 0 /\ cnt (addr r') l = 0 /\ addr r' <> x /\ addr r' <> y).
    { rewrite Kr in Ar. pose proof (Hk' (addr r')) as Q. nn (addr r'). split; [lia|]. split; [lia|]. split; intros X; rewrite X in *; rewrite Z.eqb_refl in Q; cbn [b2z] in Q; lia. }
    destruct Hra as (Hrk & Hrl & Hrx & Hry).
    unfold set_parent at 1. rewrite modify_nz by auto. cbn [bind]. set (h5 := put _ _ _).
    assert (Q4 : forall z, z <> y -> mem h4 z = mem h3 z) by (intros z Hz; rewrite Eh4; apply mem_put_ne; auto).
    assert (Q5 : forall z, z <> addr r' -> mem h5 z = mem h4 z) by (intros z Hz; unfold h5; apply mem_put_ne; auto).
    destruct (take_place h5 k c l x (addr r') d q y r') as (h' & E' & Z'); auto.
    + apply cellsC_frame with h1; auto. { unfold h5. cbn [put root]. rewrite Eh4. cbn [put root]. auto. }
      intros z Hz. rewrite Q5 by (intros ->; lia). rewrite Q4 by (intros ->; lia). apply Q3. tauto.
    + rewrite Q5 by auto. rewrite Mx4, Mx1. unfold r'. rewrite (plug_addr (F L c0 q s :: p) (T d E y e) e) by discriminate. auto.
    + rewrite Q5 by auto. rewrite Eh4, mem_put_eq. unfold r'. rewrite (plug_addr (F L c0 q s :: p) (T d E y e) e) by discriminate. auto.
    + apply cells_frame with h1; auto. intros z Hz. rewrite Q5 by (intros ->; lia). rewrite Q4 by (intros ->; lia). apply Q3. tauto.
    + apply cells_re with h3 x; auto.
      * intros z. rewrite Kr. specialize (Hk' z). nn z. lia.
      * intros z Hz Hne. rewrite Q5 by auto. apply Q4. intros ->. rewrite Kr in Hz. rewrite ?Z.eqb_refl in *. assert (b2z (y =? q) = 0) by (destruct (Z.eqb_spec y q); cbn; congruence). lia.
      * intros _. unfold h5. rewrite mem_put_eq. rewrite Q4 by auto. auto.
    + rewrite Kr. assert (b2z (x =? q) = 0) by (destruct (Z.eqb_spec x q); cbn; congruence). lia.
    + exists h'. split; auto. etransitivity; [apply E'|]. reflexivity.
Qed.
