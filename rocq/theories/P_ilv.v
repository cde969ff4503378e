(* P_ilv.v - programs that only move elements: where every element of the result comes from is computed once, on
   positions instead of contents, with a binary tree as memory; the result holds for all contents. *)
From Verif Require Import Base M_ilvtab M_ilv.

(* ---- finite maps on positive ---- *)
Inductive tree := Lf | Nd (l : tree) (o : option (nat * Z)) (r : tree).
Fixpoint tget (t : tree) (p : positive) : option (nat * Z) :=
  match t with
  | Lf => None
  | Nd l o r => match p with xH => o | xO q => tget l q | xI q => tget r q end
  end.
Fixpoint tset (t : tree) (p : positive) (v : nat * Z) : tree :=
  match p, t with
  | xH, Lf => Nd Lf (Some v) Lf
  | xH, Nd l _ r => Nd l (Some v) r
  | xO q, Lf => Nd (tset Lf q v) None Lf
  | xO q, Nd l o r => Nd (tset l q v) o r
  | xI q, Lf => Nd Lf None (tset Lf q v)
  | xI q, Nd l o r => Nd l o (tset r q v)
  end.
Lemma tget_Lf p : tget Lf p = None.
Proof. destruct p; auto. Qed.
Lemma tgss p : forall t v, tget (tset t p v) p = Some v.
Proof. induction p; intros [|l o r] v; cbn; auto. Qed.
Lemma tgso p : forall t q v, p <> q -> tget (tset t p v) q = tget t q.
Proof.
  induction p; intros [|l o r] [q|q|] v H; cbn; auto; rewrite ?IHp; rewrite ?tget_Lf; auto; congruence.
Qed.

(* position (array, index) as a key *)
Definition enc (a : nat) (i : Z) : positive := Z.to_pos (i * 32 + Z.of_nat a + 1).
Lemma enc_inj a i b j : (a < 32)%nat -> (b < 32)%nat -> 0 <= i -> 0 <= j -> enc a i = enc b j -> a = b /\ i = j.
Proof. unfold enc. intros. assert (i * 32 + Z.of_nat a + 1 = j * 32 + Z.of_nat b + 1) by (apply Z2Pos.inj; auto; lia). lia. Qed.

Definition orig (t : tree) (a : nat) (i : Z) : nat * Z := match tget t (enc a i) with Some c => c | None => (a, i) end.

Fixpoint trun (ns : list Z) (t : tree) (p : prog) : option tree :=
  match p with
  | [] => Some t
  | ((d, i), (s, g)) :: q =>
    if (0 <=? i) && (i <? nth d ns 0) && (0 <=? g) && (g <? nth s ns 0) then trun ns (tset t (enc d i) (orig t s g)) q else None
  end.

Definition val (e : list (list Z)) (c : nat * Z) : Z := at0 (nth (fst c) e []) (snd c).
Definition sim (e0 : list (list Z)) (t : tree) (e : list (list Z)) : Prop :=
  forall a i, 0 <= i < zlen (nth a e []) -> at0 (nth a e []) i = val e0 (orig t a i).

Lemma nth_zlen (e : list (list Z)) a : zlen (nth a e []) = nth a (map zlen e) 0.
Proof. change 0 with (zlen (@nil Z)). now rewrite map_nth. Qed.

Lemma zlens_upd (e : list (list Z)) : forall d m, zlen m = zlen (nth d e []) -> map zlen (upd e d m) = map zlen e.
Proof. induction e as [|x e IH]; intros [|d] m H; cbn [upd map nth] in *; auto. { now f_equal. } f_equal. now apply IH. Qed.

Lemma nth_upd_env (e : list (list Z)) d m a : (d < length e)%nat -> nth a (upd e d m) [] = if Nat.eqb d a then m else nth a e [].
Proof.
  intros H. rewrite upd_nth. destruct (Nat.eqb_spec d a); cbn [andb]; auto. destruct (Nat.ltb_spec d (length e)); auto; lia.
Qed.

Lemma trun_ok e0 p : forall ns t t' e, (length ns <= 32)%nat -> trun ns t p = Some t' -> map zlen e = ns -> sim e0 t e ->
  exists e', exec e p = Ok e' /\ map zlen e' = ns /\ sim e0 t' e'.
Proof.
  induction p as [|((d, i), (s, g)) p IH]; intros ns t t' e LE T L S; cbn [trun exec] in *.
  - injection T as <-. eauto.
  - destruct ((0 <=? i) && (i <? nth d ns 0) && (0 <=? g) && (g <? nth s ns 0)) eqn:C; [|discriminate].
    assert (C' : 0 <= i < zlen (nth d e []) /\ 0 <= g < zlen (nth s e [])) by (rewrite !nth_zlen, L; lia). clear C. destruct C' as [Ci Cg].
    assert (Dd : (d < length e)%nat).
    { destruct (Nat.ltb_spec d (length e)); auto. rewrite nth_overflow in Ci by lia. unfold zlen in Ci; cbn in Ci; lia. }
    unfold exec1. rewrite rd_at0 by lia. cbn [bind]. rewrite wr_in by lia. cbn [bind].
    eapply IH; eauto.
    + rewrite zlens_upd; auto. unfold zlen. now rewrite upd_length.
    + intros a j Hj. rewrite nth_upd_env in * by auto. destruct (Nat.eqb_spec d a) as [<-|N].
      * rewrite zlen_upd in Hj. rewrite at0_upd by lia. unfold orig at 1.
        destruct (Z.eqb_spec j i) as [->|Nj].
        -- rewrite tgss. now apply S.
        -- rewrite tgso. { apply S; lia. } intros E. apply enc_inj in E; try lia. rewrite <- L, map_length in LE. lia. rewrite <- L, map_length in LE. lia.
      * unfold orig at 1. rewrite tgso. { apply S; auto. }
        assert (Aa : (a < length e)%nat).
        { destruct (Nat.ltb_spec a (length e)); auto. rewrite nth_overflow in Hj by lia. unfold zlen in Hj; cbn in Hj; lia. }
        rewrite <- L, map_length in LE. intros E. apply enc_inj in E; lia.
Qed.

Lemma exec_final ns p t e : trun ns Lf p = Some t -> (length ns <= 32)%nat -> map zlen e = ns ->
  exists e', exec e p = Ok e' /\ map zlen e' = ns /\ sim e t e'.
Proof.
  intros T LE L. eapply trun_ok; eauto. intros a i H. unfold orig. destruct (enc a i); reflexivity.
Qed.

Lemma exec_app (p q : prog) : forall e, exec e (p ++ q) = do e' <- exec e p ;; exec e' q.
Proof. induction p; intros; cbn [app exec bind]; auto. destruct (exec1 e a); cbn [bind]; auto. Qed.

Definition ceqb (x y : nat * Z) : bool := Nat.eqb (fst x) (fst y) && (snd x =? snd y).
Lemma ceqb_eq x y : ceqb x y = true -> x = y.
Proof.
  unfold ceqb. intros H. apply andb_prop in H as [E1 E2]. apply Nat.eqb_eq in E1. apply Z.eqb_eq in E2. destruct x, y. cbn in *. now subst.
Qed.

(* program p on arrays of lengths ns succeeds and, for every (a, b) of goals, leaves in array a what array b held *)
Definition moves (ns : list Z) (p : prog) (goals : list (nat * nat)) : bool :=
  Nat.leb (length ns) 32 &&
  match trun ns Lf p with
  | Some t => forallb (fun g => (nth (fst g) ns 0 =? nth (snd g) ns 0) &&
      forallb (fun i => ceqb (orig t (fst g) i) (snd g, i)) (zseq 0 (Z.to_nat (nth (fst g) ns 0)))) goals
  | None => false
  end.

Lemma moves_ok ns p goals e : moves ns p goals = true -> map zlen e = ns ->
  exists e', exec e p = Ok e' /\ map zlen e' = map zlen e /\ forall a b, In (a, b) goals -> nth a e' [] = nth b e [].
Proof.
  unfold moves. intros M L. apply andb_prop in M as [LE M]. apply Nat.leb_le in LE.
  destruct (trun ns Lf p) as [t|] eqn:T; [|discriminate].
  destruct (exec_final ns p t e T LE L) as (e' & X & L' & S). exists e'. split; auto. split; [congruence|].
  intros a b Hab. rewrite forallb_forall in M. specialize (M _ Hab). cbn [fst snd] in M. apply andb_prop in M as [Z1 M].
  rewrite forallb_forall in M.
  assert (Z2 : zlen (nth a e' []) = zlen (nth b e [])) by (rewrite !nth_zlen, L', L; lia).
  apply (list_ext _ _ 0). { unfold zlen in Z2. lia. }
  intros n Hn. assert (Hn' : 0 <= Z.of_nat n < zlen (nth a e' [])) by (unfold zlen; lia).
  specialize (S a (Z.of_nat n) Hn'). unfold at0 at 1 in S. rewrite Nat2Z.id in S. rewrite S.
  rewrite (ceqb_eq _ (b, Z.of_nat n)). { unfold val, at0. cbn. now rewrite Nat2Z.id. }
  apply M. apply zseq_In. rewrite nth_zlen, L' in Hn'. lia.
Qed.

(* every (destination, source) of l holds after the program *)
Definition placed (ns : list Z) (p : prog) (l : list ((nat * Z) * (nat * Z))) : bool :=
  Nat.leb (length ns) 32 &&
  match trun ns Lf p with
  | Some t => forallb (fun x => let '((a, i), c) := x in (0 <=? i) && (i <? nth a ns 0) && ceqb (orig t a i) c) l
  | None => false
  end.
Lemma placed_ok ns p l e : placed ns p l = true -> map zlen e = ns ->
  exists e', exec e p = Ok e' /\ map zlen e' = map zlen e /\
    forall a i b j, In ((a, i), (b, j)) l -> at0 (nth a e' []) i = at0 (nth b e []) j.
Proof.
  unfold placed. intros M L. apply andb_prop in M as [LE M]. apply Nat.leb_le in LE.
  destruct (trun ns Lf p) as [t|] eqn:T; [|discriminate].
  destruct (exec_final ns p t e T LE L) as (e' & X & L' & S). exists e'. split; auto. split; [congruence|].
  intros a i b j H. rewrite forallb_forall in M. specialize (M _ H). cbn in M. apply andb_prop in M as [R C].
  rewrite S. { now rewrite (ceqb_eq _ _ C). } rewrite nth_zlen, L'. lia.
Qed.

(* ---- running a program on a window of a larger array ---- *)
Definition shp (w : nat) (k : Z) (x : ptr) : ptr := if Nat.eqb (fst x) w then (fst x, snd x + k) else x.
Definition shiftp (w : nat) (k : Z) (p : prog) : prog := map (fun x => (shp w k (fst x), shp w k (snd x))) p.

Lemma upd_upd {A} (l : list A) : forall n v v', upd (upd l n v) n v' = upd l n v'.
Proof. induction l; intros [|n] v v'; cbn [upd]; auto. now rewrite IHl. Qed.
Lemma upd_comm {A} (l : list A) : forall n m v v', n <> m -> upd (upd l n v) m v' = upd (upd l m v') n v.
Proof. induction l; intros [|n] [|m] v v' H; cbn [upd]; auto; try lia. f_equal. apply IHl. lia. Qed.
Lemma upd_app_mid (a x b : list Z) i v : 0 <= i < zlen x ->
  upd (a ++ x ++ b) (Z.to_nat (i + zlen a)) v = a ++ upd x (Z.to_nat i) v ++ b.
Proof.
  intros H. replace (Z.to_nat (i + zlen a)) with (length a + Z.to_nat i)%nat by (unfold zlen in *; lia).
  induction a as [|y a IH]; cbn [length app Nat.add upd]; [|now f_equal].
  assert (Hn : (Z.to_nat i < length x)%nat) by (unfold zlen in H; lia). revert Hn. generalize (Z.to_nat i). clear.
  induction x as [|y x IH]; intros [|n] Hn; cbn [length app upd] in *; try lia; auto. f_equal. apply IH. lia.
Qed.
Lemma at0_app_mid (a x b : list Z) i : 0 <= i < zlen x -> at0 (a ++ x ++ b) (i + zlen a) = at0 x i.
Proof.
  intros H. unfold at0. replace (Z.to_nat (i + zlen a)) with (length a + Z.to_nat i)%nat by (unfold zlen in *; lia).
  rewrite app_nth2_plus, app_nth1; auto. unfold zlen in H. lia.
Qed.

Lemma rd_inv (l : list Z) i v : rd l i = Ok v -> 0 <= i < zlen l.
Proof. unfold rd. destruct (i <? 0) eqn:E; [discriminate|]. destruct (nth_error l (Z.to_nat i)) eqn:E2; [|discriminate].
  assert (H : nth_error l (Z.to_nat i) <> None) by congruence. apply nth_error_Some in H. unfold zlen. lia. Qed.

Lemma exec_length p : forall e e', exec e p = Ok e' -> length e' = length e.
Proof.
  induction p as [|((d, i), (s, g)) p IH]; intros e e' H; cbn [exec] in H. { now injection H as <-. }
  apply bind_Ok_inv in H as (e1 & H1 & H). rewrite (IH _ _ H). unfold exec1 in H1.
  apply bind_Ok_inv in H1 as (v & _ & H1). apply bind_Ok_inv in H1 as (m & _ & H1). injection H1 as <-. apply upd_length.
Qed.

Lemma exec_shift w pre post p : forall e e', (w < length e)%nat -> exec e p = Ok e' ->
  exec (upd e w (pre ++ nth w e [] ++ post)) (shiftp w (zlen pre) p) = Ok (upd e' w (pre ++ nth w e' [] ++ post)).
Proof.
  induction p as [|((d, i), (s, g)) p IH]; intros e e' Hw H; cbn [exec shiftp map] in *. { now injection H as <-. }
  apply bind_Ok_inv in H as (e1 & H1 & H). unfold exec1 in H1.
  apply bind_Ok_inv in H1 as (v & R & H1). apply bind_Ok_inv in H1 as (m & W & H1). injection H1 as <-.
  assert (Lw : (w < length (upd e d m))%nat) by now rewrite upd_length.
  specialize (IH _ _ Lw H). clear H. rewrite <- IH. unfold shiftp.
  assert (Wr : 0 <= i < zlen (nth d e []) /\ m = upd (nth d e []) (Z.to_nat i) v).
  { revert W. unfold wr. destruct (i <? 0) eqn:E1; [discriminate|]. destruct (Z.of_nat (length (nth d e [])) <=? i) eqn:E2; [discriminate|].
    intros W. injection W as <-. unfold zlen. split; auto. lia. }
  destruct Wr as [Ri ->].
  assert (Dd : (d < length e)%nat).
  { destruct (Nat.ltb_spec d (length e)); auto. rewrite nth_overflow in Ri by lia. unfold zlen in Ri; cbn in Ri; lia. }
  match goal with |- bind ?a _ = exec ?b _ => enough (a = Ok b) as -> end. { reflexivity. }
  unfold exec1, shp. cbn [fst snd].
  assert (RD : (let '(s', g') := if Nat.eqb s w then (s, g + zlen pre) else (s, g) in
                rd (nth s' (upd e w (pre ++ nth w e [] ++ post)) []) g') = Ok v).
  { pose proof (rd_inv _ _ _ R) as Rg. rewrite rd_at0 in R by auto. destruct (Nat.eqb_spec s w) as [->|N].
    - rewrite nth_upd_env, Nat.eqb_refl by auto. rewrite rd_at0. { now rewrite at0_app_mid. }
      rewrite !zlen_app. pose proof (zlen_nonneg pre). pose proof (zlen_nonneg post). lia.
    - rewrite nth_upd_env by auto. destruct (Nat.eqb_spec w s); [congruence|]. now rewrite rd_at0. }
  destruct (Nat.eqb s w); (destruct (Nat.eqb_spec d w) as [->|N]).
  all: cbv beta iota in RD |- *; rewrite RD; cbn [bind]; rewrite !nth_upd_env by auto.
  1,3: rewrite !Nat.eqb_refl; rewrite wr_in by (rewrite !zlen_app; pose proof (zlen_nonneg pre); pose proof (zlen_nonneg post); lia);
    cbn [bind]; rewrite upd_app_mid by auto; now rewrite !upd_upd.
  all: destruct (Nat.eqb_spec w d); [congruence|]; destruct (Nat.eqb_spec d w); [congruence|];
    rewrite wr_in by auto; cbn [bind]; now rewrite upd_comm by auto.
Qed.

Definition valw (w : nat) (off : Z) (e : list (list Z)) (c : nat * Z) : Z :=
  at0 (nth (fst c) e []) (if Nat.eqb (fst c) w then snd c + off else snd c).

Lemma split3 (l : list Z) off n : 0 <= off -> 0 <= n -> off + n <= zlen l ->
  exists a x b, l = a ++ x ++ b /\ zlen a = off /\ zlen x = n.
Proof.
  intros. exists (firstn (Z.to_nat off) l), (firstn (Z.to_nat n) (skipn (Z.to_nat off) l)), (skipn (Z.to_nat n) (skipn (Z.to_nat off) l)).
  rewrite !firstn_skipn. unfold zlen in *. rewrite !firstn_length, skipn_length. repeat split; lia.
Qed.

Lemma upd_nth_same {A} (l : list A) d : forall n, upd l n (nth n l d) = l.
Proof. induction l; intros [|n]; cbn [upd nth]; auto. now rewrite IHl. Qed.

Lemma win_ok ns p t e w off : trun ns Lf p = Some t -> (length ns <= 32)%nat -> (w < length e)%nat -> 0 <= off ->
  off + nth w ns 0 <= zlen (nth w e []) -> 0 <= nth w ns 0 -> upd (map zlen e) w (nth w ns 0) = ns ->
  exists e', exec e (shiftp w off p) = Ok e' /\ map zlen e' = map zlen e /\
    (forall a i, a <> w -> 0 <= i < nth a ns 0 -> (fst (orig t a i) = w -> 0 <= snd (orig t a i) < nth w ns 0) ->
       at0 (nth a e' []) i = valw w off e (orig t a i)) /\
    (forall i, 0 <= i < nth w ns 0 -> (fst (orig t w i) = w -> 0 <= snd (orig t w i) < nth w ns 0) ->
       at0 (nth w e' []) (i + off) = valw w off e (orig t w i)) /\
    (forall i, 0 <= i < zlen (nth w e []) -> i < off \/ off + nth w ns 0 <= i -> at0 (nth w e' []) i = at0 (nth w e []) i).
Proof.
  intros T LE Hw Ho HW HW0 L. destruct (split3 (nth w e []) off (nth w ns 0)) as (a & x & b & E & La & Lx); auto.
  set (e1 := upd e w x).
  assert (L1 : map zlen e1 = ns).
  { rewrite <- L at 1. unfold e1. rewrite <- Lx. clear. revert w. induction e as [|y e IH]; intros [|w]; cbn; auto. now rewrite IH. }
  destruct (exec_final ns p t e1 T LE L1) as (e1' & X & L1' & S).
  assert (W1 : (w < length e1)%nat) by (unfold e1; now rewrite upd_length).
  pose proof (exec_shift w a b p e1 e1' W1 X) as X2. pose proof (exec_length _ _ _ X) as LL.
  assert (N1 : nth w e1 [] = x) by (unfold e1; rewrite nth_upd_env by auto; now rewrite Nat.eqb_refl).
  assert (E1 : upd e1 w (a ++ nth w e1 [] ++ b) = e).
  { rewrite N1. rewrite <- E. unfold e1. rewrite upd_upd. apply upd_nth_same. }
  rewrite E1, La in X2.
  set (e' := upd e1' w (a ++ nth w e1' [] ++ b)) in *. exists e'. split; auto.
  assert (W1' : (w < length e1')%nat) by lia.
  assert (Lx' : zlen (nth w e1' []) = nth w ns 0) by now rewrite nth_zlen, L1'.
  assert (Nw : nth w e' [] = a ++ nth w e1' [] ++ b) by (unfold e'; rewrite nth_upd_env by auto; now rewrite Nat.eqb_refl).
  assert (No : forall c, c <> w -> nth c e' [] = nth c e1' []).
  { intros c Hc. unfold e'. rewrite nth_upd_env by auto. destruct (Nat.eqb_spec w c); congruence. }
  assert (V : forall c, (fst c = w -> 0 <= snd c < nth w ns 0) -> val e1 c = valw w off e c).
  { intros c Hc. unfold val, valw. destruct (Nat.eqb_spec (fst c) w) as [Ec|Nc].
    - rewrite Ec, N1, E, <- La, at0_app_mid; auto. rewrite Lx; auto.
    - f_equal. unfold e1. rewrite nth_upd_env by auto. destruct (Nat.eqb_spec w (fst c)); congruence. }
  split; [|split; [|split]].
  - apply (list_ext _ _ 0). { rewrite !map_length. unfold e'. rewrite upd_length, LL. unfold e1. now rewrite upd_length. }
    intros c Hc. rewrite <- !nth_zlen. destruct (Nat.eq_dec c w) as [->|Nc].
    + rewrite Nw, E, !zlen_app. lia.
    + rewrite No by auto. rewrite nth_zlen, L1', <- L1, <- nth_zlen. f_equal. unfold e1. rewrite nth_upd_env by auto.
      destruct (Nat.eqb_spec w c); congruence.
  - intros c i Nc Hi Hc. rewrite No by auto. rewrite S, V; auto. rewrite nth_zlen, L1'. auto.
  - intros i Hi Hc. rewrite Nw, <- La, at0_app_mid, S, V by (rewrite ?nth_zlen, ?L1'; auto). now rewrite La.
  - intros i Hi Hc. rewrite Nw, E. clear - Hi Hc Lx' La Lx E. unfold at0. destruct Hc.
    + rewrite !app_nth1 by (unfold zlen in *; lia). reflexivity.
    + rewrite !app_assoc. rewrite !(app_nth2 (_ ++ _)) by (rewrite app_length; unfold zlen in *; lia).
      f_equal. rewrite !app_length. unfold zlen in *. lia.
Qed.
