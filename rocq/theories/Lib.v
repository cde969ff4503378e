(* Lib.v - further shared helpers (no part of /repo is modelled here): sequential output into a
   list-backed buffer, and list lemmas used by several components. *)
From Verif Require Import Base.

(* *p++ = b for every b in l *)
Fixpoint puts (m : list Z) (p : Z) (l : list Z) : res (list Z * Z) :=
  match l with
  | [] => Ok (m, p)
  | b :: t => do m' <- wr m p b ;; puts m' (p + 1) t
  end.

Lemma blit_nil {A} (m : list A) o : blit m o [] = m.
Proof. unfold blit. cbn [app length]. rewrite Nat.add_0_r. apply firstn_skipn. Qed.

Lemma blit_blit {A} (m : list A) o a b : (o + length a <= length m)%nat ->
  blit (blit m o a) (o + length a) b = blit m o (a ++ b).
Proof.
  intros H. unfold blit at 1 3.
  assert (E : firstn (o + length a) (blit m o a) = firstn o m ++ a).
  { unfold blit. rewrite app_assoc. apply firstn_app_exact. rewrite app_length, firstn_length. lia. }
  rewrite E, <- !app_assoc. do 3 f_equal.
  unfold blit. rewrite app_assoc, skipn_app.
  rewrite skipn_all2 by (rewrite app_length, firstn_length; lia). cbn [app].
  rewrite skipn_skipn. f_equal. rewrite !app_length, firstn_length. lia.
Qed.

Lemma puts_app m p a b : puts m p (a ++ b) = do ' (m', p') <- puts m p a ;; puts m' p' b.
Proof. revert m p; induction a; intros; cbn [app puts bind]; auto. destruct (wr m p a); cbn [bind]; auto. Qed.

Lemma puts_ok l : forall m p, 0 <= p -> p + zlen l <= zlen m ->
  puts m p l = Ok (blit m (Z.to_nat p) l, p + zlen l).
Proof.
  induction l as [|b t IH]; intros m p Hp Hl.
  - cbn [puts]. rewrite blit_nil. change (zlen (@nil Z)) with 0. rewrite Z.add_0_r. reflexivity.
  - rewrite zlen_cons in Hl. pose proof (zlen_nonneg t). cbn [puts]. rewrite wr_in by lia. cbn [bind].
    rewrite IH by (rewrite ?zlen_upd; lia). rewrite zlen_cons. f_equal. f_equal; [|lia].
    rewrite upd_split by (unfold zlen in *; lia).
    change (firstn (Z.to_nat p) m ++ b :: skipn (S (Z.to_nat p)) m) with (firstn (Z.to_nat p) m ++ [b] ++ skipn (S (Z.to_nat p)) m).
    replace (S (Z.to_nat p)) with (Z.to_nat p + length [b])%nat at 1 by (cbn [length]; lia).
    fold (blit m (Z.to_nat p) [b]). replace (Z.to_nat (p + 1)) with (Z.to_nat p + length [b])%nat by (cbn [length]; lia).
    rewrite blit_blit by (cbn [length]; unfold zlen in *; lia). reflexivity.
Qed.

Lemma zlen_blit (m : list Z) p l : 0 <= p -> p + zlen l <= zlen m -> zlen (blit m (Z.to_nat p) l) = zlen m.
Proof. intros. unfold zlen in *. rewrite blit_length; lia. Qed.

Lemma zblit_blit (m : list Z) p a b : 0 <= p -> p + zlen a <= zlen m ->
  blit (blit m (Z.to_nat p) a) (Z.to_nat (p + zlen a)) b = blit m (Z.to_nat p) (a ++ b).
Proof.
  intros. unfold zlen in *. replace (Z.to_nat (p + Z.of_nat (length a))) with (Z.to_nat p + length a)%nat by lia.
  apply blit_blit. lia.
Qed.

Lemma at0_blit (m : list Z) p l i : 0 <= p -> p + zlen l <= zlen m -> 0 <= i ->
  at0 (blit m (Z.to_nat p) l) i = if (p <=? i) && (i <? p + zlen l) then at0 l (i - p) else at0 m i.
Proof.
  intros. unfold at0, zlen in *. rewrite nth_blit by lia.
  destruct (Nat.leb_spec (Z.to_nat p) (Z.to_nat i)), (Z.leb_spec p i); cbn [andb]; try lia; auto.
  destruct (Nat.ltb_spec (Z.to_nat i) (Z.to_nat p + length l)), (Z.ltb_spec i (p + Z.of_nat (length l))); try lia; auto.
  f_equal. lia.
Qed.

(* two-step and three-step list induction *)
Lemma list_ind3 {A} (P : list A -> Prop) :
  P [] -> (forall a, P [a]) -> (forall a b, P [a; b]) -> (forall a b c t, P t -> P (a :: b :: c :: t)) -> forall l, P l.
Proof.
  intros H0 H1 H2 H3. assert (H : forall n l, (length l <= n)%nat -> P l).
  { induction n; intros l Hl; [destruct l; [auto|cbn in Hl; lia]|].
    destruct l as [|a [|b [|c t]]]; auto. apply H3, IHn. cbn in Hl. lia. }
  intros l. apply (H (length l)). lia.
Qed.
Lemma list_ind4 {A} (P : list A -> Prop) :
  P [] -> (forall a, P [a]) -> (forall a b, P [a; b]) -> (forall a b c, P [a; b; c]) ->
  (forall a b c d t, P t -> P (a :: b :: c :: d :: t)) -> forall l, P l.
Proof.
  intros H0 H1 H2 H3 H4. assert (H : forall n l, (length l <= n)%nat -> P l).
  { induction n; intros l Hl; [destruct l; [auto|cbn in Hl; lia]|].
    destruct l as [|a [|b [|c [|d t]]]]; auto. apply H4, IHn. cbn in Hl. lia. }
  intros l. apply (H (length l)). lia.
Qed.
