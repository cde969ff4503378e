(** Proofs about message files. *)
From Verif Require Import Base M_msgfile S_msgfile.

Definition zap (c : Z) : Z := if (c =? 10) || (c =? 13) then 0 else c.
Fixpoint pass (k i : Z) (l : list Z) : list Z * list Z :=
  match l with
  | [] => ([], [])
  | c :: l => if (c =? 58) && (k <? 3) then let '(r, it) := pass (k + 1) (i + 1) l in (0 :: r, i + 1 :: it) else let '(r, it) := pass k (i + 1) l in (zap c :: r, it)
  end.
Lemma wr_mid (p l : list Z) c x : wr (p ++ c :: l) (zlen p) x = Ok (p ++ x :: l).
Proof.
  unfold wr, zlen. destruct (Z.ltb_spec (Z.of_nat (length p)) 0); [lia|]. rewrite app_length. cbn [length]. destruct (Z.leb_spec (Z.of_nat (length p + S (length l))) (Z.of_nat (length p))); [lia|].
  f_equal. rewrite Nat2Z.id. clear. induction p as [|y p IH]; cbn; [reflexivity|f_equal; exact IH].
Qed.
Lemma rd_mid (p l : list Z) c : rd (p ++ c :: l) (zlen p) = Ok c.
Proof. apply rd_Ok. pose proof (zlen_nonneg p). split; [lia|]. unfold zlen. rewrite Nat2Z.id, nth_error_app2, Nat.sub_diag by lia. reflexivity. Qed.
Lemma loop_pass l : forall p items tl, line_loop (length l) (zlen p) (p ++ l ++ tl) items = Ok (p ++ fst (pass (zlen items) (zlen p) l) ++ tl, items ++ snd (pass (zlen items) (zlen p) l)).
Proof.
  induction l as [|c l IH]; intros p items tl; cbn [length line_loop pass app fst snd]; [rewrite app_nil_r; reflexivity|].
  rewrite rd_mid. cbn [bind]. assert (L1 : forall x, zlen (p ++ [x]) = zlen p + 1) by (intros; rewrite zlen_app; reflexivity).
  assert (A : forall (x : Z) t, p ++ x :: t = (p ++ [x]) ++ t) by (intros; rewrite <- app_assoc; reflexivity).
  destruct ((c =? 10) || (c =? 13)) eqn:E.
  - assert (E58 : (c =? 58) = false) by (apply Z.eqb_neq; apply orb_true_iff in E; rewrite !Z.eqb_eq in E; lia). rewrite E58. cbn [andb]. rewrite wr_mid. cbn [bind].
    rewrite (A 0), <- (L1 0), IH. rewrite (L1 0). destruct (pass (zlen items) (zlen p + 1) l) as [r it]. cbn [fst snd]. unfold zap. rewrite E. rewrite <- app_assoc. reflexivity.
  - destruct ((c =? 58) && (zlen items <? 3)).
    + rewrite wr_mid. cbn [bind]. rewrite (A 0), <- (L1 0), IH. rewrite (L1 0), zlen_app. change (zlen [zlen p + 1]) with 1. destruct (pass (zlen items + 1) (zlen p + 1) l) as [r it]. cbn [fst snd]. rewrite <- !app_assoc. reflexivity.
    + rewrite (A c), <- (L1 c), IH. rewrite (L1 c). destruct (pass (zlen items) (zlen p + 1) l) as [r it]. cbn [fst snd]. unfold zap. rewrite E, <- app_assoc. reflexivity.
Qed.
Lemma pass_free f : forall k i r, no 58 f \/ 3 <= k -> pass k i (f ++ r) = (map zap f ++ fst (pass k (i + zlen f) r), snd (pass k (i + zlen f) r)).
Proof.
  induction f as [|c f IH]; intros k i r H; cbn [app map].
  - change (zlen []) with 0. rewrite Z.add_0_r. destruct (pass k i r); reflexivity.
  - cbn [pass]. assert (E : (c =? 58) && (k <? 3) = false).
    { destruct H as [H|H]; [destruct (Z.eqb_spec c 58) as [->|]; [exfalso; apply H; left; reflexivity|reflexivity]|destruct (Z.ltb_spec k 3); [lia|apply andb_false_r]]. }
    rewrite E, IH by (destruct H as [H|H]; [left; intros X; apply H; right; exact X|right; exact H]). rewrite zlen_cons. replace (i + 1 + zlen f) with (i + (1 + zlen f)) by lia. reflexivity.
Qed.
Lemma pass_rest d k i : 3 <= k -> pass k i d = (map zap d, []).
Proof. intros H. rewrite <- (app_nil_r d) at 1. rewrite pass_free by auto. cbn [pass fst snd]. rewrite app_nil_r. reflexivity. Qed.
Lemma pass_colon k i r : k < 3 -> pass k i (58 :: r) = (0 :: fst (pass (k + 1) (i + 1) r), i + 1 :: snd (pass (k + 1) (i + 1) r)).
Proof. intros. cbn [pass]. destruct (Z.ltb_spec k 3); [|lia]. change (58 =? 58) with true. cbn [andb]. destruct (pass (k + 1) (i + 1) r); reflexivity. Qed.
Lemma cstr_zap f : forall t, no 0 f -> cstr (map zap f ++ 0 :: t) = Ok (until_eol f).
Proof.
  induction f as [|c f IH]; intros t H; cbn [map app cstr until_eol]; [reflexivity|]. assert (Zc : zap c = if (c =? 10) || (c =? 13) then 0 else c) by reflexivity. rewrite Zc. destruct ((c =? 10) || (c =? 13)) eqn:E; [reflexivity|].
  destruct (Z.eqb_spec c 0) as [->|]; [exfalso; apply H; left; reflexivity|]. rewrite IH by (intros X; apply H; right; exact X). reflexivity.
Qed.
Lemma strdup_at p f t off : no 0 f -> off = zlen p -> strdup (p ++ map zap f ++ 0 :: t) off = Ok (until_eol f).
Proof.
  intros H ->. unfold strdup. pose proof (zlen_nonneg p). destruct (Z.ltb_spec (zlen p) 0); [lia|]. unfold zlen. rewrite Nat2Z.id, skipn_app, skipn_all, Nat.sub_diag. cbn [skipn app]. apply cstr_zap. exact H.
Qed.
Lemma strlen_ok l t : no 0 l -> strlen (l ++ 0 :: t) = Ok (zlen l).
Proof.
  induction l as [|c l IH]; intros H; cbn [app strlen]; [reflexivity|]. destruct (Z.eqb_spec c 0) as [->|]; [exfalso; apply H; left; reflexivity|]. rewrite IH by (intros X; apply H; right; exact X).
  cbn [bind]. rewrite zlen_cons. f_equal. lia.
Qed.
Lemma split_colon l : no 58 l \/ exists a r, l = a ++ 58 :: r /\ no 58 a.
Proof.
  induction l as [|c l IH]; [left; intros []|]. destruct (Z.eq_dec c 58) as [->|N]; [right; exists [], l; split; [reflexivity|intros []]|].
  destruct IH as [IH|(a & r & -> & Ha)]; [left; intros [X|X]; [lia|exact (IH X)]|right; exists (c :: a), r; split; [reflexivity|intros [X|X]; [lia|exact (Ha X)]]].
Qed.
Lemma no_app c a b : no c (a ++ b) <-> no c a /\ no c b.
Proof. unfold no. rewrite in_app_iff. tauto. Qed.
Lemma no_cons c x b : no c (x :: b) -> no c b.
Proof. unfold no. cbn. tauto. Qed.
Lemma count58 l : forall a r a' r', no 58 a -> no 58 a' -> l = a ++ 58 :: r -> l = a' ++ 58 :: r' -> a = a' /\ r = r'.
Proof.
  induction l as [|c l IH]; intros a r a' r' Ha Ha' E E'; [destruct a; discriminate|].
  destruct a as [|x a], a' as [|x' a']; cbn [app] in *.
  - split; congruence.
  - exfalso. apply Ha'. left. congruence.
  - exfalso. apply Ha. left. congruence.
  - injection E as E0 E. injection E' as E0' E'. destruct (IH a r a' r') as (Ea & Er); [intros X; apply Ha; right; exact X|intros X; apply Ha'; right; exact X|exact E|exact E'|]. split; congruence.
Qed.
Lemma line_ok es l : no 0 l -> exists new, handle_line es (l ++ [0]) = Ok (es ++ new) /\ line_gives l new.
Proof.
  intros H0. unfold handle_line. rewrite strlen_ok by exact H0. cbn [bind].
  assert (R0 : exists c, rd (l ++ [0]) 0 = Ok c /\ (c = 35 <-> comment l)).
  { destruct l as [|c l]; [exists 0; split; [reflexivity|]; split; [discriminate|intros (r & X); discriminate]|exists c; split; [reflexivity|]; split; [intros ->; exists l; reflexivity|intros (r & X); congruence]]. }
  destruct R0 as (c0 & Rc & Cm). rewrite Rc. cbn [bind]. destruct (Z.eqb_spec c0 35) as [E|E].
  { exists []. rewrite app_nil_r. split; [reflexivity|]. right. split; [left; tauto|reflexivity]. }
  assert (NC : ~ comment l) by tauto. clear Cm Rc.
  pose proof (loop_pass l [] [] [0]) as LP. change (zlen (@nil Z)) with 0 in LP. cbn [app] in LP. unfold zlen at 1. rewrite Nat2Z.id, LP. cbn [bind].
  destruct (split_colon l) as [N|(a & r1 & -> & Na)].
  { rewrite <- (app_nil_r l), pass_free by auto. cbn [pass fst snd]. change (zlen [] =? 3) with false. cbv iota. exists []. rewrite app_nil_r. split; [reflexivity|]. right. split; [right|reflexivity].
    rewrite app_nil_r. intros a b c d (X & _). apply N. rewrite X. apply in_or_app. right. left. reflexivity. }
  destruct (split_colon r1) as [N|(b & r2 & -> & Nb)].
  { rewrite pass_free by auto. rewrite pass_colon by lia. cbn [fst snd]. rewrite <- (app_nil_r r1), pass_free by auto. cbn [pass fst snd]. match goal with |- context [zlen [?x] =? 3] => change (zlen [x] =? 3) with false end. cbv iota.
    exists []. rewrite app_nil_r. split; [reflexivity|]. right. split; [right|reflexivity]. rewrite app_nil_r. intros a' b' c' d' (X & Na' & _).
    destruct (count58 _ a r1 a' (b' ++ 58 :: c' ++ 58 :: d') Na Na' eq_refl X) as (_ & Y). apply N. rewrite Y. apply in_or_app. right. left. reflexivity. }
  destruct (split_colon r2) as [N|(c & d & -> & Nc)].
  { rewrite pass_free by auto. rewrite pass_colon by lia. cbn [fst snd]. rewrite pass_free by auto. rewrite pass_colon by lia. cbn [fst snd]. rewrite <- (app_nil_r r2), pass_free by auto. cbn [pass fst snd].
    match goal with |- context [zlen [?x; ?y] =? 3] => change (zlen [x; y] =? 3) with false end. cbv iota.
    exists []. rewrite app_nil_r. split; [reflexivity|]. right. split; [right|reflexivity]. rewrite app_nil_r. intros a' b' c' d' (X & Na' & Nb' & _).
    destruct (count58 _ a (b ++ 58 :: r2) a' (b' ++ 58 :: c' ++ 58 :: d') Na Na' eq_refl X) as (_ & Y). destruct (count58 _ b r2 b' (c' ++ 58 :: d') Nb Nb' eq_refl Y) as (_ & Z0). apply N. rewrite Z0. apply in_or_app. right. left. reflexivity. }
  rewrite pass_free by auto. rewrite pass_colon by lia. cbn [fst snd]. rewrite pass_free by auto. rewrite pass_colon by lia. cbn [fst snd]. rewrite pass_free by auto. rewrite pass_colon by lia. cbn [fst snd].
  rewrite pass_rest by lia. cbn [fst snd].
  apply no_app in H0. destruct H0 as (Ha & H0). apply no_cons, no_app in H0. destruct H0 as (Hb & H0). apply no_cons, no_app in H0. destruct H0 as (Hc & H0). apply no_cons in H0.
  match goal with |- context [zlen [?x; ?y; ?z] =? 3] => change (zlen [x; y; z] =? 3) with true; change (rd [x; y; z] 0) with (@Ok Z x); change (rd [x; y; z] 1) with (@Ok Z y); change (rd [x; y; z] 2) with (@Ok Z z) end. cbv iota. cbn [bind].
  assert (ZM : forall q : list Z, zlen (map zap q) = zlen q) by (intros q; unfold zlen; rewrite map_length; reflexivity).
  assert (EM : (map zap a ++ 0 :: map zap b ++ 0 :: map zap c ++ 0 :: map zap d) ++ [0] = map zap a ++ 0 :: map zap b ++ 0 :: map zap c ++ 0 :: map zap d ++ [0]) by (repeat (rewrite <- app_assoc; cbn [app]); reflexivity).
  rewrite EM. clear EM.
  set (M := map zap a ++ 0 :: map zap b ++ 0 :: map zap c ++ 0 :: map zap d ++ [0]).
  assert (S0 : strdup M 0 = Ok (until_eol a)) by (apply (strdup_at [] a); [exact Ha|reflexivity]).
  assert (S1 : strdup M (zlen a + 1) = Ok (until_eol b)).
  { unfold M. replace (map zap a ++ 0 :: map zap b ++ 0 :: map zap c ++ 0 :: map zap d ++ [0]) with ((map zap a ++ [0]) ++ map zap b ++ 0 :: map zap c ++ 0 :: map zap d ++ [0]) by (rewrite <- app_assoc; reflexivity).
    apply strdup_at; [exact Hb|]. rewrite zlen_app, ZM. reflexivity. }
  assert (S2 : strdup M (zlen a + 1 + zlen b + 1) = Ok (until_eol c)).
  { unfold M. replace (map zap a ++ 0 :: map zap b ++ 0 :: map zap c ++ 0 :: map zap d ++ [0]) with ((map zap a ++ 0 :: map zap b ++ [0]) ++ map zap c ++ 0 :: map zap d ++ [0]) by (rewrite <- app_assoc; cbn [app]; rewrite <- app_assoc; reflexivity).
    apply strdup_at; [exact Hc|]. rewrite zlen_app, zlen_cons, zlen_app, !ZM. change (zlen [0]) with 1. lia. }
  assert (S3 : strdup M (zlen a + 1 + zlen b + 1 + zlen c + 1) = Ok (until_eol d)).
  { unfold M. replace (map zap a ++ 0 :: map zap b ++ 0 :: map zap c ++ 0 :: map zap d ++ [0]) with ((map zap a ++ 0 :: map zap b ++ 0 :: map zap c ++ [0]) ++ map zap d ++ [0]) by (repeat (rewrite <- app_assoc; cbn [app]); reflexivity).
    apply strdup_at; [exact H0|]. rewrite zlen_app, zlen_cons, zlen_app, zlen_cons, zlen_app, !ZM. change (zlen [0]) with 1. lia. }
  rewrite ?Z.add_0_l. rewrite S0. cbn [bind]. rewrite S1. cbn [bind]. rewrite S2. cbn [bind]. rewrite S3. cbn [bind].
  eexists. split; [reflexivity|]. left. exists a, b, c, d. split; [exact NC|]. split; [split; [reflexivity|auto]|reflexivity].
Qed.
