(* P_stat.v - proofs about the statistics item model. *)
From Verif Require Import Base M_stat S_stat.

Definition rel (d : Z) (it : item) (w : view) : Prop :=
  describes (value it) (vlast w) (vals w) /\ dflt it = d /\ is_s32 (vlast w) /\ Forall is_s32 (vals w) /\ zlen (vals w) < 2 ^ 32 /\
  match vrep w with None => reported it = Per 0 0 0 0 0 | Some (l, vs) => describes (reported it) l vs end.

Lemma sum_app a b : fold_right Z.add 0 (a ++ b) = fold_right Z.add 0 a + fold_right Z.add 0 b.
Proof. induction a; cbn [app fold_right]; lia. Qed.
Lemma sum_bound vs : Forall is_s32 vs -> -2147483648 * zlen vs <= fold_right Z.add 0 vs <= 2147483648 * zlen vs.
Proof.
  induction 1 as [|x l H F IH]; cbn [fold_right]; [unfold zlen; cbn; lia|]. rewrite zlen_cons. unfold is_s32 in H. lia.
Qed.

Lemma set_ok d it w v : rel d it w -> is_s32 v -> zlen (vals w ++ [v]) < 2 ^ 32 ->
  exists it', osmo_stat_item_set it v = Ok it' /\ rel d it' (View v (vals w ++ [v]) (vrep w)).
Proof.
  intros ((D1 & D2 & D3 & D4) & D & L & F & N & R) V B. rewrite zlen_app in B. change (zlen [v]) with 1 in B.
  unfold osmo_stat_item_set. pose proof (zlen_nonneg (vals w)).
  assert (F' : Forall is_s32 (vals w ++ [v])) by (apply Forall_app; auto).
  destruct (Z.eqb_spec (pn (value it)) 0) as [Z0|Z0].
  - rewrite D2 in Z0. destruct (vals w) as [|x l] eqn:E; [|rewrite zlen_cons in Z0; pose proof (zlen_nonneg l); lia].
    eexists. split; [reflexivity|]. split; [|split; [|split; [|split; [|split]]]]; cbn; auto; try (unfold zlen; cbn; lia).
    repeat split; cbn; auto; try lia; destruct H0 as [<-|[]]; lia.
  - assert (vals w <> []) as NE by (intros X; rewrite X in D2; apply Z0; rewrite D2; reflexivity).
    pose proof (sum_bound _ F'). rewrite sum_app, zlen_app in H0. cbn [fold_right] in H0. change (zlen [v]) with 1 in H0.
    rewrite D3. replace ((_ <? _) || (_ <? _)) with false by lia.
    eexists. split; [reflexivity|]. split; [|split; [|split; [|split; [|split]]]]; cbn [value reported dflt vlast vals vrep]; auto.
    2:{ rewrite zlen_app. change (zlen [v]) with 1. lia. }
    split; [reflexivity|]. cbn [pn psum pmin pmax]. split. { rewrite D2, zlen_app, u32_small; auto. red; lia. }
    split. { rewrite sum_app. cbn. lia. }
    destruct (vals w) as [|x l] eqn:E; [congruence|]. destruct D4 as (M1 & M2 & M3 & M4). cbn [app].
    change (x :: l ++ [v]) with ((x :: l) ++ [v]).
    assert (P := M4 _ M1). split; [|split; [|split]].
    + destruct (Z.min_spec (pmin (value it)) v) as [[_ ->]|[_ ->]]; apply in_or_app; [left; auto|right; left; auto].
    + destruct (Z.max_spec (pmax (value it)) v) as [[_ ->]|[_ ->]]; apply in_or_app; [right; left; auto|left; auto].
    + apply last_last.
    + intros y Hy. apply in_app_or in Hy as [Hy|[<-|[]]]; [specialize (M4 _ Hy)|]; lia.
Qed.

Lemma step_ok d it w o : rel d it w -> is_s32 d -> is_s32 (vlast (vstep d w o)) -> zlen (vals (vstep d w o)) < 2 ^ 32 ->
  exists it', sstep it o = Ok it' /\ rel d it' (vstep d w o).
Proof.
  intros R Hd V B. destruct o; cbn [sstep vstep vlast vals] in *.
  - now apply set_ok.
  - pose proof R as ((D1 & _) & _). unfold osmo_stat_item_inc, int_ok. rewrite D1.
    replace ((-2147483648 <=? vlast w + v) && (vlast w + v <=? 2147483647)) with true by (unfold is_s32 in V; lia). now apply set_ok.
  - pose proof R as ((D1 & _) & _). unfold osmo_stat_item_dec, int_ok. rewrite D1.
    replace ((-2147483648 <=? vlast w - v) && (vlast w - v <=? 2147483647)) with true by (unfold is_s32 in V; lia). now apply set_ok.
  - eexists. split; [reflexivity|]. destruct R as ((D1 & D2 & D3 & D4) & D & L & F & N & R).
    repeat (split; cbn; auto).
  - eexists. split; [reflexivity|]. destruct R as ((D1 & D2 & D3 & D4) & D & L & F & N & R).
    repeat (split; cbn; auto).
Qed.

Lemma run_ok d os : is_s32 d -> forall it w, rel d it w -> fits d w os -> exists it', srun it os = Ok it' /\ rel d it' (fold_left (vstep d) os w).
Proof.
  intros Hd. induction os as [|o os IH]; cbn [srun fits fold_left]; intros it w R F; [eauto|].
  destruct F as (F1 & F2 & F3). destruct (step_ok d it w o R Hd F1 F2) as (it1 & E1 & R1). rewrite E1. cbn [bind]. auto.
Qed.

Lemma rel0 d : is_s32 d -> rel d (item_alloc d) (View d [] None).
Proof. intros H. repeat (split; cbn; auto). Qed.

(* k sets of the same value *)
Lemma sets_same v k : is_s32 v -> Z.of_nat k < 2 ^ 32 -> (0 < k)%nat -> srun (item_alloc 0) (repeat (SSet v) k) = Ok (Item (Per (Z.of_nat k) v v v (v * Z.of_nat k)) (Per 0 0 0 0 0) 0).
Proof.
  intros V. induction k as [|k IH]; intros B P; [lia|].
  destruct k as [|k]. { cbn. f_equal. f_equal. f_equal. lia. }
  change (repeat (SSet v) (S (S k))) with (SSet v :: repeat (SSet v) (S k)). rewrite repeat_cons. assert (A : forall a b it, srun it (a ++ b) = do it' <- srun it a ;; srun it' b).
  { induction a; intros; cbn [app srun bind]; auto. destruct (sstep it a); cbn [bind]; auto. }
  rewrite A, IH by lia. cbn [bind srun sstep]. unfold osmo_stat_item_set. cbn [value pn psum pmin pmax reported dflt].
  replace (Z.of_nat (S k) =? 0) with false by lia. unfold is_s32 in V.
  assert (-9223372036854775808 <= v * Z.of_nat (S (S k)) <= 9223372036854775807) by nia.
  replace ((_ <? _) || (_ <? _)) with false by nia. rewrite u32_small by (red; lia). rewrite Z.min_id, Z.max_id. cbn [bind]. do 3 f_equal; lia.
Qed.
