(** C63: the dumps of V.110 and TS 44.021 frames. *)
From Verif Require Import Base Lib M_v110.

Fixpoint rows (w n : nat) (l : list Z) : list (option (list Z)) :=
  match n with O => [] | Datatypes.S n' => Some (firstn w l) :: rows w n' (skipn w l) end.

Lemma row_ok (l : list Z) o : forall n k row, 0 <= o + k -> o + k + Z.of_nat n <= zlen l ->
  zfor n k (fun k row => do v <- rd l (o + k) ;; Ok (row ++ [v])) row = Ok (row ++ firstn n (skipn (Z.to_nat (o + k)) l)).
Proof.
  induction n as [|n IH]; intros k row Hk Hn; [rewrite app_nil_r; reflexivity|]. cbn [zfor].
  rewrite (rd_at0 l (o + k)) by lia. cbn [bind].
  rewrite IH by lia. rewrite <- app_assoc. do 2 f_equal.
  unfold at0. replace (Z.to_nat (o + (k + 1))) with (Datatypes.S (Z.to_nat (o + k))) by lia.
  assert (Hl : (Z.to_nat (o + k) < length l)%nat) by (unfold zlen in *; lia).
  clear -Hl. revert Hl. generalize (Z.to_nat (o + k)) as m. intro m. revert l. induction m as [|m IH]; intros [|h t] Hl; cbn [length] in Hl; try lia.
  - reflexivity.
  - cbn [nth skipn]. apply IH. lia.
Qed.
Lemma skipn_skipn' (l : list Z) a b : skipn a (skipn b l) = skipn (b + a) l.
Proof. revert l. induction b; intros [|h t]; cbn [skipn Nat.add]; auto. apply skipn_nil. Qed.
Lemma dump_ok (l : list Z) (w : nat) : forall n i out, 0 <= i -> (i + Z.of_nat n) * Z.of_nat w <= zlen l ->
  zfor n i (fun i out => do row <- zfor w 0 (fun k row => do v <- rd l (i * Z.of_nat w + k) ;; Ok (row ++ [v])) [] ;;
    Ok (out ++ [Some row])) out = Ok (out ++ rows w n (skipn (Z.to_nat i * w) l)).
Proof.
  induction n as [|n IH]; intros i out Hi Hn; [cbn [rows]; rewrite app_nil_r; reflexivity|]. cbn [zfor].
  rewrite row_ok by nia. cbn [bind]. rewrite IH by nia.
  rewrite <- app_assoc. do 2 f_equal. cbn [rows app]. 
  rewrite skipn_skipn'. f_equal; [|f_equal; f_equal; lia].
  do 3 f_equal. lia.
Qed.
Lemma zfor_S {A} (f : Z -> A -> res A) n i s : zfor (Datatypes.S n) i f s = do s' <- f i s ;; zfor n (i + 1) f s'.
Proof. reflexivity. Qed.
Lemma zfor_app {A} (f : Z -> A -> res A) a b : forall i s, zfor (a + b) i f s = do s' <- zfor a i f s ;; zfor b (i + Z.of_nat a) f s'.
Proof.
  induction a; intros i s; cbn [zfor Nat.add bind]; [rewrite Z.add_0_r; reflexivity|].
  destruct (f i s); cbn [bind]; try reflexivity. rewrite IHa. f_equal. 
  replace (i + 1 + Z.of_nat a) with (i + Z.of_nat (Datatypes.S a)) by lia. reflexivity.
Qed.
Lemma zfor_ext' {A} (f g : Z -> A -> res A) n : forall i s, (forall j s, i <= j < i + Z.of_nat n -> f j s = g j s) -> zfor n i f s = zfor n i g s.
Proof.
  induction n; intros i s H; [reflexivity|]. cbn [zfor]. rewrite H by lia. destruct (g i s); cbn [bind]; try reflexivity.
  apply IHn. intros. apply H. lia.
Qed.

(** The dumps print the bits row by row, and osmo_csd_ubit_dump complains about any other length than 60 and 36. *)
Theorem C63_dump : forall l,
  (forall n, 80 <= n -> n <= zlen l -> v110_ubit_dump l n = Ok (rows 8 10 l)) /\
  (60 <= zlen l -> csd_ubit_dump l 60 = Ok (rows 7 8 l ++ [Some (firstn 4 (skipn 56 l))])) /\
  (36 <= zlen l -> csd_ubit_dump l 36 = Ok (rows 8 4 l ++ [Some (firstn 4 (skipn 32 l))])) /\
  (forall n, n <> 60 -> n <> 36 -> csd_ubit_dump l n = Ok [None]).
Proof.
  intros l. split; [|split; [|split]].
  - intros n H80 Hn. unfold v110_ubit_dump. replace (n <? 80) with false by lia.
    exact (dump_ok l 8 10 0 [] ltac:(lia) ltac:(lia)).
  - intros Hn. unfold csd_ubit_dump. change (60 =? 60) with true. cbv iota zeta.
    change 9%nat with (8 + 1)%nat. rewrite zfor_app.
    rewrite (zfor_ext' _ (fun i out => do row <- zfor 7 0 (fun k row => do v <- rd l (i * Z.of_nat 7 + k) ;; Ok (row ++ [v])) [] ;;
      Ok (out ++ [Some row]))).
    2:{ intros j s0 Hj. replace (j <? 8) with true by lia. reflexivity. }
    rewrite (dump_ok l 7 8 0 [] ltac:(lia) ltac:(lia)).
    pose proof (row_ok l 56 4 0 [] ltac:(lia) ltac:(lia)) as Hrow. cbn [zfor] in Hrow |- *. cbn [bind].
    change (0 + Z.of_nat 8 <? 8) with false. change ((0 + Z.of_nat 8) * 7) with 56. cbv iota. rewrite Hrow. reflexivity.
  - intros Hn. unfold csd_ubit_dump. change (36 =? 60) with false. change (36 =? 36) with true. cbv iota zeta.
    change 5%nat with (4 + 1)%nat. rewrite zfor_app.
    rewrite (zfor_ext' _ (fun i out => do row <- zfor 8 0 (fun k row => do v <- rd l (i * Z.of_nat 8 + k) ;; Ok (row ++ [v])) [] ;;
      Ok (out ++ [Some row]))).
    2:{ intros j s0 Hj. replace (j <? 4) with true by lia. reflexivity. }
    rewrite (dump_ok l 8 4 0 [] ltac:(lia) ltac:(lia)).
    pose proof (row_ok l 32 4 0 [] ltac:(lia) ltac:(lia)) as Hrow. cbn [zfor] in Hrow |- *. cbn [bind].
    change (0 + Z.of_nat 4 <? 4) with false. change ((0 + Z.of_nat 4) * 8) with 32. cbv iota. rewrite Hrow. reflexivity.
  - intros n H60 H36. unfold csd_ubit_dump. replace (n =? 60) with false by lia. replace (n =? 36) with false by lia. reflexivity.
Qed.
Print Assumptions C63_dump.

(** osmo_v110_ubit_dump complains about input of less than 80 bits and then reads 80 bits all the same. *)
Theorem C63_dump_refuted : forall l, zlen l < 80 -> v110_ubit_dump l (zlen l) = UB.
Proof.
  intros l Hl. unfold v110_ubit_dump. replace (zlen l <? 80) with true by lia.
  assert (Row : forall n k row oc, 0 <= oc -> 0 <= k -> oc * 8 + k <= zlen l -> zlen l < oc * 8 + k + Z.of_nat n ->
     zfor n k (fun k row => do v <- rd l (oc * 8 + k) ;; Ok (row ++ [v])) row = UB).
  { induction n as [|n IH]; intros k row oc Hoc Hk Hle Hlt; [lia|]. cbn [zfor].
    destruct (Z.eq_dec (oc * 8 + k) (zlen l)) as [e|e].
    - unfold rd at 1. replace (oc * 8 + k <? 0) with false by lia.
      assert (Hn : nth_error l (Z.to_nat (oc * 8 + k)) = None) by (apply nth_error_None; unfold zlen in *; lia).
      rewrite Hn. reflexivity.
    - assert (exists v, rd l (oc * 8 + k) = Ok v) as [v Hv].
      { unfold rd. replace (oc * 8 + k <? 0) with false by lia.
        destruct (nth_error l (Z.to_nat (oc * 8 + k))) eqn:E0; [eexists; reflexivity|].
        apply nth_error_None in E0. unfold zlen in *. lia. }
      rewrite Hv. cbn [bind]. apply IH; lia. }
  assert (Full : forall n k row oc, 0 <= oc -> 0 <= k -> oc * 8 + k + Z.of_nat n <= zlen l ->
     exists rw, zfor n k (fun k row => do v <- rd l (oc * 8 + k) ;; Ok (row ++ [v])) row = Ok rw).
  { induction n as [|n IH]; intros k row oc Hoc Hk Hle; [eexists; reflexivity|]. cbn [zfor].
    assert (exists v, rd l (oc * 8 + k) = Ok v) as [v Hv].
    { unfold rd. replace (oc * 8 + k <? 0) with false by lia.
      destruct (nth_error l (Z.to_nat (oc * 8 + k))) eqn:E0; [eexists; reflexivity|].
      apply nth_error_None in E0. unfold zlen in *. lia. }
    rewrite Hv. cbn [bind]. apply IH; lia. }
  assert (Oct : forall n oc out, 0 <= oc -> oc * 8 <= zlen l -> zlen l < (oc + Z.of_nat n) * 8 ->
     zfor n oc (fun octet out =>
       do row <- zfor 8 0 (fun k row => do v <- rd l (octet * 8 + k) ;; Ok (row ++ [v])) [] ;;
       Ok (out ++ [Some row])) out = UB).
  { induction n as [|n IH]; intros oc out Hoc Hle Hlt; [lia|]. rewrite zfor_S. cbv beta.
    destruct (Z_lt_dec (zlen l) (oc * 8 + 8)) as [Hs|Hs].
    - rewrite (Row 8%nat 0 [] oc) by lia. reflexivity.
    - destruct (Full 8%nat 0 [] oc) as [rw Hrw]; [lia|lia|lia|]. rewrite Hrw. cbn [bind]. apply IH; lia. }
  pose proof (zlen_nonneg l). apply Oct; lia.
Qed.
Print Assumptions C63_dump_refuted.

Example C63_dump_nonvacuous :
  v110_ubit_dump (repeat 1 80) 80 = Ok (repeat (Some (repeat 1 8)) 10) /\ v110_ubit_dump [1; 0; 1] 3 = UB /\
  csd_ubit_dump (repeat 1 40) 36 = Ok (repeat (Some (repeat 1 8)) 4 ++ [Some [1; 1; 1; 1]]).
Proof. repeat split; vm_compute; reflexivity. Qed.
