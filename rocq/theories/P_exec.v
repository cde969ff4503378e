(** Proofs about the environment functions. *)
From Verif Require Import Base M_exec S_exec.

Lemma wr_mid {A} (a r : list A) x v i : i = zlen a -> wr (a ++ x :: r) i v = Ok (a ++ v :: r).
Proof.
  intros ->. unfold wr, zlen. destruct (Z.ltb_spec (Z.of_nat (length a)) 0); [lia|].
  destruct (Z.leb_spec (Z.of_nat (length (a ++ x :: r))) (Z.of_nat (length a))) as [H0|H0]; [rewrite app_length in H0; cbn [length] in H0; lia|].
  f_equal. rewrite Nat2Z.id. clear. induction a as [|y a IH]; [reflexivity|]. cbn [app length upd]. rewrite IH. reflexivity.
Qed.
Lemma wr0 {A} (r : list A) x v : wr (x :: r) 0 v = Ok (v :: r).
Proof. reflexivity. Qed.
Lemma str_in_list_ok w y k : str_in_list (map Some w ++ None :: y) k = Ok (if in_dec (list_eq_dec Z.eq_dec) k w then true else false).
Proof.
  induction w as [|e w IH]; [reflexivity|]. cbn [map app str_in_list]. unfold str_eqb. destruct (list_eq_dec Z.eq_dec e k) as [->|N].
  - destruct (in_dec (list_eq_dec Z.eq_dec) k (k :: w)) as [_|X]; [reflexivity|]. exfalso. apply X. left. reflexivity.
  - rewrite IH. destruct (in_dec (list_eq_dec Z.eq_dec) k w) as [I|I], (in_dec (list_eq_dec Z.eq_dec) k (e :: w)) as [J|J]; try reflexivity.
    + exfalso. apply J. right. exact I.
    + exfalso. destruct J as [J|J]; contradiction.
Qed.
Lemma eq_pos_some e : forall p, eq_pos e = Some p -> 0 <= p /\ exists k v, e = k ++ 61 :: v /\ ~ In 61 k /\ zlen k = p.
Proof.
  induction e as [|c r IH]; cbn [eq_pos]; intros p E; [discriminate|]. destruct (Z.eqb_spec c 61) as [->|N].
  - inversion E; subst. split; [lia|]. exists [], r. split; [reflexivity|]. split; [intros []|reflexivity].
  - destruct (eq_pos r) as [q|]; [|discriminate]. inversion E; subst. destruct (IH q eq_refl) as (Q & k & v & -> & I & L).
    split; [lia|]. exists (c :: k), v. split; [reflexivity|]. split; [intros [H|H]; [congruence|contradiction]|]. rewrite zlen_cons. lia.
Qed.
Lemma eq_pos_app k v : ~ In 61 k -> eq_pos (k ++ 61 :: v) = Some (zlen k).
Proof.
  induction k as [|c k IH]; intros N; [reflexivity|]. cbn [app eq_pos]. destruct (Z.eqb_spec c 61) as [->|C]; [exfalso; apply N; left; reflexivity|].
  rewrite IH by (intros H; apply N; right; exact H). rewrite zlen_cons. f_equal. lia.
Qed.
Lemma permitted_iff w e : permitted w e <-> exists p, eq_pos e = Some p /\ p < 256 /\ In (firstn (Z.to_nat p) e) w.
Proof.
  split.
  - intros (k & v & -> & N & I & L). exists (zlen k). split; [apply eq_pos_app; exact N|]. split; [unfold zlen; lia|].
    unfold zlen. rewrite Nat2Z.id, firstn_app, Nat.sub_diag, firstn_all. cbn [firstn]. rewrite app_nil_r. exact I.
  - intros (p & E & L & I). destruct (eq_pos_some e p E) as (P & k & v & -> & N & K). exists k, v. split; [reflexivity|]. split; [exact N|].
    split; [|unfold zlen in K; lia]. rewrite <- K in I. unfold zlen in I. rewrite Nat2Z.id, firstn_app, Nat.sub_diag, firstn_all in I. cbn [firstn] in I.
    rewrite app_nil_r in I. exact I.
Qed.
Lemma permitted_dec w e : {permitted w e} + {~ permitted w e}.
Proof.
  destruct (eq_pos e) as [p|] eqn:E.
  - destruct (Z_lt_dec p 256) as [L|L]; [destruct (in_dec (list_eq_dec Z.eq_dec) (firstn (Z.to_nat p) e) w) as [I|I]|].
    + left. apply permitted_iff. exists p. auto.
    + right. rewrite permitted_iff. intros (q & Q & _ & J). rewrite E in Q. inversion Q; subst. contradiction.
    + right. rewrite permitted_iff. intros (q & Q & J & _). rewrite E in Q. inversion Q; subst. contradiction.
  - right. rewrite permitted_iff. intros (q & Q & _). rewrite E in Q. discriminate.
Qed.
Lemma sub_total P (D : forall e, {P e} + {~ P e}) l : exists k, sub P l k.
Proof. induction l as [|e l [k IH]]; [exists []; constructor|]. destruct (D e); eexists; [apply sub_keep|apply sub_drop]; eauto. Qed.
Lemma sub_unique P l k : sub P l k -> forall k', sub P l k' -> k = k'.
Proof. induction 1; intros k' S; inversion S; subst; try contradiction; auto. f_equal. auto. Qed.

Lemma filter_loop_ok w y x : forall l k acc rest n used, sub (permitted w) l k -> used = zlen acc -> zlen acc + zlen rest = n -> 0 < zlen rest ->
  filter_loop (map Some acc ++ rest) n used (map Some l ++ None :: x) (map Some w ++ None :: y) =
  Ok (map Some (acc ++ firstn (length rest - 1) k) ++ skipn (length (firstn (length rest - 1) k)) rest, used + zlen (firstn (length rest - 1) k)).
Proof.
  induction l as [|e l IH]; intros k acc rest n used S U N R.
  - inversion S; subst. rewrite firstn_nil. cbn [map app filter_loop length skipn]. rewrite app_nil_r. change (zlen (@nil (list Z))) with 0. rewrite Z.add_0_r. reflexivity.
  - cbn [map app filter_loop]. inversion S as [|? ? k' Pe Sk|? ? ? Pe Sk]; subst.
    + pose proof Pe as Q. apply permitted_iff in Q. destruct Q as (p & E & L & I). rewrite E. destruct (Z.leb_spec 256 p); [lia|]. cbv zeta.
      rewrite str_in_list_ok. destruct (in_dec (list_eq_dec Z.eq_dec) _ w); [|contradiction]. cbn [bind].
      destruct rest as [|r0 rest]; [unfold zlen in R; cbn in R; lia|]. rewrite zlen_cons in *. cbn [length]. rewrite Nat.sub_succ, Nat.sub_0_r.
      destruct (Z.eqb_spec (zlen acc) (zlen acc + (1 + zlen rest) - 1)) as [Q|Q].
      * assert (rest = []) by (destruct rest; [reflexivity|rewrite zlen_cons in Q; pose proof (zlen_nonneg rest); lia]). subst rest.
        cbn [length firstn skipn]. rewrite app_nil_r. change (zlen (@nil (list Z))) with 0. rewrite Z.add_0_r. reflexivity.
      * rewrite wr_mid by (unfold zlen; rewrite map_length; reflexivity). cbn [bind].
        assert (RN : 0 < zlen rest) by (pose proof (zlen_nonneg rest); lia).
        replace (map Some acc ++ Some e :: rest) with (map Some (acc ++ [e]) ++ rest) by (rewrite map_app, <- app_assoc; reflexivity).
        etransitivity; [apply (IH k' (acc ++ [e]) rest); [exact Sk|rewrite zlen_app; reflexivity|rewrite zlen_app; change (zlen [e]) with 1; lia|exact RN]|].
        destruct rest as [|r1 rest]; [unfold zlen in RN; cbn in RN; lia|]. cbn [length]. rewrite Nat.sub_succ, Nat.sub_0_r.
        cbn [firstn]. rewrite <- app_assoc. cbn [app length skipn]. rewrite zlen_cons. f_equal. f_equal. lia.
    + assert (IHk := IH k acc rest (zlen acc + zlen rest) (zlen acc) Sk eq_refl eq_refl R).
      destruct (eq_pos e) as [p|] eqn:E; [|exact IHk]. destruct (Z.leb_spec 256 p) as [L|L]; [exact IHk|]. cbv zeta. rewrite str_in_list_ok.
      destruct (in_dec (list_eq_dec Z.eq_dec) _ w) as [I|I]; cbn [bind]; [|exact IHk]. exfalso. apply Pe. apply permitted_iff. exists p. auto.
Qed.

Lemma env_skip (a : list (list Z)) (rest : list (option (list Z))) v : 0 < zlen rest ->
  (length a < length rest)%nat -> wr (map Some a ++ skipn (length a) rest) (zlen a) v = Ok (map Some a ++ v :: skipn (S (length a)) rest).
Proof.
  intros R L. assert (E : exists x, skipn (length a) rest = x :: skipn (S (length a)) rest).
  { clear R. generalize dependent rest. generalize (length a). induction n as [|n IH]; intros [|r0 rest] L; cbn [length] in L; try lia; [exists r0; reflexivity|].
    destruct (IH rest) as [x X]; [lia|]. exists x. exact X. }
  destruct E as [x ->]. apply wr_mid. unfold zlen. rewrite map_length. reflexivity.
Qed.

Lemma filter_ok w wm l lm out k : env w wm -> env l lm -> out <> [] -> sub (permitted w) l k ->
  let kept := firstn (length out - 1) k in
  osmo_environment_filter (Some out) (zlen out) (Some lm) (Some wm) = Ok (zlen kept + 1, map Some kept ++ None :: skipn (S (length kept)) out).
Proof.
  intros [y ->] [x ->] O S. cbv zeta. set (kept := firstn (length out - 1) k). assert (Z1 : 0 < zlen out) by (destruct out; [congruence|rewrite zlen_cons; pose proof (zlen_nonneg out); lia]).
  unfold osmo_environment_filter. destruct (Z.eqb_spec (zlen out) 0); [lia|].
  pose proof (filter_loop_ok w y x l k [] out (zlen out) 0 S eq_refl eq_refl Z1) as F. cbn [map app] in F. rewrite F. cbn [bind]. fold kept.
  assert (K : (length kept < length out)%nat) by (unfold kept; rewrite firstn_length; unfold zlen in Z1; lia).
  rewrite Z.add_0_l. destruct (Z.ltb_spec (zlen kept) (zlen out)) as [_|X]; [|unfold zlen in X; lia]. cbn [negb]. rewrite env_skip by auto. reflexivity.
Qed.

Lemma seek_ok a rest : forall u, seek (map Some a ++ None :: rest) u = Ok (u + zlen a).
Proof.
  induction a as [|e a IH]; intros u; cbn [map app seek]; [f_equal; change (zlen (@nil str)) with 0; lia|]. rewrite IH. rewrite zlen_cons. f_equal. lia.
Qed.
Lemma append_loop_ok x : forall l acc rest n used, used = zlen acc -> zlen acc + zlen rest = n -> 0 < zlen rest ->
  append_loop (map Some acc ++ rest) n used (map Some l ++ None :: x) =
  Ok (map Some (acc ++ firstn (length rest - 1) l) ++ skipn (length (firstn (length rest - 1) l)) rest, used + zlen (firstn (length rest - 1) l)).
Proof.
  induction l as [|e l IH]; intros acc rest n used U N R; subst.
  - rewrite firstn_nil. cbn [map app append_loop length skipn]. rewrite app_nil_r. change (zlen (@nil (list Z))) with 0. rewrite Z.add_0_r. reflexivity.
  - cbn [map app append_loop]. destruct rest as [|r0 rest]; [unfold zlen in R; cbn in R; lia|]. rewrite zlen_cons in *. cbn [length]. rewrite Nat.sub_succ, Nat.sub_0_r.
    pose proof (zlen_nonneg rest) as ZR. destruct (Z.ltb_spec (zlen acc) (zlen acc + (1 + zlen rest) - 1)) as [Q|Q].
    + rewrite wr_mid by (unfold zlen; rewrite map_length; reflexivity). cbn [bind].
      replace (map Some acc ++ Some e :: rest) with (map Some (acc ++ [e]) ++ rest) by (rewrite map_app, <- app_assoc; reflexivity).
      etransitivity; [apply (IH (acc ++ [e]) rest); [rewrite zlen_app; reflexivity|rewrite zlen_app; change (zlen [e]) with 1; lia|lia]|].
      destruct rest as [|r1 rest]; [unfold zlen in Q; cbn in Q; lia|]. cbn [length]. rewrite Nat.sub_succ, Nat.sub_0_r.
      cbn [firstn]. rewrite <- app_assoc. cbn [app length skipn]. rewrite zlen_cons. f_equal. f_equal. lia.
    + assert (rest = []) by (destruct rest; [reflexivity|rewrite zlen_cons in Q; pose proof (zlen_nonneg rest); lia]). subst rest.
      cbn [length firstn skipn]. rewrite app_nil_r. change (zlen (@nil (list Z))) with 0. rewrite Z.add_0_r. reflexivity.
Qed.
Lemma skipn_shift {A} m : forall (r : list A) o, (m <= length r)%nat -> exists z, skipn m (o :: r) = z :: skipn m r.
Proof.
  induction m as [|m IH]; intros r o L; [exists o; reflexivity|]. destruct r as [|r0 r]; [cbn in L; lia|]. cbn [length] in L.
  destruct (IH r r0 ltac:(lia)) as [z Z0]. exists z. exact Z0.
Qed.
Lemma append_ok a rest l lm n : env l lm -> n = zlen a + 1 + zlen rest ->
  let kept := firstn (length rest) l in
  osmo_environment_append (Some (map Some a ++ None :: rest)) n (Some lm) = Ok (zlen a + zlen kept + 1, map Some (a ++ kept) ++ None :: skipn (length kept) rest).
Proof.
  intros [x ->] N. cbv zeta. unfold osmo_environment_append. pose proof (zlen_nonneg a). pose proof (zlen_nonneg rest).
  destruct (Z.eqb_spec n 0); [lia|]. rewrite seek_ok. cbn [bind]. rewrite Z.add_0_l.
  rewrite (append_loop_ok x l a (None :: rest)) by (auto; rewrite zlen_cons; lia). cbn [bind length]. rewrite Nat.sub_succ, Nat.sub_0_r.
  set (kept := firstn (length rest) l). assert (K : (length kept <= length rest)%nat) by (unfold kept; rewrite firstn_length; lia).
  destruct (Z.ltb_spec (zlen a + zlen kept) n) as [_|X]; [|unfold zlen in *; lia]. cbn [negb].
  destruct (skipn_shift (length kept) rest None K) as [z E]. rewrite E.
  rewrite wr_mid by (unfold zlen; rewrite map_length, app_length; lia). reflexivity.
Qed.
