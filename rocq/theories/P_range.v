(** Range encoding, part A: the split always exists; the W tree decodes by Annex J. *)
From Coq Require Import ZArith List Lia Bool Znumtheory.
From Verif Require Import Base S_range M_range.
Import ListNotations.
Open Scope Z_scope.

Lemma cmod_mod d R : 0 < R -> cmod d R = d mod R.
Proof.
  intros H. unfold cmod. rewrite Z.rem_eq by lia.
  pose proof (Z.quot_rem' d R) as E. pose proof (Z.rem_bound_abs d R ltac:(lia)) as B.
  pose proof (Z.rem_sign_nz d R) as Sg.
  replace (d - R * (d ÷ R)) with (Z.rem d R) by lia.
  destruct (Z.ltb_spec (Z.rem d R) 0).
  - apply (Z.mod_unique_pos d R (d ÷ R - 1)); lia.
  - apply (Z.mod_unique_pos d R (d ÷ R)); lia.
Qed.

Definition cnt (P : Z -> bool) (l : list Z) : Z := zlen (filter P l).
Lemma cnt_nil P : cnt P [] = 0. Proof. reflexivity. Qed.
Lemma cnt_cons P a l : cnt P (a :: l) = b2z (P a) + cnt P l.
Proof. unfold cnt. cbn [filter]. destruct (P a); rewrite ?zlen_cons; unfold b2z; lia. Qed.
Lemma cnt_nonneg P l : 0 <= cnt P l. Proof. apply zlen_nonneg. Qed.
Lemma cnt_le_sum (P Q S : Z -> bool) l : (forall f, In f l -> b2z (P f) <= b2z (Q f) + b2z (S f)) ->
  cnt P l <= cnt Q l + cnt S l.
Proof.
  induction l as [|a l IH]; intros H; rewrite ?cnt_nil, ?cnt_cons; [lia|].
  pose proof (H a (or_introl eq_refl)). specialize (IH (fun f Hf => H f (or_intror Hf))). lia.
Qed.
Lemma cnt_eq_sum (P Q S : Z -> bool) l : (forall f, In f l -> b2z (P f) + b2z (Q f) = 1 + b2z (S f)) ->
  cnt P l + cnt Q l = zlen l + cnt S l.
Proof.
  induction l as [|a l IH]; intros H; rewrite ?cnt_nil, ?cnt_cons, ?zlen_cons; [reflexivity|].
  pose proof (H a (or_introl eq_refl)). specialize (IH (fun f Hf => H f (or_intror Hf))). lia.
Qed.
Lemma cnt_le_sum2 (P Q S : Z -> bool) l : (forall f, In f l -> b2z (P f) + b2z (Q f) <= 1 + b2z (S f)) ->
  cnt P l + cnt Q l <= zlen l + cnt S l.
Proof.
  induction l as [|a l IH]; intros H; rewrite ?cnt_nil, ?cnt_cons, ?zlen_cons; [cbn; lia|].
  pose proof (H a (or_introl eq_refl)). specialize (IH (fun f Hf => H f (or_intror Hf))). lia.
Qed.
Lemma cnt_ext (P Q : Z -> bool) l : (forall f, In f l -> P f = Q f) -> cnt P l = cnt Q l.
Proof. intros H. unfold cnt. f_equal. apply filter_ext_in, H. Qed.

Section Win.
Context (h : Z) (Hh : 0 <= h).
Let R := 2 * h + 1.

(** number of elements in the window [x, x + h] of the circle *)
Definition win (x : Z) (f : Z) : bool := (f - x) mod R <=? h.
Definition eqm (x : Z) (f : Z) : bool := (f - x) mod R =? 0.
Definition g (x : Z) (l : list Z) : Z := cnt (win x) l.

Lemma mod_small_pred a : 0 < a mod R -> (a - 1) mod R = a mod R - 1.
Proof.
  intros H. pose proof (Z.mod_pos_bound a R ltac:(lia)).
  rewrite (Z.div_mod a R) at 1 by lia.
  replace (R * (a / R) + a mod R - 1) with (a mod R - 1 + a / R * R) by ring.
  rewrite Z.mod_add by lia. apply Z.mod_small. lia.
Qed.

Lemma eqm_le1 x l : NoDup l -> Forall (fun f => 0 <= f < R) l -> cnt (eqm x) l <= 1.
Proof.
  induction l as [|a l IH]; intros Hn Hr; rewrite ?cnt_nil, ?cnt_cons; [lia|].
  inversion Hn as [|? ? Ha Hl]; subst. inversion Hr as [|? ? Har Hlr]; subst.
  destruct (eqm x a) eqn:E; unfold b2z; [|specialize (IH Hl Hlr); lia].
  assert (cnt (eqm x) l = 0); [|lia].
  unfold cnt. replace (filter (eqm x) l) with (@nil Z); [reflexivity|].
  symmetry. clear IH Hn Hr. induction l as [|c l IH]; [reflexivity|].
  cbn [filter]. inversion Hl as [|? ? Hc Hl']; subst. inversion Hlr as [|? ? Hcr Hlr']; subst.
  destruct (eqm x c) eqn:Ec.
  - exfalso. apply Ha. left. unfold eqm in *. apply Z.eqb_eq in E, Ec.
    assert (Hd : (c - a) mod R = 0).
    { replace (c - a) with ((c - x) - (a - x)) by ring. rewrite Zminus_mod, E, Ec. reflexivity. }
    destruct (Z.eq_dec c a); [assumption|exfalso].
    destruct (Z_le_gt_dec a c).
    + rewrite Z.mod_small in Hd by lia. lia.
    + rewrite <- (Z.mod_add _ 1) in Hd by lia. rewrite Z.mod_small in Hd by lia. lia.
  - apply IH; auto. intros Hin. apply Ha. right. exact Hin.
Qed.

Lemma eqm_in x l : In x l -> NoDup l -> Forall (fun f => 0 <= f < R) l -> cnt (eqm x) l = 1.
Proof.
  intros Hin Hn Hr. pose proof (eqm_le1 x l Hn Hr).
  assert (1 <= cnt (eqm x) l); [|lia].
  clear - Hin Hh R. induction l as [|a l IH]; [destruct Hin|].
  rewrite cnt_cons. pose proof (cnt_nonneg (eqm x) l). destruct Hin as [-> | Hin].
  - unfold eqm at 1. rewrite Z.sub_diag, Z.mod_0_l by lia. change (b2z (0 =? 0)) with 1. lia.
  - specialize (IH Hin). destruct (eqm x a); unfold b2z; lia.
Qed.

Lemma g_back x l : g (x - 1) l <= g x l + cnt (eqm (x - 1)) l.
Proof.
  apply cnt_le_sum. intros f _. unfold win, eqm.
  replace (f - (x - 1)) with (f - x + 1) by ring.
  pose proof (Z.mod_pos_bound (f - x + 1) R ltac:(lia)) as B.
  destruct (Z.eq_dec ((f - x + 1) mod R) 0) as [E | E].
  - rewrite E. cbn. destruct (_ <=? _), (_ <=? h); cbn; lia.
  - pose proof (mod_small_pred (f - x + 1) ltac:(lia)) as E2.
    replace (f - x + 1 - 1) with (f - x) in E2 by ring. rewrite E2.
    destruct (Z.leb_spec ((f - x + 1) mod R) h), (Z.leb_spec ((f - x + 1) mod R - 1) h);
      unfold b2z; destruct (_ =? 0); lia.
Qed.

Lemma g_compl x l : g x l + g (x - h) l = zlen l + cnt (eqm x) l.
Proof.
  apply cnt_eq_sum. intros f _. unfold win, eqm.
  pose proof (Z.mod_pos_bound (f - x) R ltac:(lia)) as B.
  set (a := (f - x) mod R) in *.
  assert (E : (f - (x - h)) mod R = if a <=? h then a + h else a - h - 1).
  { replace (f - (x - h)) with ((f - x) + h) by ring.
    rewrite <- Zplus_mod_idemp_l. fold a. destruct (Z.leb_spec a h).
    - apply Z.mod_small. lia.
    - rewrite <- (Z.mod_add _ (-1)) by lia. rewrite Z.mod_small by lia. lia. }
  rewrite E. destruct (Z.leb_spec a h).
  - destruct (Z.leb_spec (a + h) h), (Z.eqb_spec a 0); cbn; lia.
  - destruct (Z.leb_spec (a - h - 1) h), (Z.eqb_spec a 0); cbn; lia.
Qed.

Lemma g_eqm x f l : eqm x f = true -> g x l = g f l.
Proof.
  intros E. apply cnt_ext. intros c _. unfold win, eqm in *. f_equal.
  apply Z.eqb_eq in E. replace (c - x) with ((c - f) + (f - x)) by ring.
  rewrite Zplus_mod, E, Z.add_0_r, Z.mod_mod by lia. reflexivity.
Qed.

Lemma max_exists (P : Z -> bool) (m : Z -> Z) l : (exists x, In x l /\ P x = true) ->
  exists y, In y l /\ P y = true /\ forall z, In z l -> P z = true -> m z <= m y.
Proof.
  induction l as [|a l IH]; intros [x [Hin HP]]; [destruct Hin|].
  destruct (existsb P l) eqn:Ex.
  - apply existsb_exists in Ex. destruct (IH Ex) as [y [Hy [Py My]]].
    destruct (P a) eqn:Pa.
    + destruct (Z_le_gt_dec (m a) (m y)).
      * exists y. repeat split; [right; exact Hy | exact Py |]. intros z [<- | Hz] Pz; [lia | auto].
      * exists a. repeat split; [left; reflexivity | exact Pa |]. intros z [<- | Hz] Pz; [lia |].
        specialize (My z Hz Pz). lia.
    + exists y. repeat split; [right; exact Hy | exact Py |]. intros z [<- | Hz] Pz; [congruence | auto].
  - destruct Hin as [<- | Hin].
    + exists a. repeat split; [left; reflexivity | exact HP |].
      intros z [<- | Hz] Pz; [lia|]. exfalso.
      assert (existsb P l = true) by (apply existsb_exists; eauto). congruence.
    + exfalso. assert (existsb P l = true) by (apply existsb_exists; eauto). congruence.
Qed.

(** Annex J.2: a frequency with as many others in its upper as in its lower half always exists. *)
Lemma split_exists l : NoDup l -> Forall (fun f => 0 <= f < R) l -> l <> [] ->
  exists x, In x l /\ g x l - 1 = (zlen l - 1) / 2.
Proof.
  intros Hn Hr Hne. set (t := (zlen l - 1) / 2).
  assert (Ht : 2 * t <= zlen l - 1 <= 2 * t + 1).
  { unfold t. pose proof (Z.div_mod (zlen l - 1) 2 ltac:(lia)).
    pose proof (Z.mod_pos_bound (zlen l - 1) 2 ltac:(lia)). lia. }
  destruct (existsb (fun x => g x l - 1 =? t) l) eqn:Ex.
  { apply existsb_exists in Ex. destruct Ex as [x [Hx E]]. exists x. split; [exact Hx|]. apply Z.eqb_eq, E. }
  exfalso.
  assert (Hno : forall x, In x l -> g x l <> t + 1).
  { intros x Hx E. assert (existsb (fun x => g x l - 1 =? t) l = true); [|congruence].
    apply existsb_exists. exists x. split; [exact Hx|]. apply Z.eqb_eq. lia. }
  destruct (existsb (fun x => g x l <=? t) l) eqn:Em.
  - apply existsb_exists in Em. destruct Em as [x [Hx E]]. apply Z.leb_le in E.
    assert (Hw : forall n : nat, g (x - Z.of_nat n) l <= t).
    { induction n as [|n IHn]; [replace (x - Z.of_nat 0) with x by lia; exact E|].
      replace (x - Z.of_nat (S n)) with (x - Z.of_nat n - 1) by lia.
      set (y := x - Z.of_nat n) in *. pose proof (g_back y l) as Hb.
      pose proof (eqm_le1 (y - 1) l Hn Hr) as H1. pose proof (cnt_nonneg (eqm (y - 1)) l) as H0.
      destruct (existsb (eqm (y - 1)) l) eqn:Ey.
      - apply existsb_exists in Ey. destruct Ey as [f [Hf Ef]].
        rewrite (g_eqm _ _ _ Ef) in *. specialize (Hno f Hf). lia.
      - assert (cnt (eqm (y - 1)) l = 0); [|lia].
        clear - Ey. induction l as [|a l IH]; [reflexivity|]. cbn [existsb] in Ey.
        apply orb_false_iff in Ey. destruct Ey as [E1 E2]. rewrite cnt_cons, E1, (IH E2). reflexivity. }
    pose proof (Hw (Z.to_nat h)) as Hh'. rewrite Z2Nat.id in Hh' by lia.
    pose proof (g_compl x l). rewrite (eqm_in x l Hx Hn Hr) in *. lia.
  - assert (Hge : forall x, In x l -> t + 2 <= g x l).
    { intros x Hx. specialize (Hno x Hx).
      destruct (Z_le_gt_dec (g x l) t); [|lia].
      assert (existsb (fun x => g x l <=? t) l = true); [|congruence].
      apply existsb_exists. exists x. split; [exact Hx|]. apply Z.leb_le. lia. }
    destruct l as [|x0 l0] eqn:El; [congruence|]. rewrite <- El in *. clear Hne.
    assert (Hx0 : In x0 l) by (rewrite El; left; reflexivity).
    destruct (max_exists (win x0) (fun f => (f - x0) mod R) l) as [y [Hy [Wy My]]].
    { exists x0. split; [exact Hx0|]. unfold win. rewrite Z.sub_diag, Z.mod_0_l by lia. apply Z.leb_le. lia. }
    assert (Hsum : g x0 l + g y l <= zlen l + cnt (eqm y) l).
    { apply cnt_le_sum2. intros f Hf. specialize (My f Hf). unfold win in Wy. apply Z.leb_le in Wy.
      unfold win in *. unfold eqm.
      pose proof (Z.mod_pos_bound (f - x0) R ltac:(lia)). pose proof (Z.mod_pos_bound (y - x0) R ltac:(lia)).
      set (a := (f - x0) mod R) in *. set (d := (y - x0) mod R) in *.
      assert (Ed : (f - y) mod R = (a - d) mod R).
      { unfold a, d. rewrite <- Zminus_mod. f_equal. ring. }
      rewrite Ed. destruct (Z.leb_spec a h).
      - specialize (My eq_refl). destruct (Z.eq_dec a d) as [-> | Hne].
        + rewrite Z.sub_diag, Z.mod_0_l by lia. cbn. destruct (0 <=? h); cbn; lia.
        + rewrite <- (Z.mod_add _ 1) by lia. rewrite (Z.mod_small (a - d + 1 * R)) by lia.
          destruct (Z.leb_spec (a - d + 1 * R) h); cbn; destruct (_ =? 0); cbn; lia.
      - cbn. destruct (_ <=? _), (_ =? 0); cbn; lia. }
    pose proof (Hge x0 Hx0). pose proof (Hge y Hy). rewrite (eqm_in y l Hy Hn Hr) in Hsum. lia.
Qed.
End Win.
