From Verif Require Import Base M_num S_num.
Local Ltac sp := repeat match goal with |- _ /\ _ => split end.

Definition dv (c : Z) : Z := match digit_val c with Some d => d | None => 0 end.
Definition isd (base c : Z) : Prop := exists d, digit_val c = Some d /\ d < base.
Definition horner (base acc : Z) (l : list Z) : Z := fold_left (fun a c => a * base + dv c) l acc.
Lemma digit_val_range c d : digit_val c = Some d -> 0 <= d < 36.
Proof. unfold digit_val. intros H. repeat match type of H with (if ?b then _ else _) = _ => destruct b eqn:?; [injection H as <-; lia|] end. discriminate. Qed.
Lemma c_digit_some base c d : base <= 36 -> (c_digit base c = Some d <-> digit_val c = Some d /\ d < base).
Proof.
  intros Hb. unfold c_digit, digit_val. destruct ((48 <=? c) && (c <=? 57)); [|destruct ((65 <=? c) && (c <=? 90)); [|destruct ((97 <=? c) && (c <=? 122))]]; cbv zeta.
  1-3: match goal with |- context [?x <? ?b] => destruct (x <? b) eqn:E end; split; [intros H; injection H as <-; split; auto; lia|intros [H1 H2]; auto|discriminate|intros [H1 H2]; injection H1 as <-; lia].
  replace (99 <? base) with false by lia. split; [discriminate|intros [H _]; discriminate].
Qed.
Lemma c_digit_none base c : base <= 36 -> (c_digit base c = None <-> ~ isd base c).
Proof.
  intros Hb. split.
  - intros H (d & H1 & H2). assert (c_digit base c = Some d) by (apply c_digit_some; auto). congruence.
  - intros H. destruct (c_digit base c) eqn:E; auto. exfalso. apply H. apply c_digit_some in E; auto. exists z. auto.
Qed.
Lemma digits_horner base l n : digits base l n <-> l <> [] /\ Forall (isd base) l /\ n = horner base 0 l.
Proof.
  split.
  - induction 1 as [c d H1 H2|l n c d H0 (I1 & I2 & I3) H1 H2].
    + split; [discriminate|]. split; [repeat constructor; exists d; auto|]. cbn. unfold dv. rewrite H1. lia.
    + split; [destruct l; discriminate|]. split; [apply Forall_app; split; auto; repeat constructor; exists d; auto|]. unfold horner in *. rewrite fold_left_app, <- I3. cbn. unfold dv. rewrite H1. reflexivity.
  - intros (H1 & H2 & ->). induction l as [|c l IH] using rev_ind; [congruence|]. apply Forall_app in H2. destruct H2 as [H2 H3]. inversion_clear H3. destruct H as (d & Hd & Hlt). destruct l as [|x l].
    + unfold horner. cbn [fold_left app]. unfold dv. rewrite Hd. replace (0 * base + d) with d by lia. constructor; auto.
    + unfold horner. rewrite fold_left_app. cbn [fold_left]. replace (dv c) with d by (unfold dv; rewrite Hd; reflexivity). constructor; auto. apply IH; auto. discriminate.
Qed.
Lemma c_digits_all base l acc r : base <= 36 -> Forall (isd base) l -> (match r with c :: _ => ~ isd base c | [] => True end) -> c_digits base acc (l ++ r) = (horner base acc l, zlen l).
Proof.
  intros Hb H Hr. revert acc. induction H as [|c l (d & Hd & Hlt) Hl IH]; intros acc.
  - cbn [app]. unfold horner. cbn [fold_left]. rewrite zlen_nil. destruct r as [|c r]; [reflexivity|]. cbn [c_digits]. apply c_digit_none in Hr; auto. rewrite Hr. reflexivity.
  - cbn [app c_digits]. assert (E : c_digit base c = Some d) by (apply c_digit_some; auto). rewrite E, IH. unfold horner. cbn [fold_left]. replace (dv c) with d by (unfold dv; rewrite Hd; reflexivity). rewrite zlen_cons. f_equal. lia.
Qed.
Lemma c_digits_inv base : base <= 36 -> forall s acc, exists l r, s = l ++ r /\ Forall (isd base) l /\ (match r with c :: _ => ~ isd base c | [] => True end) /\ c_digits base acc s = (horner base acc l, zlen l).
Proof.
  intros Hb. assert (A : forall s, exists l r, s = l ++ r /\ Forall (isd base) l /\ (match r with c :: _ => ~ isd base c | [] => True end)).
  { induction s as [|c s (l & r & -> & H1 & H2)]; [exists [], []; auto|]. destruct (c_digit base c) as [d|] eqn:E.
    - apply c_digit_some in E; auto. exists (c :: l), r. sp; auto. constructor; auto. exists d. auto.
    - apply c_digit_none in E; auto. exists [], (c :: l ++ r). auto. }
  intros s acc. destruct (A s) as (l & r & -> & H1 & H2). exists l, r. sp; auto. apply c_digits_all; auto.
Qed.
Lemma skip_ws_app ws t : Forall (fun c => is_space c = true) ws -> (match t with c :: _ => is_space c = false | [] => True end) -> skip_ws (ws ++ t) = (t, zlen ws).
Proof.
  intros H Ht. induction H as [|c ws Hc Hw IH]; cbn [app skip_ws].
  - destruct t as [|c t]; [reflexivity|]. cbn [skip_ws]. change (c_isspace c) with (is_space c). rewrite Ht. reflexivity.
  - change (c_isspace c) with (is_space c). rewrite Hc, IH, zlen_cons. f_equal. lia.
Qed.
Lemma skip_ws_inv s : exists ws t, s = ws ++ t /\ Forall (fun c => is_space c = true) ws /\ (match t with c :: _ => is_space c = false | [] => True end) /\ skip_ws s = (t, zlen ws).
Proof.
  assert (A : exists ws t, s = ws ++ t /\ Forall (fun c => is_space c = true) ws /\ (match t with c :: _ => is_space c = false | [] => True end)).
  { induction s as [|c s (ws & t & -> & H1 & H2)]; [exists [], []; auto|]. destruct (is_space c) eqn:E; [exists (c :: ws), t; sp; auto|exists [], (c :: ws ++ t); auto]. }
  destruct A as (ws & t & -> & H1 & H2). exists ws, t. sp; auto. apply skip_ws_app; auto.
Qed.
Lemma digit_not_special c d : digit_val c = Some d -> is_space c = false /\ c <> 43 /\ c <> 45.
Proof. unfold digit_val, is_space. intros H. repeat match type of H with (if ?b then _ else _) = _ => destruct b eqn:?; [injection H as <-; lia|] end. discriminate. Qed.
Lemma isd_not_special base c : isd base c -> is_space c = false /\ c <> 43 /\ c <> 45.
Proof. intros (d & H & _). apply digit_not_special in H. auto. Qed.
Lemma x_not_hex x : x = 120 \/ x = 88 -> ~ isd 16 x.
Proof. intros [-> | ->] (d & H & L); vm_compute in H; injection H as <-; lia. Qed.
Lemma isd_mono a b c : isd a c -> a <= b -> isd b c.
Proof. intros (d & H & L) Hab. exists d. split; auto. lia. Qed.
Lemma isd_48 base : 1 <= base -> isd base 48.
Proof. intros. exists 0. split; [reflexivity|lia]. Qed.
Lemma hex_prefix_false l : (forall x t, l = 48 :: x :: t -> x <> 120 /\ x <> 88) -> hex_prefix l = false.
Proof. intros H. unfold hex_prefix. destruct l as [|a [|x [|c t]]]; auto. destruct (a =? 48) eqn:E; auto. assert (a = 48) by lia. subst. destruct (H x (c :: t) eq_refl). replace (x =? 120) with false by lia. replace (x =? 88) with false by lia. reflexivity. Qed.
Lemma hex_prefix_true x l : x = 120 \/ x = 88 -> Forall (isd 16) l -> l <> [] -> hex_prefix (48 :: x :: l) = true.
Proof. intros Hx Hl Hn. destruct l as [|c l]; [congruence|]. inversion_clear Hl. destruct H as (d & H1 & H2). cbn [hex_prefix]. assert (E : c_digit 16 c = Some d) by (apply c_digit_some; [lia|auto]). rewrite E. destruct Hx as [-> | ->]; reflexivity. Qed.
Lemma all_hex_no_prefix base l : base <= 16 -> Forall (isd base) l -> hex_prefix l = false.
Proof.
  intros Hb H. apply hex_prefix_false. intros x t ->. inversion_clear H. inversion_clear H1. split; intros ->; apply (x_not_hex 120 (or_introl eq_refl)) || apply (x_not_hex 88 (or_intror eq_refl)); apply isd_mono with base; auto.
Qed.

Definition base_ok (b : Z) : Prop := b = 0 \/ 2 <= b <= 36.
Definition clamp (v : Z) : Z := Z.max LLONG_MIN (Z.min LLONG_MAX v).
Definition i64b (v : Z) : bool := (LLONG_MIN <=? v) && (v <=? LLONG_MAX).

(* the part of strtoll after white space and sign *)
Definition tailpart (neg : bool) (base : Z) (r : list Z) (k : Z) : Z * Z * Z :=
  let '(base, r, k) :=
    if ((base =? 0) || (base =? 16)) && hex_prefix r then (16, skipn 2 r, k + 2)
    else if base =? 0 then ((match r with c :: _ => if c =? 48 then 8 else 10 | [] => 10 end), r, k) else (base, r, k) in
  let '(v, m) := c_digits base 0 r in
  if m =? 0 then (0, 0, 0) else
  let v := if neg then - v else v in
  if v <? LLONG_MIN then (LLONG_MIN, ERANGE, k + m) else if LLONG_MAX <? v then (LLONG_MAX, ERANGE, k + m) else (v, 0, k + m).
Lemma strtoll_tail s base : base_ok base -> strtoll s base =
  let '(r, k) := skip_ws s in
  match r with c :: t => if c =? 45 then tailpart true base t (k + 1) else if c =? 43 then tailpart false base t (k + 1) else tailpart false base r k | [] => tailpart false base r k end.
Proof.
  intros Hb. unfold strtoll. unfold base_ok in Hb. replace ((base <? 0) || (base =? 1) || (36 <? base)) with false by lia. destruct (skip_ws s) as [r k]. destruct r as [|c t]; [reflexivity|]. destruct (c =? 45); [reflexivity|]. destruct (c =? 43); reflexivity.
Qed.
Lemma fin v m k : m <> 0 -> (if m =? 0 then (0, 0, 0) else if v <? LLONG_MIN then (LLONG_MIN, ERANGE, k + m) else if LLONG_MAX <? v then (LLONG_MAX, ERANGE, k + m) else (v, 0, k + m)) = (clamp v, (if i64b v then 0 else ERANGE), k + m).
Proof.
  intros Hm. replace (m =? 0) with false by lia. unfold clamp, i64b, LLONG_MIN, LLONG_MAX. destruct (v <? -9223372036854775808) eqn:E1.
  - replace (-9223372036854775808 <=? v) with false by lia. cbn [andb]. replace (Z.max (-9223372036854775808) (Z.min 9223372036854775807 v)) with (-9223372036854775808) by lia. reflexivity.
  - destruct (9223372036854775807 <? v) eqn:E2.
    + replace ((-9223372036854775808 <=? v) && (v <=? 9223372036854775807)) with false by lia. replace (Z.max (-9223372036854775808) (Z.min 9223372036854775807 v)) with 9223372036854775807 by lia. reflexivity.
    + replace ((-9223372036854775808 <=? v) && (v <=? 9223372036854775807)) with true by lia. replace (Z.max (-9223372036854775808) (Z.min 9223372036854775807 v)) with v by lia. reflexivity.
Qed.
Lemma zlen_nz (l : list Z) : l <> [] -> zlen l <> 0.
Proof. destruct l; [congruence|]. intros _. rewrite zlen_cons. pose proof (zlen_nonneg l). lia. Qed.
Lemma tail_magnitude (neg : bool) base m n k : magnitude base m n -> let v := if neg then - n else n in tailpart neg base m k = (clamp v, (if i64b v then 0 else ERANGE), k + zlen m).
Proof.
  intros H v.
  assert (Plain : forall b l, b <= 36 -> Forall (isd b) l -> l <> [] -> forall k', (let '(v0, m0) := c_digits b 0 l in if m0 =? 0 then (0, 0, 0) else let v1 := if neg then - v0 else v0 in if v1 <? LLONG_MIN then (LLONG_MIN, ERANGE, k' + m0) else if LLONG_MAX <? v1 then (LLONG_MAX, ERANGE, k' + m0) else (v1, 0, k' + m0)) = (clamp (if neg then - horner b 0 l else horner b 0 l), (if i64b (if neg then - horner b 0 l else horner b 0 l) then 0 else ERANGE), k' + zlen l)).
  { intros b l Hb Hl Hn k'. pose proof (c_digits_all b l 0 [] Hb Hl I) as E. rewrite app_nil_r in E. rewrite E. apply fin. apply zlen_nz; auto. }
  inversion H; subst; clear H; unfold v; clear v; unfold tailpart.
  - apply digits_horner in H1. destruct H1 as (N & A & ->). assert (Hp : ((base =? 0) || (base =? 16)) && hex_prefix m = false). { destruct (base =? 16) eqn:E; [|replace (base =? 0) with false by lia; reflexivity]. rewrite (all_hex_no_prefix base) by (auto; lia). apply andb_false_r. }
    rewrite Hp. replace (base =? 0) with false by lia. apply Plain; auto; lia.
  - apply digits_horner in H1. destruct H1 as (N & A & ->). rewrite (hex_prefix_true x l) by auto. cbn [Z.eqb orb andb skipn]. change ((16 =? 16)) with true. cbn [orb andb]. eapply eq_trans; [apply (Plain 16 l ltac:(lia)); auto|]. rewrite !zlen_cons. f_equal. lia.
  - apply digits_horner in H1. destruct H1 as (N & A & ->). rewrite (hex_prefix_true x l) by auto. cbn [Z.eqb orb andb skipn]. eapply eq_trans; [apply (Plain 16 l ltac:(lia)); auto|]. rewrite !zlen_cons. f_equal. lia.
  - apply digits_horner in H0. destruct H0 as (N & A & ->). rewrite (all_hex_no_prefix 8) by (auto; lia). rewrite andb_false_r. cbn [Z.eqb]. change (48 =? 48) with true. cbv iota. apply Plain; auto; lia.
  - apply digits_horner in H1. destruct H1 as (N & A & ->). rewrite (all_hex_no_prefix 10) by (auto; lia). rewrite andb_false_r. cbn [Z.eqb]. replace (c =? 48) with false by lia. apply Plain; auto; lia.
Qed.
Lemma magnitude_head base m n : magnitude base m n -> exists c t b, m = c :: t /\ isd b c.
Proof.
  intros H; inversion H; subst; clear H.
  - apply digits_horner in H1. destruct H1 as (N & A & _). destruct m as [|c t]; [congruence|]. inversion_clear A. eauto 6.
  - exists 48, (x :: l), 16. split; auto. apply isd_48; lia.
  - exists 48, (x :: l), 16. split; auto. apply isd_48; lia.
  - exists 48, l, 16. split; auto. apply isd_48; lia.
  - apply digits_horner in H1. destruct H1 as (N & A & _). inversion_clear A. eauto 6.
Qed.
Lemma magnitude_base base m n : magnitude base m n -> base_ok base.
Proof. intros H; inversion H; subst; unfold base_ok; lia. Qed.
Lemma strtoll_numeral base s v : numeral base s v -> strtoll s base = (clamp v, (if i64b v then 0 else ERANGE), zlen s) /\ s <> [] /\ base_ok base.
Proof.
  intros (ws & sg & m & k & n & -> & Hw & Hs & Hm & ->). pose proof (magnitude_base _ _ _ Hm) as Hb. destruct (magnitude_head _ _ _ Hm) as (c & t & b & Em & Hc). apply isd_not_special in Hc. destruct Hc as (C1 & C2 & C3).
  split. 2: { split; auto. intros E. apply app_eq_nil in E. destruct E as [_ E]. apply app_eq_nil in E. destruct E as [_ E]. subst. discriminate. }
  rewrite strtoll_tail by auto. destruct Hs as [[-> ->]|[[-> ->]|[-> ->]]].
  - cbn [app]. rewrite skip_ws_app by (rewrite ?Em; auto). rewrite Em at 1. replace (c =? 45) with false by lia. replace (c =? 43) with false by lia. rewrite (tail_magnitude false base m n) by auto. rewrite zlen_app. replace (1 * n) with n by lia. reflexivity.
  - cbn [app]. rewrite skip_ws_app by auto. change (43 =? 45) with false. change (43 =? 43) with true. cbv iota. rewrite (tail_magnitude false base m n) by auto. rewrite zlen_app, zlen_cons. replace (1 * n) with n by lia. f_equal. lia.
  - cbn [app]. rewrite skip_ws_app by auto. change (45 =? 45) with true. cbv iota. rewrite (tail_magnitude true base m n) by auto. rewrite zlen_app, zlen_cons. replace (-1 * n) with (- n) by lia. f_equal. lia.
Qed.
Lemma tail_inv neg base r k v e u : base_ok base -> tailpart neg base r k = (v, e, u) -> u = k + zlen r -> 0 <= k -> r <> [] -> exists n, magnitude base r n.
Proof.
  intros Hb H Hu Hk Hn. unfold tailpart in H.
  assert (Plain : forall b l k', b <= 36 -> 0 <= k' -> 0 < k' + zlen l -> (let '(v0, m0) := c_digits b 0 l in if m0 =? 0 then (0, 0, 0) else let v1 := if neg then - v0 else v0 in if v1 <? LLONG_MIN then (LLONG_MIN, ERANGE, k' + m0) else if LLONG_MAX <? v1 then (LLONG_MAX, ERANGE, k' + m0) else (v1, 0, k' + m0)) = (v, e, u) -> u = k' + zlen l -> digits b l (horner b 0 l)).
  { intros b l k' Hb' Hk' Hpos E Hu'. destruct (c_digits_inv b Hb' l 0) as (p & q & -> & A1 & A2 & A3). rewrite A3 in E. destruct p as [|x p].
    - rewrite zlen_nil in E. cbn [Z.eqb] in E. injection E as <- <- <-. lia.
    - rewrite fin in E by (apply zlen_nz; discriminate). injection E as _ _ E3. rewrite <- E3, zlen_app in Hu'. destruct q as [|y q]; [|rewrite !zlen_cons in Hu'; pose proof (zlen_nonneg q); lia]. rewrite app_nil_r. apply digits_horner. sp; auto. discriminate. }
  assert (Hr : 0 < zlen r) by (pose proof (zlen_nonneg r); pose proof (zlen_nz r Hn); lia).
  destruct (((base =? 0) || (base =? 16)) && hex_prefix r) eqn:Ep.
  - apply andb_true_iff in Ep. destruct Ep as [Ep1 Ep2]. unfold hex_prefix in Ep2. destruct r as [|a [|x [|c t]]]; try discriminate. assert (Ea : a = 48) by lia. assert (Ex : x = 120 \/ x = 88) by lia. subst a. cbn [skipn] in H.
    apply Plain in H; try lia. 2: { pose proof (zlen_nonneg (c :: t)). lia. } 2: { rewrite !zlen_cons in *. lia. } eexists. assert (Cb : base = 0 \/ base = 16) by lia. destruct Cb; subst base; [apply M0hex|apply Mhex]; eauto.
  - destruct (base =? 0) eqn:E0.
    + assert (base = 0) by lia. subst base. destruct r as [|c t]; [congruence|]. destruct (c =? 48) eqn:Ec.
      * assert (c = 48) by lia. subst c. apply Plain in H; try lia. eexists. apply M0oct; eauto.
      * apply Plain in H; try lia. eexists. apply M0dec; eauto. lia.
    + unfold base_ok in Hb. apply Plain in H; try lia. eexists. apply Mplain; [lia|eauto].
Qed.
Lemma tail_nil neg base k : tailpart neg base [] k = (0, 0, 0).
Proof. unfold tailpart. cbn [hex_prefix]. rewrite andb_false_r. destruct (base =? 0); reflexivity. Qed.
Lemma strtoll_inv base s v e : base_ok base -> s <> [] -> strtoll s base = (v, e, zlen s) -> exists v', numeral base s v'.
Proof.
  intros Hb Hs H. rewrite strtoll_tail in H by auto. destruct (skip_ws_inv s) as (ws & t & Es & H1 & H2 & H3). rewrite H3 in H. pose proof (zlen_nz s Hs). pose proof (zlen_nonneg ws). destruct t as [|c t].
  - rewrite tail_nil in H. injection H as _ _ E. lia.
  - destruct (c =? 45) eqn:E45; [|destruct (c =? 43) eqn:E43].
    + assert (c = 45) by lia. subst c. destruct t as [|c t]; [rewrite tail_nil in H; injection H as _ _ E; lia|]. subst s. apply tail_inv in H; auto; try lia; try discriminate. 2: { rewrite zlen_app, !zlen_cons. lia. } destruct H as (n & Hn). exists (-1 * n), ws, [45], (c :: t), (-1), n. sp; auto. right; right; auto.
    + assert (c = 43) by lia. subst c. destruct t as [|c t]; [rewrite tail_nil in H; injection H as _ _ E; lia|]. subst s. apply tail_inv in H; auto; try lia; try discriminate. 2: { rewrite zlen_app, !zlen_cons. lia. } destruct H as (n & Hn). exists (1 * n), ws, [43], (c :: t), 1, n. sp; auto. right; left; auto.
    + subst s. apply tail_inv in H; auto; try lia; try discriminate. 2: { rewrite zlen_app. lia. } destruct H as (n & Hn). exists (1 * n), ws, [], (c :: t), 1, n. sp; auto. left; auto.
Qed.
Lemma strtoll_badbase base s : ~ base_ok base -> strtoll s base = (0, EINVAL, 0).
Proof. intros H. unfold strtoll. unfold base_ok in H. replace ((base <? 0) || (base =? 1) || (36 <? base)) with true by lia. reflexivity. Qed.

Theorem str_to_int64_ok s base mn mx v : LLONG_MIN <= mn -> mx <= LLONG_MAX -> (osmo_str_to_int64 s base mn mx = (0, v) <-> numeral base s v /\ mn <= v <= mx).
Proof.
  intros Hmn Hmx. split.
  - intros H. unfold osmo_str_to_int64 in H. destruct s as [|c s]; [discriminate|]. set (S0 := c :: s) in *. destruct (strtoll S0 base) as [[val e] u] eqn:E. destruct (negb (e =? 0)) eqn:Ee; [destruct (e =? ERANGE); discriminate|]. destruct (negb (u =? zlen S0)) eqn:Eu; [destruct (u =? 0); discriminate|].
    destruct ((val <? mn) || (mx <? val)) eqn:Er; [discriminate|]. injection H as <-. assert (u = zlen S0) by (destruct (u =? zlen S0) eqn:X; [lia|discriminate]). subst u. assert (e = 0) by (destruct (e =? 0) eqn:X; [lia|discriminate]). subst e.
    assert (Hb : base_ok base). { assert (Dec : base_ok base \/ ~ base_ok base) by (unfold base_ok; lia). destruct Dec as [D|D]; auto. rewrite (strtoll_badbase base S0 D) in E. discriminate. }
    destruct (strtoll_inv base S0 _ _ Hb ltac:(discriminate) E) as (v' & Hv). pose proof (proj1 (strtoll_numeral _ _ _ Hv)) as E'. rewrite E in E'. injection E' as E1 E2. assert (val = v'). { unfold clamp, i64b, LLONG_MIN, LLONG_MAX, ERANGE in *. destruct ((-9223372036854775808 <=? v') && (v' <=? 9223372036854775807)) eqn:X; [lia|discriminate]. } subst v'. split; auto. lia.
  - intros [Hn Hr]. destruct (strtoll_numeral _ _ _ Hn) as (E & Hs & Hb). unfold osmo_str_to_int64. destruct s as [|c s]; [congruence|]. rewrite E. assert (I : i64b v = true) by (unfold i64b; lia). rewrite I. change (negb (0 =? 0)) with false. cbv iota. rewrite Z.eqb_refl. cbn [negb].
    assert (C : clamp v = v) by (unfold clamp; lia). rewrite C. replace ((v <? mn) || (mx <? v)) with false by lia. reflexivity.
Qed.
Lemma str_to_int64_numeral s base mn mx v : numeral base s v ->
  osmo_str_to_int64 s base mn mx = if negb (i64b v) then (-75, clamp v) else if (v <? mn) || (mx <? v) then (-34, v) else (0, v).
Proof.
  intros Hn. destruct (strtoll_numeral _ _ _ Hn) as (E & Hs & Hb). unfold osmo_str_to_int64. destruct s as [|c s]; [congruence|]. rewrite E. destruct (i64b v) eqn:I; cbn [negb].
  - change (negb (0 =? 0)) with false. cbv iota. rewrite Z.eqb_refl. cbn [negb]. assert (C : clamp v = v) by (unfold clamp, i64b in *; lia). rewrite C. reflexivity.
  - reflexivity.
Qed.
Lemma str_to_int64_other s base mn mx : (forall v, ~ numeral base s v) -> exists rc v, osmo_str_to_int64 s base mn mx = (rc, v) /\ (rc = -22 \/ rc = -7 \/ rc = -75 \/ rc = -95) /\ (rc = -95 -> ~ base_ok base).
Proof.
  intros Hn. unfold osmo_str_to_int64. destruct s as [|c s]; [exists (-22), 0; sp; auto; lia|]. set (S0 := c :: s) in *. destruct (strtoll S0 base) as [[val e] u] eqn:E. destruct (negb (e =? 0)) eqn:Ee.
  - destruct (e =? ERANGE) eqn:E34; do 2 eexists; (split; [reflexivity|]); split; auto; try lia. intros _ Hb. rewrite strtoll_tail in E by auto. destruct (skip_ws S0) as [r k].
    assert (T : forall neg r k v e u, tailpart neg base r k = (v, e, u) -> e = 0 \/ e = ERANGE).
    { clear. intros neg r k v e u H. unfold tailpart in H. destruct (((base =? 0) || (base =? 16)) && hex_prefix r); [|destruct (base =? 0)]; cbv beta iota in H; destruct (c_digits _ _ _) as [x m];
      (destruct (m =? 0); [injection H as <- <- <-; auto|]; set (w := if neg then - x else x) in *; clearbody w; destruct (w <? LLONG_MIN); [injection H as <- <- <-; auto|]; destruct (LLONG_MAX <? w); injection H as <- <- <-; auto). }
    assert (e = 0 \/ e = ERANGE). { destruct r as [|c' t]; [eauto|]. destruct (c' =? 45); [eauto|]. destruct (c' =? 43); eauto. }
    destruct H as [-> | ->]; discriminate.
  - destruct (negb (u =? zlen S0)) eqn:Eu.
    + destruct (u =? 0); do 2 eexists; (split; [reflexivity|]); split; auto; lia.
    + exfalso. assert (u = zlen S0) by (destruct (u =? zlen S0) eqn:X; [lia|discriminate]). subst u.
      assert (Hb : base_ok base). { assert (Dec : base_ok base \/ ~ base_ok base) by (unfold base_ok; lia). destruct Dec as [D|D]; auto. rewrite (strtoll_badbase base S0 D) in E. injection E as _ E2 _. subst e. discriminate. }
      destruct (strtoll_inv base S0 _ _ Hb ltac:(discriminate) E) as (v' & Hv). exact (Hn v' Hv).
Qed.
