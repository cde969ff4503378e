(** Range encoding, part B: the recursion fills W(1..n) and Annex J gives the frequencies back. *)
From Coq Require Import ZArith List Lia Bool Znumtheory.
From Verif Require Import Base S_range M_range P_range.
Import ListNotations.
Open Scope Z_scope.

Lemma quot2 a : 0 <= a -> Z.quot a 2 = a / 2.
Proof. intros. apply Z.quot_div_nonneg; lia. Qed.

Lemma fi_count_cnt h fi l : 0 <= h -> fi_count (2 * h + 1) fi l = g h fi l.
Proof.
  intros Hh. unfold fi_count. replace (Z.quot (2 * h + 1 - 1) 2) with h.
  2: { rewrite quot2 by lia. replace (2 * h + 1 - 1) with (h * 2) by ring. rewrite Z.div_mul; lia. }
  enough (H : forall l n, fold_left (fun n fj => if cmod (fj - fi) (2 * h + 1) <=? h then n + 1 else n) l n = n + g h fi l)
    by (rewrite H; lia).
  clear l. induction l as [|a l IH]; intros n; cbn [fold_left]; [unfold g; rewrite cnt_nil; lia|].
  rewrite IH. unfold g. rewrite cnt_cons. unfold win at 2. rewrite cmod_mod by lia.
  destruct (_ <=? h); cbn [b2z]; lia.
Qed.

Lemma find_from_spec h freqs : forall rest i, 0 <= h ->
  (exists x, In x rest /\ g h x freqs - 1 = Z.quot (zlen freqs - 1) 2) ->
  exists j, find_from (2 * h + 1) freqs rest i = i + j /\ 0 <= j < zlen rest /\
            g h (at0 rest j) freqs - 1 = Z.quot (zlen freqs - 1) 2.
Proof.
  induction rest as [|a rest IH]; intros i Hh [x [Hin Hx]]; [destruct Hin|].
  cbn [find_from]. rewrite fi_count_cnt by exact Hh. destruct (Z.eqb_spec (g h a freqs - 1) (Z.quot (zlen freqs - 1) 2)) as [E | E].
  - exists 0. rewrite zlen_cons. pose proof (zlen_nonneg rest). split; [lia|]. split; [lia|]. exact E.
  - destruct Hin as [-> | Hin]; [congruence|].
    destruct (IH (i + 1) Hh) as [j [E1 [E2 E3]]]; [eauto|].
    exists (j + 1). rewrite zlen_cons. split; [lia|]. split; [lia|].
    rewrite at0_cons by lia. destruct (Z.eqb_spec (j + 1) 0); [lia|]. replace (j + 1 - 1) with j by ring. exact E3.
Qed.

Lemma part_ok range org cap l : forall acc,
  zlen acc + zlen (filter (fun a => cmod (a - org) range <? Z.quot range 2) l) <= cap ->
  part range org cap l acc =
    Ok (acc ++ map (fun a => cmod (a - org) range) (filter (fun a => cmod (a - org) range <? Z.quot range 2) l)).
Proof.
  induction l as [|a l IH]; intros acc; cbn [part filter map]; [rewrite app_nil_r; reflexivity|].
  destruct (_ <? _).
  - rewrite zlen_cons. intros H. pose proof (zlen_nonneg (filter (fun a => cmod (a - org) range <? Z.quot range 2) l)).
    destruct (Z.ltb_spec (zlen acc) cap); [|lia].
    rewrite IH by (rewrite zlen_app, zlen_cons, zlen_nil; lia). cbn [map]. rewrite <- app_assoc. reflexivity.
  - intros H. apply IH, H.
Qed.

Lemma gp2_loop_ok fuel : forall i L idx, 0 <= i <= L -> L - i < Z.of_nat fuel ->
  2 ^ L <= idx < 2 ^ (L + 1) -> gp2_loop fuel (2 ^ i) idx = 2 ^ L.
Proof.
  induction fuel as [|fu IH]; intros i L idx Hi Hf Hx; [lia|].
  cbn [gp2_loop]. replace (2 ^ i * 2) with (2 ^ (i + 1)) by (rewrite Z.pow_add_r by lia; reflexivity).
  destruct (Z.leb_spec (2 ^ (i + 1)) idx).
  - destruct (Z.eq_dec i L) as [-> | Hne]; [lia|]. apply IH; lia.
  - assert (i = L).
    { destruct (Z.eq_dec i L); [assumption|]. exfalso.
      pose proof (Z.pow_le_mono_r 2 (i + 1) L ltac:(lia) ltac:(lia)). lia. }
    subst. rewrite quot2 by (apply Z.pow_nonneg; lia). rewrite Z.pow_add_r by lia. apply Z.div_mul. lia.
Qed.
Lemma gp2_ok L b : 0 <= L <= 30 -> 0 <= b < 2 ^ L -> gp2 (2 ^ L + b) = 2 ^ L.
Proof.
  intros HL Hb. unfold gp2. change 1 with (2 ^ 0) at 1. apply gp2_loop_ok; [lia|lia|].
  rewrite Z.pow_add_r by lia. lia.
Qed.

(** elements above and below the pivot, in the frames of the two halves *)
Definition rgt (h p : Z) (l : list Z) : list Z :=
  map (fun f => (f - p - 1) mod (2 * h + 1)) (filter (fun f => (f - p - 1) mod (2 * h + 1) <? h) l).
Definition lft (h p : Z) (l : list Z) : list Z :=
  map (fun f => (f - p - h - 1) mod (2 * h + 1)) (filter (fun f => (f - p - h - 1) mod (2 * h + 1) <? h) l).

Lemma mod_shift h a d : 0 <= h -> 0 <= d <= 2 * h ->
  (a - d) mod (2 * h + 1) = if a mod (2 * h + 1) <? d then a mod (2 * h + 1) - d + (2 * h + 1) else a mod (2 * h + 1) - d.
Proof.
  intros Hh Hd. rewrite <- Zminus_mod_idemp_l. pose proof (Z.mod_pos_bound a (2 * h + 1) ltac:(lia)).
  destruct (Z.ltb_spec (a mod (2 * h + 1)) d).
  - rewrite <- (Z.mod_add _ 1) by lia. rewrite Z.mod_small by lia. ring.
  - apply Z.mod_small. lia.
Qed.


Lemma cnt_split (P Q S : Z -> bool) l : (forall f, b2z (P f) = b2z (Q f) + b2z (S f)) ->
  cnt P l = cnt Q l + cnt S l.
Proof. intros H. induction l as [|a l IH]; rewrite ?cnt_cons, ?cnt_nil; [reflexivity|]. rewrite IH, (H a). lia. Qed.

Lemma rgt_len h p l : 0 < h -> In p l -> NoDup l -> Forall (fun f => 0 <= f < 2 * h + 1) l ->
  zlen (rgt h p l) = g h p l - 1.
Proof.
  intros Hh Hp Hn Hr. unfold rgt. rewrite zlen_map. fold (cnt (fun f => (f - p - 1) mod (2 * h + 1) <? h) l).
  pose proof (eqm_in h p l Hp Hn Hr) as He. unfold g.
  rewrite (cnt_split (win h p) (fun f => (f - p - 1) mod (2 * h + 1) <? h) (eqm h p)); [lia|].
  intros f. unfold win, eqm. rewrite (mod_shift h (f - p) 1) by lia.
  pose proof (Z.mod_pos_bound (f - p) (2 * h + 1) ltac:(lia)).
  destruct (Z.leb_spec ((f - p) mod (2 * h + 1)) h), (Z.ltb_spec ((f - p) mod (2 * h + 1)) 1),
    (Z.eqb_spec ((f - p) mod (2 * h + 1)) 0); cbn [b2z]; try lia;
    match goal with |- context[?a <? ?b] => destruct (Z.ltb_spec a b) end; cbn [b2z]; lia.
Qed.
Lemma lft_len h p l : 0 < h -> zlen (lft h p l) = zlen l - g h p l.
Proof.
  intros Hh. unfold lft. rewrite zlen_map. fold (cnt (fun f => (f - p - h - 1) mod (2 * h + 1) <? h) l).
  unfold g. enough (cnt (win h p) l + cnt (fun f => (f - p - h - 1) mod (2 * h + 1) <? h) l = zlen l + cnt (fun _ => false) l).
  { replace (cnt (fun _ => false) l) with 0 in H; [lia|]. clear. induction l as [|a l IH]; [reflexivity|].
    rewrite cnt_cons. cbn [b2z]. lia. }
  apply cnt_eq_sum. intros f _. unfold win. replace (f - p - h - 1) with (f - p - (h + 1)) by ring.
  rewrite (mod_shift h (f - p) (h + 1)) by lia. pose proof (Z.mod_pos_bound (f - p) (2 * h + 1) ltac:(lia)).
  destruct (Z.leb_spec ((f - p) mod (2 * h + 1)) h), (Z.ltb_spec ((f - p) mod (2 * h + 1)) (h + 1)); cbn [b2z]; try lia;
    match goal with |- context[?a <? ?b] => destruct (Z.ltb_spec a b) end; cbn [b2z]; lia.
Qed.

Lemma shift_inj R c a b : 0 < R -> 0 <= a < R -> 0 <= b < R -> (a - c) mod R = (b - c) mod R -> a = b.
Proof.
  intros HR Ha Hb E. rewrite <- (Z.mod_small a R), <- (Z.mod_small b R) by lia.
  replace a with ((a - c) + c) by ring. replace b with ((b - c) + c) by ring.
  rewrite (Zplus_mod (a - c)), (Zplus_mod (b - c)), E. reflexivity.
Qed.
Lemma NoDup_map_shift R c l : 0 < R -> NoDup l -> Forall (fun f => 0 <= f < R) l ->
  NoDup (map (fun f => (f - c) mod R) l).
Proof.
  intros HR. induction l as [|a l IH]; intros Hn Hr; cbn [map]; [constructor|].
  inversion Hn; subst. inversion Hr; subst. constructor; [|auto].
  rewrite in_map_iff. intros [b [E Hb]].
  assert (a = b); [|subst; contradiction].
  apply (shift_inj R c); try assumption; [|congruence].
  match goal with H : Forall _ l |- _ => rewrite Forall_forall in H; apply H, Hb end.
Qed.

Lemma half_ok h c l : 0 < h -> NoDup l -> Forall (fun f => 0 <= f < 2 * h + 1) l ->
  let m := map (fun f => (f - c) mod (2 * h + 1)) (filter (fun f => (f - c) mod (2 * h + 1) <? h) l) in
  NoDup m /\ Forall (fun f => 0 <= f < h) m.
Proof.
  intros Hh Hn Hr m. split.
  - apply NoDup_map_shift; [lia | apply NoDup_filter, Hn |].
    rewrite Forall_forall in *. intros x Hx. apply filter_In in Hx. apply Hr, Hx.
  - apply Forall_forall. intros x Hx. unfold m in Hx. apply in_map_iff in Hx. destruct Hx as [f [<- Hf]].
    apply filter_In in Hf. destruct Hf as [_ Hf]. apply Z.ltb_lt in Hf.
    pose proof (Z.mod_pos_bound (f - c) (2 * h + 1) ltac:(lia)). lia.
Qed.

Lemma map_filter_ext (F G : Z -> Z) h l : (forall a, F a = G a) ->
  map F (filter (fun f => F f <? h) l) = map G (filter (fun f => G f <? h) l).
Proof. intros H. rewrite (filter_ext _ (fun f => G f <? h)) by (intros; rewrite H; reflexivity). apply map_ext, H. Qed.
Lemma rgt_ok h p l : 0 < h -> NoDup l -> Forall (fun f => 0 <= f < 2 * h + 1) l ->
  NoDup (rgt h p l) /\ Forall (fun f => 0 <= f < h) (rgt h p l).
Proof.
  intros Hh Hn Hr. pose proof (half_ok h (p + 1) l Hh Hn Hr) as H. cbn beta zeta in H.
  unfold rgt. rewrite (map_filter_ext _ (fun f => (f - (p + 1)) mod (2 * h + 1))); [exact H|].
  intros a. f_equal. ring.
Qed.
Lemma lft_ok h p l : 0 < h -> NoDup l -> Forall (fun f => 0 <= f < 2 * h + 1) l ->
  NoDup (lft h p l) /\ Forall (fun f => 0 <= f < h) (lft h p l).
Proof.
  intros Hh Hn Hr. pose proof (half_ok h (p + h + 1) l Hh Hn Hr) as H. cbn beta zeta in H.
  unfold lft. rewrite (map_filter_ext _ (fun f => (f - (p + h + 1)) mod (2 * h + 1))); [exact H|].
  intros a. f_equal. ring.
Qed.

(** every element is the pivot or in exactly one half *)
Lemma halves h p l x : 0 < h -> In x l -> 0 <= x < 2 * h + 1 -> 0 <= p < 2 * h + 1 ->
  x = p \/ (exists v, In v (lft h p l) /\ x = (v + p + h + 1) mod (2 * h + 1)) \/
  (exists v, In v (rgt h p l) /\ x = (v + p + 1) mod (2 * h + 1)).
Proof.
  intros Hh Hin Hx Hp. pose proof (Z.mod_pos_bound (x - p) (2 * h + 1) ltac:(lia)) as B.
  destruct (Z.eq_dec ((x - p) mod (2 * h + 1)) 0) as [E0 | E0].
  - left. apply (shift_inj (2 * h + 1) p); try lia. rewrite Z.sub_diag, Z.mod_0_l by lia. exact E0.
  - right. destruct (Z_le_gt_dec ((x - p) mod (2 * h + 1)) h).
    + right. exists ((x - p - 1) mod (2 * h + 1)). split.
      * unfold rgt. apply in_map_iff. exists x. split; [reflexivity|]. apply filter_In. split; [exact Hin|].
        apply Z.ltb_lt. rewrite (mod_shift h (x - p) 1) by lia. destruct (Z.ltb_spec ((x - p) mod (2 * h + 1)) 1); lia.
      * rewrite <- Z.add_assoc, Zplus_mod_idemp_l. replace (x - p - 1 + (p + 1)) with x by ring. rewrite Z.mod_small; lia.
    + left. exists ((x - p - h - 1) mod (2 * h + 1)). split.
      * unfold lft. apply in_map_iff. exists x. split; [reflexivity|]. apply filter_In. split; [exact Hin|].
        apply Z.ltb_lt. replace (x - p - h - 1) with (x - p - (h + 1)) by ring. rewrite (mod_shift h (x - p) (h + 1)) by lia.
        destruct (Z.ltb_spec ((x - p) mod (2 * h + 1)) (h + 1)); lia.
      * replace (((x - p - h - 1) mod (2 * h + 1) + p + h + 1)) with (((x - p - h - 1) mod (2 * h + 1) + (p + h + 1))) by ring.
        rewrite Zplus_mod_idemp_l. replace (x - p - h - 1 + (p + h + 1)) with x by ring. rewrite Z.mod_small; lia.
Qed.
Lemma lft_in h p l v : 0 < h -> Forall (fun f => 0 <= f < 2 * h + 1) l -> In v (lft h p l) ->
  In ((v + p + h + 1) mod (2 * h + 1)) l.
Proof.
  intros Hh Hr Hv. unfold lft in Hv. apply in_map_iff in Hv. destruct Hv as [x [<- Hx]]. apply filter_In in Hx.
  destruct Hx as [Hx _]. rewrite Forall_forall in Hr. specialize (Hr x Hx). cbv beta in Hr.
  replace (((x - p - h - 1) mod (2 * h + 1) + p + h + 1)) with (((x - p - h - 1) mod (2 * h + 1) + (p + h + 1))) by ring.
  rewrite Zplus_mod_idemp_l. replace (x - p - h - 1 + (p + h + 1)) with x by ring. rewrite Z.mod_small; [exact Hx | lia].
Qed.
Lemma rgt_in h p l v : 0 < h -> Forall (fun f => 0 <= f < 2 * h + 1) l -> In v (rgt h p l) ->
  In ((v + p + 1) mod (2 * h + 1)) l.
Proof.
  intros Hh Hr Hv. unfold rgt in Hv. apply in_map_iff in Hv. destruct Hv as [x [<- Hx]]. apply filter_In in Hx.
  destruct Hx as [Hx _]. rewrite Forall_forall in Hr. specialize (Hr x Hx). cbv beta in Hr.
  rewrite <- Z.add_assoc, Zplus_mod_idemp_l. replace (x - p - 1 + (p + 1)) with x by ring. rewrite Z.mod_small; [exact Hx | lia].
Qed.

(** what the two "part" loops compute *)
Lemma part_right h p l : 0 < h -> In p l -> NoDup l -> Forall (fun f => 0 <= f < 2 * h + 1) l ->
  g h p l - 1 = Z.quot (zlen l - 1) 2 -> 2 <= zlen l ->
  part (2 * h + 1) (cmod (p + 1) (2 * h + 1)) (Z.quot (zlen l) 2) l [] = Ok (rgt h p l).
Proof.
  intros Hh Hp Hn Hr Hg Hl.
  assert (Eq : forall a, cmod (a - cmod (p + 1) (2 * h + 1)) (2 * h + 1) = (a - p - 1) mod (2 * h + 1)).
  { intros a. rewrite !cmod_mod by lia. rewrite Zminus_mod_idemp_r. f_equal. ring. }
  assert (Eh : Z.quot (2 * h + 1) 2 = h).
  { rewrite quot2 by lia. symmetry. apply (Z.div_unique _ 2 h 1); lia. }
  rewrite part_ok.
  - cbn [app]. rewrite Eh. unfold rgt. f_equal. apply map_filter_ext. exact Eq.
  - pose proof (rgt_len h p l Hh Hp Hn Hr) as Hlen. unfold rgt in Hlen. rewrite zlen_map in Hlen.
    rewrite zlen_nil, Eh.
    rewrite (filter_ext _ (fun f => (f - p - 1) mod (2 * h + 1) <? h)) by (intros; rewrite Eq; reflexivity).
    rewrite Hlen, Hg. rewrite !quot2 by lia. pose proof (Z.div_le_mono (zlen l - 1) (zlen l) 2 ltac:(lia) ltac:(lia)). lia.
Qed.
Lemma part_left h p l : 0 < h -> In p l -> NoDup l -> Forall (fun f => 0 <= f < 2 * h + 1) l ->
  g h p l - 1 = Z.quot (zlen l - 1) 2 -> 2 <= zlen l ->
  part (2 * h + 1) (cmod (p + Z.quot (2 * h + 1 - 1) 2 + 1) (2 * h + 1)) (Z.quot (zlen l) 2) l [] = Ok (lft h p l).
Proof.
  intros Hh Hp Hn Hr Hg Hl.
  assert (Eh1 : Z.quot (2 * h + 1 - 1) 2 = h).
  { rewrite quot2 by lia. symmetry. apply (Z.div_unique _ 2 h 0); lia. }
  rewrite Eh1.
  assert (Eq : forall a, cmod (a - cmod (p + h + 1) (2 * h + 1)) (2 * h + 1) = (a - p - h - 1) mod (2 * h + 1)).
  { intros a. rewrite !cmod_mod by lia. rewrite Zminus_mod_idemp_r. f_equal. ring. }
  assert (Eh : Z.quot (2 * h + 1) 2 = h).
  { rewrite quot2 by lia. symmetry. apply (Z.div_unique _ 2 h 1); lia. }
  rewrite part_ok.
  - cbn [app]. rewrite Eh. unfold lft. f_equal. apply map_filter_ext. exact Eq.
  - pose proof (lft_len h p l Hh) as Hlen. unfold lft in Hlen. rewrite zlen_map in Hlen.
    rewrite zlen_nil, Eh.
    rewrite (filter_ext _ (fun f => (f - p - h - 1) mod (2 * h + 1) <? h)) by (intros; rewrite Eq; reflexivity).
    rewrite Hlen. rewrite !quot2 in * by lia.
    pose proof (Z.div_mod (zlen l) 2 ltac:(lia)). pose proof (Z.mod_pos_bound (zlen l) 2 ltac:(lia)).
    pose proof (Z.div_mod (zlen l - 1) 2 ltac:(lia)). pose proof (Z.mod_pos_bound (zlen l - 1) 2 ltac:(lia)). lia.
Qed.
