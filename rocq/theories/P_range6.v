(** Frequency list decoding: the whole function. *)
From Coq Require Import ZArith List Lia Bool.
From Verif Require Import Base S_range M_range P_range3 P_range4 P_range5.
Import ListNotations.
Open Scope Z_scope.

Definition Mk (f0 : list Z) (q : Z) (S : list Z) (f : list Z) : Prop :=
  zlen f = 1024 /\ bytes f /\
  forall a, 0 <= a < 1024 -> at0 f a = Z.lor (at0 f0 a) (if mem a S then q else 0).

Lemma mem_app a s t : mem a (s ++ t) = mem a s || mem a t.
Proof. apply existsb_app. Qed.
Lemma mem_In a s : mem a s = true <-> In a s.
Proof.
  unfold mem. rewrite existsb_exists. split.
  - intros [x [H E]]. apply Z.eqb_eq in E. subst. exact H.
  - intros H. exists a. split; [exact H | apply Z.eqb_refl].
Qed.

Lemma lor_byte a b : is_byte a -> is_byte b -> is_byte (Z.lor a b).
Proof.
  intros Ha Hb. apply byte_of_bits; [apply Z.lor_nonneg; unfold is_byte in *; lia|].
  intros m Hm. rewrite Z.lor_spec, !byte_testbit_above by assumption. reflexivity.
Qed.

Lemma mark_ok f0 q S f i : Mk f0 q S f -> is_byte q -> 0 <= i < 1024 ->
  exists f', mark f i q = Ok f' /\ Mk f0 q (S ++ [i]) f'.
Proof.
  intros [Hz [Hb Hv]] Hq Hi. unfold mark. rewrite rd_at0 by lia. cbn [bind]. rewrite wr_in by lia.
  assert (Hbb : is_byte (Z.lor (at0 f i) q)) by (apply lor_byte; [apply bytes_at0, Hb | exact Hq]).
  rewrite u8_small by exact Hbb. eexists. split; [reflexivity|].
  split; [rewrite zlen_upd; exact Hz|]. split; [apply Forall_upd; assumption|].
  intros a Ha. rewrite at0_upd by lia. rewrite mem_app. cbn [mem existsb]. rewrite orb_false_r.
  destruct (Z.eqb_spec a i) as [-> | Hne].
  - rewrite Hv by lia. destruct (mem i S); cbn [orb].
    + rewrite <- Z.lor_assoc, Z.lor_diag. reflexivity.
    + rewrite Z.lor_0_r. reflexivity.
  - rewrite orb_false_r. apply Hv, Ha.
Qed.

Lemma land_not_byte m q : is_byte m -> is_byte (Z.land m (Z.lnot q)).
Proof.
  intros Hm. unfold is_byte in Hm. apply byte_of_bits; [apply Z.land_nonneg; left; lia|].
  intros j Hj. rewrite Z.land_spec, byte_testbit_above by (unfold is_byte; lia). reflexivity.
Qed.

Lemma Mk_init f q : zlen f = 1024 -> bytes f ->
  Mk (map (fun m => Z.land m (Z.lnot q)) f) q [] (map (fun m => Z.land m (Z.lnot q)) f).
Proof.
  intros Hz Hb. split; [rewrite zlen_map; exact Hz|]. split.
  - apply Forall_forall. intros x Hx. apply in_map_iff in Hx. destruct Hx as [m [<- Hm]].
    apply land_not_byte. unfold bytes in Hb. rewrite Forall_forall in Hb. apply Hb, Hm.
  - intros a Ha. cbn. rewrite Z.lor_0_r. reflexivity.
Qed.
Lemma Mk_marked f q S f' : zlen f = 1024 -> Mk (map (fun m => Z.land m (Z.lnot q)) f) q S f' -> f' = marked f q S.
Proof.
  intros Hz [Hz' [_ Hv]]. unfold marked. change 1024%nat with (Z.to_nat 1024).
  assert (Zm : zlen (map (fun a => Z.lor (Z.land (at0 f a) (Z.lnot q)) (if mem a S then q else 0)) (zseq 0 (Z.to_nat 1024))) = 1024).
  { rewrite zlen_map, zlen_zseq. lia. }
  apply at0_ext; [rewrite Hz'; symmetry; exact Zm|].
  intros i Hi. rewrite Hv by lia. rewrite (at0_map_zseq _ 1024 i 0) by lia. cbv beta. rewrite Z.add_0_l.
  rewrite at0_map by lia. reflexivity.
Qed.
Lemma marked_ext f q S S' : (forall a, 0 <= a < 1024 -> mem a S = mem a S') -> marked f q S = marked f q S'.
Proof.
  intros H. unfold marked. apply map_ext_in. intros a Ha. apply zseq_In in Ha. rewrite (H a); [reflexivity|].
  change (Z.of_nat 1024) with 1024 in Ha. lia.
Qed.

(** the "if (w[k])" lines *)
Definition forms_of (R : Z) (n : nat) : list (Z * list (Z * Z * Z)) :=
  map (fun k => (k, jpath R (Z.to_nat (Z.log2 k)) (k - 2 ^ Z.log2 k) [])) (zseq 1 n).

Lemma mark_forms_ok e pos w W f0 q : 1 <= e -> is_byte q ->
  (forall i, 1 <= i < zlen w -> at0 w i = W i /\ 0 <= W i < 2 ^ (e - Z.log2 i)) ->
  (forall v, 1 <= v <= 2 ^ e - 1 -> 0 <= pos v < 1024) ->
  forall n k0 f S, 1 <= k0 -> k0 + Z.of_nat n <= zlen w -> zlen w <= 2 ^ e ->
  Mk f0 q S f ->
  exists f', mark_forms pos w (map (fun k => (k, jpath (2 ^ e) (Z.to_nat (Z.log2 k)) (k - 2 ^ Z.log2 k) [])) (zseq k0 n)) f q = Ok f' /\
    Mk f0 q (S ++ map pos (map (annexJ (2 ^ e) W) (filter (fun k => negb (W k =? 0)) (zseq k0 n)))) f'.
Proof.
  intros He Hq HW Hpos. induction n as [|n IH]; intros k0 f S Hk0 Hn Hw HM.
  - exists f. cbn. rewrite app_nil_r. split; [reflexivity | exact HM].
  - cbn [zseq map mark_forms filter]. destruct (HW k0 ltac:(lia)) as [EW BW].
    rewrite rd_at0 by lia. cbn [bind]. rewrite EW. destruct (Z.eqb_spec (W k0) 0) as [E0 | E0]; cbn [negb].
    + apply IH; try assumption; lia.
    + pose proof (Z.log2_spec k0 ltac:(lia)) as [L1 L2]. unfold Z.succ in L2. pose proof (Z.log2_nonneg k0) as L0.
      rewrite p2S in L2 by lia.
      assert (Le : Z.log2 k0 <= e - 1).
      { assert (Z.log2 k0 < e); [|lia]. apply Z.log2_lt_pow2; lia. }
      rewrite (eval_jpath e w W k0 (Z.to_nat (Z.log2 k0)) (k0 - 2 ^ Z.log2 k0) [] (W k0)); rewrite ?Z2Nat.id by lia; try lia.
      * cbn [bind]. fold (annexJ (2 ^ e) W k0).
        assert (HB : 1 <= annexJ (2 ^ e) W k0 <= 2 ^ e - 1).
        { unfold annexJ. apply annexJ_up_bound; rewrite Z2Nat.id by lia; lia. }
        destruct (mark_ok f0 q S f (pos (annexJ (2 ^ e) W k0)) HM Hq (Hpos _ HB)) as [f1 [E1 M1]].
        rewrite E1. cbn [bind]. destruct (IH (k0 + 1) f1 _ ltac:(lia) ltac:(lia) Hw M1) as [f2 [E2 M2]].
        exists f2. split; [exact E2|]. cbn [map]. rewrite <- app_assoc in M2. exact M2.
      * cbn [eval_form]. rewrite rd_at0 by lia. rewrite EW. reflexivity.
Qed.

(** W() from the loaded array *)
Lemma W_of_bound cd len base top k : 0 <= wwidth top k -> 0 <= W_of cd len base top k < 2 ^ wwidth top k.
Proof.
  intros H. unfold W_of. destruct (_ <=? _).
  - pose proof (bfield_bound cd (wstart base top k) (Z.to_nat (wwidth top k))) as B. rewrite Z2Nat.id in B by lia. exact B.
  - pose proof (pow2_pos (wwidth top k) H). lia.
Qed.

Lemma at0_repeat0 n k : at0 (repeat 0 n) k = 0.
Proof. unfold at0. generalize (Z.to_nat k). induction n as [|n IH]; intros [|m]; cbn; auto. Qed.

Lemma load_W cd len base top ml0 tab k0 n : bytes cd -> zlen cd = len -> ml0 <= len ->
  forallb (entry_ok base top ml0) tab = true -> fields_from k0 tab = true -> k0 = 0 \/ k0 = 1 ->
  Z.of_nat n = k0 + zlen tab -> (forall k, 1 <= k < Z.of_nat n -> 0 <= wwidth top k) ->
  exists w, load_w cd len tab (repeat 0 n) = Ok w /\ zlen w = Z.of_nat n /\
    forall i, 1 <= i < zlen w -> at0 w i = W_of cd len base top i /\ 0 <= W_of cd len base top i < 2 ^ (top - Z.log2 i).
Proof.
  intros Hb Hc Hm He Hf Hk Hn Hw.
  destruct (load_w_ok cd len base top ml0 tab k0 (repeat 0 n)) as [w [E [Z' [F V]]]]; try assumption; try lia.
  { unfold zlen at 2. rewrite repeat_length. lia. }
  unfold zlen at 2 in Z'. rewrite repeat_length in Z'.
  exists w. split; [exact E|]. split; [exact Z'|]. intros i Hi. split.
  - rewrite V by lia. unfold W_of. destruct (_ <=? _); [reflexivity|]. apply at0_repeat0.
  - change (top - Z.log2 i) with (wwidth top i). apply W_of_bound, Hw. lia.
Qed.

Lemma pieces_orig : pieces_ok 7 10 [(0, 0, 1, 9); (1, 0, 8, 1); (2, 7, 1, 0)] = true.
Proof. reflexivity. Qed.
Lemma orig_bound cd : 0 <= orig_arfcn cd < 1024.
Proof. apply (bfield_bound cd 7 10). Qed.

(** formats with an origin: the first table entry is the origin, the others the W *)
Lemma load_orig cd len top ml0 tab n : bytes cd -> zlen cd = len -> ml0 <= len -> 3 <= len ->
  forallb (entry_ok 17 top ml0) tab = true -> fields_from 1 tab = true ->
  Z.of_nat n = 1 + zlen tab -> (forall k, 1 <= k < Z.of_nat n -> 0 <= wwidth top k) ->
  exists w, load_w cd len ((0, 0, [(0, 0, 1, 9); (1, 0, 8, 1); (2, 7, 1, 0)]) :: tab) (repeat 0 n) = Ok w /\ zlen w = Z.of_nat n /\
    at0 w 0 = orig_arfcn cd /\
    forall i, 1 <= i < zlen w -> at0 w i = W_of cd len 17 top i /\ 0 <= W_of cd len 17 top i < 2 ^ (top - Z.log2 i).
Proof.
  intros Hb Hc Hm H3 He Hf Hn Hw. pose proof (zlen_nonneg tab) as Hzt.
  assert (Zr : zlen (repeat 0 n) = Z.of_nat n) by (unfold zlen; rewrite repeat_length; reflexivity).
  cbn [load_w]. destruct (Z.ltb_spec len 0); [lia|].
  rewrite (rd_fld_ok cd _ 7 10 0 pieces_orig) by lia. cbn [bind]. rewrite Z.lor_0_l. fold (orig_arfcn cd).
  change (bfield cd 7 (Z.to_nat 10)) with (orig_arfcn cd).
  pose proof (orig_bound cd) as Ho. rewrite u16_small by (unfold is_u16; lia).
  rewrite wr_in by lia. cbn [bind].
  destruct (load_w_ok cd len 17 top ml0 tab 1 (upd (repeat 0 n) (Z.to_nat 0) (orig_arfcn cd))) as [w [E [Z' [F V]]]]; try assumption; try lia.
  { rewrite zlen_upd, Zr. lia. }
  rewrite zlen_upd, Zr in Z'.
  exists w. split; [exact E|]. split; [exact Z'|]. split.
  - rewrite F by lia. rewrite at0_upd by lia. reflexivity.
  - intros i Hi. split.
    + rewrite V by lia. unfold W_of. destruct (_ <=? _); [reflexivity|]. rewrite at0_upd by lia.
      destruct (Z.eqb_spec i 0); [lia|]. apply at0_repeat0.
    + change (top - Z.log2 i) with (wwidth top i). apply W_of_bound, Hw. lia.
Qed.

Lemma dec_orig_ok e (tab : list (Z * Z * list (Z * Z * Z * Z))) forms n ml0 f f0 cd len q : 1 <= e <= 10 -> is_byte q ->
  bytes cd -> zlen cd = len -> ml0 <= len -> 3 <= len ->
  forallb (entry_ok 17 e ml0) tab = true -> fields_from 1 tab = true ->
  zlen tab = Z.of_nat n -> (forall k, 1 <= k < Z.of_nat (S n) -> 0 <= wwidth e k) -> Z.of_nat (S n) <= 2 ^ e ->
  forms = forms_of (2 ^ e) n -> Mk f0 q [] f ->
  exists f', dec_orig ((0, 0, [(0, 0, 1, 9); (1, 0, 8, 1); (2, 7, 1, 0)]) :: tab) forms (S n) f cd len q = Ok f' /\
    Mk f0 q (freqs_orig (2 ^ e) e n cd len) f'.
Proof.
  intros Hee Hq Hb Hc Hm H3 Hen Hf Hn Hw Hsz -> HM. unfold dec_orig.
  destruct (load_orig cd len e ml0 tab (S n)) as [w [Ew [Zw [W0 HW]]]]; try assumption; try lia.
  rewrite Ew. cbn [bind]. rewrite rd_at0 by lia. cbn [bind]. rewrite W0.
  pose proof (orig_bound cd) as Ho.
  destruct (mark_ok f0 q [] f (orig_arfcn cd) HM Hq Ho) as [f1 [E1 M1]]. rewrite E1. cbn [bind].
  destruct (mark_forms_ok e (fun v => Z.rem (orig_arfcn cd + v) 1024) w (W_of cd len 17 e) f0 q ltac:(lia) Hq HW
     ltac:(intros v Hv; apply Z.rem_bound_pos; lia) n 1 f1 _ ltac:(lia) ltac:(lia) ltac:(lia) M1) as [f2 [E2 M2]].
  exists f2. split; [exact E2|].
  cbn [app] in M2. unfold freqs_orig, range_freqs.
  erewrite (map_ext_in (fun F => (orig_arfcn cd + F) mod 1024)); [exact M2|].
  intros v Hv. cbv beta.
  assert (Hv1 : 1 <= v).
  { apply in_map_iff in Hv. destruct Hv as [k [<- Hk]]. apply filter_In in Hk. destruct Hk as [Hk Hnz].
    apply zseq_In in Hk. apply negb_true_iff, Z.eqb_neq in Hnz.
    pose proof (Z.log2_nonneg k). destruct (HW k ltac:(lia)) as [_ HB].
    assert (Z.log2 k < e) by (apply Z.log2_lt_pow2; lia).
    unfold annexJ. apply (annexJ_up_bound e); rewrite Z2Nat.id by lia; lia. }
  symmetry. apply Z.rem_mod_nonneg; lia.
Qed.

(** format bits *)
Lemma land_pow c j : 0 <= j -> negb (Z.land c (Z.shiftl 1 j) =? 0) = Z.testbit c j.
Proof.
  intros Hj. destruct (Z.testbit c j) eqn:E.
  - apply negb_true_iff, Z.eqb_neq. intros H0. assert (Z.testbit (Z.land c (Z.shiftl 1 j)) j = true).
    { rewrite Z.land_spec, E, testbit_shl1 by lia. rewrite Z.eqb_refl. reflexivity. }
    rewrite H0, Z.bits_0 in H. discriminate.
  - apply negb_false_iff, Z.eqb_eq. apply Z.bits_inj'. intros n Hn. rewrite Z.land_spec, testbit_shl1, Z.bits_0 by lia.
    destruct (Z.eqb_spec n j); [subst; rewrite E; reflexivity | apply andb_false_r].
Qed.

Definition bv (b7 b6 b3 b2 b1 : bool) : Z := 128 * b2z b7 + 64 * b2z b6 + 8 * b2z b3 + 4 * b2z b2 + 2 * b2z b1.
Lemma land_eq_bits c m v : (forall n, 0 <= n -> Z.testbit c n && Z.testbit m n = Z.testbit v n) -> Z.land c m = v.
Proof. intros H. apply Z.bits_inj'. intros n Hn. rewrite Z.land_spec. apply H, Hn. Qed.
Lemma fmt_bits c : is_byte c -> let t := Z.testbit c in
  Z.land c 206 = bv (t 7) (t 6) (t 3) (t 2) (t 1) /\
  Z.land c 200 = bv (t 7) (t 6) (t 3) false false /\
  Z.land c 192 = bv (t 7) (t 6) false false false.
Proof.
  intros Hc t. assert (H : forallb (fun c => let t := Z.testbit c in
    (Z.land c 206 =? bv (t 7) (t 6) (t 3) (t 2) (t 1)) && (Z.land c 200 =? bv (t 7) (t 6) (t 3) false false) &&
    (Z.land c 192 =? bv (t 7) (t 6) false false false)) (zseq 0 256) = true) by (vm_compute; reflexivity).
  rewrite forallb_forall in H. specialize (H c). unfold is_byte in Hc. cbv zeta in H.
  rewrite !andb_true_iff, !Z.eqb_eq in H. destruct H as [[H1 H2] H3]; [|subst t; auto].
  apply zseq_In. change (Z.of_nat 256) with 256. lia.
Qed.

Lemma mask_drop c m mask : Z.land 206 mask = 206 -> Z.land m 206 = m -> Z.land (Z.land c m) mask = Z.land c m.
Proof. intros H Hm. rewrite <- Z.land_assoc. f_equal. rewrite <- Hm at 1. rewrite <- Z.land_assoc, H. exact Hm. Qed.

Lemma filter_zseq_snoc P a n : filter P (zseq a (S n)) = filter P (zseq a n) ++ (if P (a + Z.of_nat n) then [a + Z.of_nat n] else []).
Proof. rewrite zseq_snoc, filter_app. cbn [filter]. reflexivity. Qed.

Lemma tables_1024 : forallb (entry_ok 6 10 2) fields_1024 = true /\ fields_from 1 fields_1024 = true /\
  forms_1024 = forms_of (2 ^ 10) 16.
Proof. vm_compute. auto. Qed.
Lemma tables_512 : forallb (entry_ok 17 9 4) (tl fields_512) = true /\ fields_from 1 (tl fields_512) = true /\
  forms_512 = forms_of (2 ^ 9) 17 /\ fields_512 = (0, 0, [(0, 0, 1, 9); (1, 0, 8, 1); (2, 7, 1, 0)]) :: tl fields_512.
Proof. vm_compute. auto. Qed.
Lemma tables_256 : forallb (entry_ok 17 8 4) (tl fields_256) = true /\ fields_from 1 (tl fields_256) = true /\
  forms_256 = forms_of (2 ^ 8) 21 /\ fields_256 = (0, 0, [(0, 0, 1, 9); (1, 0, 8, 1); (2, 7, 1, 0)]) :: tl fields_256.
Proof. vm_compute. auto. Qed.
Lemma tables_128 : forallb (entry_ok 17 7 3) (tl fields_128) = true /\ fields_from 1 (tl fields_128) = true /\
  forms_128 = forms_of (2 ^ 7) 28 /\ fields_128 = (0, 0, [(0, 0, 1, 9); (1, 0, 8, 1); (2, 7, 1, 0)]) :: tl fields_128.
Proof. vm_compute. auto. Qed.

Lemma wwidth_ok top k n : 1 <= k < n -> n <= 2 ^ (top + 1) -> 0 <= top -> 0 <= wwidth top k.
Proof.
  intros Hk Hn Ht. unfold wwidth. assert (Z.log2 k < top + 1); [|lia]. apply Z.log2_lt_pow2; lia.
Qed.

Ltac bvs := repeat match goal with |- context[bv ?a ?b ?c ?d ?e =? ?k] =>
  let v := eval vm_compute in (bv a b c d e =? k) in change (bv a b c d e =? k) with v end; cbv iota.

Theorem decode_ok f cd len mask q : bytes cd -> zlen cd = len -> 1 <= len -> zlen f = 1024 -> bytes f -> is_byte q ->
  Z.land 206 mask = 206 ->
  let '(ml, fr) := fmt_freqs cd len in
  decode_freq_list f cd len mask q =
    if len <? ml then Ok (marked f q [], - EINVAL) else Ok (marked f q fr, 0).
Proof.
  intros Hb Hc Hl Hz Hbf Hq Hmask.
  unfold decode_freq_list. rewrite Hz. cbn [Z.eqb Pos.eqb negb].
  rewrite rd_at0 by lia. cbn [bind].
  set (f0 := map (fun m => Z.land m (Z.lnot q)) f).
  pose proof (Mk_init f q Hz Hbf) as M0. fold f0 in M0.
  pose proof (Mk_marked f q [] f0 Hz M0) as E0.
  rewrite !mask_drop by (exact Hmask || reflexivity).
  destruct (fmt_bits (at0 cd 0) (bytes_at0 cd 0 Hb)) as [F1 [F2 F3]]. cbv zeta in F1, F2, F3. rewrite F1, F2, F3.
  assert (S0 : sbit cd 0 = Z.testbit (at0 cd 0) 7) by reflexivity.
  assert (S1 : sbit cd 1 = Z.testbit (at0 cd 0) 6) by reflexivity.
  assert (S4 : sbit cd 4 = Z.testbit (at0 cd 0) 3) by reflexivity.
  assert (S5 : sbit cd 5 = Z.testbit (at0 cd 0) 2) by reflexivity.
  assert (S6 : sbit cd 6 = Z.testbit (at0 cd 0) 1) by reflexivity.
  assert (Sf0 : negb (Z.land (Z.shiftr (at0 cd 0) 2) 1 =? 0) = sbit cd 5).
  { rewrite S5. change 1 with (Z.shiftl 1 0). rewrite land_pow by lia. rewrite Z.shiftr_spec by lia. reflexivity. }
  rewrite Sf0. unfold fmt_freqs.
  (* the six decoders *)
  assert (D0 : 16 <= len -> exists f', zfor 124 1 (fun i f =>
        do c <- rd cd (15 - Z.shiftr (i - 1) 3) ;;
        if negb (Z.land c (Z.shiftl 1 (Z.land (i - 1) 7)) =? 0) then mark f i q else Ok f) f0 = Ok f' /\ Mk f0 q (freqs_bitmap0 cd) f').
  { intros H16. pose (Inv := fun (k : Z) (s : list Z) => 1 <= k /\ Mk f0 q (filter (fun a => sbit cd (128 - a)) (zseq 1 (Z.to_nat (k - 1)))) s).
    match goal with |- context[zfor ?nn ?i ?ff ?s0] => destruct (zfor_inv Inv ff nn i s0) as [s [Es Hs]] end.
    - split; [lia | exact M0].
    - intros i s Hi [Hi1 HM]. change (Z.of_nat 124) with 124 in Hi.
      assert (Esh : Z.shiftr (i - 1) 3 = (i - 1) / 8) by (rewrite Z.shiftr_div_pow2 by lia; reflexivity).
      assert (Emd : Z.land (i - 1) 7 = (i - 1) mod 8) by (change 7 with (Z.ones 3); rewrite Z.land_ones by lia; reflexivity).
      pose proof (Z.div_mod (i - 1) 8 ltac:(lia)). pose proof (Z.mod_pos_bound (i - 1) 8 ltac:(lia)).
      rewrite Esh, Emd. rewrite rd_at0 by lia. cbn [bind]. rewrite land_pow by lia.
      rewrite <- (sbit_byte cd (15 - (i - 1) / 8) ((i - 1) mod 8) (128 - i)) by lia.
      unfold Inv. replace (Z.to_nat (i + 1 - 1)) with (S (Z.to_nat (i - 1))) by lia. rewrite filter_zseq_snoc.
      replace (1 + Z.of_nat (Z.to_nat (i - 1))) with i by lia.
      destruct (sbit cd (128 - i)).
      + destruct (mark_ok _ _ _ _ i HM Hq ltac:(lia)) as [s' [E' M']]. exists s'. split; [exact E'|]. split; [lia | exact M'].
      + exists s. rewrite app_nil_r. split; [reflexivity|]. split; [lia | exact HM].
    - rewrite Es. exists s. split; [reflexivity|]. apply Hs. }
  assert (D1 : 2 <= len -> exists f', (do f1 <- (if sbit cd 5 then mark f0 0 q else Ok f0) ;;
      do w <- load_w cd len fields_1024 (repeat 0 17) ;;
      mark_forms (fun v => v) w forms_1024 f1 q) = Ok f' /\ Mk f0 q (freqs_1024 cd len) f').
  { intros H2. destruct tables_1024 as [T1 [T2 T3]].
    assert (Hm : exists f1, (if sbit cd 5 then mark f0 0 q else Ok f0) = Ok f1 /\ Mk f0 q (if sbit cd 5 then [0] else []) f1).
    { destruct (sbit cd 5).
      - destruct (mark_ok _ _ _ _ 0 M0 Hq ltac:(lia)) as [s' [E' M']]. exists s'. split; [exact E' | exact M'].
      - exists f0. split; [reflexivity | exact M0]. }
    destruct Hm as [f1 [Ef1 Mf1]]. rewrite Ef1. cbn [bind].
    destruct (load_W cd len 6 10 2 fields_1024 1 17 Hb Hc H2 T1 T2 ltac:(lia) ltac:(reflexivity)) as [w [Ew [Zw HW]]].
    { intros k Hk. apply (wwidth_ok 10 k 17); [exact Hk | vm_compute; discriminate | lia]. }
    rewrite Ew. cbn [bind]. rewrite T3. unfold forms_of.
    destruct (mark_forms_ok 10 (fun v => v) w (W_of cd len 6 10) f0 q ltac:(lia) Hq HW) with (n := 16%nat) (k0 := 1) (f := f1) (S := if sbit cd 5 then [0] else [])
      as [f2 [E2 M2]].
    - intros v Hv. change (2 ^ 10) with 1024 in Hv. lia.
    - lia.
    - rewrite Zw. lia.
    - rewrite Zw. vm_compute. discriminate.
    - exact Mf1.
    - exists f2. split; [exact E2|]. unfold freqs_1024, range_freqs. change 1024 with (2 ^ 10). rewrite map_id in M2. exact M2. }
  assert (D2 : 4 <= len -> exists f', dec_orig fields_512 forms_512 18 f0 cd len q = Ok f' /\ Mk f0 q (freqs_512 cd len) f').
  { intros H4. destruct tables_512 as [T1 [T2 [T3 T4]]]. rewrite T4.
    apply (dec_orig_ok 9 (tl fields_512) forms_512 17 4 f0 f0 cd len q); try assumption; try lia; try reflexivity.
    intros k Hk. apply (wwidth_ok 9 k 18); [exact Hk | vm_compute; discriminate | lia]. }
  assert (D3 : 4 <= len -> exists f', dec_orig fields_256 forms_256 22 f0 cd len q = Ok f' /\ Mk f0 q (freqs_256 cd len) f').
  { intros H4. destruct tables_256 as [T1 [T2 [T3 T4]]]. rewrite T4.
    apply (dec_orig_ok 8 (tl fields_256) forms_256 21 4 f0 f0 cd len q); try assumption; try lia; try reflexivity.
    intros k Hk. apply (wwidth_ok 8 k 22); [exact Hk | vm_compute; discriminate | lia]. }
  assert (D4 : 3 <= len -> exists f', dec_orig fields_128 forms_128 29 f0 cd len q = Ok f' /\ Mk f0 q (freqs_128 cd len) f').
  { intros H4. destruct tables_128 as [T1 [T2 [T3 T4]]]. rewrite T4.
    apply (dec_orig_ok 7 (tl fields_128) forms_128 28 3 f0 f0 cd len q); try assumption; try lia; try reflexivity.
    intros k Hk. apply (wwidth_ok 7 k 29); [exact Hk | vm_compute; discriminate | lia]. }
  assert (D5 : 3 <= len -> exists f', (do orig <- rd_fld cd [(0, 0, 1, 9); (1, 0, 8, 1); (2, 7, 1, 0)] 0 ;;
      do f1 <- mark f0 (u16 orig) q ;;
      zfor (Z.to_nat (8 * (len - 2) - 1)) 1 (fun i f =>
        do c <- rd cd (2 + Z.shiftr i 3) ;;
        if negb (Z.land c (Z.shiftr 128 (Z.land i 7)) =? 0) then mark f (Z.rem (u16 orig + i) 1024) q
        else Ok f) f1) = Ok f' /\ Mk f0 q (freqs_varbit cd len) f').
  { intros H3. rewrite (rd_fld_ok cd _ 7 10 0 pieces_orig) by lia. cbn [bind]. rewrite Z.lor_0_l.
    change (bfield cd 7 (Z.to_nat 10)) with (orig_arfcn cd).
    pose proof (orig_bound cd) as Ho. rewrite u16_small by (unfold is_u16; lia).
    destruct (mark_ok _ _ _ _ (orig_arfcn cd) M0 Hq Ho) as [f1 [E1 M1]]. rewrite E1. cbn [bind]. cbn [app] in M1.
    pose (Inv := fun (k : Z) (s : list Z) => 1 <= k /\ Mk f0 q (orig_arfcn cd :: map (fun i => (orig_arfcn cd + i) mod 1024)
       (filter (fun i => sbit cd (16 + i)) (zseq 1 (Z.to_nat (k - 1))))) s).
    match goal with |- context[zfor ?nn ?i ?ff ?s0] => destruct (zfor_inv Inv ff nn i s0) as [s [Es Hs]] end.
    - split; [lia | exact M1].
    - intros i s Hi [Hi1 HM].
      assert (Esh : Z.shiftr i 3 = i / 8) by (rewrite Z.shiftr_div_pow2 by lia; reflexivity).
      assert (Emd : Z.land i 7 = i mod 8) by (change 7 with (Z.ones 3); rewrite Z.land_ones by lia; reflexivity).
      pose proof (Z.div_mod i 8 ltac:(lia)). pose proof (Z.mod_pos_bound i 8 ltac:(lia)).
      rewrite Esh, Emd. rewrite rd_at0 by lia. cbn [bind].
      assert (E128 : Z.shiftr 128 (i mod 8) = Z.shiftl 1 (7 - i mod 8)).
      { rewrite Z.shiftr_div_pow2, Z.shiftl_mul_pow2 by lia. change 128 with (2 ^ 7). rewrite div_pow2 by lia. lia. }
      rewrite E128, land_pow by lia.
      rewrite <- (sbit_byte cd (2 + i / 8) (7 - i mod 8) (16 + i)) by lia.
      unfold Inv. replace (Z.to_nat (i + 1 - 1)) with (S (Z.to_nat (i - 1))) by lia. rewrite filter_zseq_snoc.
      replace (1 + Z.of_nat (Z.to_nat (i - 1))) with i by lia. rewrite map_app.
      destruct (sbit cd (16 + i)).
      + rewrite Z.rem_mod_nonneg by lia.
        destruct (mark_ok _ _ _ _ ((orig_arfcn cd + i) mod 1024) HM Hq ltac:(apply Z.mod_pos_bound; lia)) as [s' [E' M']].
        exists s'. split; [exact E'|]. split; [lia | exact M'].
      + exists s. cbn [map]. rewrite app_nil_r. split; [reflexivity|]. split; [lia | exact HM].
    - rewrite Es. exists s. split; [reflexivity|]. destruct Hs as [_ Hs].
      unfold freqs_varbit. replace (Z.to_nat (1 + Z.of_nat (Z.to_nat (8 * (len - 2) - 1)) - 1)) with (Z.to_nat (8 * len - 17)) in Hs by lia.
      exact Hs. }
  clear F1 F2 F3 Sf0. rewrite <- S0, <- S1, <- S4, <- S5, <- S6. clear S0 S1 S4 S5 S6.
  destruct (sbit cd 0), (sbit cd 1).
  - (* 11: no format *) destruct (sbit cd 4), (sbit cd 5), (sbit cd 6); bvs; rewrite <- E0;
      destruct (Z.ltb_spec len 0); try lia; reflexivity.
  - destruct (sbit cd 4) eqn:E4.
    + destruct (sbit cd 5), (sbit cd 6); bvs;
      match goal with |- context[len <? ?n] => destruct (Z.ltb_spec len n) as [Hs | Hs] end; try (rewrite <- E0; reflexivity).
      * destruct (D5 Hs) as [f' [E' M']]. 
        revert E'. destruct (rd_fld cd _ 0) as [orig| | |]; cbn [bind]; try discriminate.
        destruct (mark f0 (u16 orig) q) as [f1| | |]; cbn [bind]; try discriminate. intros ->. cbn [bind].
        rewrite (Mk_marked f q _ f' Hz M'). reflexivity.
      * destruct (D4 Hs) as [f' [E' M']]. rewrite E'. cbn [bind]. rewrite (Mk_marked f q _ f' Hz M'). reflexivity.
      * destruct (D3 Hs) as [f' [E' M']]. rewrite E'. cbn [bind]. rewrite (Mk_marked f q _ f' Hz M'). reflexivity.
      * destruct (D2 Hs) as [f' [E' M']]. rewrite E'. cbn [bind]. rewrite (Mk_marked f q _ f' Hz M'). reflexivity.
    + bvs.
      destruct (Z.ltb_spec len 2) as [Hs | Hs]; [rewrite <- E0; reflexivity|].
      destruct (D1 Hs) as [f' [E' M']]. revert E'.
      destruct (if sbit cd 5 then mark f0 0 q else Ok f0) as [f1| | |]; cbn [bind]; try discriminate.
      destruct (load_w cd len fields_1024 (repeat 0 17)) as [w| | |]; cbn [bind]; try discriminate.
      intros ->. cbn [bind]. rewrite (Mk_marked f q _ f' Hz M'). reflexivity.
  - (* 01 *) destruct (sbit cd 4), (sbit cd 5), (sbit cd 6); bvs; rewrite <- E0;
      destruct (Z.ltb_spec len 0); try lia; reflexivity.
  - bvs.
    destruct (Z.ltb_spec len 16) as [Hs | Hs]; [rewrite <- E0; reflexivity|].
    destruct (D0 Hs) as [f' [E' M']]. rewrite E'. cbn [bind]. rewrite (Mk_marked f q _ f' Hz M'). reflexivity.
Qed.
