From Verif Require Import Base S_gsmtime M_gsmtime.

Lemma H_val : GSM_TDMA_HYPERFRAME = HYPER. Proof. reflexivity. Qed.
Lemma M_val : GSM_MAX_FN = HYPER. Proof. reflexivity. Qed.

Lemma fn_sum a b : 0 <= a -> 0 <= b -> a + b < 4294967296 -> GSM_TDMA_FN_SUM a b = (a + b) mod HYPER.
Proof. intros; unfold GSM_TDMA_FN_SUM; rewrite u32_small by (unfold is_u32; lia). reflexivity. Qed.
Lemma fn_sub a b : 0 <= a -> 0 <= b <= a + HYPER -> a + HYPER < 4294967296 -> GSM_TDMA_FN_SUB a b = (a - b) mod HYPER.
Proof.
  intros H1 H2 H3; unfold GSM_TDMA_FN_SUB; rewrite H_val.
  rewrite (u32_small (a + HYPER)) by (unfold is_u32, HYPER in *; lia). rewrite u32_small by (unfold is_u32, HYPER in *; lia).
  unfold HYPER. lia.
Qed.

Lemma gsmtime_roundtrip fn : is_fn fn -> gsmtime2fn (fn2gsmtime fn) = fn.
Proof.
  intros H. unfold is_fn, HYPER in H. unfold gsmtime2fn, fn2gsmtime; cbn [gt_t1 gt_t2 gt_t3].
  rewrite (u16_small (fn / (26 * 51))) by (unfold is_u16; lia).
  rewrite (u8_small (fn mod 26)) by (unfold is_byte; lia). rewrite (u8_small (fn mod 51)) by (unfold is_byte; lia).
  assert (E : OSMO_MOD_FLR (fn mod 51 - fn mod 26) 26 = (fn mod 51 - fn mod 26) mod 26).
  { unfold OSMO_MOD_FLR. change (26 >? 0) with true. change (26 <? 0) with false. rewrite andb_false_r, andb_true_r. cbn [orb].
    assert (Hr : -25 <= fn mod 51 - fn mod 26 <= 50) by lia. revert Hr. generalize (fn mod 51 - fn mod 26). intros x Hr.
    destruct (x <? 0) eqn:Q.
    - replace x with (- (- x)) at 1 by lia. rewrite Z.rem_opp_l by lia. rewrite Z.rem_small by lia. lia.
    - rewrite Z.rem_mod_nonneg by lia. reflexivity. }
  rewrite E. unfold GSM_MAX_FN. rewrite u32_small by (unfold is_u32; lia).
  (* let fn = 1326 q + r *)
  lia.
Qed.

Lemma gsmtime2fn_range t : is_fn (gsmtime2fn t).
Proof. unfold gsmtime2fn, is_fn. rewrite M_val. unfold HYPER. lia. Qed.

(* exactly the legal triples give back T1, T2 and T3 *)
Lemma gsmtime_inj t1 t2 t3 fn0 tc0 : 0 <= t1 < 2048 -> 0 <= t2 < 26 -> 0 <= t3 < 51 ->
  let f := gsmtime2fn (GT fn0 t1 t2 t3 tc0) in
  gt_t1 (fn2gsmtime f) = t1 /\ gt_t2 (fn2gsmtime f) = t2 /\ gt_t3 (fn2gsmtime f) = t3.
Proof.
  intros H1 H2 H3. unfold gsmtime2fn; cbn [gt_t1 gt_t2 gt_t3].
  assert (E : OSMO_MOD_FLR (t3 - t2) 26 = (t3 - t2) mod 26).
  { unfold OSMO_MOD_FLR. change (26 >? 0) with true. change (26 <? 0) with false. rewrite andb_false_r, andb_true_r. cbn [orb].
    assert (Hr : -25 <= t3 - t2 <= 50) by lia. revert Hr. generalize (t3 - t2). intros x Hr.
    destruct (x <? 0) eqn:Q.
    - replace x with (- (- x)) at 1 by lia. rewrite Z.rem_opp_l by lia. rewrite Z.rem_small by lia. lia.
    - rewrite Z.rem_mod_nonneg by lia. reflexivity. }
  rewrite E. unfold GSM_MAX_FN. cbv zeta.
  rewrite u32_small by (unfold is_u32; lia). rewrite (Z.mod_small _ (26 * 51 * 2048)) by lia.
  unfold fn2gsmtime; cbn [gt_t1 gt_t2 gt_t3]. unfold u16, u8.
  repeat split; lia.
Qed.

Lemma rfn_range f : is_u32 f -> fn2rfn f = f mod 42432.
Proof. intros. unfold fn2rfn, GSM_RFN_MODULUS. apply u16_small. unfold is_u16. lia. Qed.

(* the exact behaviour: no roll back while the residues are at most half a window apart *)
Lemma rfn2fn_exact rfn cur : 0 <= rfn < 42432 -> is_fn cur ->
  rfn2fn rfn cur = Ok ((cur - cur mod 42432 + rfn - (if Z.abs (rfn - cur mod 42432) >? 21216 then 42432 else 0)) mod HYPER).
Proof.
  intros Hr Hc. unfold is_fn, HYPER in Hc. unfold rfn2fn. change GSM_RFN_MODULUS with 42432.
  replace (rfn <? 42432) with true by lia. cbn [negb].
  rewrite rfn_range by (unfold is_u32; lia).
  set (c := cur mod 42432). assert (Hcr : 0 <= c < 42432) by (subst c; lia).
  assert (Hle : c <= cur) by (subst c; lia).
  rewrite (fn_sub cur c) by (unfold HYPER; lia).
  replace ((cur - c) mod HYPER) with (cur - c) by (unfold HYPER; lia).
  change (GSM_TDMA_HYPERFRAME) with HYPER.
  assert (D : GSM_TDMA_FN_DIFF rfn c = Z.abs (rfn - c)).
  { unfold GSM_TDMA_FN_DIFF. rewrite !fn_sub by (unfold HYPER; lia). unfold HYPER. clearbody c. lia. }
  rewrite D. change GSM_RFN_THRESHOLD with 21216. change GSM_MAX_FN with HYPER.
  assert (Hk : exists k, cur - c = 42432 * k /\ 0 <= k < 64).
  { exists (cur / 42432). subst c. lia. }
  destruct Hk as [k [Ek Hk]]. rewrite Ek. clearbody c. clear D.
  destruct (Z.abs (rfn - c) >? 21216) eqn:Q.
  - destruct (42432 * k <? 42432) eqn:Q2.
    + assert (k = 0) by lia. subst k. f_equal.
      rewrite (fn_sub 42432) by (unfold HYPER; lia). change ((42432 - 42432 * 0) mod HYPER) with 42432.
      rewrite fn_sub by (unfold HYPER; lia). rewrite fn_sum by (unfold HYPER; lia). unfold HYPER. lia.
    + f_equal. rewrite fn_sub by (unfold HYPER; lia). rewrite fn_sum by (unfold HYPER; lia). unfold HYPER. lia.
  - f_equal. rewrite fn_sum by (unfold HYPER; lia). unfold HYPER. lia.
Qed.

(* a request less than half a window old is resolved to the right frame *)
Lemma rfn2fn_past f cur d : is_fn f -> is_fn cur -> 0 <= d < 21216 -> after f d = cur -> rfn2fn (fn2rfn f) cur = Ok f.
Proof.
  intros Hf Hc Hd E. unfold after, is_fn, HYPER in *.
  rewrite rfn_range by (unfold is_u32; lia). rewrite rfn2fn_exact by (unfold is_fn, HYPER; lia). f_equal.
  destruct (Z.abs (f mod 42432 - cur mod 42432) >? 21216) eqn:Q; unfold HYPER; lia.
Qed.

(* so is one from the future as long as it lies in the current window of 42432 frames *)
Lemma rfn2fn_same f cur : is_fn f -> is_fn cur -> f / 42432 = cur / 42432 -> Z.abs (f - cur) <= 21216 -> rfn2fn (fn2rfn f) cur = Ok f.
Proof.
  intros Hf Hc E Hd. unfold is_fn, HYPER in *.
  rewrite rfn_range by (unfold is_u32; lia). rewrite rfn2fn_exact by (unfold is_fn, HYPER; lia). f_equal.
  destruct (Z.abs (f mod 42432 - cur mod 42432) >? 21216) eqn:Q; unfold HYPER; lia.
Qed.

Lemma rfn2fn_residue rfn cur : 0 <= rfn < 42432 -> is_fn cur -> exists f, rfn2fn rfn cur = Ok f /\ is_fn f /\ fn2rfn f = rfn.
Proof.
  intros Hr Hc. rewrite rfn2fn_exact by assumption. eexists; split; [reflexivity|].
  assert (R : forall x, is_fn (x mod HYPER)) by (intros; unfold is_fn, HYPER; lia). split; [apply R|].
  rewrite rfn_range by (pose proof (R (cur - cur mod 42432 + rfn - (if Z.abs (rfn - cur mod 42432) >? 21216 then 42432 else 0))); unfold is_fn, is_u32, HYPER in *; lia).
  unfold HYPER. destruct (Z.abs (rfn - cur mod 42432) >? 21216); lia.
Qed.

Lemma fncmp_spec a b : is_fn a -> is_fn b ->
  fncmp a b = if ahead a b =? 0 then 0 else if ahead a b <? HYPER / 2 then -1 else 1.
Proof.
  intros Ha Hb. unfold is_fn in *. unfold fncmp, ahead. change (GSM_TDMA_HYPERFRAME / 2) with 1357824. change (HYPER / 2) with 1357824.
  unfold HYPER in *.
  destruct (a =? b) eqn:E0; [assert (a = b) by lia; subst; rewrite Z.sub_diag; reflexivity|].
  destruct (Z.lt_ge_cases a b).
  - rewrite (Z.mod_small (b - a)) by lia. rewrite (u32_small (b - a)) by (unfold is_u32; lia).
    replace (a <? b) with true by lia. replace (a >? b) with false by lia. cbn [andb orb]. rewrite orb_false_r.
    replace (b - a =? 0) with false by lia. reflexivity.
  - replace ((b - a) mod 2715648) with (2715648 - (a - b)) by lia. rewrite (u32_small (a - b)) by (unfold is_u32; lia).
    replace (a <? b) with false by lia. replace (a >? b) with true by lia. cbn [andb orb].
    replace (2715648 - (a - b) =? 0) with false by lia.
    destruct (a - b >? 1357824) eqn:Q; destruct (2715648 - (a - b) <? 1357824) eqn:Q2; lia.
Qed.

Definition tables_val : list remap_table :=
  Eval vm_compute in fn_remap_tables.
Lemma tables_eq : fn_remap_tables = tables_val.
Proof. vm_compute. reflexivity. Qed.

Lemma remap_spec fn ch : is_fn fn -> 0 <= ch < 6 ->
  let (cyc, blocks) := channel_blocks ch in
  exists r, fn_remap fn ch = Ok r /\ is_fn r /\
    ((exists f l, In (f, l) blocks /\ fn mod cyc = l /\ r mod cyc = f /\ ahead r fn < cyc)
     \/ ((forall f l, In (f, l) blocks -> fn mod cyc <> l) /\ r = fn)).
Proof.
  intros Hf Hc. unfold is_fn, HYPER in Hf.
  assert (K : forall sub, 0 <= sub < 26 -> GSM_TDMA_FN_SUB fn sub = (fn - sub) mod HYPER) by (intros; apply fn_sub; unfold HYPER; lia).
  assert (Hch : ch = 0 \/ ch = 1 \/ ch = 2 \/ ch = 3 \/ ch = 4 \/ ch = 5) by lia.
  destruct Hch as [-> | [-> | [-> | [-> | [-> | ->]]]]]; cbn [channel_blocks Z.eqb Pos.eqb]; unfold channel_blocks; cbn [Z.eqb Pos.eqb];
  unfold fn_remap; rewrite tables_eq; unfold tables_val;
  (match goal with |- context [nth_error ?l (Z.to_nat ?k)] => let v := eval vm_compute in (nth_error l (Z.to_nat k)) in change (nth_error l (Z.to_nat k)) with v end);
  cbv beta iota; cbn [rt_cycle rt_rows];
  (rewrite u8_small by (unfold is_byte; lia)).
  all: unfold remap_find.
  all: repeat match goal with |- context [if ?a =? ?m mod ?b then _ else _] => destruct (a =? m mod b) eqn:? end.
  all: match goal with |- context [if ?a =? -1 then _ else _] => let v := eval vm_compute in (a =? -1) in change (a =? -1) with v end; cbv iota.
  all: eexists; (split; [reflexivity|]); try (rewrite K by lia).
  all: split; [unfold is_fn, HYPER; lia|].
  all: try (right; split; [intros f l I; cbn in I; intuition (try discriminate); repeat match goal with H : (_,_) = (_,_) |- _ => injection H as <- <- end; lia|reflexivity]).
  all: left; unfold ahead, HYPER.
  all: first [ eexists _, _; split; [left; reflexivity|]; repeat split; lia
             | eexists _, _; split; [right; left; reflexivity|]; repeat split; lia
             | eexists _, _; split; [right; right; left; reflexivity|]; repeat split; lia ].
Qed.

Definition pnm_of (n : Z) : Z := s32 (Z.lor (Z.lor (Z.lor (Z.lor (Z.lor (Z.lor (Z.shiftr n 0) (Z.shiftr n 1))
                      (Z.shiftr n 2)) (Z.shiftr n 3)) (Z.shiftr n 4)) (Z.shiftr n 5)) (Z.shiftr n 6)).
Lemma pnm_ones n : 1 <= n <= 64 -> pnm_of n = Z.ones (Z.log2 n + 1).
Proof.
  intros H. apply Z.eqb_eq.
  apply (forall_zseq (fun n => pnm_of n =? Z.ones (Z.log2 n + 1)) 1 (Z.to_nat 64)); [vm_compute; reflexivity|].
  rewrite Z2Nat.id by lia; lia.
Qed.

Lemma lxor63 a b : 0 <= a < 64 -> 0 <= b < 64 -> 0 <= Z.lxor a b < 64.
Proof.
  intros Ha Hb. split; [apply Z.lxor_nonneg; lia|]. change 64 with (2 ^ 6). apply bits_bound; [lia|apply Z.lxor_nonneg; lia|].
  intros m Hm. rewrite Z.lxor_spec, !(testbit_above _ 6) by lia. reflexivity.
Qed.
Lemma land63 a : Z.land a 63 = a mod 64.
Proof. change 63 with (Z.ones 6). rewrite Z.land_ones by lia. reflexivity. Qed.

Lemma rn_eq : rn_table = RNTABLE. Proof. reflexivity. Qed.

Lemma hop_mai_range fn hsn maio n : 1 <= n -> 0 <= hop_MAI fn hsn maio n < n.
Proof. intros; unfold hop_MAI; destruct (hsn =? 0); apply Z.mod_pos_bound; lia. Qed.

Lemma rntable_range i : 0 <= nth i RNTABLE 0 < 128.
Proof.
  assert (F : Forall (fun x => 0 <= x < 128) RNTABLE).
  { apply Forall_forall. intros x Hx.
    assert (G : forallb (fun x => (0 <=? x) && (x <? 128)) RNTABLE = true) by (vm_compute; reflexivity).
    rewrite forallb_forall in G. specialize (G x Hx). lia. }
  apply Forall_nth0; [assumption|lia].
Qed.

Lemma hop_spec fn hsn maio n ma : is_fn fn -> 0 <= hsn < 64 -> 0 <= maio < 64 -> 1 <= n <= 64 ->
  hop_seq_gen (fn2gsmtime fn) hsn maio n ma =
  match ma with Some l => rd l (hop_MAI fn hsn maio n) | None => Ok (hop_MAI fn hsn maio n) end.
Proof.
  intros Hf Hh Hm Hn. unfold is_fn, HYPER in Hf. unfold hop_seq_gen. fold (pnm_of n). rewrite pnm_ones by lia.
  replace (n =? 0) with false by lia. unfold fn2gsmtime; cbn [gt_fn gt_t1 gt_t2 gt_t3].
  rewrite (u16_small (fn / (26 * 51))) by (unfold is_u16; lia).
  rewrite (u8_small (fn mod 26)) by (unfold is_byte; lia). rewrite (u8_small (fn mod 51)) by (unfold is_byte; lia).
  assert (Fin : forall x, 0 <= x < n -> match ma with Some l => rd l (u32 x) | None => Ok (u16 (u32 x)) end
     = match ma with Some l => rd l x | None => Ok x end).
  { intros x Hx. rewrite u32_small by (unfold is_u32; lia). rewrite u16_small by (unfold is_u16; lia). reflexivity. }
  pose proof (hop_mai_range fn hsn maio n ltac:(lia)) as HR.
  unfold hop_MAI in *. destruct (hsn =? 0) eqn:E.
  - cbn [bind]. rewrite (u32_small (fn + maio)) by (unfold is_u32; lia). apply Fin. exact HR.
  - rewrite land63. change (26 * 51) with 1326.
    assert (X : 0 <= Z.lxor hsn (fn / 1326 mod 64) < 64) by (apply lxor63; lia).
    assert (L0 : zlen rn_table = 114) by reflexivity.
    rewrite (rd_in rn_table _ 0) by (rewrite L0; lia). cbn [bind].
    rewrite rn_eq. unfold hop_S in *.
    assert (L : forall x, 0 <= x -> Z.land x (Z.ones (Z.log2 n + 1)) = x mod 2 ^ (Z.log2 n + 1)).
    { intros. apply Z.land_ones. pose proof (Z.log2_nonneg n). lia. }
    rewrite !L.
    + apply Fin. exact HR.
    + lia.
    + pose proof (rntable_range (Z.to_nat (Z.lxor hsn (fn / 1326 mod 64) + fn mod 51))). lia.
Qed.

Lemma add_mod_inj n a b c : 1 <= n -> (c + a) mod n = (c + b) mod n -> a mod n = b mod n.
Proof.
  intros Hn E.
  replace a with ((c + a) + (- c)) by lia. replace b with ((c + b) + (- c)) by lia.
  rewrite (Z.add_mod (c + a)), (Z.add_mod (c + b)) by lia. rewrite E. reflexivity.
Qed.

Lemma hop_orthogonal fn hsn n m1 m2 : 1 <= n -> 0 <= m1 < n -> 0 <= m2 < n -> hop_MAI fn hsn m1 n = hop_MAI fn hsn m2 n -> m1 = m2.
Proof.
  intros Hn H1 H2 E. assert (m1 mod n = m2 mod n).
  { unfold hop_MAI in E. destruct (hsn =? 0); eapply add_mod_inj; eauto. }
  rewrite !Z.mod_small in H by lia. exact H.
Qed.

Lemma hop_cyclic fn maio n j : 1 <= n -> 0 <= j < n -> exists! d, 0 <= d < n /\ hop_MAI (fn + d) 0 maio n = j.
Proof.
  intros Hn Hj. unfold hop_MAI. cbn [Z.eqb]. exists ((j - (fn + maio)) mod n). split.
  - split; [apply Z.mod_pos_bound; lia|].
    replace (fn + (j - (fn + maio)) mod n + maio) with ((fn + maio) + (j - (fn + maio)) mod n) by lia.
    rewrite Z.add_mod_idemp_r by lia. replace (fn + maio + (j - (fn + maio))) with j by lia. apply Z.mod_small; lia.
  - intros d [Hd E]. rewrite <- E. rewrite Zminus_mod_idemp_l.
    replace (fn + d + maio - (fn + maio)) with d by lia. apply Z.mod_small; lia.
Qed.

Lemma ccch_block_spec fn : is_u32 fn ->
  exists b, fn2ccch_block fn = Ok b /\
  (forall k, 0 <= k < 9 -> (b = k <-> ccch_block_start k <= fn mod 51 <= ccch_block_start k + 3)) /\ -4 <= b < 9.
Proof.
  intros Hf. assert (H : 0 <= fn mod 51 < 0 + Z.of_nat 51) by lia. unfold fn2ccch_block. revert H. generalize (fn mod 51). intros x Hx.
  assert (L : zlen ccch_block_table = 51) by reflexivity.
  rewrite (rd_in ccch_block_table x 0) by lia. eexists; split; [reflexivity|].
  assert (G := forall_zseq (fun x => (-4 <=? nth (Z.to_nat x) ccch_block_table 0) && (nth (Z.to_nat x) ccch_block_table 0 <? 9)
     && forallb (fun k => Bool.eqb (nth (Z.to_nat x) ccch_block_table 0 =? k) ((ccch_block_start k <=? x) && (x <=? ccch_block_start k + 3))) (zseq 0 9)) 0 51 ltac:(vm_compute; reflexivity) x Hx).
  cbv beta in G. rewrite !andb_true_iff in G. destruct G as [[G1 G2] G3]. split; [|lia].
  intros k Hk. rewrite forallb_forall in G3. specialize (G3 k ltac:(apply zseq_In; lia)). apply eqb_prop in G3.
  clear G1 G2. revert G3. generalize (nth (Z.to_nat x) ccch_block_table 0). intros b G3. lia.
Qed.

(* paging groups: BS_CC_CHANS and the number N of paging blocks "available" on one CCCH *)
Lemma paging_spec conf ag pa imsi chans : 0 <= ag < 8 -> 0 <= pa < 8 -> is_u64 imsi ->
  (conf = 0 /\ chans = 1 \/ conf = 1 /\ chans = 1 /\ ag <= 2 \/ conf = 2 /\ chans = 2 \/ conf = 4 /\ chans = 3 \/ conf = 6 /\ chans = 4) ->
  let N := (if conf =? 1 then 3 - ag else 9 - ag) * (pa + 2) in
  calc_paging_group conf ag pa imsi = Ok (((imsi mod 1000) mod (chans * N)) mod N) /\ 2 <= N.
Proof.
  intros Ha Hp Hi Hc N. unfold calc_paging_group, number_of_paging_subchannels, get_n_pag_blocks.
  assert (HN : 2 <= N <= 81) by (subst N; destruct (conf =? 1) eqn:E; nia).
  assert (EN : (if conf =? 1 then s32 (Z.max 1 (if conf =? 1 then u32 (3 - ag) else u32 (9 - ag)) * (pa + 2)) else s32 ((if conf =? 1 then u32 (3 - ag) else u32 (9 - ag)) * (pa + 2))) = N).
  { subst N. destruct (conf =? 1) eqn:E.
    - rewrite u32_small by (unfold is_u32; lia). rewrite Z.max_r by lia. apply s32_small. unfold is_s32. nia.
    - rewrite u32_small by (unfold is_u32; lia). apply s32_small. unfold is_s32. nia. }
  rewrite EN. clear EN. clearbody N. split; [|lia]. assert (EC : u32 (ccch_conf_to_bs_cc_chans conf) = chans /\ 1 <= chans <= 4).
  { unfold ccch_conf_to_bs_cc_chans. destruct Hc as [[-> ->] | [[-> [-> _]] | [[-> ->] | [[-> ->] | [-> ->]]]]]; cbn; split; try reflexivity; lia. }
  destruct EC as [-> Hch]. unfold get_paging_group.
  assert (1 <= chans * N <= 400) by nia. rewrite u32_small by (unfold is_u32; lia). rewrite (u64_small N) by (unfold is_u64; lia).
  replace (chans * N =? 0) with false by lia. replace (N =? 0) with false by lia. cbn [orb]. f_equal.
  apply u32_small. pose proof (Z.mod_pos_bound ((imsi mod 1000) mod (chans * N)) N ltac:(lia)). unfold is_u32. lia.
Qed.

Lemma group_pair imsi chans N : 1 <= chans <= 4 -> 1 <= N <= 81 -> is_u64 imsi ->
  exists g p, get_ccch_group imsi chans N = Ok g /\ get_paging_group imsi chans N = Ok p /\
    0 <= g < chans /\ 0 <= p < N /\ g * N + p = (imsi mod 1000) mod (chans * N).
Proof.
  intros Hc HN Hi. unfold get_ccch_group, get_paging_group.
  assert (1 <= chans * N <= 400) by nia. rewrite !u32_small with (x := chans * N) by (unfold is_u32; lia). rewrite (u64_small N) by (unfold is_u64; lia).
  replace (chans * N =? 0) with false by lia. replace (N =? 0) with false by lia. cbn [orb].
  pose proof (Z.mod_pos_bound (imsi mod 1000) (chans * N) ltac:(lia)) as B. revert B. generalize ((imsi mod 1000) mod (chans * N)). intros x B.
  pose proof (Z.mod_pos_bound x N ltac:(lia)). pose proof (Z.div_mod x N ltac:(lia)).
  assert (0 <= x / N < chans) by (split; [apply Z.div_pos; lia|apply Z.div_lt_upper_bound; lia]).
  exists (x / N), (x mod N). rewrite !u32_small by (unfold is_u32; lia). repeat split; lia.
Qed.

Lemma mod_flr_exact x y : 0 < y -> OSMO_MOD_FLR x y = if (x <? 0) && (x mod y =? 0) then y else x mod y.
Proof.
  intros Hy. unfold OSMO_MOD_FLR. replace (y <? 0) with false by lia. replace (y >? 0) with true by lia.
  rewrite andb_false_r, andb_true_r. cbn [orb]. destruct (x <? 0) eqn:E; cbn [andb].
  - replace x with (- (- x)) at 1 by lia. rewrite Z.rem_opp_l by lia. rewrite Z.rem_mod_nonneg by lia.
    destruct (x mod y =? 0) eqn:Q.
    + rewrite (Z.mod_opp_l_z x y) by lia. lia.
    + rewrite (Z.mod_opp_l_nz x y) by lia. lia.
  - apply Z.rem_mod_nonneg; lia.
Qed.
Lemma mod_euc_exact x y : y <> 0 -> OSMO_MOD_EUC x y = x mod (Z.abs y).
Proof.
  intros Hy. unfold OSMO_MOD_EUC.
  assert (R : Z.rem x y = Z.rem x (Z.abs y)).
  { destruct (Z.abs_eq_or_opp y) as [-> | ->]; [reflexivity|]. rewrite Z.rem_opp_r by lia. reflexivity. }
  assert (A : (if y >? 0 then Z.rem x y + y else Z.rem x y - y) = Z.rem x y + Z.abs y) by (destruct (y >? 0) eqn:Q; lia).
  rewrite A, R. assert (Hp : 0 < Z.abs y) by lia. clear A R. revert Hp. generalize (Z.abs y). intros z Hp. clear Hy.
  destruct (Z.lt_ge_cases x 0).
  - assert (R : Z.rem x z = - ((- x) mod z)).
    { replace x with (- (- x)) at 1 by lia. rewrite Z.rem_opp_l by lia. rewrite Z.rem_mod_nonneg by lia. reflexivity. }
    rewrite R.
    destruct (Z.eq_dec (x mod z) 0) as [Q|Q].
    + rewrite (Z.mod_opp_l_z x z) by lia. rewrite Q. reflexivity.
    + rewrite (Z.mod_opp_l_nz x z) by lia. pose proof (Z.mod_pos_bound x z Hp). replace (- (z - x mod z) <? 0) with true by lia. lia.
  - rewrite Z.rem_mod_nonneg by lia. pose proof (Z.mod_pos_bound x z Hp). replace (x mod z <? 0) with false by lia. reflexivity.
Qed.
