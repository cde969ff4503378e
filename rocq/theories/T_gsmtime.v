(* T_gsmtime.v - property theorems C26 (frame numbers), C43 (frequency hopping), C44 (blocks and paging groups). *)
From Verif Require Import Base S_gsmtime M_gsmtime P_gsmtime.

(* C26: frame number -> (T1,T2,T3) -> frame number is the identity on every frame number *)
Theorem C26_fn_time_fn : forall fn, 0 <= fn < 2715648 -> gsmtime2fn (fn2gsmtime fn) = fn.
Proof. exact gsmtime_roundtrip. Qed.
Print Assumptions C26_fn_time_fn.

(* C26: and every legal triple is recovered from its frame number *)
Theorem C26_time_fn_time : forall t1 t2 t3 fn0 tc0, 0 <= t1 < 2048 -> 0 <= t2 < 26 -> 0 <= t3 < 51 ->
  let f := gsmtime2fn (GT fn0 t1 t2 t3 tc0) in
  gt_t1 (fn2gsmtime f) = t1 /\ gt_t2 (fn2gsmtime f) = t2 /\ gt_t3 (fn2gsmtime f) = t3.
Proof. exact gsmtime_inj. Qed.
Print Assumptions C26_time_fn_time.

(* C26: whatever the (possibly corrupted) time fields are, the result is a frame number *)
Theorem C26_result_in_range : forall t, 0 <= gsmtime2fn t < 2715648.
Proof. exact gsmtime2fn_range. Qed.
Print Assumptions C26_result_in_range.

(* C26: a frame less than half a window (21216 frames) before the current one is reconstructed from its
   residue, across every wrap of the window and of the hyperframe *)
Theorem C26_rfn_past : forall f cur d, is_fn f -> is_fn cur -> 0 <= d < 21216 -> (f + d) mod 2715648 = cur ->
  rfn2fn (f mod 42432) cur = Ok f.
Proof.
  intros f cur d Hf Hc Hd E. rewrite <- (rfn_range f) by (unfold is_fn, HYPER, is_u32 in *; lia). exact (rfn2fn_past f cur d Hf Hc Hd E).
Qed.
Print Assumptions C26_rfn_past.

(* C26: a frame at most half a window away on either side is reconstructed if it lies in the same window *)
Theorem C26_rfn_same_window : forall f cur, is_fn f -> is_fn cur -> f / 42432 = cur / 42432 -> Z.abs (f - cur) <= 21216 ->
  rfn2fn (f mod 42432) cur = Ok f.
Proof.
  intros f cur Hf Hc E Hd. rewrite <- (rfn_range f) by (unfold is_fn, HYPER, is_u32 in *; lia). exact (rfn2fn_same f cur Hf Hc E Hd).
Qed.
Print Assumptions C26_rfn_same_window.

(* C26: the result always is a frame number with the given residue, and residues out of range panic *)
Theorem C26_rfn_residue : forall rfn cur, is_fn cur -> 0 <= rfn < 65536 ->
  if rfn <? 42432 then exists f, rfn2fn rfn cur = Ok f /\ 0 <= f < 2715648 /\ f mod 42432 = rfn
  else rfn2fn rfn cur = Abort.
Proof.
  intros rfn cur Hc Hr. destruct (rfn <? 42432) eqn:E.
  - destruct (rfn2fn_residue rfn cur ltac:(lia) Hc) as [f [H1 [H2 H3]]]. exists f. split; [exact H1|]. split; [exact H2|].
    rewrite <- H3. symmetry. apply rfn_range. unfold is_fn, HYPER, is_u32 in *; lia.
  - unfold rfn2fn. change GSM_RFN_MODULUS with 42432. rewrite E. reflexivity.
Qed.
Print Assumptions C26_rfn_residue.

(* C26: the expectation "the nearest frame with that residue" fails: one frame ahead of the current one, across a
   window border, the result is two windows in the past *)
Theorem C26_rfn_nearest_refuted : exists f cur, is_fn f /\ is_fn cur /\ f = cur + 1 /\
  rfn2fn (f mod 42432) cur = Ok (f - 2 * 42432).
Proof. exists 127296, 127295. unfold is_fn, HYPER. repeat split; try lia. Qed.
Print Assumptions C26_rfn_nearest_refuted.

(* C26: frame number comparison: before = less than half a hyperframe behind *)
Theorem C26_fncmp : forall a b, is_fn a -> is_fn b ->
  fncmp a b = if (b - a) mod 2715648 =? 0 then 0 else if (b - a) mod 2715648 <? 1357824 then -1 else 1.
Proof. exact fncmp_spec. Qed.
Print Assumptions C26_fncmp.

(* C26: antisymmetric except at a distance of exactly half a hyperframe, where both orders say "after" *)
Theorem C26_fncmp_antisym : forall a b, is_fn a -> is_fn b -> (b - a) mod 2715648 <> 1357824 -> fncmp b a = - fncmp a b.
Proof.
  intros a b Ha Hb Hn. rewrite !C26_fncmp by assumption. unfold is_fn, HYPER in *.
  destruct (Z.eq_dec a b) as [-> |Ne]; [rewrite Z.sub_diag; reflexivity|].
  assert (E : (a - b) mod 2715648 = 2715648 - (b - a) mod 2715648) by lia. rewrite E. clear E.
  assert (R : 0 < (b - a) mod 2715648 < 2715648) by lia. revert R Hn. generalize ((b - a) mod 2715648). intros x R Hn.
  destruct (x =? 0) eqn:Q1; [lia|]. destruct (2715648 - x =? 0) eqn:Q2; [lia|].
  destruct (x <? 1357824) eqn:Q3; destruct (2715648 - x <? 1357824) eqn:Q4; lia.
Qed.
Print Assumptions C26_fncmp_antisym.
Theorem C26_fncmp_antisym_refuted : exists a b, is_fn a /\ is_fn b /\ fncmp a b = 1 /\ fncmp b a = 1.
Proof. exists 0, 1357824. unfold is_fn, HYPER. repeat split; lia. Qed.
Print Assumptions C26_fncmp_antisym_refuted.

(* C26: the modular macros on frame numbers; DIFF is the cyclic distance *)
Theorem C26_fn_arith : forall a b, is_fn a -> is_fn b ->
  GSM_TDMA_FN_SUM a b = (a + b) mod 2715648 /\
  GSM_TDMA_FN_SUB a b = (a - b) mod 2715648 /\
  GSM_TDMA_FN_SUB (GSM_TDMA_FN_SUM a b) b = a /\
  GSM_TDMA_FN_DEC (GSM_TDMA_FN_INC a) = a /\
  GSM_TDMA_FN_DIFF a b = GSM_TDMA_FN_DIFF b a /\ 0 <= GSM_TDMA_FN_DIFF a b <= 1357824 /\
  (after a (GSM_TDMA_FN_DIFF a b) = b \/ after b (GSM_TDMA_FN_DIFF a b) = a).
Proof.
  intros a b Ha Hb. unfold is_fn, HYPER in *.
  assert (S1 : GSM_TDMA_FN_SUM a b = (a + b) mod 2715648) by (apply fn_sum; lia).
  assert (S2 : GSM_TDMA_FN_SUB a b = (a - b) mod 2715648) by (apply fn_sub; unfold HYPER; lia).
  assert (S3 : GSM_TDMA_FN_SUB b a = (b - a) mod 2715648) by (apply fn_sub; unfold HYPER; lia).
  split; [exact S1|]. split; [exact S2|]. split.
  { rewrite S1, fn_sub by (unfold HYPER; lia). unfold HYPER; lia. }
  split. { unfold GSM_TDMA_FN_DEC, GSM_TDMA_FN_INC. rewrite fn_sum by lia. rewrite fn_sub by (unfold HYPER; lia). unfold HYPER; lia. }
  unfold GSM_TDMA_FN_DIFF. rewrite S2, S3. split; [apply Z.min_comm|].
  unfold after, HYPER. clear S1 S2 S3. destruct (Z.lt_ge_cases a b).
  - assert (E1 : (a - b) mod 2715648 = 2715648 + (a - b)) by lia. assert (E2 : (b - a) mod 2715648 = b - a) by lia. rewrite E1, E2.
    split; [lia|]. destruct (Z.le_ge_cases (b - a) (2715648 + (a - b))) as [Q|Q]; [left; rewrite Z.min_r by lia | right; rewrite Z.min_l by lia]; lia.
  - assert (E2 : (a - b) mod 2715648 = a - b) by lia. rewrite E2.
    destruct (Z.eq_dec a b) as [-> |]. { rewrite Z.sub_diag. cbn. split; [lia|]. left. lia. }
    assert (E1 : (b - a) mod 2715648 = 2715648 + (b - a)) by lia. rewrite E1.
    split; [lia|]. destruct (Z.le_ge_cases (a - b) (2715648 + (b - a))) as [Q|Q]; [right; rewrite Z.min_l by lia | left; rewrite Z.min_r by lia]; lia.
Qed.
Print Assumptions C26_fn_arith.

(* C26: OSMO_MOD_FLR is the floored remainder except for negative exact multiples, where it yields the divisor *)
Theorem C26_mod_flr : forall x y, 0 < y -> OSMO_MOD_FLR x y = if (x <? 0) && (x mod y =? 0) then y else x mod y.
Proof. exact mod_flr_exact. Qed.
Print Assumptions C26_mod_flr.
Theorem C26_mod_flr_refuted : exists x y, 0 < y /\ OSMO_MOD_FLR x y <> x mod y.
Proof. exists (-26), 26. split; [lia|]. cbv. discriminate. Qed.
Print Assumptions C26_mod_flr_refuted.
Theorem C26_mod_euc : forall x y, y <> 0 -> OSMO_MOD_EUC x y = x mod (Z.abs y).
Proof. exact mod_euc_exact. Qed.
Print Assumptions C26_mod_euc.

Example C26_nonvacuous :
  gsmtime2fn (fn2gsmtime 2715647) = 2715647 /\ gt_t3 (fn2gsmtime 2715647) = 50 /\ gt_t1 (fn2gsmtime 2715647) = 2047
  /\ rfn2fn (2715000 mod 42432) 100 = Ok 2715000 /\ fncmp 2715647 0 = -1.
Proof. vm_compute. repeat split. Qed.

(* C43: the hopping generator returns the channel given by TS 45.002 section 6.2.3, and always reads inside MA *)
Theorem C43_hop_standard : forall fn hsn maio ma, is_fn fn -> 0 <= hsn < 64 -> 0 <= maio < 64 -> 1 <= zlen ma <= 64 ->
  hop_seq_gen (fn2gsmtime fn) hsn maio (zlen ma) (Some ma) = Ok (nth (Z.to_nat (hop_MAI fn hsn maio (zlen ma))) ma 0)
  /\ hop_seq_gen (fn2gsmtime fn) hsn maio (zlen ma) None = Ok (hop_MAI fn hsn maio (zlen ma))
  /\ 0 <= hop_MAI fn hsn maio (zlen ma) < zlen ma.
Proof.
  intros fn hsn maio ma Hf Hh Hm Hn. rewrite !hop_spec by assumption.
  pose proof (hop_mai_range fn hsn maio (zlen ma) ltac:(lia)) as R. split; [|split; [reflexivity|exact R]].
  apply rd_in. exact R.
Qed.
Print Assumptions C43_hop_standard.

(* C43: two users of the same allocation and HSN with different MAIO never share a channel in any frame *)
Theorem C43_hop_orthogonal : forall fn hsn m1 m2 ma, is_fn fn -> 0 <= hsn < 64 -> 1 <= zlen ma <= 64 -> NoDup ma ->
  0 <= m1 < zlen ma -> 0 <= m2 < zlen ma ->
  hop_seq_gen (fn2gsmtime fn) hsn m1 (zlen ma) (Some ma) = hop_seq_gen (fn2gsmtime fn) hsn m2 (zlen ma) (Some ma) -> m1 = m2.
Proof.
  intros fn hsn m1 m2 ma Hf Hh Hn ND H1 H2 E.
  destruct (C43_hop_standard fn hsn m1 ma Hf Hh ltac:(lia) Hn) as [E1 [_ R1]].
  destruct (C43_hop_standard fn hsn m2 ma Hf Hh ltac:(lia) Hn) as [E2 [_ R2]].
  rewrite E1, E2 in E. injection E as E. apply (hop_orthogonal fn hsn (zlen ma)); try lia.
  pose proof (proj1 (NoDup_nth ma 0) ND) as K. unfold zlen in *. apply K in E; lia.
Qed.
Print Assumptions C43_hop_orthogonal.

(* C43: cyclic hopping (HSN 0) uses every channel exactly once in any N consecutive frames *)
Theorem C43_hop_cyclic : forall fn maio n j, 0 <= fn -> fn + n <= 2715648 -> 0 <= maio < 64 -> 1 <= n <= 64 -> 0 <= j < n ->
  exists! d, 0 <= d < n /\ hop_seq_gen (fn2gsmtime (fn + d)) 0 maio n None = Ok j.
Proof.
  intros fn maio n j Hf Hf2 Hm Hn Hj. destruct (hop_cyclic fn maio n j ltac:(lia) Hj) as [d [[Hd E] U]].
  exists d. split.
  - split; [exact Hd|]. rewrite hop_spec by (unfold is_fn, HYPER; lia). rewrite E. reflexivity.
  - intros d' [Hd' E']. apply U. split; [exact Hd'|]. rewrite hop_spec in E' by (unfold is_fn, HYPER; lia). congruence.
Qed.
Print Assumptions C43_hop_cyclic.

(* C43: an empty allocation divides by zero; a HSN above 63 can read outside the table *)
Theorem C43_hop_preconditions_refuted :
  (forall t hsn maio ma, hop_seq_gen t hsn maio 0 ma = UB) /\
  (exists fn, is_fn fn /\ hop_seq_gen (fn2gsmtime fn) 255 0 4 None = UB).
Proof. split; [reflexivity|]. exists 50. unfold is_fn, HYPER. split; [lia|reflexivity]. Qed.
Print Assumptions C43_hop_preconditions_refuted.

Example C43_nonvacuous :
  hop_seq_gen (fn2gsmtime 2654321) 37 2 5 (Some [10; 20; 30; 40; 50]) = Ok 50 /\ NoDup [10; 20; 30; 40; 50].
Proof. split; [vm_compute; reflexivity|]. repeat constructor; cbn; intuition discriminate. Qed.

(* C44: block start from block end: the last frame of a block is mapped to the block's first frame, which lies
   less than one repeat length before it; any other frame is returned unchanged *)
Theorem C44_fn_remap : forall fn ch, is_fn fn -> 0 <= ch < 6 ->
  let (cyc, blocks) := channel_blocks ch in
  exists r, fn_remap fn ch = Ok r /\ is_fn r /\
    ((exists f l, In (f, l) blocks /\ fn mod cyc = l /\ r mod cyc = f /\ (fn - r) mod 2715648 < cyc)
     \/ ((forall f l, In (f, l) blocks -> fn mod cyc <> l) /\ r = fn)).
Proof. exact remap_spec. Qed.
Print Assumptions C44_fn_remap.

(* C44: CCCH block Bk occupies exactly its four frames of the 51-multiframe; other frames give a negative value *)
Theorem C44_ccch_block : forall fn, is_u32 fn ->
  exists b, fn2ccch_block fn = Ok b /\
  (forall k, 0 <= k < 9 -> (b = k <-> ccch_block_start k <= fn mod 51 <= ccch_block_start k + 3)) /\ -4 <= b < 9.
Proof. exact ccch_block_spec. Qed.
Print Assumptions C44_ccch_block.

(* C44: paging group of TS 45.002 section 6.5.2, for every legal channel description and IMSI *)
Theorem C44_paging_group : forall conf ag pa imsi chans, 0 <= ag < 8 -> 0 <= pa < 8 -> is_u64 imsi ->
  (conf = 0 /\ chans = 1 \/ conf = 1 /\ chans = 1 /\ ag <= 2 \/ conf = 2 /\ chans = 2 \/ conf = 4 /\ chans = 3 \/ conf = 6 /\ chans = 4) ->
  let N := (if conf =? 1 then 3 - ag else 9 - ag) * (pa + 2) in
  calc_paging_group conf ag pa imsi = Ok (((imsi mod 1000) mod (chans * N)) mod N) /\ 2 <= N.
Proof. exact paging_spec. Qed.
Print Assumptions C44_paging_group.

(* C44: CCCH group and paging group are in range and together identify the subscriber's slot *)
Theorem C44_group_pair : forall imsi chans N, 1 <= chans <= 4 -> 1 <= N <= 81 -> is_u64 imsi ->
  exists g p, get_ccch_group imsi chans N = Ok g /\ get_paging_group imsi chans N = Ok p /\
    0 <= g < chans /\ 0 <= p < N /\ g * N + p = (imsi mod 1000) mod (chans * N).
Proof. exact group_pair. Qed.
Print Assumptions C44_group_pair.

Example C44_nonvacuous :
  fn_remap 3 0 = Ok 2715643 /\ fn_remap 1036987 0 = Ok 1036979 /\ fn2ccch_block 49 = Ok 8 /\ calc_paging_group 6 1 3 262011234567890 = Ok 10.
Proof. vm_compute. repeat split. Qed.
