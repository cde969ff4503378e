(* P_bitvec2.v - lemmas about bitvec_rl_curbit *)
From Verif Require Import Base S_bits M_bits P_bits M_bitvec P_bitvec.

Lemma msb_num1 f r : msb_num f r 1 = b2z (f r).
Proof. unfold msb_num. cbn. rewrite ?Z.add_0_r. destruct (f r); reflexivity. Qed.
Lemma rlc_bits_ok j : forall bv idx b mx t, bytes (bdata bv) -> 8 * data_len bv < 2 ^ 31 -> 0 <= idx -> mx <= 8 * data_len bv ->
  cur_bit bv = idx ->
  exists n, 0 <= n <= Z.of_nat j /\ (forall k, idx <= k < idx + n -> pbit false (bdata bv) k = b) /\ (0 < n -> idx + n <= mx) /\
   ((n = Z.of_nat j /\ rlc_bits j bv idx b mx t = Ok (false, Bv (idx + n) (bdata bv), idx + n, t + n)) \/
    (n < Z.of_nat j /\ idx + n < mx /\ pbit false (bdata bv) (idx + n) <> b /\
     rlc_bits j bv idx b mx t = Ok (true, Bv (idx + n) (bdata bv), idx + n + 1, t + n)) \/
    (n < Z.of_nat j /\ mx <= idx + n /\
     rlc_bits j bv idx b mx t = Ok (true, Bv (u32 (idx + n - 1)) (bdata bv), idx + n, t + n))).
Proof.
  induction j; intros bv idx b mx t Hb Hl Hi Hm Hc; cbn [rlc_bits].
  - exists 0. split; [lia|]. split; [lia|]. split; [lia|]. left. split; [lia|]. rewrite !Z.add_0_r. destruct bv; cbn in *; subst; reflexivity.
  - destruct (Z.ltb_spec idx mx) as [L|L].
    + rewrite (read_field_ok bv idx 1) by (auto; lia). cbn [bind]. change (Z.to_nat 1) with 1%nat. rewrite msb_num1.
      destruct (Z.eqb_spec (b2z (pbit false (bdata bv) idx)) (b2z b)) as [E|E].
      * assert (EB : pbit false (bdata bv) idx = b) by (destruct (pbit false (bdata bv) idx), b; auto; discriminate).
        destruct (IHj (Bv (idx + 1) (bdata bv)) (idx + 1) b mx (t + 1)) as (n & N1 & N2 & N3 & N4); cbn [bdata cur_bit] in *; auto; try lia.
        exists (n + 1). split; [lia|]. split.
        { intros k Hk. destruct (Z.eq_dec k idx); [subst; auto|apply N2; lia]. }
        split. { intros. destruct (Z.eq_dec n 0); [lia|]. lia. }
        replace (idx + (n + 1)) with (idx + 1 + n) by lia. replace (t + (n + 1)) with (t + 1 + n) by lia.
        destruct N4 as [(A & B)|[(A & B & C & D)|(A & B & C)]].
        -- left. split; [lia|auto].
        -- right; left. repeat split; auto; lia.
        -- right; right. repeat split; auto; lia.
      * exists 0. split; [lia|]. split; [lia|]. split; [lia|]. right; left. rewrite !Z.add_0_r. split; [lia|]. split; auto.
        split; [congruence|]. cbn [cur_bit bdata]. rewrite u32_small by (unfold is_u32; lia). do 3 f_equal. f_equal. f_equal. lia.
    + exists 0. split; [lia|]. split; [lia|]. split; [lia|]. right; right. rewrite !Z.add_0_r. rewrite Hc. split; [lia|]. split; auto.
Qed.

Lemma rlc_bytes_ok n : forall bv i count idx b mx t, bytes (bdata bv) -> 8 * data_len bv < 2 ^ 31 -> 0 <= i -> i + Z.of_nat n <= data_len bv ->
  0 <= count -> 0 <= t <= 7 -> t <= idx -> idx + 8 * count = 8 * i -> idx <= mx -> mx <= 8 * data_len bv -> mx <= 8 * (i + Z.of_nat n) ->
  (forall k, idx <= k < 8 * i -> pbit false (bdata bv) k = b) ->
  exists r, rlc_bytes n bv i count idx b mx t = Ok (t + r, Bv (idx + r) (bdata bv)) /\ 0 <= r /\
   ((idx + r = mx /\ forall k, idx <= k < 8 * (i + Z.of_nat n) -> pbit false (bdata bv) k = b) \/
    (idx + r < 8 * (i + Z.of_nat n) /\ (forall k, idx <= k < idx + r -> pbit false (bdata bv) k = b) /\ pbit false (bdata bv) (idx + r) <> b)).
Proof.
  induction n; intros bv i count idx b mx t Hb Hl Hi Hn Hc Ht Hti E Hm1 Hm2 Hm3 Hp; cbn [rlc_bytes].
  - exists (mx - idx). rewrite Z.add_0_r in *. change (Z.of_nat 0) with 0 in *. rewrite (u32_small (t + count * 8 + idx)) by (unfold is_u32; lia).
    destruct (Z.ltb_spec mx (t + count * 8 + idx)).
    + rewrite u32_small by (unfold is_u32; lia). split. { replace (mx - idx + t) with (t + (mx - idx)) by lia. replace (idx + (mx - idx)) with mx by lia. reflexivity. }
      split; [lia|]. left. split; [lia|]. intros; apply Hp; lia.
    + assert (t = 0) by lia. subst t. assert (mx = count * 8 + idx) by lia. cbn [Z.add]. subst mx.
      rewrite u32_small by (unfold is_u32; lia). split. { replace (count * 8 + idx - idx + 0) with (count * 8 + idx - idx) by lia. replace (idx + (count * 8 + idx - idx)) with (count * 8 + idx) by lia. reflexivity. }
      split; [lia|]. left. split; [lia|]. intros; apply Hp; lia.
  - unfold data_len in *. rewrite rd_at0 by lia. cbn [bind]. set (x := at0 (bdata bv) i). assert (Hx : is_byte x) by (apply bytes_at0; auto).
    destruct (Z.eqb_spec (if b then 255 else 0) x) as [EX|EX]; cbn [negb].
    + destruct (IHn bv (i + 1) (count + 1) idx b mx t) as (r & E1 & R0 & R1); auto; try (unfold data_len; lia); try lia.
      { intros k Hk. destruct (Z_lt_le_dec k (8 * i)); [apply Hp; lia|]. unfold pbit. replace (k / 8) with i by lia. fold x. apply (full_byte_bits b); auto; lia. }
      exists r. split; auto. split; auto. destruct R1 as [[A B]|(A & B & C)].
      * left. split; auto. intros; apply B; lia.
      * right. split; [lia|]. auto.
    + destruct (leading_bits_ok b x Hx) as (R & A & N); [congruence|].
      exists (count * 8 + leading_bits x b). rewrite !u32_small by (unfold is_u32; lia).
      split. { do 2 f_equal; [lia|]. f_equal. lia. }
      split; [lia|]. right. split; [lia|]. split.
      * intros k Hk. destruct (Z_lt_le_dec k (8 * i)); [apply Hp; lia|]. unfold pbit. replace (k / 8) with i by lia. fold x. apply A. lia.
      * unfold pbit. replace ((idx + (count * 8 + leading_bits x b)) / 8) with i by lia. fold x.
        replace ((idx + (count * 8 + leading_bits x b)) mod 8) with (leading_bits x b) by lia. auto.
Qed.

Lemma rl_curbit_ok bv b mx : bytes (bdata bv) -> 8 * data_len bv < 2 ^ 31 -> 0 <= cur_bit bv <= mx -> mx <= 8 * data_len bv ->
  exists r bv', bitvec_rl_curbit bv b mx = Ok (r, bv') /\ bdata bv' = bdata bv /\ 0 <= r /\
    (forall j, cur_bit bv <= j < Z.min (cur_bit bv + r) mx -> pbit false (bdata bv) j = b) /\
    (cur_bit bv + r < mx -> pbit false (bdata bv) (cur_bit bv + r) <> b) /\
    (mx mod 8 = 0 -> cur_bit bv + r <= mx) /\
    cur_bit bv' = cur_bit bv + r - (if negb (cur_bit bv mod 8 =? 0) && (cur_bit bv / 8 =? mx / 8) && (cur_bit bv + r =? mx) then 1 else 0).
Proof.
  intros Hb Hl Hc Hm. unfold bitvec_rl_curbit.
  set (lim := if negb (mx mod 8 =? 0) then mx / 8 + 1 else mx / 8).
  assert (HL : mx <= 8 * lim /\ lim <= data_len bv /\ (mx mod 8 = 0 -> 8 * lim = mx) /\ 8 * lim < mx + 8).
  { unfold lim. destruct (Z.eqb_spec (mx mod 8) 0); cbn [negb]; lia. }
  destruct HL as (HL1 & HL2 & HL3 & HL4).
  destruct (Z.eqb_spec (cur_bit bv mod 8) 0) as [A|A]; cbn [negb andb bind].
  - destruct (rlc_bytes_ok (Z.to_nat (lim - cur_bit bv / 8)) bv (cur_bit bv / 8) 0 (cur_bit bv) b mx 0) as (r & E & R0 & R1); auto; try lia.
    exists r, (Bv (cur_bit bv + r) (bdata bv)). rewrite E. cbn [bdata cur_bit]. split; [do 2 f_equal; lia|]. split; auto. split; auto.
    destruct R1 as [[B C]|(B & C & D)].
    + split; [intros; apply C; lia|]. split; [lia|]. split; [lia|]. lia.
    + split; [intros; apply C; lia|]. split; [auto|]. split; [intros; lia|]. lia.
  - destruct (rlc_bits_ok (Z.to_nat (8 - cur_bit bv mod 8)) bv (cur_bit bv) b mx 0) as (n & N1 & N2 & N3 & N4); auto; try lia.
    destruct N4 as [(B & E)|[(B & C & D & E)|(B & C & E)]]; rewrite E; cbn [bind].
    + assert (NM : cur_bit bv + n <= mx) by (apply N3; lia).
      destruct (rlc_bytes_ok (Z.to_nat (lim - (cur_bit bv + n) / 8)) (Bv (cur_bit bv + n) (bdata bv)) ((cur_bit bv + n) / 8) 0 (cur_bit bv + n) b mx (0 + n)) as (r & E2 & R0 & R1);
        cbn [bdata]; unfold data_len in *; cbn [bdata]; auto; try lia.
      rewrite E2. cbn [bdata]. exists (n + r), (Bv (cur_bit bv + n + r) (bdata bv)). cbn [bdata cur_bit]. split; [reflexivity|]. split; auto. split; [lia|].
      cbn [bdata] in R1. destruct R1 as [[F C]|(F & C & D)].
      * split. { intros j Hj. destruct (Z_lt_le_dec j (cur_bit bv + n)); [apply N2|apply C]; lia. }
        split; [lia|]. split; [lia|]. replace (cur_bit bv / 8 =? mx / 8) with false by lia. cbn [andb]. lia.
      * split. { intros j Hj. destruct (Z_lt_le_dec j (cur_bit bv + n)); [apply N2|apply C]; lia. }
        split; [intros; rewrite Z.add_assoc; auto|]. split; [intros; lia|]. replace (cur_bit bv / 8 =? mx / 8) with false by lia. cbn [andb]. lia.
    + exists n, (Bv (cur_bit bv + n) (bdata bv)). cbn [bdata cur_bit]. split; [reflexivity|]. split; auto. split; [lia|].
      split; [intros; apply N2; lia|]. split; auto. split; [lia|]. replace (cur_bit bv + n =? mx) with false by lia. rewrite andb_false_r. lia.
    + assert (cur_bit bv + n = mx) by (destruct (Z.eq_dec n 0); [subst; lia|pose proof (N3 ltac:(lia)); lia]).
      exists n, (Bv (u32 (cur_bit bv + n - 1)) (bdata bv)). cbn [bdata cur_bit]. split; [reflexivity|]. split; auto. split; [lia|].
      split; [intros; apply N2; lia|]. split; [lia|]. split; [lia|].
      replace (cur_bit bv / 8 =? mx / 8) with true by lia. replace (cur_bit bv + n =? mx) with true by lia. cbn [andb].
      rewrite u32_small by (unfold is_u32; lia). lia.
Qed.
