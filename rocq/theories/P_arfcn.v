From Verif Require Import Base S_arfcn M_arfcn.

Lemma flags_div a : is_u16 a -> Z.land a 61440 = a / 4096 * 4096.
Proof.
  intros Ha. unfold is_u16 in Ha. change 4096 with (2 ^ 12). rewrite <- Z.shiftr_div_pow2, <- Z.shiftl_mul_pow2 by lia.
  apply Z.bits_inj'. intros n Hn. change 61440 with (Z.shiftl (Z.ones 4) 12). rewrite Z.land_spec, !Z.shiftl_spec by lia.
  destruct (Z.lt_ge_cases n 12). { rewrite !(Z.testbit_neg_r _ (n - 12)) by lia. apply andb_false_r. }
  rewrite Z.shiftr_spec by lia. replace (n - 12 + 12) with n by lia. rewrite testbit_ones by lia.
  destruct (Z.lt_ge_cases n 16).
  - replace ((0 <=? n - 12) && (n - 12 <? 4)) with true by lia. apply andb_true_r.
  - rewrite (testbit_above a 16) by (change (2 ^ 16) with 65536; lia). reflexivity.
Qed.
Lemma low12 a : Z.land a (u16 (Z.lnot ARFCN_FLAG_MASK)) = a mod 4096.
Proof. change (u16 (Z.lnot ARFCN_FLAG_MASK)) with (Z.ones 12). rewrite Z.land_ones by lia. reflexivity. Qed.
Lemma lor_flag x k : 0 <= x < 2 ^ k -> 0 <= k -> Z.lor x (2 ^ k) = x + 2 ^ k.
Proof. intros Hx Hk. rewrite <- (Z.shiftl_1_l k) at 1. rewrite lor_shiftl_add by lia. lia. Qed.
Lemma u16_id x : 0 <= x < 65536 -> u16 x = x. Proof. intros. apply u16_small. exact H. Qed.

Lemma u16_id2 x k : 0 <= x < 65536 -> 0 <= x + k < 65536 -> u16 (u16 x + k) = x + k.
Proof. intros. rewrite (u16_id x) by assumption. now apply u16_id. Qed.
Lemma freq_spec a up : is_u16 a -> arfcn2freq10 a up = match arfcn_channel a with Some c => freq up c | None => 65535 end.
Proof.
  intros Ha. unfold arfcn2freq10, ARFCN_FLAG_MASK. rewrite flags_div by auto. change 61440 with ARFCN_FLAG_MASK. rewrite low12.
  unfold arfcn_channel. assert (Q : 0 <= a / 4096 < 16) by (unfold is_u16 in Ha; lia). assert (N : 0 <= a mod 4096 < 4096) by (apply Z.mod_pos_bound; lia).
  clear Ha. revert Q N. generalize (a / 4096) as q, (a mod 4096) as n. intros q n Q N.
  unfold gsm_ranges. cbn [arfcn2freq10_loop fr_first fr_last fr_ul fr_dl fr_flags]. unfold ARFCN_PCS, channel.
  destruct (Z.eqb_spec q 0) as [-> |Q0]; [|destruct (Z.eqb_spec q 8) as [-> |Q8]].
  - change (0 * 4096 =? 32768) with false. change (0 * 4096 =? 0) with true. cbn [andb].
    rewrite !Z.geb_leb.
    repeat match goal with |- context [(?x <=? n) && (n <=? ?y)] => destruct ((x <=? n) && (n <=? y)) eqn:?; cbv iota; [unfold freq; destruct up; [rewrite u16_id by lia|rewrite u16_id2 by lia]; lia|] end.
    destruct up; reflexivity.
  - change (8 * 4096 =? 32768) with true. change (8 * 4096 =? 0) with false. cbn [andb]. cbv iota. rewrite !Z.geb_leb.
    destruct ((512 <=? n) && (n <=? 810)) eqn:?; [unfold freq; destruct up; [rewrite u16_id by lia|rewrite u16_id2 by lia]; lia|destruct up; reflexivity].
  - replace (q * 4096 =? 32768) with false by lia. replace (q * 4096 =? 0) with false by lia. cbn [andb]. destruct up; reflexivity.
Qed.
(* one range *)
Lemma fr_step x r f up : freq102arfcn_loop (x :: r) f up =
  let lo := if up then fr_ul x else u16 (fr_ul x + fr_dl x) in
  let hi := let h := u16 (fr_ul x + 2 * (fr_last x - fr_first x)) in if up then h else u16 (h + fr_dl x) in
  if (lo <=? f) && (f <=? hi) then Z.lor (u16 (fr_first x + (f - lo) / 2)) (fr_flags x) else freq102arfcn_loop r f up.
Proof. cbn [freq102arfcn_loop]. destruct up; cbn [negb]; rewrite Z.shiftr_div_pow2 by lia; change (2 ^ 1) with 2; rewrite Z.geb_leb; reflexivity. Qed.
Lemma fr_fin x flag (up : bool) : 0 <= x < 4096 -> flag = 0 \/ flag = 32768 ->
  (if up then Z.lor (Z.lor (u16 x) flag) ARFCN_UPLINK else Z.lor (u16 x) flag) = x + flag + (if up then 16384 else 0).
Proof.
  intros Hx [-> | ->]; rewrite u16_id by lia; rewrite ?Z.lor_0_r; unfold ARFCN_UPLINK; destruct up.
  - change 16384 with (2 ^ 14). rewrite lor_flag by lia. lia.
  - lia.
  - rewrite <- Z.lor_assoc. rewrite (Z.lor_comm 32768), Z.lor_assoc. change 16384 with (2 ^ 14). change 32768 with (2 ^ 15). rewrite (lor_flag x) by lia. rewrite lor_flag by lia. lia.
  - change 32768 with (2 ^ 15). rewrite lor_flag by lia. lia.
Qed.
(* the ranges as intervals of f: (first, lowest frequency, highest frequency, flag) *)
Definition rng (up : bool) (x : freq_range) : Z * Z * Z * Z :=
  (fr_first x, (if up then fr_ul x else u16 (fr_ul x + fr_dl x)),
   (let h := u16 (fr_ul x + 2 * (fr_last x - fr_first x)) in if up then h else u16 (h + fr_dl x)), fr_flags x).
Definition rng_ok (i : Z * Z * Z * Z) : bool :=
  let '(first, lo, hi, flag) := i in (0 <=? first) && (first + (hi - lo) / 2 <? 4096) && ((flag =? 0) || (flag =? 32768)).
Fixpoint ilook (l : list (Z * Z * Z * Z)) (f : Z) (up : bool) : Z :=
  match l with
  | [] => 65535
  | (first, lo, hi, flag) :: t => if (lo <=? f) && (f <=? hi) then first + (f - lo) / 2 + flag + (if up then 16384 else 0) else ilook t f up
  end.
Lemma look_gen f up rs : forallb rng_ok (map (rng up) rs) = true ->
  (let a := freq102arfcn_loop rs f up in if up then Z.lor a ARFCN_UPLINK else a) = ilook (map (rng up) rs) f up.
Proof.
  cbv zeta. induction rs as [|x rs IH]; intros H.
  - destruct up; reflexivity.
  - cbn [map forallb] in H. apply andb_true_iff in H as [H1 H2]. specialize (IH H2). rewrite fr_step. cbv zeta. cbn [map ilook]. unfold rng at 1. unfold rng_ok, rng in H1.
    set (lo := if up then fr_ul x else u16 (fr_ul x + fr_dl x)) in *.
    set (hi := (let h := u16 (fr_ul x + 2 * (fr_last x - fr_first x)) in if up then h else u16 (h + fr_dl x))) in *.
    change (if up then u16 (fr_ul x + 2 * (fr_last x - fr_first x)) else u16 (u16 (fr_ul x + 2 * (fr_last x - fr_first x)) + fr_dl x)) with hi.
    destruct ((lo <=? f) && (f <=? hi)) eqn:E; [|exact IH].
    clearbody lo hi. assert (M : (f - lo) / 2 <= (hi - lo) / 2) by (apply Z.div_le_mono; lia). assert (M0 : 0 <= (f - lo) / 2) by (apply Z.div_pos; lia).
    revert M M0 H1. generalize ((f - lo) / 2) as d, ((hi - lo) / 2) as e. intros d e M M0 H1. apply fr_fin; lia.
Qed.
Ltac look l := let v := eval vm_compute in l in change l with v; cbn [ilook].
Lemma look_spec f up : freq102arfcn f up = ilook (map (rng up) gsm_ranges) f up.
Proof. apply look_gen. destruct up; reflexivity. Qed.
Ltac dec_conds f := repeat match goal with |- context [(?x <=? f) && (f <=? ?y)] =>
   first [replace ((x <=? f) && (f <=? y)) with true by lia | replace ((x <=? f) && (f <=? y)) with false by lia]; cbv iota end.
Lemma some_inj {A} (x y : A) : Some x = Some y -> y = x. Proof. intros H. injection H as ->. reflexivity. Qed.
Lemma round_spec a up c : is_u16 a -> arfcn_channel a = Some c -> freq102arfcn (freq up c) up = a + (if up then 16384 else 0).
Proof.
  intros Ha Hc. rewrite look_spec. unfold arfcn_channel in Hc.
  assert (N : 0 <= a mod 4096 < 4096) by (apply Z.mod_pos_bound; lia). pose proof (Z.div_mod a 4096 ltac:(lia)) as E.
  revert E N Hc. generalize (a / 4096) as q, (a mod 4096) as n. intros q n E N Hc. unfold channel in Hc.
  destruct (Z.eqb_spec q 0) as [-> |Q0]; [|destruct (Z.eqb_spec q 8) as [-> |Q8]; [|discriminate]].
  - do 8 lazymatch type of Hc with (if (?x <=? n) && (n <=? ?y) then _ else _) = _ => let C := fresh "C" in destruct ((x <=? n) && (n <=? y)) eqn:C;
      [apply some_inj in Hc; subst c; clear - E C; unfold freq; destruct up; cbv iota beta;
       [look (map (rng true) gsm_ranges)|look (map (rng false) gsm_ranges)];
       lazymatch goal with |- context [_ <=? ?f] => let g := fresh "g" in set (g := f) in *; assert (g = f) by reflexivity; clearbody g; dec_conds g; lia end|clear C] end.
    discriminate.
  - destruct ((512 <=? n) && (n <=? 810)) eqn:C; [|discriminate]. apply some_inj in Hc. subst c. clear - E C. unfold freq. destruct up; cbv iota beta; [look (map (rng true) gsm_ranges)|look (map (rng false) gsm_ranges)];
       lazymatch goal with |- context [_ <=? ?f] => let g := fresh "g" in set (g := f) in *; assert (g = f) by reflexivity; clearbody g; dec_conds g; lia end.
Qed.
Definition chk_inv (f : Z) (up : bool) : bool :=
  let r := freq102arfcn f up in
  (r =? 65535) || (let a := r - (if up then 16384 else 0) in
    (0 <=? a) && (a <? 65536) &&
    match arfcn_channel a with Some c => (freq up c =? f) || (freq up c =? f - 1) | None => false end).
Lemma chan_lo n : 0 <= n < 4096 -> arfcn_channel n = channel false n.
Proof. intros. unfold arfcn_channel. rewrite Z.div_small, Z.mod_small by lia. reflexivity. Qed.
Lemma chan_pcs n : 0 <= n < 4096 -> arfcn_channel (n + 32768) = channel true n.
Proof. intros. unfold arfcn_channel. replace ((n + 32768) / 4096) with 8 by lia. replace ((n + 32768) mod 4096) with n by lia. reflexivity. Qed.
Lemma inv_spec f up : is_u16 f -> chk_inv f up = true.
Proof.
  intros _. unfold chk_inv. rewrite look_spec. cbv zeta.
  assert (D : forall lo, f - lo = 2 * ((f - lo) / 2) \/ f - lo = 2 * ((f - lo) / 2) + 1) by (intros; lia).
  destruct up; [look (map (rng true) gsm_ranges)|look (map (rng false) gsm_ranges)];
  repeat match goal with |- context [(?x <=? f) && (f <=? ?y)] => let C := fresh "C" in destruct ((x <=? f) && (f <=? y)) eqn:C; cbv iota;
      [apply orb_true_iff; right; specialize (D x); revert D; generalize ((f - x) / 2) as d; intros d D;
       match goal with |- context [?s + d + ?fl + ?u] => replace (s + d + fl + u - u) with (s + d + fl) by lia;
         replace ((0 <=? s + d + fl) && (s + d + fl <? 65536)) with true by lia; cbn [andb];
         match fl with 0 => rewrite Z.add_0_r; rewrite chan_lo by lia | _ => rewrite chan_pcs by lia end;
         let n := fresh "n" in set (n := s + d); assert (n = s + d) by reflexivity; clearbody n; unfold channel; dec_conds n; unfold freq; lia end|clear C] end.
  all: reflexivity.
Qed.
Definition is_pcs_flag (a : Z) : bool := 32768 <=? a.
Definition chk_band (a : Z) : bool :=
  match arfcn2band_rc a with
  | Ok b => if is_pcs_flag a then b =? 8 else match channel false (a mod 4096) with Some (g, _, _) => b =? band_code g | None => false end
  | Err c => (c =? -1) && negb (is_pcs_flag a) && match channel false (a mod 4096) with None => true | _ => false end
  | _ => false end.
Lemma pcs_bit a : is_u16 a -> (Z.land a 32768 =? 0) = negb (is_pcs_flag a).
Proof.
  intros Ha. unfold is_u16 in Ha. unfold is_pcs_flag.
  assert (E : Z.land a 32768 = a / 32768 * 32768).
  { change 32768 with (2 ^ 15). rewrite <- Z.shiftr_div_pow2, <- Z.shiftl_mul_pow2 by lia. apply Z.bits_inj'. intros n Hn.
    rewrite Z.land_spec, Z.shiftl_spec, Z.pow2_bits_eqb by lia. destruct (Z.eqb_spec 15 n) as [<-|].
    - rewrite Z.shiftr_spec by lia. apply andb_true_r.
    - rewrite andb_false_r. destruct (Z.lt_ge_cases n 15). { now rewrite Z.testbit_neg_r by lia. }
      rewrite Z.shiftr_spec by lia. rewrite (testbit_above a 16) by (change (2 ^ 16) with 65536; lia). reflexivity. }
  rewrite E. destruct (Z.leb_spec 32768 a); cbn [negb].
  - apply Z.eqb_neq. lia.
  - rewrite Z.div_small by lia. reflexivity.
Qed.
Lemma band_spec a : is_u16 a -> chk_band a = true.
Proof.
  intros Ha. unfold chk_band, arfcn2band_rc. cbv zeta. rewrite low12. change ARFCN_PCS with 32768. rewrite pcs_bit, negb_involutive by auto. destruct (is_pcs_flag a); [reflexivity|].
  assert (N : 0 <= a mod 4096 < 4096) by (apply Z.mod_pos_bound; lia). revert N. generalize (a mod 4096) as n. intros n N.
  rewrite !Z.geb_leb. unfold channel. replace (0 <=? n) with true by lia. cbn [andb].
  destruct (n <=? 124); [reflexivity|].
  repeat match goal with |- context [(?x <=? n) && (n <=? ?y)] => destruct ((x <=? n) && (n <=? y)); [reflexivity|] end. reflexivity.
Qed.

(* power levels *)
Definition all_bands := [B450; B480; B750; B810; B850; B900; B1800; B1900].
Lemma band_In b : In b all_bands. Proof. destruct b; cbn; tauto. Qed.
Lemma power_round b d : is_u32 d -> let p := ms_pwr_dbm (band_code b) (ms_pwr_ctl_lvl (band_code b) d) in
  Z.abs (p - clamp (fst (ms_power_range b)) (snd (ms_power_range b)) d) <= 1 /\ fst (ms_power_range b) <= p <= snd (ms_power_range b).
Proof.
  intros Hd. unfold is_u32 in Hd. cbv zeta.
  destruct (Z.lt_ge_cases d 40) as [L|G].
  - assert (H := forall_zseq (fun d => forallb (fun b => let p := ms_pwr_dbm (band_code b) (ms_pwr_ctl_lvl (band_code b) d) in
      (Z.abs (p - clamp (fst (ms_power_range b)) (snd (ms_power_range b)) d) <=? 1) && (fst (ms_power_range b) <=? p) && (p <=? snd (ms_power_range b))) all_bands) 0 40 ltac:(vm_compute; reflexivity) d ltac:(lia)).
    cbv beta in H. rewrite forallb_forall in H. specialize (H b (band_In b)). cbv zeta in H. lia.
  - assert (E : ms_pwr_ctl_lvl (band_code b) d = ms_pwr_ctl_lvl (band_code b) 40).
    { unfold ms_pwr_ctl_lvl. replace (d >=? 39) with true by lia. replace (d >=? 36) with true by lia. replace (d >=? 33) with true by lia. reflexivity. }
    rewrite E. unfold clamp. replace (Z.min (snd (ms_power_range b)) d) with (snd (ms_power_range b)) by (destruct b; cbn; lia).
    destruct b; vm_compute; repeat split; discriminate.
Qed.
Lemma level_round b l : 0 <= l < 256 -> 0 <= ms_pwr_dbm (band_code b) l ->
  ms_pwr_dbm (band_code b) (ms_pwr_ctl_lvl (band_code b) (ms_pwr_dbm (band_code b) l)) = ms_pwr_dbm (band_code b) l.
Proof.
  intros Hl Hp. assert (H := forall_byte (fun l => forallb (fun b => negb (0 <=? ms_pwr_dbm (band_code b) l) ||
    (ms_pwr_dbm (band_code b) (ms_pwr_ctl_lvl (band_code b) (ms_pwr_dbm (band_code b) l)) =? ms_pwr_dbm (band_code b) l)) all_bands) ltac:(vm_compute; reflexivity) l Hl).
  cbv beta in H. rewrite forallb_forall in H. specialize (H b (band_In b)). lia.
Qed.

(* TLLI *)
Lemma top_bits t k : is_u32 t -> 0 <= k <= 32 -> Z.land t (2 ^ 32 - 2 ^ k) = t / 2 ^ k * 2 ^ k.
Proof.
  intros Ht Hk. rewrite <- Z.shiftr_div_pow2, <- Z.shiftl_mul_pow2 by lia. apply Z.bits_inj'. intros n Hn.
  rewrite Z.land_spec, Z.shiftl_spec by lia.
  assert (E : 2 ^ 32 - 2 ^ k = Z.shiftl (Z.ones (32 - k)) k).
  { rewrite Z.shiftl_mul_pow2, Z.ones_equiv by lia. rewrite <- Z.sub_1_r, Z.mul_sub_distr_r, <- Z.pow_add_r by lia. replace (32 - k + k) with 32 by lia. lia. }
  rewrite E, Z.shiftl_spec by lia. destruct (Z.lt_ge_cases n k).
  - rewrite !(Z.testbit_neg_r _ (n - k)) by lia. apply andb_false_r.
  - rewrite Z.shiftr_spec by lia. replace (n - k + k) with n by lia. rewrite testbit_ones by lia.
    destruct (Z.lt_ge_cases n 32).
    + replace ((0 <=? n - k) && (n - k <? 32 - k)) with true by lia. apply andb_true_r.
    + rewrite (testbit_above t 32) by (unfold is_u32 in Ht; lia). reflexivity.
Qed.
Lemma top2 t : is_u32 t -> Z.land t 3221225472 = t / 1073741824 * 1073741824.
Proof. intros H. exact (top_bits t 30 H ltac:(lia)). Qed.
Lemma top5 t : is_u32 t -> Z.land t 4160749568 = t / 134217728 * 134217728.
Proof. intros H. exact (top_bits t 27 H ltac:(lia)). Qed.
Lemma top4 t : is_u32 t -> Z.land t 4026531840 = t / 268435456 * 268435456.
Proof. intros H. exact (top_bits t 28 H ltac:(lia)). Qed.

Definition kind_code (k : tlli_kind) : Z :=
  match k with TLocal => 0 | TForeign => 1 | TRandom => 2 | TAux => 3 | TReserved => 4 | TGRnti => 5 | TRandGRnti => 6 end.
Lemma tlli_type_spec t : is_u32 t -> tlli_type t = kind_code (tlli_kind_of t).
Proof.
  intros H. unfold tlli_type. rewrite !top2, !top5, !top4 by assumption. unfold is_u32 in H. unfold tlli_kind_of.
  destruct (3221225472 <=? t) eqn:A1. { replace (t / 1073741824 * 1073741824 =? 3221225472) with true by lia. reflexivity. }
  replace (t / 1073741824 * 1073741824 =? 3221225472) with false by lia.
  destruct (2147483648 <=? t) eqn:A2. { replace (t / 1073741824 * 1073741824 =? 2147483648) with true by lia. reflexivity. }
  replace (t / 1073741824 * 1073741824 =? 2147483648) with false by lia.
  destruct (2013265920 <=? t) eqn:A3. { replace (t / 134217728 * 134217728 =? 2013265920) with true by lia. reflexivity. }
  replace (t / 134217728 * 134217728 =? 2013265920) with false by lia.
  destruct (1879048192 <=? t) eqn:A4. { replace (t / 134217728 * 134217728 =? 1879048192) with true by lia. reflexivity. }
  replace (t / 134217728 * 134217728 =? 1879048192) with false by lia.
  destruct (536870912 <=? t) eqn:A5.
  { replace (t / 268435456 * 268435456 =? 0) with false by lia. replace (t / 268435456 * 268435456 =? 268435456) with false by lia. reflexivity. }
  destruct (268435456 <=? t) eqn:A6.
  { replace (t / 268435456 * 268435456 =? 0) with false by lia. replace (t / 268435456 * 268435456 =? 268435456) with true by lia. reflexivity. }
  replace (t / 268435456 * 268435456 =? 0) with true by lia. reflexivity.
Qed.
Lemma lor_top t : is_u32 t -> Z.lor 3221225472 t = 3221225472 + t mod 1073741824.
Proof.
  intros H. rewrite (Z.div_mod t (2 ^ 30)) at 1 by lia.
  assert (Hq : 0 <= t / 2 ^ 30 < 4) by (unfold is_u32 in H; change (2 ^ 30) with 1073741824; lia).
  replace (2 ^ 30 * (t / 2 ^ 30) + t mod 2 ^ 30) with (t mod 2 ^ 30 + (t / 2 ^ 30) * 2 ^ 30) by lia.
  rewrite <- lor_shiftl_add by (try lia; apply Z.mod_pos_bound; lia).
  replace 3221225472 with (Z.shiftl 3 30) at 1 by reflexivity.
  rewrite (Z.lor_comm (t mod 2 ^ 30)), Z.lor_assoc, <- Z.shiftl_lor.
  replace (Z.lor 3 (t / 2 ^ 30)) with 3 by (assert (Q : t / 2 ^ 30 = 0 \/ t / 2 ^ 30 = 1 \/ t / 2 ^ 30 = 2 \/ t / 2 ^ 30 = 3) by lia; destruct Q as [-> | [-> | [-> | ->]]]; reflexivity).
  rewrite Z.lor_comm, lor_shiftl_add by (try lia; apply Z.mod_pos_bound; lia). change (2 ^ 30) with 1073741824. lia.
Qed.
Lemma tmsi2tlli_spec p : is_u32 p ->
  tmsi2tlli p TLLI_LOCAL = 3221225472 + p mod 1073741824 /\ tmsi2tlli p TLLI_FOREIGN = 2147483648 + p mod 1073741824.
Proof.
  intros H. unfold tmsi2tlli. cbn [Z.eqb TLLI_LOCAL TLLI_FOREIGN Pos.eqb]. rewrite Z.lor_comm, lor_top by assumption. split; [reflexivity|].
  change 1073741823 with (Z.ones 30). rewrite Z.land_ones by lia. change 2147483648 with (Z.shiftl 2 30) at 1.
  rewrite lor_shiftl_add by (try lia; apply Z.mod_pos_bound; lia). change (2 ^ 30) with 1073741824. lia.
Qed.
