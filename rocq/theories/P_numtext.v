(* P_numtext.v - the numbers printed by printf are read back by strtoll and sscanf *)
From Verif Require Import Base Lib Str M_num S_num P_num2 M_plmn.

Lemma dig_isd base d : 0 <= d < base -> base <= 16 -> digit_val (dig_char d) = Some d.
Proof.
  intros H Hb. unfold dig_char, digit_val. destruct (Z.ltb_spec d 10).
  - replace ((48 <=? 48 + d) && (48 + d <=? 57)) with true by lia. f_equal. lia.
  - replace ((48 <=? 87 + d) && (87 + d <=? 57)) with false by lia. replace ((65 <=? 87 + d) && (87 + d <=? 90)) with false by lia.
    replace ((97 <=? 87 + d) && (87 + d <=? 122)) with true by lia. f_equal. lia.
Qed.
Lemma dchars_isd base l : base <= 16 -> Forall (fun d => 0 <= d < base) l -> Forall (isd base) (map dig_char l).
Proof. intros Hb F. apply Forall_map. eapply Forall_impl; [|exact F]. intros d Hd. cbv beta in Hd. exists d. split; [apply (dig_isd base); auto|lia]. Qed.
Lemma horner_num base l : base <= 16 -> Forall (fun d => 0 <= d < base) l -> forall acc, horner base acc (map dig_char l) = num base acc l.
Proof.
  intros Hb F. induction F as [|d l Hd F IH]; intros acc; [reflexivity|]. unfold horner in *. cbn [map fold_left num]. rewrite <- IH. unfold dv. now rewrite (dig_isd base).
Qed.
Lemma pad_digits base fuel w n : 2 <= base <= 16 -> (0 < fuel)%nat -> 0 <= n < base ^ Z.of_nat fuel ->
  Forall (isd base) (pad0 w (map dig_char (ndig base fuel n))) /\ horner base 0 (pad0 w (map dig_char (ndig base fuel n))) = n /\
  pad0 w (map dig_char (ndig base fuel n)) <> [].
Proof.
  intros Hb Hf Hn. destruct (ndig_spec base fuel ltac:(lia) n Hn Hf) as (I1 & I2 & I3).
  assert (E : pad0 w (map dig_char (ndig base fuel n)) = map dig_char (repeat 0 (w - List.length (map dig_char (ndig base fuel n))) ++ ndig base fuel n)).
  { unfold pad0. rewrite map_app. f_equal. generalize (w - List.length (map dig_char (ndig base fuel n)))%nat as k. induction k as [|k IH]; cbn [repeat map]; [reflexivity|]. now rewrite IH. }
  assert (F : Forall (fun d => 0 <= d < base) (repeat 0 (w - List.length (map dig_char (ndig base fuel n))) ++ ndig base fuel n)).
  { apply Forall_app. split; auto. apply Forall_forall. intros x Hx. apply repeat_spec in Hx. cbv beta. lia. }
  rewrite E. split; [apply dchars_isd; auto; lia|]. split.
  - rewrite horner_num by (auto; lia). rewrite num_repeat0. exact I1.
  - intros X. apply map_eq_nil in X. apply app_eq_nil in X as [_ X]. rewrite X in I3. cbn in I3. lia.
Qed.
Lemma pad_numeral base fuel w n : 2 <= base <= 16 -> (0 < fuel)%nat -> 0 <= n < base ^ Z.of_nat fuel ->
  digits base (pad0 w (map dig_char (ndig base fuel n))) n.
Proof. intros Hb Hf Hn. destruct (pad_digits base fuel w n Hb Hf Hn) as (A & B & C). apply digits_horner. auto. Qed.

Lemma str_to_int_numeral s base mn mx v : is_s32 mn -> is_s32 mx -> numeral base s v -> mn <= v <= mx -> osmo_str_to_int s base mn mx = (0, v).
Proof.
  intros Hmn Hmx Hn Hr. unfold is_s32 in *. unfold osmo_str_to_int.
  assert (E' : osmo_str_to_int64 s base mn mx = (0, v)) by (apply str_to_int64_ok; auto; unfold LLONG_MIN, LLONG_MAX; lia).
  rewrite E'. replace (v <? -2147483648) with false by lia. replace (2147483647 <? v) with false by lia. reflexivity.
Qed.

(* a text of w digits is scanned completely *)
Lemma scan_digits base w s : 2 <= base <= 16 -> List.length s = w -> s <> [] -> Forall (isd base) s -> scan_u base w s = Some (horner base 0 s, []).
Proof.
  intros Hb L N F. unfold scan_u.
  assert (Hs : match s with c :: _ => is_space c = false /\ c <> 43 /\ c <> 45 | [] => True end).
  { destruct s; auto. inversion_clear F. now apply isd_not_special in H. }
  assert (E := skip_ws_app [] s ltac:(constructor) ltac:(destruct s; [exact I|apply Hs])). cbn [app] in E. rewrite E. clear E.
  replace (firstn w s) with s by (symmetry; apply firstn_all2; lia). destruct s as [|c t]; [congruence|].
  replace (c =? 45) with false by lia. replace (c =? 43) with false by lia.
  rewrite (all_hex_no_prefix base) by (auto; lia). rewrite andb_false_r.
  pose proof (c_digits_all base (c :: t) 0 [] ltac:(lia) F I) as E. rewrite app_nil_r in E. rewrite E.
  destruct (Z.eqb_spec (zlen (c :: t)) 0) as [X|_]; [rewrite zlen_cons in X; pose proof (zlen_nonneg t); lia|].
  f_equal. f_equal. rewrite Nat.sub_diag. unfold zlen. rewrite Nat2Z.id. cbn [Nat.add]. apply skipn_all.
Qed.
