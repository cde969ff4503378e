(* C40: Luhn checksum and integer helpers *)
From Verif Require Import Base M_num S_num P_num P_num2.

(* osmo_luhn yields the one digit that makes the number valid *)
Theorem C40_luhn : forall ds rest, Forall is_digit ds -> zlen ds <= 26000000 ->
  exists c, is_digit c /\ osmo_luhn (ascii ds ++ rest) (zlen ds) = Ok (c + 48) /\ luhn_valid (ds ++ [c]) /\ forall c', is_digit c' -> luhn_valid (ds ++ [c']) -> c' = c.
Proof. exact luhn_spec. Qed.
Print Assumptions C40_luhn.

(* a non-digit among the characters gives -EINVAL *)
Theorem C40_luhn_einval : forall s n, 0 <= n <= zlen s -> (exists i, 0 <= i < n /\ ~ 48 <= at0 s i <= 57) -> osmo_luhn s n = Ok (-22).
Proof.
  intros s n Hn (i & Hi & Hc). unfold osmo_luhn. rewrite luhn_check_ok by lia. replace (forallb isdigit (firstn (Z.to_nat n) (skipn (Z.to_nat 0) s))) with false; [reflexivity|].
  symmetry. change (Z.to_nat 0) with O. cbn [skipn]. destruct (forallb isdigit (firstn (Z.to_nat n) s)) eqn:E; auto. exfalso. apply Hc. rewrite forallb_forall in E. assert (In (at0 s i) (firstn (Z.to_nat n) s)).
  { unfold at0. assert (X : nth (Z.to_nat i) s 0 = nth (Z.to_nat i) (firstn (Z.to_nat n) s) 0). { rewrite nth_firstn. replace (Nat.ltb (Z.to_nat i) (Z.to_nat n)) with true; auto. symmetry. apply Nat.ltb_lt. lia. } rewrite X. apply nth_In. rewrite firstn_length. unfold zlen in *. lia. }
  specialize (E _ H). unfold isdigit in E. lia.
Qed.
Print Assumptions C40_luhn_einval.

(* a number with its osmo_luhn check digit: no single wrong digit (check digit included) leaves it consistent ... *)
Theorem C40_luhn_single : forall p q x y c, Forall is_digit (p ++ x :: q) -> is_digit y -> zlen (p ++ x :: q) <= 26000000 ->
  osmo_luhn (ascii (p ++ x :: q)) (zlen (p ++ x :: q)) = Ok c -> osmo_luhn (ascii (p ++ y :: q)) (zlen (p ++ y :: q)) = Ok c -> x = y.
Proof.
  intros p q x y c Hx Hy Hl H1 H2. assert (Hx' : is_digit x). { rewrite Forall_forall in Hx. apply Hx. apply in_or_app. right. left. auto. }
  assert (Hy' : Forall is_digit (p ++ y :: q)). { apply Forall_app in Hx. destruct Hx as [A B]. inversion_clear B. apply Forall_app. split; auto. }
  assert (El : zlen (p ++ y :: q) = zlen (p ++ x :: q)) by (rewrite !zlen_app, !zlen_cons; reflexivity).
  destruct (luhn_spec (p ++ x :: q) [] Hx Hl) as (a & A1 & A2 & A3 & _). destruct (luhn_spec (p ++ y :: q) [] Hy' ltac:(lia)) as (b & B1 & B2 & B3 & _). rewrite app_nil_r in A2, B2. rewrite H1 in A2. rewrite H2 in B2. injection A2 as A2. injection B2 as B2. assert (a = b) by lia. subst b.
  rewrite <- app_assoc in A3, B3. cbn [app] in A3, B3. exact (single_error p (q ++ [a]) x y Hx' Hy A3 B3).
Qed.
Print Assumptions C40_luhn_single.

(* ... nor does any transposition of adjacent digits other than 09 <-> 90 (which goes unnoticed) *)
Theorem C40_luhn_transposition : forall p q x y c, Forall is_digit (p ++ x :: y :: q) -> zlen (p ++ x :: y :: q) <= 26000000 ->
  osmo_luhn (ascii (p ++ x :: y :: q)) (zlen (p ++ x :: y :: q)) = Ok c ->
  (osmo_luhn (ascii (p ++ y :: x :: q)) (zlen (p ++ y :: x :: q)) = Ok c <-> x = y \/ x = 0 /\ y = 9 \/ x = 9 /\ y = 0).
Proof.
  intros p q x y c Hx Hl H1. assert (D : is_digit x /\ is_digit y). { rewrite Forall_forall in Hx. split; apply Hx; apply in_or_app; right; [left|right; left]; auto. } destruct D as [Dx Dy].
  assert (Hy' : Forall is_digit (p ++ y :: x :: q)). { apply Forall_app in Hx. destruct Hx as [A B]. inversion_clear B. inversion_clear H0. apply Forall_app. split; auto. }
  assert (El : zlen (p ++ y :: x :: q) = zlen (p ++ x :: y :: q)) by (rewrite !zlen_app, !zlen_cons; reflexivity).
  destruct (luhn_spec (p ++ x :: y :: q) [] Hx Hl) as (a & A1 & A2 & A3 & _). destruct (luhn_spec (p ++ y :: x :: q) [] Hy' ltac:(lia)) as (b & B1 & B2 & B3 & B4). rewrite app_nil_r in A2, B2. rewrite H1 in A2. injection A2 as ->.
  rewrite <- app_assoc in A3, B3. cbn [app] in A3, B3. rewrite B2. split.
  - intros E. injection E as E. assert (a = b) by lia. subst b. exact (transposition p (q ++ [a]) x y Dx Dy A3 B3).
  - intros C. f_equal. f_equal. symmetry. apply B4; auto. rewrite <- app_assoc. cbn [app]. destruct C as [-> |[[-> ->]|[-> ->]]]; auto; apply transposition_09; auto.
Qed.
Print Assumptions C40_luhn_transposition.

(* osmo_isqrt32 is the floor of the square root, for every uint32_t *)
Theorem C40_isqrt : forall x, 0 <= x < 4294967296 -> exists r, osmo_isqrt32 x = Ok r /\ 0 <= r /\ r * r <= x < (r + 1) * (r + 1).
Proof. intros x Hx. exists (Z.sqrt x). split; [apply isqrt_ok; exact Hx|]. split; [apply Z.sqrt_nonneg|]. exact (Z.sqrt_spec x (proj1 Hx)). Qed.
Print Assumptions C40_isqrt.

(* osmo_str_to_int64 accepts exactly the numerals of the base with a value between the bounds, and returns that value *)
Theorem C40_str_to_int64 : forall s base mn mx v, LLONG_MIN <= mn -> mx <= LLONG_MAX ->
  (osmo_str_to_int64 s base mn mx = (0, v) <-> numeral base s v /\ mn <= v <= mx).
Proof. exact str_to_int64_ok. Qed.
Print Assumptions C40_str_to_int64.

(* numerals out of bounds: -ERANGE with the value, or -EOVERFLOW with the clamped value; anything else is another error *)
Theorem C40_str_to_int64_errors : forall s base mn mx,
  (forall v, numeral base s v -> LLONG_MIN <= v <= LLONG_MAX -> ~ mn <= v <= mx -> osmo_str_to_int64 s base mn mx = (-34, v)) /\
  (forall v, numeral base s v -> v < LLONG_MIN -> osmo_str_to_int64 s base mn mx = (-75, LLONG_MIN)) /\
  (forall v, numeral base s v -> LLONG_MAX < v -> osmo_str_to_int64 s base mn mx = (-75, LLONG_MAX)) /\
  ((forall v, ~ numeral base s v) -> exists rc v, osmo_str_to_int64 s base mn mx = (rc, v) /\ In rc [-22; -7; -75; -95] /\ (rc = -95 -> ~ (base = 0 \/ 2 <= base <= 36))).
Proof.
  intros s base mn mx. split; [|split; [|split]].
  - intros v Hn Hv Hr. rewrite (str_to_int64_numeral s base mn mx v Hn). unfold i64b. replace ((LLONG_MIN <=? v) && (v <=? LLONG_MAX)) with true by lia. cbn [negb]. replace ((v <? mn) || (mx <? v)) with true by lia. reflexivity.
  - intros v Hn Hv. rewrite (str_to_int64_numeral s base mn mx v Hn). unfold i64b, clamp, LLONG_MIN, LLONG_MAX in *. replace ((-9223372036854775808 <=? v) && (v <=? 9223372036854775807)) with false by lia. cbn [negb]. f_equal. lia.
  - intros v Hn Hv. rewrite (str_to_int64_numeral s base mn mx v Hn). unfold i64b, clamp, LLONG_MIN, LLONG_MAX in *. replace ((-9223372036854775808 <=? v) && (v <=? 9223372036854775807)) with false by lia. cbn [negb]. f_equal. lia.
  - intros Hn. destruct (str_to_int64_other s base mn mx Hn) as (rc & v & E & C & B). exists rc, v. split; auto. split; [cbn; intuition|exact B].
Qed.
Print Assumptions C40_str_to_int64_errors.

(* a string is a numeral of at most one value *)
Theorem C40_numeral_unique : forall base s v w, numeral base s v -> numeral base s w -> LLONG_MIN <= v <= LLONG_MAX -> v = w.
Proof.
  intros base s v w Hv Hw Hr. destruct (strtoll_numeral _ _ _ Hv) as (E1 & _). destruct (strtoll_numeral _ _ _ Hw) as (E2 & _). rewrite E1 in E2. injection E2 as C I.
  unfold i64b, clamp, LLONG_MIN, LLONG_MAX, ERANGE in *. destruct ((-9223372036854775808 <=? v) && (v <=? 9223372036854775807)) eqn:X; [|lia]. destruct ((-9223372036854775808 <=? w) && (w <=? 9223372036854775807)) eqn:Y; [lia|discriminate].
Qed.
Print Assumptions C40_numeral_unique.

Theorem C40_str_to_int : forall s base mn mx v, is_s32 mn -> is_s32 mx ->
  (osmo_str_to_int s base mn mx = (0, v) <-> numeral base s v /\ mn <= v <= mx).
Proof.
  intros s base mn mx v Hmn Hmx. unfold is_s32 in *. unfold osmo_str_to_int. destruct (osmo_str_to_int64 s base mn mx) as [rc val] eqn:E. split.
  - intros H. destruct (val <? -2147483648); [discriminate|]. destruct (2147483647 <? val); [discriminate|]. injection H as -> ->. apply str_to_int64_ok in E; auto; unfold LLONG_MIN, LLONG_MAX; lia.
  - intros [Hn Hr]. assert (E' : osmo_str_to_int64 s base mn mx = (0, v)) by (apply str_to_int64_ok; auto; unfold LLONG_MIN, LLONG_MAX; lia). rewrite E in E'. injection E' as -> ->. replace (v <? -2147483648) with false by lia. replace (2147483647 <? v) with false by lia. reflexivity.
Qed.
Print Assumptions C40_str_to_int.

Theorem C40_str_to_int_errors : forall s base mn mx v, is_s32 mn -> is_s32 mx -> numeral base s v ->
  osmo_str_to_int s base mn mx = if v <? -2147483648 then (-75, -2147483648) else if 2147483647 <? v then (-75, 2147483647) else if (mn <=? v) && (v <=? mx) then (0, v) else (-34, v).
Proof.
  intros s base mn mx v Hmn Hmx Hn. unfold is_s32 in *. unfold osmo_str_to_int. rewrite (str_to_int64_numeral s base mn mx v Hn). unfold i64b, clamp, LLONG_MIN, LLONG_MAX.
  destruct ((-9223372036854775808 <=? v) && (v <=? 9223372036854775807)) eqn:X; cbn [negb].
  - destruct ((v <? mn) || (mx <? v)) eqn:R; [replace ((mn <=? v) && (v <=? mx)) with false by lia|replace ((mn <=? v) && (v <=? mx)) with true by lia]; reflexivity.
  - destruct (v <? -2147483648) eqn:A.
    + replace (Z.max (-9223372036854775808) (Z.min 9223372036854775807 v) <? -2147483648) with true by lia. reflexivity.
    + replace (Z.max (-9223372036854775808) (Z.min 9223372036854775807 v) <? -2147483648) with false by lia. replace (2147483647 <? Z.max (-9223372036854775808) (Z.min 9223372036854775807 v)) with true by lia. replace (2147483647 <? v) with true by lia. reflexivity.
Qed.
Print Assumptions C40_str_to_int_errors.

(* 49015420323751 -> 8 (the IMEI example of TS 23.003); " -0x1F" in base 0 is -31 *)
Example C40_nonvacuous : Forall is_digit [4;9;0;1;5;4;2;0;3;2;3;7;5;1] /\ osmo_luhn (ascii [4;9;0;1;5;4;2;0;3;2;3;7;5;1]) 14 = Ok 56 /\
  osmo_isqrt32 4294967295 = Ok 65535 /\ osmo_isqrt32 16785407 = Ok 4096 /\
  numeral 0 [32; 45; 48; 120; 49; 70] (-31) /\ osmo_str_to_int [32; 45; 48; 120; 49; 70] 0 (-40) 40 = (0, -31) /\ osmo_str_to_int [49; 50; 120] 10 (-40) 40 = (-7, 12) /\
  osmo_luhn (ascii [1; 0; 9]) 3 = osmo_luhn (ascii [1; 9; 0]) 3.
Proof.
  split. { repeat constructor; lia. } split; [vm_compute; reflexivity|]. split; [vm_compute; reflexivity|]. split; [vm_compute; reflexivity|]. split.
  - exists [32], [45], [48; 120; 49; 70], (-1), 31. split; auto. split; [repeat constructor|]. split; [right; right; auto|]. split; [|reflexivity]. apply M0hex; [auto|]. change 31 with (1 * 16 + 15). apply (DS 16 [49] 1 70 15); [apply D1|..]; reflexivity.
  - repeat split; vm_compute; reflexivity.
Qed.
