From Verif Require Import Base M_num S_num.
Local Ltac sp := repeat match goal with |- _ /\ _ => split end.

(* ---------------- Luhn ---------------- *)
Fixpoint every2 (f : Z -> Z) (r : list Z) : Z := match r with [] => 0 | x :: t => f x + match t with [] => 0 | _ :: t' => every2 f t' end end.
Lemma luhn_sum_every2 : forall r, luhn_sum r true = every2 luhn_double r + every2 (fun d => d) (tl r) /\ luhn_sum r false = every2 (fun d => d) r + every2 luhn_double (tl r).
Proof.
  assert (E : forall f x t, every2 f (x :: t) = f x + every2 f (tl t)) by (intros f x [|y t]; reflexivity).
  induction r as [|x r [IH1 IH2]]; [split; reflexivity|]. cbn [luhn_sum negb tl]. rewrite !E, IH1, IH2. split; lia.
Qed.
Lemma rev_firstn_S (l : list Z) n : (n < length l)%nat -> rev (firstn (S n) l) = nth n l 0 :: rev (firstn n l).
Proof.
  intros H. assert (E : firstn (S n) l = firstn n l ++ [nth n l 0]).
  { revert l H. induction n; intros [|x l] H; cbn [length] in H; try lia; cbn [firstn app nth]; auto. f_equal. apply IHn. lia. }
  rewrite E, rev_app_distr. reflexivity.
Qed.
Lemma every2_S (f : Z -> Z) l n : (S n < length l)%nat -> every2 f (rev (firstn (S (S n)) l)) = f (nth (S n) l 0) + every2 f (rev (firstn n l)).
Proof. intros H. rewrite rev_firstn_S by lia. rewrite (rev_firstn_S l n) by lia. reflexivity. Qed.
Lemma dbl_loop ds rest : forall n a f, (n <= f)%nat -> (n <= length ds)%nat -> luhn_dbl (ascii ds ++ rest) (Z.of_nat n - 1) a f = Ok (a + every2 luhn_double (rev (firstn n ds))).
Proof.
  assert (R : forall i, (i < length ds)%nat -> rd (ascii ds ++ rest) (Z.of_nat i) = Ok (nth i ds 0 + 48)).
  { intros i Hi. rewrite (rd_in _ _ (0 + 48)). 2: { unfold zlen. rewrite app_length. unfold ascii. rewrite map_length. lia. } f_equal. rewrite app_nth1 by (unfold ascii; rewrite map_length; lia). unfold ascii. rewrite (map_nth (fun d => d + 48)), Nat2Z.id. reflexivity. }
  intros n. induction n as [n IH] using lt_wf_ind. intros a f Hf Hn.
  destruct n as [|[|n]].
  - cbn [firstn rev every2]. destruct f; cbn [luhn_dbl]; change (Z.of_nat 0 - 1 <? 0) with true; cbv iota; f_equal; lia.
  - destruct f as [|f]; [lia|]. cbn [luhn_dbl]. replace (Z.of_nat 1 - 1 <? 0) with false by lia. change (Z.of_nat 1 - 1) with (Z.of_nat 0). rewrite R by lia. cbn [bind].
    rewrite rev_firstn_S by lia. cbn [firstn rev every2]. unfold luhn_double. replace (Z.of_nat 0 - 2) with (-2) by lia. assert (E : (9 <? (nth 0 ds 0 + 48 - 48) * 2) = negb (2 * nth 0 ds 0 <? 10)) by lia. rewrite E. destruct f; cbn [luhn_dbl]; change (-2 <? 0) with true; cbv iota; destruct (2 * nth 0 ds 0 <? 10); cbn [negb]; f_equal; lia.
  - destruct f as [|f]; [lia|]. cbn [luhn_dbl]. replace (Z.of_nat (S (S n)) - 1 <? 0) with false by lia. replace (Z.of_nat (S (S n)) - 1) with (Z.of_nat (S n)) by lia. rewrite R by lia. cbn [bind].
    rewrite every2_S by lia. replace (Z.of_nat (S n) - 2) with (Z.of_nat n - 1) by lia. rewrite IH by lia. f_equal. unfold luhn_double. replace (9 <? (nth (S n) ds 0 + 48 - 48) * 2) with (negb (2 * nth (S n) ds 0 <? 10)) by lia. destruct (2 * nth (S n) ds 0 <? 10); cbn [negb]; lia.
Qed.
Lemma add_loop ds rest : forall n a f, (n <= f)%nat -> (n <= length ds)%nat -> luhn_add (ascii ds ++ rest) (Z.of_nat n - 1) a f = Ok (a + every2 (fun d => d) (rev (firstn n ds))).
Proof.
  assert (R : forall i, (i < length ds)%nat -> rd (ascii ds ++ rest) (Z.of_nat i) = Ok (nth i ds 0 + 48)).
  { intros i Hi. rewrite (rd_in _ _ (0 + 48)). 2: { unfold zlen. rewrite app_length. unfold ascii. rewrite map_length. lia. } f_equal. rewrite app_nth1 by (unfold ascii; rewrite map_length; lia). unfold ascii. rewrite (map_nth (fun d => d + 48)), Nat2Z.id. reflexivity. }
  intros n. induction n as [n IH] using lt_wf_ind. intros a f Hf Hn.
  destruct n as [|[|n]].
  - cbn [firstn rev every2]. destruct f; cbn [luhn_add]; change (Z.of_nat 0 - 1 <? 0) with true; cbv iota; f_equal; lia.
  - destruct f as [|f]; [lia|]. cbn [luhn_add]. replace (Z.of_nat 1 - 1 <? 0) with false by lia. change (Z.of_nat 1 - 1) with (Z.of_nat 0). rewrite R by lia. cbn [bind].
    rewrite rev_firstn_S by lia. cbn [firstn rev every2]. replace (Z.of_nat 0 - 2) with (-2) by lia. destruct f; cbn [luhn_add]; change (-2 <? 0) with true; cbv iota; f_equal; lia.
  - destruct f as [|f]; [lia|]. cbn [luhn_add]. replace (Z.of_nat (S (S n)) - 1 <? 0) with false by lia. replace (Z.of_nat (S (S n)) - 1) with (Z.of_nat (S n)) by lia. rewrite R by lia. cbn [bind].
    rewrite every2_S by lia. replace (Z.of_nat (S n) - 2) with (Z.of_nat n - 1) by lia. rewrite IH by lia. f_equal. lia.
Qed.
Lemma luhn_check_ok s : forall n i, 0 <= i -> i + Z.of_nat n <= zlen s -> luhn_check s i n = Ok (forallb isdigit (firstn n (skipn (Z.to_nat i) s))).
Proof.
  induction n; intros i Hi Hn; [reflexivity|]. cbn [luhn_check]. rewrite rd_at0 by lia. cbn [bind]. unfold at0, zlen in *.
  assert (E : skipn (Z.to_nat i) s = nth (Z.to_nat i) s 0 :: skipn (Z.to_nat (i + 1)) s).
  { replace (Z.to_nat (i + 1)) with (S (Z.to_nat i)) by lia. assert (H : (Z.to_nat i < length s)%nat) by lia. generalize dependent (Z.to_nat i). clear. intros k H. revert s H. induction k; intros [|x s] H; cbn [length] in H; try lia; cbn [skipn nth]; auto. apply IHk. lia. }
  rewrite E. cbn [firstn forallb]. destruct (isdigit (nth (Z.to_nat i) s 0)); cbn [negb andb]; [|reflexivity]. apply IHn; lia.
Qed.
Lemma luhn_sum_app a b f : luhn_sum (a ++ b) f = luhn_sum a f + luhn_sum b (xorb f (Nat.odd (length a))).
Proof.
  revert f. induction a as [|x a IH]; intros f; [cbn; rewrite xorb_false_r; reflexivity|]. cbn [app luhn_sum length]. rewrite IH, Nat.odd_succ. rewrite <- Nat.negb_odd. destruct f, (Nat.odd (length a)); cbn [negb xorb]; lia.
Qed.
Lemma luhn_sum_bound r f : Forall is_digit r -> 0 <= luhn_sum r f <= 9 * zlen r.
Proof.
  intros H. revert f. induction H as [|d r Hd Hr IH]; intros f; [cbn; lia|]. cbn [luhn_sum]. rewrite zlen_cons. specialize (IH (negb f)). unfold is_digit in Hd. assert (0 <= luhn_double d <= 9) by (unfold luhn_double; destruct (2 * d <? 10) eqn:E; lia). destruct f; lia.
Qed.
Lemma luhn_spec ds rest : Forall is_digit ds -> zlen ds <= 26000000 -> exists c, is_digit c /\ osmo_luhn (ascii ds ++ rest) (zlen ds) = Ok (c + 48) /\ luhn_valid (ds ++ [c]) /\ forall c', is_digit c' -> luhn_valid (ds ++ [c']) -> c' = c.
Proof.
  intros Hd Hl. unfold osmo_luhn. rewrite luhn_check_ok by (unfold ascii; rewrite ?zlen_app; unfold zlen in *; rewrite ?map_length; lia). change (Z.to_nat 0) with O. cbn [skipn].
  assert (Ef : firstn (Z.to_nat (zlen ds)) (ascii ds ++ rest) = ascii ds). { apply firstn_app_exact. unfold ascii, zlen. rewrite map_length. lia. }
  rewrite Ef. assert (Ea : forallb isdigit (ascii ds) = true). { apply forallb_forall. intros x Hx. unfold ascii in Hx. apply in_map_iff in Hx. destruct Hx as (d & <- & Hin). rewrite Forall_forall in Hd. specialize (Hd d Hin). unfold is_digit, isdigit in *. lia. }
  rewrite Ea. cbn [bind negb].
  assert (E1 : zlen ds - 1 = Z.of_nat (length ds) - 1) by reflexivity. rewrite E1, dbl_loop by (unfold zlen; lia). cbn [bind]. rewrite firstn_all.
  assert (E2 : exists v, luhn_add (ascii ds ++ rest) (zlen ds - 2) (0 + every2 luhn_double (rev ds)) (Z.to_nat (zlen ds)) = Ok v /\ v = luhn_sum (rev ds) true).
  { rewrite (proj1 (luhn_sum_every2 (rev ds))). destruct (rev ds) as [|x r] eqn:Er.
    - assert (ds = []) by (rewrite <- (rev_involutive ds), Er; reflexivity). subst ds. exists 0. split; reflexivity.
    - assert (Hlen : length ds = S (length r)) by (rewrite <- rev_length, Er; reflexivity). replace (zlen ds - 2) with (Z.of_nat (length r) - 1) by (unfold zlen; lia). rewrite add_loop by (unfold zlen; lia). eexists. split; [reflexivity|]. cbn [tl].
      assert (Ed : ds = rev r ++ [x]). { rewrite <- (rev_involutive ds), Er. reflexivity. } rewrite Ed at 1. rewrite firstn_app_exact by (rewrite rev_length; reflexivity). rewrite rev_involutive. lia. }
  destruct E2 as (v & -> & ->). cbn [bind]. pose proof (luhn_sum_bound (rev ds) true (Forall_rev Hd)) as B. unfold zlen in B. rewrite rev_length in B. fold (zlen ds) in B.
  set (S := luhn_sum (rev ds) true) in *. replace (2147483647 <? S * 9) with false by lia. exists (S * 9 mod 10). rewrite Z.rem_mod_nonneg by lia.
  assert (V : forall c, luhn_valid (ds ++ [c]) <-> (c + S) mod 10 = 0). { intros c. unfold luhn_valid. rewrite rev_app_distr. cbn [rev app luhn_sum negb]. reflexivity. }
  split; [unfold is_digit; lia|]. split; auto. split; [apply V; lia|]. intros c' Hc Hv. apply V in Hv. unfold is_digit in Hc. lia.
Qed.
Lemma luhn_double_inj x y : is_digit x -> is_digit y -> (luhn_double x - luhn_double y) mod 10 = 0 -> x = y.
Proof. unfold is_digit, luhn_double. intros. destruct (2 * x <? 10) eqn:?, (2 * y <? 10) eqn:?; lia. Qed.
Lemma single_error p q x y : is_digit x -> is_digit y -> luhn_valid (p ++ x :: q) -> luhn_valid (p ++ y :: q) -> x = y.
Proof.
  intros Hx Hy. unfold luhn_valid. rewrite !rev_app_distr. cbn [rev]. rewrite <- !app_assoc. cbn [app]. rewrite !luhn_sum_app. cbn [luhn_sum].
  set (f := xorb false (Nat.odd (length (rev q)))). intros V1 V2. destruct f; [apply luhn_double_inj; auto|unfold is_digit in *]; lia.
Qed.
Lemma transposition p q x y : is_digit x -> is_digit y -> luhn_valid (p ++ x :: y :: q) -> luhn_valid (p ++ y :: x :: q) -> x = y \/ x = 0 /\ y = 9 \/ x = 9 /\ y = 0.
Proof.
  intros Hx Hy. unfold luhn_valid. rewrite !rev_app_distr. cbn [rev]. rewrite <- !app_assoc. cbn [app]. rewrite !luhn_sum_app. cbn [luhn_sum negb].
  set (f := xorb false (Nat.odd (length (rev q)))). rewrite negb_involutive. intros V1 V2. unfold is_digit, luhn_double in *. destruct (2 * x <? 10) eqn:?, (2 * y <? 10) eqn:?, f; cbn [negb] in *; lia.
Qed.
Lemma transposition_09 p q : luhn_valid (p ++ 0 :: 9 :: q) <-> luhn_valid (p ++ 9 :: 0 :: q).
Proof.
  unfold luhn_valid. rewrite !rev_app_distr. cbn [rev]. rewrite <- !app_assoc. cbn [app]. rewrite !luhn_sum_app. cbn [luhn_sum negb].
  destruct (xorb false (Nat.odd (length (rev q)))); cbn [negb]; unfold luhn_double; cbn; split; intros; lia.
Qed.

(* ---------------- isqrt ---------------- *)
Lemma nh1 x r g : 0 <= r -> 0 < g -> r * r <= x -> 2 * r - g <= x / g.
Proof. intros. apply Z.div_le_lower_bound; [lia|]. assert (0 <= (r - g) * (r - g)) by apply Z.square_nonneg. lia. Qed.
Lemma nh2 x r g : 0 < r -> r <= g -> x < (r + 1) * (r + 1) -> x < g * (r + 3).
Proof. intros. assert (r * (r + 3) <= g * (r + 3)) by (apply Z.mul_le_mono_nonneg_r; lia). lia. Qed.
Lemma nh3 x r g : 0 <= r -> 0 < g -> x < (r + 1) * (r + 1) -> g <= x / g -> g <= r.
Proof. intros Hr Hg Hx Hd. pose proof (Z.mul_div_le x g Hg). assert (g * g <= g * (x / g)) by (apply Z.mul_le_mono_nonneg_l; lia). destruct (Z_le_dec g r); auto. assert ((r + 1) * (r + 1) <= g * g) by (apply Z.mul_le_mono_nonneg; lia). lia. Qed.
Lemma nh4 x r g : 0 <= r -> r * r <= x -> x <= g * g -> 0 <= g -> r <= g.
Proof. intros. apply Z.square_le_simpl_nonneg; lia. Qed.
Lemma isqrt_loop_ok x r : 0 <= x < 4294967296 -> 0 < r -> r * r <= x < (r + 1) * (r + 1) ->
  forall n g0 g1, r <= g0 <= 65536 -> r <= g1 <= 65536 -> (g1 < g0 -> (Z.to_nat g1 <= n)%nat) -> g1 = (g0 + x / g0) / 2 -> isqrt_loop x g0 g1 n = Ok r.
Proof.
  intros Hx Hr Hq. assert (Hr2 : r <= 65535). { destruct (Z_le_dec r 65535); auto. assert (65536 * 65536 <= r * r) by (apply Z.mul_le_mono_nonneg; lia). lia. } induction n; intros g0 g1 H0 H1 Hn E; cbn [isqrt_loop]; destruct (g1 <? g0) eqn:L.
  - lia.
  - assert (g0 <= x / g0) by lia. pose proof (nh3 x r g0 ltac:(lia) ltac:(lia) ltac:(lia) ltac:(lia)). unfold u32. rewrite Z.mod_small by lia. f_equal. lia.
  - replace (g1 =? 0) with false by (clear - H1 Hr; lia). pose proof (nh1 x r g1 ltac:(clear - Hr; lia) ltac:(clear - H1 Hr; lia) (proj1 Hq)) as Q1.
    assert (Q2 : x / g1 < r + 3). { apply Z.div_lt_upper_bound; [clear - H1 Hr; lia|]. apply nh2; [exact Hr|exact (proj1 H1)|exact (proj2 Hq)]. }
    assert (N : r <= (g1 + x / g1) / 2 <= 65536 /\ s32 (Z.shiftr (u32 (g1 + x / u32 g1)) 1) = (g1 + x / g1) / 2).
    { rewrite (u32_small g1) by (clear - H1 Hr; unfold is_u32; lia). assert (Q0 : 0 <= x / g1) by (apply Z.div_pos; [exact (proj1 Hx)|clear - H1 Hr; lia]).
      clear - Q0 Q1 Q2 H1 Hr Hr2. revert Q0 Q1 Q2. generalize (x / g1) as q. intros q Q0 Q1 Q2. split; [lia|].
      rewrite u32_small by (unfold is_u32; lia). rewrite Z.shiftr_div_pow2 by lia. change (2 ^ 1) with 2.
      assert (B : 0 <= (g1 + q) / 2 < 65537) by lia. clear - B. revert B. generalize ((g1 + q) / 2) as h. intros h B.
      unfold s32, u32. rewrite Z.mod_small by lia. replace (h <? 2147483648) with true by lia. reflexivity. }
    destruct N as [[N U] Eg].
    rewrite Eg. clear Eg. set (g2 := (g1 + x / g1) / 2) in *. assert (Lt : g2 < g1 -> (Z.to_nat g2 <= n)%nat). { clearbody g2. clear E IHn. intros. specialize (Hn ltac:(lia)). clear - Hn H N Hr. lia. }
    apply IHn; [clear - H1; lia|split; assumption|exact Lt|reflexivity].
  - assert (g0 <= x / g0) by lia. pose proof (nh3 x r g0 ltac:(lia) ltac:(lia) ltac:(lia) ltac:(lia)). unfold u32. rewrite Z.mod_small by lia. f_equal. lia.
Qed.
Lemma isqrt_ok x : is_u32 x -> osmo_isqrt32 x = Ok (Z.sqrt x).
Proof.
  intros Hx. unfold is_u32 in Hx. unfold osmo_isqrt32. destruct (x <=? 1) eqn:E. { assert (C : x = 0 \/ x = 1) by lia. destruct C; subst; reflexivity. }
  assert (Q : 0 < Z.sqrt x) by (apply Z.sqrt_pos; lia). pose proof (Z.sqrt_spec x ltac:(lia)) as S. unfold Z.succ in S. set (r := Z.sqrt x) in *.
  assert (Main : forall s, 1 <= s <= 16 -> x <= 2 ^ s * 2 ^ s -> isqrt_loop x (s32 (Z.shiftl 1 s)) (s32 (Z.shiftr (u32 (s32 (Z.shiftl 1 s) + Z.shiftr x s)) 1)) (Z.to_nat (s32 (Z.shiftl 1 s))) = Ok r).
  { intros s Hs Hb. rewrite Z.shiftl_mul_pow2 by lia. rewrite Z.mul_1_l. assert (P2 : 2 <= 2 ^ s <= 65536). { change 2 with (2 ^ 1) at 1. change 65536 with (2 ^ 16). split; apply Z.pow_le_mono_r; lia. }
    rewrite (Z.shiftr_div_pow2 x s) by lia. set (g := 2 ^ s) in *. assert (Es : s32 g = g). { unfold s32, u32. rewrite Z.mod_small by lia. replace (g <? 2147483648) with true by lia. reflexivity. } rewrite Es.
    assert (D1 : x / g <= g) by (apply Z.div_le_upper_bound; lia). assert (D2 : 0 <= x / g) by (apply Z.div_pos; lia). assert (Hrg : r <= g) by (apply (nh4 x); lia). pose proof (nh1 x r g ltac:(lia) ltac:(lia) ltac:(lia)) as D3.
    assert (Gen : forall d, 0 <= d <= g -> 2 * r - g <= d -> s32 (Z.shiftr (u32 (g + d)) 1) = (g + d) / 2 /\ r <= (g + d) / 2 <= 65536 /\ ((g + d) / 2 < g -> (Z.to_nat ((g + d) / 2) <= Z.to_nat g)%nat)).
    { clear D1 D2 D3 Hx E Q S Hb Es Hs. clearbody g r. intros d Hd Hr. rewrite u32_small by (unfold is_u32; lia). rewrite Z.shiftr_div_pow2 by lia. change (2 ^ 1) with 2. unfold s32, u32. rewrite Z.mod_small by lia. replace ((g + d) / 2 <? 2147483648) with true by lia. split; auto. split; lia. }
    destruct (Gen (x / g) (conj D2 D1) D3) as (G1 & G2 & G3). rewrite G1. apply isqrt_loop_ok; [exact Hx|exact Q|exact S| |exact G2|exact G3|reflexivity]. split; [exact Hrg|exact (proj2 P2)]. }
  destruct (65535 <? x - 1) eqn:E1; cbv beta iota.
  - set (x1 := Z.shiftr (x - 1) 16). assert (H1 : 0 <= x1 < 65536 /\ x - 1 < (x1 + 1) * 65536) by (unfold x1; rewrite Z.shiftr_div_pow2 by lia; change (2 ^ 16) with 65536; lia).
    destruct (255 <? x1) eqn:E2; cbv beta iota.
    + set (x2 := Z.shiftr x1 8). assert (H2 : 0 <= x2 < 256 /\ x1 < (x2 + 1) * 256) by (unfold x2; rewrite Z.shiftr_div_pow2 by lia; change (2 ^ 8) with 256; lia).
      destruct (15 <? x2) eqn:E3; cbv beta iota.
      * set (x3 := Z.shiftr x2 4). assert (H3 : 0 <= x3 < 16 /\ x2 < (x3 + 1) * 16) by (unfold x3; rewrite Z.shiftr_div_pow2 by lia; change (2 ^ 4) with 16; lia).
        destruct (3 <? x3) eqn:E4; apply Main; try lia; cbn; lia.
      * destruct (3 <? x2) eqn:E4; apply Main; try lia; cbn; lia.
    + destruct (15 <? x1) eqn:E3; cbv beta iota.
      * set (x3 := Z.shiftr x1 4). assert (H3 : 0 <= x3 < 16 /\ x1 < (x3 + 1) * 16) by (unfold x3; rewrite Z.shiftr_div_pow2 by lia; change (2 ^ 4) with 16; lia).
        destruct (3 <? x3) eqn:E4; apply Main; try lia; cbn; lia.
      * destruct (3 <? x1) eqn:E4; apply Main; try lia; cbn; lia.
  - set (x1 := x - 1) in *. destruct (255 <? x1) eqn:E2; cbv beta iota.
    + set (x2 := Z.shiftr x1 8). assert (H2 : 0 <= x2 < 256 /\ x1 < (x2 + 1) * 256) by (unfold x2; rewrite Z.shiftr_div_pow2 by lia; change (2 ^ 8) with 256; lia).
      destruct (15 <? x2) eqn:E3; cbv beta iota.
      * set (x3 := Z.shiftr x2 4). assert (H3 : 0 <= x3 < 16 /\ x2 < (x3 + 1) * 16) by (unfold x3; rewrite Z.shiftr_div_pow2 by lia; change (2 ^ 4) with 16; lia).
        destruct (3 <? x3) eqn:E4; apply Main; try lia; cbn; lia.
      * destruct (3 <? x2) eqn:E4; apply Main; try lia; cbn; lia.
    + destruct (15 <? x1) eqn:E3; cbv beta iota.
      * set (x3 := Z.shiftr x1 4). assert (H3 : 0 <= x3 < 16 /\ x1 < (x3 + 1) * 16) by (unfold x3; rewrite Z.shiftr_div_pow2 by lia; change (2 ^ 4) with 16; lia).
        destruct (3 <? x3) eqn:E4; apply Main; try lia; cbn; lia.
      * destruct (3 <? x1) eqn:E4; apply Main; try lia; cbn; lia.
Qed.
