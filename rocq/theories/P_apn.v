(* P_apn.v - proofs for C31 *)
From Verif Require Import Base Lib Str M_num S_num M_apn S_apn.

Lemma puts_blit0 (out w l : list Z) : zlen w + zlen l <= zlen out -> puts (blit out 0 w) (zlen w) l = Ok (blit out 0 (w ++ l), zlen w + zlen l).
Proof.
  intros H. pose proof (zlen_nonneg w). pose proof (zlen_nonneg l). change 0%nat with (Z.to_nat 0). rewrite puts_ok; [|lia|rewrite zlen_blit by lia; lia].
  f_equal. f_equal. replace (zlen w) with (0 + zlen w) by lia. rewrite zblit_blit by lia. reflexivity.
Qed.
Lemma wr_blit0 (out w : list Z) c : zlen w < zlen out -> wr (blit out 0 w) (zlen w) c = Ok (blit out 0 (w ++ [c])).
Proof.
  intros H. assert (P := puts_blit0 out w [c]). change (zlen [c]) with 1 in P. specialize (P ltac:(lia)). cbn [puts] in P.
  destruct (wr (blit out 0 w) (zlen w) c); cbn [bind] in P; try discriminate. injection P as ->. reflexivity.
Qed.
Lemma rd_mid' (pre r : list Z) c : rd (pre ++ c :: r) (zlen pre) = Ok c.
Proof.
  unfold rd, zlen. replace (Z.of_nat (length pre) <? 0) with false by lia. rewrite Nat2Z.id, nth_error_app2 by lia. rewrite Nat.sub_diag. reflexivity.
Qed.
Lemma take_mid (pre : list Z) c l r : take (pre ++ c :: l ++ r) (zlen pre + 1) (zlen l) = Ok l.
Proof.
  unfold take. pose proof (zlen_nonneg pre). pose proof (zlen_nonneg l). pose proof (zlen_nonneg r).
  replace (zlen (pre ++ c :: l ++ r) <? zlen pre + 1 + zlen l) with false by (rewrite zlen_app, zlen_cons, zlen_app; lia).
  replace ((zlen pre + 1 <? 0) || (zlen l <? 0) || false) with false by lia. f_equal. unfold zslice, slice.
  replace (Z.to_nat (zlen pre + 1)) with (length (pre ++ [c])) by (rewrite app_length; cbn [length]; unfold zlen; lia).
  replace (pre ++ c :: l ++ r) with ((pre ++ [c]) ++ l ++ r) by (rewrite <- app_assoc; reflexivity).
  rewrite skipn_app, skipn_all, Nat.sub_diag. cbn [skipn app]. apply firstn_app_exact. unfold zlen. lia.
Qed.
Lemma text_cons_inv n r t : apn_text (n :: r) t -> n = 0 /\ t = [] \/ 0 < n <= zlen r.
Proof. intros H. inversion H; subst; [left; auto|right; lia|right]. rewrite zlen_app. pose proof (zlen_nonneg r0). lia. Qed.
Lemma app_eq_len {A} (a b c d : list A) : length a = length c -> a ++ b = c ++ d -> a = c /\ b = d.
Proof.
  revert c; induction a as [|x a IH]; intros [|y c] L E; cbn in *; try discriminate; auto. injection E as -> E. injection L as L. destruct (IH c L E) as [-> ->]. auto.
Qed.
Lemma apn_text_fun r t : apn_text r t -> forall t', apn_text r t' -> t' = t.
Proof.
  induction 1 as [|r|n l Hn L|n l r t Hn L R H IH]; intros t' H'; inversion H'; subst; auto; try lia.
  - exfalso. rewrite zlen_app in *. destruct r; [congruence|]. rewrite zlen_cons in *. pose proof (zlen_nonneg r). lia.
  - exfalso. rewrite zlen_app in *. destruct r; [congruence|]. rewrite zlen_cons in *. pose proof (zlen_nonneg r). lia.
  - match goal with E : _ ++ _ = _ ++ _ |- _ => apply app_eq_len in E as [-> ->]; [|unfold zlen in *; lia] end.
    f_equal. f_equal. apply IH. assumption.
Qed.

Lemma to_str_loop_spec fuel : forall out pre r w, (length r < fuel)%nat -> bytes r -> zlen w + Z.max (zlen r) 1 <= zlen out ->
  (exists t, apn_text r t /\ to_str_loop fuel (blit out 0 w) (pre ++ r) (zlen r) (zlen pre) (zlen w) = Ok (Some (blit out 0 (w ++ t ++ [0])))) \/
  ((forall t, ~ apn_text r t) /\ to_str_loop fuel (blit out 0 w) (pre ++ r) (zlen r) (zlen pre) (zlen w) = Ok None).
Proof.
  induction fuel as [|f IH]; intros out pre r w Hf B F; [lia|]. cbn [to_str_loop]. destruct r as [|n r].
  - left. exists []. split; [constructor|]. change (zlen (@nil Z)) with 0. cbn [Z.ltb Z.compare]. rewrite wr_blit0 by lia. reflexivity.
  - rewrite zlen_cons in *. pose proof (zlen_nonneg r) as Lr. replace (0 <? 1 + zlen r) with true by lia. rewrite rd_mid'. cbn [bind].
    inversion B as [|? ? Bn Br]; subst. unfold is_byte in Bn. destruct (Z.eqb_spec n 0) as [->|Hn].
    + left. exists []. split; [constructor|]. rewrite wr_blit0 by lia. reflexivity.
    + destruct (Z.gtb_spec (n + 1) (1 + zlen r)).
      * right. split; [|reflexivity]. intros t H'. apply text_cons_inv in H'. lia.
      * assert (S : exists l r', r = l ++ r' /\ zlen l = n).
        { exists (firstn (Z.to_nat n) r), (skipn (Z.to_nat n) r). split; [symmetry; apply firstn_skipn|]. unfold zlen in *. rewrite firstn_length. lia. }
        destruct S as (l & r' & -> & L). assert (TK := take_mid pre n l r'). rewrite L in TK. rewrite TK. cbn [bind]. rewrite zlen_app in *. pose proof (zlen_nonneg r').
        rewrite puts_blit0 by lia. cbn [bind]. apply Forall_app in Br as [Bl Br'].
        replace (1 + (zlen l + zlen r') - (n + 1)) with (zlen r') by lia.
        replace (zlen pre + (n + 1)) with (zlen (pre ++ n :: l)) by (rewrite zlen_app, zlen_cons; lia).
        replace (zlen w + zlen l) with (zlen (w ++ l)) by (rewrite zlen_app; lia).
        replace (pre ++ n :: l ++ r') with ((pre ++ n :: l) ++ r') by (rewrite <- app_assoc; reflexivity).
        cbn [length] in Hf. rewrite app_length in Hf.
        destruct (Z.eqb_spec (zlen r') 0) as [E|E]; cbn [negb].
        -- assert (r' = []) by (destruct r'; [reflexivity|rewrite zlen_cons in E; pose proof (zlen_nonneg r'); lia]). subst r'.
           destruct (IH out (pre ++ n :: l) [] (w ++ l)) as [(t & T & R)|[N R]]; [cbn [length]; lia|constructor|rewrite zlen_app; change (zlen (@nil Z)) with 0; lia| |].
           ++ left. exists l. split; [rewrite app_nil_r; apply text_last; lia|]. rewrite R. inversion T; subst. rewrite <- app_assoc. reflexivity.
           ++ exfalso. apply (N []). constructor.
        -- rewrite wr_blit0 by (rewrite zlen_app; lia). cbn [bind].
           replace (zlen (w ++ l) + 1) with (zlen ((w ++ l) ++ [46])) by (rewrite (zlen_app (w ++ l)); change (zlen [46]) with 1; lia).
           assert (R0 : r' <> []) by (intros ->; apply E; reflexivity).
           destruct (IH out (pre ++ n :: l) r' ((w ++ l) ++ [46])) as [(t & T & R)|[N R]]; [lia|assumption|rewrite !zlen_app; change (zlen [46]) with 1; lia| |].
           ++ left. exists (l ++ [46] ++ t). split; [apply text_more; auto; lia|]. rewrite R. rewrite <- !app_assoc. reflexivity.
           ++ right. split; [|exact R]. intros t T. inversion T; subst; try lia.
              ** match goal with Q : zlen (_ ++ _) = _ |- _ => rewrite zlen_app in Q; lia end.
              ** match goal with Q : _ ++ _ = _ ++ _ |- _ => apply app_eq_len in Q as [-> ->]; [|unfold zlen in *; lia] end. apply (N t0). assumption.
Qed.
Lemma to_str_spec out enc : bytes enc -> Z.max (zlen enc) 1 <= zlen out ->
  (exists t, apn_text enc t /\ osmo_apn_to_str out enc = Ok (Some (blit out 0 (t ++ [0])))) \/
  ((forall t, ~ apn_text enc t) /\ osmo_apn_to_str out enc = Ok None).
Proof.
  intros B L. assert (H := to_str_loop_spec (S (length enc)) out [] enc [] ltac:(lia) B ltac:(change (zlen (@nil Z)) with 0; lia)).
  rewrite blit_nil in H. cbn [app] in H. change (zlen (@nil Z)) with 0 in H. exact H.
Qed.
Lemma text_len enc t : apn_text enc t -> zlen t + 1 <= Z.max (zlen enc) 1.
Proof.
  induction 1 as [|r|n l Hn L|n l r t Hn L R H IH]; rewrite ?zlen_cons, ?zlen_app in *; change (zlen (@nil Z)) with 0 in *; change (zlen [46]) with 1 in *; try (pose proof (zlen_nonneg r)); try lia.
  destruct r; [congruence|]. rewrite zlen_cons in *. pose proof (zlen_nonneg r). lia.
Qed.

(* --- encoding --- *)
Lemma encoded_len ls : ls <> [] -> zlen (encoded ls) = zlen (dotted ls) + 1.
Proof.
  induction ls as [|l ls IH]; [congruence|]. intros _. cbn [encoded flat_map dotted]. fold (encoded ls). cbn [app]. rewrite zlen_cons, zlen_app. destruct ls as [|m ls].
  - change (zlen (encoded [])) with 0. lia.
  - rewrite IH by discriminate. rewrite !zlen_app, zlen_cons. lia.
Qed.
Lemma dotted_ex s : Forall (fun c => 0 < c < 256) s -> exists ls, ls <> [] /\ Forall (Forall label_char) ls /\ dotted ls = s.
Proof.
  induction 1 as [|c s Hc _ (ls & N & F & <-)]; [exists [[]]; split; [discriminate|]; split; [repeat constructor|reflexivity]|].
  destruct (Z.eq_dec c 46) as [->|].
  - exists ([] :: ls). split; [discriminate|]. split; [constructor; [constructor|assumption]|]. destruct ls; [congruence|reflexivity].
  - destruct ls as [|l ls]; [congruence|]. inversion F; subst. exists ((c :: l) :: ls). split; [discriminate|]. split; [constructor; [constructor; [split; auto|assumption]|assumption]|]. destruct ls; reflexivity.
Qed.
(* the encoding with the part w of the current label already copied *)
Fixpoint packed (w : list Z) (s : list Z) : list Z :=
  match s with
  | [] => u8 (zlen w) :: w
  | c :: s' => if c =? 46 then (u8 (zlen w) :: w) ++ packed [] s' else packed (w ++ [u8 c]) s'
  end.
Lemma packed_len s : forall w, zlen (packed w s) = zlen w + zlen s + 1.
Proof.
  induction s as [|c s IH]; intros w; cbn [packed]; [rewrite zlen_cons; change (zlen (@nil Z)) with 0; lia|]. rewrite (zlen_cons c). destruct (c =? 46).
  - rewrite zlen_app, IH, zlen_cons. change (zlen (@nil Z)) with 0. lia.
  - rewrite IH, zlen_app. change (zlen [u8 c]) with 1. lia.
Qed.
Lemma blit_inside (m : list Z) p l l' : 0 <= p -> p + zlen l <= zlen m -> zlen l <= zlen l' -> p + zlen l' <= zlen m ->
  blit (blit m (Z.to_nat p) l) (Z.to_nat p) l' = blit m (Z.to_nat p) l'.
Proof.
  intros. pose proof (zlen_nonneg l). apply at0_ext; [rewrite !zlen_blit; rewrite ?zlen_blit; lia|]. intros i Hi. rewrite zlen_blit in Hi by (rewrite ?zlen_blit; lia). rewrite zlen_blit in Hi by lia.
  rewrite !at0_blit by (rewrite ?zlen_blit; lia). destruct (Z.leb_spec p i), (Z.ltb_spec i (p + zlen l')), (Z.ltb_spec i (p + zlen l)); cbn [andb]; try reflexivity; lia.
Qed.
(* m holds x :: w at q *)
Lemma from_loop_ok max s : forall m q x w, 0 <= q -> q + 1 + zlen w + zlen s <= max -> max <= zlen m ->
  from_str_loop (blit m (Z.to_nat q) (x :: w)) max q (q + 1 + zlen w) s = Ok (q + 1 + zlen w + zlen s, blit m (Z.to_nat q) (packed w s)).
Proof.
  induction s as [|c s IH]; intros m q x w Hq Hf Hm; cbn [from_str_loop packed]; pose proof (zlen_nonneg w).
  - change (zlen (@nil Z)) with 0 in *. replace (q + 1 + zlen w - q - 1) with (zlen w) by lia.
    rewrite wr_in by (rewrite zlen_blit; rewrite ?zlen_cons; lia). cbn [bind]. f_equal. f_equal; [lia|].
    apply at0_ext; [rewrite zlen_upd, !zlen_blit; rewrite ?zlen_cons; lia|]. intros i Hi. rewrite zlen_upd in Hi. rewrite at0_upd by (rewrite ?zlen_blit; rewrite ?zlen_cons; lia).
    rewrite zlen_blit in Hi by (rewrite ?zlen_cons; lia). rewrite !at0_blit by (rewrite ?zlen_cons; lia). rewrite !zlen_cons.
    destruct (Z.eqb_spec i q); destruct (Z.leb_spec q i), (Z.ltb_spec i (q + (1 + zlen w))); cbn [andb]; try lia; rewrite ?at0_cons by lia; try (replace (i - q =? 0) with true by lia; reflexivity); try (replace (i - q =? 0) with false by lia); reflexivity.
  - rewrite zlen_cons in *. pose proof (zlen_nonneg s). replace (q + 1 + zlen w >=? max) with false by lia. destruct (Z.eqb_spec c 46) as [->|N].
    + assert (W : wr (blit m (Z.to_nat q) (x :: w)) q (u8 (q + 1 + zlen w - q - 1)) = Ok (blit m (Z.to_nat q) (u8 (zlen w) :: w))).
      { replace (q + 1 + zlen w - q - 1) with (zlen w) by lia. rewrite wr_in by (rewrite zlen_blit; rewrite ?zlen_cons; lia). f_equal.
        apply at0_ext; [rewrite zlen_upd, !zlen_blit; rewrite ?zlen_cons; lia|]. intros i Hi. rewrite zlen_upd in Hi. rewrite at0_upd by (rewrite ?zlen_blit; rewrite ?zlen_cons; lia).
        rewrite zlen_blit in Hi by (rewrite ?zlen_cons; lia). rewrite !at0_blit by (rewrite ?zlen_cons; lia). rewrite !zlen_cons.
        destruct (Z.eqb_spec i q); destruct (Z.leb_spec q i), (Z.ltb_spec i (q + (1 + zlen w))); cbn [andb]; try lia; rewrite ?at0_cons by lia; try (replace (i - q =? 0) with true by lia; reflexivity); try (replace (i - q =? 0) with false by lia); reflexivity. }
      rewrite W. cbn [bind]. set (m1 := blit m (Z.to_nat q) (u8 (zlen w) :: w)).
      assert (L1 : zlen m1 = zlen m) by (unfold m1; rewrite zlen_blit; rewrite ?zlen_cons; lia).
      set (q1 := q + 1 + zlen w). specialize (IH m1 q1 (at0 m1 q1) []). change (zlen (@nil Z)) with 0 in IH.
      assert (E : blit m1 (Z.to_nat q1) [at0 m1 q1] = m1).
      { apply at0_ext; [rewrite zlen_blit; [lia|lia|change (zlen [at0 m1 q1]) with 1; lia]|]. intros i Hi. rewrite at0_blit; [|lia|change (zlen [at0 m1 q1]) with 1; lia|lia]. change (zlen [at0 m1 q1]) with 1.
        destruct (Z.leb_spec q1 i), (Z.ltb_spec i (q1 + 1)); cbn [andb]; auto. replace (i - q1) with 0 by lia. unfold at0 at 1. cbn. f_equal. lia. }
      rewrite E in IH. replace (q1 + 1 + 0) with (q1 + 1) in IH by lia. rewrite IH by lia. f_equal. f_equal; [lia|].
      unfold m1, q1. replace (q + 1 + zlen w) with (q + zlen (u8 (zlen w) :: w)) by (rewrite zlen_cons; lia). apply zblit_blit; rewrite ?zlen_cons; lia.
    + set (m1 := blit m (Z.to_nat q) (x :: w)). assert (L1 : zlen m1 = zlen m) by (unfold m1; rewrite zlen_blit; rewrite ?zlen_cons; lia).
      assert (W : wr m1 (q + 1 + zlen w) (u8 c) = Ok (blit m (Z.to_nat q) (x :: w ++ [u8 c]))).
      { assert (P := puts_ok [u8 c] m1 (q + 1 + zlen w) ltac:(lia) ltac:(change (zlen [u8 c]) with 1; lia)). cbn [puts] in P.
        destruct (wr m1 (q + 1 + zlen w) (u8 c)); cbn [bind] in P; try discriminate. injection P as ->. f_equal. unfold m1.
        replace (q + 1 + zlen w) with (q + zlen (x :: w)) by (rewrite zlen_cons; lia). rewrite zblit_blit by (rewrite ?zlen_cons; lia). reflexivity. }
      rewrite W. cbn [bind]. replace (q + 1 + zlen w + 1) with (q + 1 + zlen (w ++ [u8 c])) by (rewrite zlen_app; change (zlen [u8 c]) with 1; lia).
      rewrite IH; [|lia|rewrite zlen_app; change (zlen [u8 c]) with 1; lia|lia]. f_equal. f_equal. rewrite zlen_app. change (zlen [u8 c]) with 1. lia.
Qed.
Lemma from_str_ok m max s : zlen s + 1 <= max -> max <= zlen m -> osmo_apn_from_str m max s = Ok (zlen s + 1, blit m 0 (packed [] s)).
Proof.
  intros H1 H2. unfold osmo_apn_from_str. pose proof (zlen_nonneg s). replace (max =? 0) with false by lia.
  assert (E : blit m (Z.to_nat 0) [at0 m 0] = m).
  { destruct m as [|y m]; [change (zlen (@nil Z)) with 0 in H2; lia|reflexivity]. }
  assert (L := from_loop_ok max s m 0 (at0 m 0) [] ltac:(lia)). rewrite E in L. change (zlen (@nil Z)) with 0 in L. change (0 + 1 + 0) with 1 in L. rewrite L by lia. f_equal. f_equal. lia.
Qed.
Lemma from_loop_fail max s : forall m q len, 0 <= q < len -> len <= max -> max <= zlen m -> max < len + zlen s ->
  exists m', from_str_loop m max q len s = Ok (-1, m') /\ zlen m' = zlen m /\ skipn (Z.to_nat max) m' = skipn (Z.to_nat max) m.
Proof.
  assert (U : forall (m : list Z) i x mx, 0 <= i < mx -> skipn (Z.to_nat mx) (upd m (Z.to_nat i) x) = skipn (Z.to_nat mx) m).
  { intros m i x mx Hi. apply (list_ext _ _ 0); [rewrite !skipn_length, upd_length; reflexivity|]. intros j Hj. rewrite !nth_skipn. rewrite upd_nth_other by lia. reflexivity. }
  induction s as [|c s IH]; intros m q len Hq Hl Hm Hf; cbn [from_str_loop]; [change (zlen (@nil Z)) with 0 in Hf; lia|].
  rewrite zlen_cons in Hf. destruct (Z.geb_spec len max); [exists m; auto|]. destruct (c =? 46).
  - rewrite wr_in by lia. cbn [bind]. destruct (IH (upd m (Z.to_nat q) (u8 (len - q - 1))) len (len + 1)) as (m' & E & L & S); [lia|lia|rewrite zlen_upd; lia|lia|].
    exists m'. split; [exact E|]. rewrite zlen_upd in L. split; [exact L|]. rewrite S. apply U. lia.
  - rewrite wr_in by lia. cbn [bind]. destruct (IH (upd m (Z.to_nat len) (u8 c)) q (len + 1)) as (m' & E & L & S); [lia|lia|rewrite zlen_upd; lia|lia|].
    exists m'. split; [exact E|]. rewrite zlen_upd in L. split; [exact L|]. rewrite S. apply U. lia.
Qed.
Lemma from_str_fail m max s : 0 <= max -> zlen s + 1 > max -> max <= zlen m ->
  exists m', osmo_apn_from_str m max s = Ok (-1, m') /\ zlen m' = zlen m /\ skipn (Z.to_nat max) m' = skipn (Z.to_nat max) m.
Proof.
  intros H0 H1 H2. unfold osmo_apn_from_str. destruct (Z.eqb_spec max 0); [exists m; auto|]. apply from_loop_fail; lia.
Qed.
Definition octets_mod (ls : list (list Z)) : list Z := flat_map (fun l => u8 (zlen l) :: l) ls.
Lemma u8_id c : 0 < c < 256 -> u8 c = c. Proof. intros. unfold u8. apply Z.mod_small. lia. Qed.
Lemma packed_label l : Forall label_char l -> forall w s, packed w (l ++ s) = packed (w ++ l) s.
Proof.
  induction 1 as [|c l [Hc N] _ IH]; intros w s; cbn [app packed]; [rewrite app_nil_r; reflexivity|]. replace (c =? 46) with false by lia. rewrite u8_id by lia. rewrite IH, <- app_assoc. reflexivity.
Qed.
Lemma packed_dotted ls : ls <> [] -> Forall (Forall label_char) ls -> packed [] (dotted ls) = octets_mod ls.
Proof.
  induction ls as [|l ls IH]; [congruence|]. intros _ F. inversion F; subst. cbn [dotted octets_mod flat_map]. fold (octets_mod ls). destruct ls as [|k ls].
  - replace l with (l ++ []) at 1 by apply app_nil_r. rewrite packed_label by assumption. cbn [packed octets_mod flat_map]. rewrite !app_nil_r. reflexivity.
  - rewrite packed_label by assumption. cbn [app packed]. change (46 =? 46) with true. cbv iota. rewrite IH by (auto; discriminate). reflexivity.
Qed.
Lemma octets_mod_small ls : Forall (fun l => zlen l <= 255) ls -> octets_mod ls = encoded ls.
Proof. induction 1 as [|l ls H _ IH]; [reflexivity|]. cbn [octets_mod encoded flat_map]. fold (octets_mod ls) (encoded ls). rewrite IH. f_equal. f_equal. unfold u8. apply Z.mod_small. pose proof (zlen_nonneg l). lia. Qed.

Lemma round_text ls : ls <> [] -> proper ls -> apn_text (encoded ls) (dotted ls).
Proof.
  induction ls as [|l ls IH]; [congruence|]. intros _ P. cbn [encoded flat_map dotted]. fold (encoded ls). destruct ls as [|k ls].
  - cbn [encoded flat_map]. rewrite app_nil_r. destruct l as [|c l]; [apply text_zero|]. apply text_last; [rewrite zlen_cons; pose proof (zlen_nonneg l); lia|reflexivity].
  - destruct P as [N P]. cbn [app]. apply text_more; [destruct l; [congruence|rewrite zlen_cons; pose proof (zlen_nonneg l); lia]|reflexivity| |apply IH; [discriminate|exact P]].
    cbn [encoded flat_map]. discriminate.
Qed.
Lemma encoded_bytes ls : Forall (fun l => zlen l <= 255) ls -> Forall (Forall label_char) ls -> bytes (encoded ls).
Proof.
  induction 1 as [|l ls H _ IH]; intros F; [constructor|]. inversion F; subst. cbn [encoded flat_map]. apply Forall_app. split; [constructor; [unfold is_byte; pose proof (zlen_nonneg l); lia|]|apply IH; assumption].
  eapply Forall_impl; [|eassumption]. unfold label_char, is_byte. cbn. intros; lia.
Qed.
Lemma text_unproper ls : ~ proper ls -> ls <> [] -> forall t, apn_text (encoded ls) t -> t <> dotted ls.
Proof.
  induction ls as [|l ls IH]; [congruence|]. intros NP _ t H E. destruct ls as [|k ls]; [apply NP; exact I|].
  change (encoded (l :: k :: ls)) with (zlen l :: l ++ encoded (k :: ls)) in H.
  assert (K : encoded (k :: ls) <> []) by (cbn [encoded flat_map]; discriminate).
  change (dotted (l :: k :: ls)) with (l ++ [46] ++ dotted (k :: ls)) in E.
  destruct l as [|c l].
  - change (zlen (@nil Z)) with 0 in H. inversion H; subst; try lia. discriminate.
  - assert (NP' : ~ proper (k :: ls)) by (intros X; apply NP; split; [discriminate|exact X]).
    specialize (IH NP' ltac:(discriminate)). generalize dependent (encoded (k :: ls)). intros e IH H K. generalize dependent (dotted (k :: ls)). intros d E IH.
    remember (c :: l) as cl eqn:Ecl. assert (P : 0 < zlen cl) by (subst cl; rewrite zlen_cons; pose proof (zlen_nonneg l); lia). clear Ecl. 
    inversion H as [|r E1|n q Hn Lq E1|n q r t0 Hn Lq R T E1].
    + lia.
    + subst. rewrite zlen_app in Lq. destruct e; [congruence|]. rewrite zlen_cons in Lq. pose proof (zlen_nonneg e). lia.
    + match goal with Q : q ++ r = cl ++ e |- _ => apply app_eq_len in Q as [Q1 Q2]; [|unfold zlen in *; lia] end. subst q r.
      assert (X : cl ++ [46] ++ t0 = cl ++ [46] ++ d) by congruence. apply app_inv_head in X. cbn [app] in X. injection X as X. apply (IH t0); assumption.
Qed.

(* --- qualified APN --- *)
Lemma qualify_spec buf n mcc mnc ni : 1 <= n <= zlen buf ->
  exists m, osmo_apn_qualify_buf buf n mcc mnc ni = Ok m /\ zlen m = zlen buf /\ skipn (Z.to_nat n) m = skipn (Z.to_nat n) buf /\
    exists k, firstn (Z.to_nat n) m = firstn (Z.to_nat (n - 2)) (apn_gprs ni mnc mcc) ++ 0 :: k.
Proof.
  intros H. unfold osmo_apn_qualify_buf. replace (n =? 0) with false by lia. set (text := apn_gprs ni mnc mcc). unfold snprintf.
  destruct (Z.eqb_spec (n - 1) 0).
  - cbn [bind]. replace (n - 1) with 0 by lia. rewrite wr_in by lia. eexists. split; [reflexivity|]. rewrite zlen_upd. split; [reflexivity|].
    assert (n = 1) by lia. subst n. destruct buf as [|b buf]; [change (zlen (@nil Z)) with 0 in H; lia|]. split; [reflexivity|]. exists []. reflexivity.
  - set (w := firstn (Z.to_nat (n - 1 - 1)) text ++ [0]). replace (Z.to_nat (n - 2)) with (Z.to_nat (n - 1 - 1)) by lia.
    assert (Lw : 1 <= zlen w <= n - 1) by (unfold w; rewrite zlen_app; change (zlen [0]) with 1; unfold zlen; rewrite firstn_length; lia).
    rewrite puts_ok by lia. cbn [bind]. change (Z.to_nat 0) with 0%nat. assert (Lb : zlen (blit buf 0 w) = zlen buf) by (apply (zlen_blit buf 0 w); lia).
    rewrite wr_in by lia. eexists. split; [reflexivity|]. rewrite zlen_upd. split; [exact Lb|].
    split.
    + apply (list_ext _ _ 0); [rewrite !skipn_length, upd_length; unfold zlen in Lb; lia|]. intros i Hi. rewrite !nth_skipn. rewrite upd_nth_other by lia. rewrite nth_blit by (unfold zlen in *; lia).
      unfold zlen in *. destruct (Nat.leb_spec 0 (Z.to_nat n + i)), (Nat.ltb_spec (Z.to_nat n + i) (0 + length w)); cbn [andb]; try reflexivity; lia.
    + assert (G : firstn (length w) (firstn (Z.to_nat n) (upd (blit buf 0 w) (Z.to_nat (n - 1)) 0)) = w).
      { rewrite firstn_firstn. unfold zlen in *. rewrite Nat.min_l by lia. apply (list_ext _ _ 0).
        - rewrite firstn_length, upd_length. lia.
        - intros i Hi. rewrite firstn_length, upd_length in Hi. rewrite nth_firstn. destruct (Nat.ltb_spec i (length w)); [|lia].
          rewrite upd_nth_other by lia. rewrite nth_blit by lia. destruct (Nat.leb_spec 0 i), (Nat.ltb_spec i (0 + length w)); cbn [andb]; try lia. f_equal. lia. }
      exists (skipn (length w) (firstn (Z.to_nat n) (upd (blit buf 0 w) (Z.to_nat (n - 1)) 0))).
      rewrite <- (firstn_skipn (length w) (firstn (Z.to_nat n) _)) at 1. rewrite G. unfold w at 1. rewrite <- app_assoc. reflexivity.
Qed.
Definition atoi_ok (w : nat) (n : Z) : bool := (atoi (pad0 w (dec n)) =? n) && Nat.eqb (length (pad0 w (dec n))) w.
Lemma atoi3 n : 0 <= n <= 999 -> atoi (pad0 3 (dec n)) = n /\ length (pad0 3 (dec n)) = 3%nat.
Proof.
  intros H. assert (A : forallb (atoi_ok 3) (zseq 0 (Z.to_nat 1000)) = true) by (vm_compute; reflexivity).
  rewrite forallb_forall in A. specialize (A n ltac:(apply zseq_In; lia)). unfold atoi_ok in A. apply andb_prop in A as [A1 A2]. apply Nat.eqb_eq in A2. split; [lia|assumption].
Qed.
Lemma atoi2 n : 0 <= n <= 99 -> atoi (pad0 2 (dec n)) = n /\ length (pad0 2 (dec n)) = 2%nat.
Proof.
  intros H. assert (A : forallb (atoi_ok 2) (zseq 0 (Z.to_nat 100)) = true) by (vm_compute; reflexivity).
  rewrite forallb_forall in A. specialize (A n ltac:(apply zseq_In; lia)). unfold atoi_ok in A. apply andb_prop in A as [A1 A2]. apply Nat.eqb_eq in A2. split; [lia|assumption].
Qed.
Lemma skipn_app_exact {A} (a b : list A) n : length a = n -> skipn n (a ++ b) = b.
Proof. intros <-. rewrite skipn_app, skipn_all, Nat.sub_diag. reflexivity. Qed.
Lemma from_imsi_spec buf n mcc mnc rest ni (three : bool) : 0 <= mcc <= 999 -> 0 <= mnc <= (if three then 999 else 99) ->
  osmo_apn_qualify_from_imsi_buf buf n (pad0 3 (dec mcc) ++ pad0 (if three then 3 else 2) (dec mnc) ++ rest) ni three = osmo_apn_qualify_buf buf n mcc mnc ni.
Proof.
  intros Hc Hn. destruct (atoi3 mcc Hc) as [A1 L1]. unfold osmo_apn_qualify_from_imsi_buf.
  replace (zlen _ <? 3) with false by (rewrite zlen_app; unfold zlen at 1; pose proof (zlen_nonneg (pad0 (if three then 3 else 2) (dec mnc) ++ rest)); lia).
  rewrite firstn_app_exact by lia. rewrite (skipn_app_exact _ _ _ L1). rewrite A1.
  replace (u32 mcc) with mcc by (unfold u32; rewrite Z.mod_small; lia).
  destruct three; [destruct (atoi3 mnc Hn) as [A2 L2]|destruct (atoi2 mnc Hn) as [A2 L2]]; rewrite firstn_app_exact by lia; rewrite A2; (replace (u32 mnc) with mnc by (unfold u32; rewrite Z.mod_small; lia)); reflexivity.
Qed.
