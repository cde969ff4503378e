From Verif Require Import Base M_hex S_hex Lib.
Local Ltac sp := repeat match goal with |- _ /\ _ => split end.

(* ------------ hexparse ------------ *)
Definition wsb (c : Z) : bool := (c =? 32) || (c =? 9) || (c =? 10) || (c =? 13).
Fixpoint parse (h : option Z) (s : list Z) : option (list Z) :=
  match s with
  | [] => match h with None => Some [] | Some _ => None end
  | c :: r => if wsb c then parse h r else
              match hexval c with None => None | Some v => match h with None => parse (Some v) r | Some h => option_map (cons (h * 16 + v)) (parse None r) end end
  end.
Lemma wsb_spec c : wsb c = true <-> is_ws c.
Proof. unfold wsb, is_ws. lia. Qed.
Lemma hexval_nws c v : hexval c = Some v -> wsb c = false.
Proof. unfold hexval, wsb. intros H. repeat match type of H with (if ?b then _ else _) = _ => destruct b eqn:?; [lia|] end. discriminate. Qed.
Lemma hexval_range c v : hexval c = Some v -> 0 <= v < 16.
Proof. unfold hexval. intros H. repeat match type of H with (if ?b then _ else _) = _ => destruct b eqn:?; [injection H as <-; lia|] end. discriminate. Qed.
Scheme hextext_ind2 := Induction for hextext Sort Prop with hexlow_ind2 := Induction for hexlow Sort Prop.
Lemma hextext_parse s l : hextext s l -> parse None s = Some l.
Proof.
  apply (hextext_ind2 (fun s l _ => parse None s = Some l) (fun h s l _ => parse (Some h) s = Some l)).
  - reflexivity.
  - intros c s0 l0 Hw _ IH. cbn [parse]. apply wsb_spec in Hw. rewrite Hw. auto.
  - intros c h s0 l0 Hv _ IH. cbn [parse]. rewrite (hexval_nws _ _ Hv), Hv. auto.
  - intros h c s0 l0 Hw _ IH. cbn [parse]. apply wsb_spec in Hw. rewrite Hw. auto.
  - intros h c v s0 l0 Hv _ IH. cbn [parse]. rewrite (hexval_nws _ _ Hv), Hv, IH. reflexivity.
Qed.
Lemma parse_hextext s : (forall l, parse None s = Some l -> hextext s l) /\ (forall h l, parse (Some h) s = Some l -> hexlow h s l).
Proof.
  induction s as [|c s [IH1 IH2]]; cbn [parse]; [split; [intros l H; injection H as <-; constructor|discriminate]|]. destruct (wsb c) eqn:E.
  - apply wsb_spec in E. split; intros; constructor; auto.
  - destruct (hexval c) as [v|] eqn:Ev; [|split; discriminate]. split; [intros l H; apply Hhi with v; auto|]. intros h l H. destruct (parse None s) as [l'|] eqn:El; [|discriminate]. injection H as <-. apply Llo; auto.
Qed.
Definition fin (x : res (list Z * Z)) : res (list Z * Z) := do ' (b, np) <- x ;; if negb (Z.land np 1 =? 0) then Err (-1) else Ok (b, Z.shiftr np 1).
Lemma land1 n : Z.land n 1 = n mod 2.
Proof. change 1 with (Z.ones 1) at 1. rewrite Z.land_ones by lia. reflexivity. Qed.
Definition pend (h : option Z) : list Z := match h with None => [] | Some h => [h * 16] end.
Lemma char_val c : (if (48 <=? c) && (c <=? 57) then Ok (c - 48) else if (97 <=? c) && (c <=? 102) then Ok (10 + (c - 97)) else if (65 <=? c) && (c <=? 70) then Ok (10 + (c - 65)) else Err (-1)) = match hexval c with Some v => Ok v | None => Err (-1) end.
Proof. unfold hexval. destruct ((48 <=? c) && (c <=? 57)); auto. destruct ((97 <=? c) && (c <=? 102)); [f_equal; lia|]. destruct ((65 <=? c) && (c <=? 70)); [f_equal; lia|auto]. Qed.
Lemma lor_nib h v : 0 <= h < 16 -> 0 <= v < 16 -> Z.lor (h * 16) v = h * 16 + v.
Proof.
  intros Hh Hv. rewrite <- Z.lxor_lor; [rewrite <- Z.add_nocarry_lxor; auto|]; apply Z.bits_inj'; intros n Hn; rewrite Z.land_spec, Z.bits_0; change 16 with (2 ^ 4); destruct (Z_lt_le_dec n 4); [rewrite Z.mul_pow2_bits_low by lia; reflexivity|rewrite (testbit_above v 4 n) by lia; apply andb_false_r|rewrite Z.mul_pow2_bits_low by lia; reflexivity|rewrite (testbit_above v 4 n) by lia; apply andb_false_r].
Qed.
Lemma rd_mid (a : list Z) x b i : i = zlen a -> rd (a ++ x :: b) i = Ok x.
Proof. intros ->. apply rd_Ok. split; [apply zlen_nonneg|]. unfold zlen. rewrite Nat2Z.id, nth_error_app2, Nat.sub_diag by lia. reflexivity. Qed.
Lemma wr_mid (a : list Z) x b i y : i = zlen a -> wr (a ++ x :: b) i y = Ok (a ++ y :: b).
Proof. intros ->. rewrite wr_in. 2: { rewrite zlen_app, zlen_cons. pose proof (zlen_nonneg a). pose proof (zlen_nonneg b). lia. } unfold zlen. rewrite Nat2Z.id, upd_app_at. reflexivity. Qed.
Lemma repeat_S n : 0 < n -> repeat 0 (Z.to_nat n) = 0 :: repeat 0 (Z.to_nat (n - 1)).
Proof. intros. replace (Z.to_nat n) with (S (Z.to_nat (n - 1))) by lia. reflexivity. Qed.
Lemma loop_spec max rest : 0 <= max < 2147483648 -> forall s acc h, (match h with Some x => 0 <= x < 16 | None => True end) -> zlen acc + zlen (pend h) <= max ->
  fin (hexparse_loop s (acc ++ pend h ++ repeat 0 (Z.to_nat (max - zlen acc - zlen (pend h))) ++ rest) max (2 * zlen acc + zlen (pend h))) =
  match parse h s with
  | Some l => if zlen acc + zlen l <=? max then Ok (acc ++ l ++ repeat 0 (Z.to_nat (max - zlen acc - zlen l)) ++ rest, zlen acc + zlen l) else Err (-1)
  | None => Err (-1)
  end.
Proof.
  intros Hm. induction s as [|c s IH]; intros acc h Hh Hb; pose proof (zlen_nonneg acc).
  - cbn [hexparse_loop parse]. unfold fin. cbn [bind]. rewrite land1. destruct h as [h|]; cbn [pend] in *; rewrite ?zlen_cons, ?zlen_nil in *.
    + replace ((2 * zlen acc + (1 + 0)) mod 2 =? 0) with false by lia. reflexivity.
    + replace ((2 * zlen acc + 0) mod 2 =? 0) with true by lia. cbn [negb app]. rewrite ?zlen_nil. replace (zlen acc + 0 <=? max) with true by lia. rewrite Z.shiftr_div_pow2 by lia. change (2 ^ 1) with 2. f_equal. f_equal. lia.
  - cbn [hexparse_loop parse]. fold (wsb c). destruct (wsb c). { apply IH; auto. }
    rewrite Z.shiftl_mul_pow2 by lia. change (2 ^ 1) with 2. rewrite (u32_small (max * 2)) by (unfold is_u32; lia). rewrite char_val.
    destruct h as [h|]; cbn [pend] in *; rewrite ?zlen_cons, ?zlen_nil in *.
    + replace (max * 2 <=? 2 * zlen acc + (1 + 0)) with false by lia. destruct (hexval c) as [v|] eqn:Ev; cbn [bind]; [|reflexivity]. pose proof (hexval_range _ _ Ev) as Hv.
      rewrite Z.shiftr_div_pow2 by lia. change (2 ^ 1) with 2. cbn [app]. rewrite rd_mid by lia. cbn [bind]. rewrite wr_mid by lia. cbn [bind]. rewrite land1. replace ((2 * zlen acc + (1 + 0)) mod 2 =? 0) with false by lia. rewrite Z.shiftl_0_r, lor_nib by lia. rewrite u8_small by (unfold is_byte; lia). rewrite u32_small by (unfold is_u32; lia).
      specialize (IH (acc ++ [h * 16 + v]) None I). cbn [pend] in IH. rewrite zlen_app, zlen_cons, zlen_nil in IH. specialize (IH ltac:(lia)). cbn [app] in IH. rewrite <- app_assoc in IH. cbn [app] in IH. replace (2 * (zlen acc + (1 + 0)) + 0) with (2 * zlen acc + (1 + 0) + 1) in IH by lia. replace (max - (zlen acc + (1 + 0)) - 0) with (max - zlen acc - (1 + 0)) in IH by lia. rewrite IH.
      destruct (parse None s) as [l|]; cbn [option_map]; auto. rewrite zlen_cons. replace (zlen acc + (1 + 0) + zlen l) with (zlen acc + (1 + zlen l)) by lia. destruct (zlen acc + (1 + zlen l) <=? max); auto. rewrite <- app_assoc. cbn [app]. do 5 f_equal. f_equal. f_equal. lia.
    + destruct (max * 2 <=? 2 * zlen acc + 0) eqn:Ef.
      * cbn [fin bind]. assert (max = zlen acc) by lia. destruct (hexval c) as [v|]; auto. destruct (parse (Some v) s) as [l|] eqn:El; auto. assert (1 <= zlen l). { assert (G : forall s v l, parse (Some v) s = Some l -> 1 <= zlen l). { clear. induction s as [|c s IH]; intros v l H; cbn [parse] in H; [discriminate|]. destruct (wsb c); [eauto|]. destruct (hexval c); [|discriminate]. destruct (parse None s); [|discriminate]. injection H as <-. rewrite zlen_cons. pose proof (zlen_nonneg l0). lia. } eauto. } replace (zlen acc + zlen l <=? max) with false by lia. reflexivity.
      * destruct (hexval c) as [v|] eqn:Ev; cbn [bind]; [|reflexivity]. pose proof (hexval_range _ _ Ev) as Hv. rewrite Z.shiftr_div_pow2 by lia. change (2 ^ 1) with 2. cbn [app]. rewrite repeat_S by lia. cbn [app]. rewrite rd_mid by lia. cbn [bind]. rewrite wr_mid by lia. cbn [bind]. rewrite land1. replace ((2 * zlen acc + 0) mod 2 =? 0) with true by lia. rewrite Z.lor_0_l, Z.shiftl_mul_pow2 by lia. change (2 ^ 4) with 16. rewrite u8_small by (unfold is_byte; lia). rewrite u32_small by (unfold is_u32; lia).
        specialize (IH acc (Some v) Hv). cbn [pend] in IH. rewrite zlen_cons, zlen_nil in IH. specialize (IH ltac:(lia)). cbn [app] in IH. replace (2 * zlen acc + (1 + 0)) with (2 * zlen acc + 0 + 1) in IH by lia. replace (max - zlen acc - (1 + 0)) with (max - zlen acc - 0 - 1) in IH by lia. exact IH.
Qed.
Lemma hexparse_spec s b max : 0 <= max < 2147483648 -> max <= zlen b ->
  hexparse s b max = match parse None s with Some l => if zlen l <=? max then Ok (l ++ repeat 0 (Z.to_nat (max - zlen l)) ++ skipn (Z.to_nat max) b, zlen l) else Err (-1) | None => Err (-1) end.
Proof.
  intros Hm Hb. unfold hexparse. replace (zlen b <? max) with false by lia. pose proof (loop_spec max (skipn (Z.to_nat max) b) Hm s [] None I) as L. cbn [pend app] in L. change (zlen (@nil Z)) with 0 in L. replace (max - 0 - 0) with max in L by lia. specialize (L ltac:(lia)). unfold fin in L. change (2 * 0 + 0) with 0 in L. rewrite L. destruct (parse None s) as [l|]; auto. replace (0 + zlen l) with (zlen l) by lia. destruct (zlen l <=? max); auto. do 5 f_equal. lia.
Qed.

(* ------------ hexdump ------------ *)
Lemma hexval_low n : 0 <= n < 16 -> hexval (lowhex n) = Some n.
Proof. intros H. unfold lowhex, hexval. destruct (n <? 10) eqn:E. - replace ((48 <=? n + 48) && (n + 48 <=? 57)) with true by lia. f_equal. lia. - replace ((48 <=? n + 87) && (n + 87 <=? 57)) with false by lia. replace ((97 <=? n + 87) && (n + 87 <=? 102)) with true by lia. f_equal. lia. Qed.
Lemma hex_char n : 0 <= n < 16 -> rd hex_chars n = Ok (lowhex n).
Proof. intros H. assert (G : forall x, 0 <= x < 0 + Z.of_nat 16 -> (match rd hex_chars x with Ok v => v =? lowhex x | _ => false end) = true) by (apply (forall_zseq (fun x => match rd hex_chars x with Ok v => v =? lowhex x | _ => false end)); vm_compute; reflexivity). specialize (G n ltac:(lia)). destruct (rd hex_chars n); try discriminate. f_equal. lia. Qed.
Lemma parse_ws d s h : Forall is_ws d -> parse h (d ++ s) = parse h s.
Proof. induction 1 as [|c d Hc Hd IH]; cbn [app parse]; auto. apply wsb_spec in Hc. rewrite Hc. auto. Qed.
Lemma parse_dump1 b s : is_byte b -> parse None (dump1 b ++ s) = option_map (cons b) (parse None s).
Proof.
  intros Hb. unfold is_byte in Hb. unfold dump1. cbn [app parse]. assert (H1 : hexval (lowhex (b / 16)) = Some (b / 16)) by (apply hexval_low; lia). assert (H2 : hexval (lowhex (b mod 16)) = Some (b mod 16)) by (apply hexval_low; lia).
  rewrite (hexval_nws _ _ H1), H1. rewrite (hexval_nws _ _ H2), H2. replace (b / 16 * 16 + b mod 16) with b by lia. reflexivity.
Qed.
Lemma parse_dump_all delim l : Forall is_ws delim -> bytes l -> parse None (dump_all delim l) = Some l.
Proof. intros Hd. induction 1 as [|b l Hb Hl IH]; cbn [dump_all]; [reflexivity|]. rewrite parse_dump1 by auto. rewrite parse_ws, IH by auto. reflexivity. Qed.
Lemma parse_dump_sep delim l : Forall is_ws delim -> bytes l -> parse None (dump_sep delim l) = Some l.
Proof. intros Hd. induction 1 as [|b l Hb Hl IH]; [reflexivity|]. destruct l as [|b2 l]. - cbn [dump_sep]. rewrite <- (app_nil_r (dump1 b)), parse_dump1 by auto. reflexivity. - change (dump_sep delim (b :: b2 :: l)) with (dump1 b ++ delim ++ dump_sep delim (b2 :: l)). rewrite parse_dump1 by auto. rewrite parse_ws, IH by auto. reflexivity. Qed.
Lemma zlen_dump_all delim l : zlen (dump_all delim l) = (2 + zlen delim) * zlen l.
Proof. induction l as [|b l IH]; [cbn [dump_all]; change (zlen (@nil Z)) with 0; lia|]. cbn [dump_all]. rewrite !zlen_app, zlen_cons, IH. change (zlen (dump1 b)) with 2. lia. Qed.
Lemma zlen_dump_sep delim l : l <> [] -> zlen (dump_sep delim l) = (2 + zlen delim) * zlen l - zlen delim.
Proof. induction l as [|b l IH]; [congruence|]. intros _. destruct l as [|b2 l]; [rewrite zlen_cons, zlen_nil; change (zlen (dump_sep delim [b])) with 2; lia|]. change (dump_sep delim (b :: b2 :: l)) with (dump1 b ++ delim ++ dump_sep delim (b2 :: l)). rewrite !zlen_app, IH by discriminate. rewrite (zlen_cons b). change (zlen (dump1 b)) with 2. lia. Qed.
Lemma dump_sep_all delim l b : dump_sep delim (l ++ [b]) = dump_all delim l ++ dump1 b.
Proof. induction l as [|x l IH]; [reflexivity|]. cbn [app dump_all]. destruct (l ++ [b]) eqn:E; [destruct l; discriminate|]. cbn [dump_sep]. rewrite <- !app_assoc. rewrite <- IH. reflexivity. Qed.
Lemma dump_all_app delim a b : dump_all delim (a ++ b) = dump_all delim a ++ dump_all delim b.
Proof. induction a; cbn [app dump_all]; auto. rewrite IHa, <- !app_assoc. reflexivity. Qed.
Lemma s32_small x : -2147483648 <= x < 2147483648 -> s32 x = x.
Proof. intros. unfold s32, u32. destruct (x mod 4294967296 <? 2147483648) eqn:E; lia. Qed.
Lemma wr_end (a b : list Z) x i y : i = zlen a -> wr (a ++ x :: b) i y = Ok ((a ++ [y]) ++ b).
Proof. intros. rewrite wr_mid by auto. rewrite <- app_assoc. reflexivity. Qed.
Lemma delim_copy_spec delim : forall a b n, zlen delim < n -> zlen delim <= zlen b -> delim_copy (a ++ b) delim (zlen a) n = Ok ((a ++ delim) ++ skipn (length delim) b, zlen a + zlen delim).
Proof.
  induction delim as [|c d IH]; intros a b n Hn Hb; cbn [delim_copy].
  - rewrite app_nil_r, zlen_nil, Z.add_0_r. reflexivity.
  - rewrite zlen_cons in *. pose proof (zlen_nonneg d). replace (1 <? n) with true by lia. destruct b as [|x b]; [rewrite zlen_nil in Hb; lia|]. rewrite zlen_cons in Hb. rewrite wr_end by auto. cbn [bind]. replace (zlen a + 1) with (zlen (a ++ [c])) by (rewrite zlen_app, zlen_cons, zlen_nil; lia). rewrite IH by lia. cbn [length skipn]. f_equal. f_equal; [rewrite <- !app_assoc; reflexivity|rewrite zlen_app, zlen_cons, zlen_nil; lia].
Qed.
(* what the loop prints: [n] bytes left starting at [i], [room] cells left excluding the NUL *)
Fixpoint dumped (delim : list Z) (room : Z) (after_last : bool) (l : list Z) : list Z :=
  match l with
  | [] => []
  | b :: t =>
      if negb after_last && (match t with [] => true | _ => false end) then if 2 <=? room then dump1 b else []
      else if 2 + zlen delim <=? room then dump1 b ++ delim ++ dumped delim (room - 2 - zlen delim) after_last t else []
  end.
Lemma zlen_dumped delim al : forall l room, 0 <= room -> zlen (dumped delim room al l) <= room.
Proof.
  induction l as [|b t IH]; intros room Hr; cbn [dumped]; [rewrite zlen_nil; lia|]. destruct (negb al && _).
  - destruct (2 <=? room) eqn:E; [change (zlen (dump1 b)) with 2|rewrite zlen_nil]; lia.
  - destruct (2 + zlen delim <=? room) eqn:E; [|rewrite zlen_nil; lia]. rewrite !zlen_app. change (zlen (dump1 b)) with 2. specialize (IH (room - 2 - zlen delim) ltac:(lia)). lia.
Qed.
Lemma hexdump_loop_spec delim al buf size : zlen delim < 2147483645 -> size < 2147483648 -> bytes buf -> forall rem pre a b n, buf = pre ++ rem -> n = length rem -> zlen a + zlen b = size -> 1 <= zlen b ->
  hexdump_loop (a ++ b) buf delim (zlen a) (zlen pre) (zlen buf) al n = let d := dumped delim (zlen b - 1) al rem in Ok ((a ++ d) ++ skipn (length d) b, zlen a + zlen d).
Proof.
  intros Hdl Hsz Hbuf. induction rem as [|x t IH]; intros pre a b n Hp Hn Hs Hb1; subst n; cbn [length hexdump_loop].
  - cbn [dumped length skipn]. rewrite app_nil_r, zlen_nil, Z.add_0_r. reflexivity.
  - pose proof (zlen_nonneg a). pose proof (zlen_nonneg delim). rewrite zlen_app. replace (zlen a + zlen b - zlen a - 1) with (zlen b - 1) by lia. rewrite u64_small by (unfold is_u64; lia). rewrite (s32_small (zlen b - 1)) by lia. rewrite (s32_small (2 + zlen delim)) by lia.
    assert (Hbb : is_byte x). { subst buf. unfold bytes in Hbuf. apply Forall_app in Hbuf. destruct Hbuf as [_ Hbuf]. inversion Hbuf; auto. } unfold is_byte in Hbb.
    assert (Elast : (zlen pre =? zlen buf - 1) = match t with [] => true | _ => false end). { rewrite Hp, zlen_app, zlen_cons. destruct t; [rewrite zlen_nil; lia|]. rewrite zlen_cons. pose proof (zlen_nonneg t). lia. }
    rewrite Elast. cbn [dumped]. set (lst := match t with [] => true | _ => false end).
    assert (Erd : rd buf (zlen pre) = Ok x) by (rewrite Hp; apply rd_mid; auto).
    assert (Two : forall b0 : list Z, 3 <= zlen b0 -> exists y z b', b0 = y :: z :: b'). { intros [|y [|z b']]; rewrite ?zlen_cons, ?zlen_nil; intros; try lia; eauto. }
    assert (W : forall b0 : list Z, 3 <= zlen b0 -> exists b', skipn 2 b0 = b' /\ zlen b' = zlen b0 - 2 /\ wr (a ++ b0) (zlen a) (lowhex (x / 16)) = Ok ((a ++ [lowhex (x / 16)]) ++ tl b0) /\ wr ((a ++ [lowhex (x / 16)]) ++ tl b0) (zlen a + 1) (lowhex (x mod 16)) = Ok ((a ++ dump1 x) ++ b')).
    { intros b0 Hb0. destruct (Two b0 Hb0) as (y & z & b' & ->). exists b'. rewrite !zlen_cons. cbn [skipn tl]. sp; auto; try lia. - apply wr_end; auto. - rewrite wr_end by (rewrite zlen_app, zlen_cons, zlen_nil; lia). rewrite <- (app_assoc a). reflexivity. }
    assert (Hx16 : Z.shiftr x 4 = x / 16) by (rewrite Z.shiftr_div_pow2 by lia; reflexivity). assert (Hxm : Z.land x 15 = x mod 16) by (change 15 with (Z.ones 4); rewrite Z.land_ones by lia; reflexivity).
    rewrite (andb_comm lst). destruct (negb al && lst) eqn:EL.
    + (* last byte, no delimiter *)
      cbn [andb]. replace (negb al && lst && (2 <=? zlen b - 1)) with (2 <=? zlen b - 1) by (rewrite EL; reflexivity).
      destruct (2 <=? zlen b - 1) eqn:E2; cbn [andb negb].
      * rewrite andb_false_r. rewrite Erd. cbn [bind]. rewrite Hx16, hex_char by lia. cbn [bind]. destruct (W b ltac:(lia)) as (b' & W1 & W2 & W3 & W4). rewrite W3. cbn [bind]. rewrite Hxm, hex_char by lia. cbn [bind]. rewrite W4. cbn [bind]. change (length (dump1 x)) with 2%nat. rewrite W1. reflexivity.
      * replace (zlen b - 1 <? 2 + zlen delim) with true by lia. cbn [andb length skipn]. rewrite app_nil_r, zlen_nil, Z.add_0_r. reflexivity.
    + cbn [andb]. rewrite andb_true_r. destruct (2 + zlen delim <=? zlen b - 1) eqn:E2.
      * replace (zlen b - 1 <? 2 + zlen delim) with false by lia. cbn [andb]. rewrite Erd. cbn [bind]. rewrite Hx16, hex_char by lia. cbn [bind]. destruct (W b ltac:(lia)) as (b' & W1 & W2 & W3 & W4). rewrite W3. cbn [bind]. rewrite Hxm, hex_char by lia. cbn [bind]. rewrite W4. cbn [bind].
        replace (zlen a + 2) with (zlen (a ++ dump1 x)) by (rewrite zlen_app; reflexivity). rewrite delim_copy_spec by lia. cbn [bind]. replace (zlen (a ++ dump1 x) + zlen delim) with (zlen ((a ++ dump1 x) ++ delim)) by (rewrite !zlen_app; lia). replace (zlen pre + 1) with (zlen (pre ++ [x])) by (rewrite zlen_app, zlen_cons, zlen_nil; lia).
        assert (Hb'' : zlen (skipn (length delim) b') = zlen b - 2 - zlen delim). { unfold zlen in *. rewrite skipn_length. lia. }
        rewrite (IH (pre ++ [x])); auto; [|rewrite <- app_assoc; auto|rewrite Hb'', !zlen_app; change (zlen (dump1 x)) with 2; lia|lia]. cbv zeta. rewrite Hb''. replace (zlen b - 2 - zlen delim - 1) with (zlen b - 1 - 2 - zlen delim) by lia. set (dd := dumped delim (zlen b - 1 - 2 - zlen delim) al t).
        rewrite <- !app_assoc. rewrite !zlen_app. change (zlen (dump1 x)) with 2. f_equal. f_equal; [|lia]. do 4 f_equal. rewrite <- W1, !skipn_skipn. f_equal. rewrite !app_length. change (length (dump1 x)) with 2%nat. lia.
      * replace (zlen b - 1 <? 2 + zlen delim) with true by lia. cbn [andb length skipn]. rewrite app_nil_r, zlen_nil, Z.add_0_r. reflexivity.
Qed.
Lemma dumped_spec delim al : forall l room, 0 <= room ->
  dumped delim room al l = if negb al && negb (match l with [] => true | _ => false end) && ((2 + zlen delim) * zlen l - zlen delim <=? room) then dump_sep delim l else dump_all delim (firstn (Z.to_nat (room / (2 + zlen delim))) l).
Proof.
  pose proof (zlen_nonneg delim) as Hd. induction l as [|b t IH]; intros room Hr.
  - rewrite firstn_nil. cbn [negb]. rewrite andb_false_r. reflexivity.
  - cbn [dumped negb]. rewrite andb_true_r. rewrite zlen_cons. pose proof (zlen_nonneg t) as Ht. set (w := 2 + zlen delim) in *. assert (Hw : 2 <= w) by (unfold w; lia).
    assert (Small : room < w -> room / w = 0) by (intros; apply Z.div_small; lia).
    assert (Big : w <= room -> Z.to_nat (room / w) = S (Z.to_nat ((room - 2 - zlen delim) / w))). { intros Hwr. replace room with ((room - 2 - zlen delim) + 1 * w) at 1 by (unfold w; lia). rewrite Z.div_add by lia. assert (0 <= (room - 2 - zlen delim) / w) by (apply Z.div_pos; unfold w in *; lia). lia. }
    destruct t as [|b2 t].
    + rewrite zlen_nil. replace (w * (1 + 0) - zlen delim) with 2 by (unfold w; lia). destruct al; cbn [negb andb].
      * destruct (w <=? room) eqn:E. { rewrite Big by lia. cbn [firstn dump_all dumped]. rewrite firstn_nil; reflexivity. } rewrite Small by lia. reflexivity.
      * destruct (2 <=? room) eqn:E; [reflexivity|]. rewrite Small by lia. reflexivity.
    + set (T := b2 :: t) in *. rewrite andb_false_r. destruct (w <=? room) eqn:E.
      * rewrite IH by (unfold w in *; lia). cbn [negb]. rewrite andb_true_r. replace (w * zlen T - zlen delim <=? room - 2 - zlen delim) with (w * (1 + zlen T) - zlen delim <=? room) by (unfold w; lia).
        destruct (negb al && (w * (1 + zlen T) - zlen delim <=? room)); [reflexivity|]. rewrite Big by lia. reflexivity.
      * assert (1 <= zlen T) by (unfold T; rewrite zlen_cons; pose proof (zlen_nonneg t); lia). replace (w * (1 + zlen T) - zlen delim <=? room) with false by (assert (w * 2 <= w * (1 + zlen T)) by (apply Z.mul_le_mono_nonneg_l; lia); unfold w in *; lia). rewrite andb_false_r, Small by lia. reflexivity.
Qed.
Definition dump_text (delim : list Z) (al : bool) (room : Z) (l : list Z) : list Z :=
  if al then dump_all delim (firstn (Z.to_nat (room / (2 + zlen delim))) l)
  else if zlen (dump_sep delim l) <=? room then dump_sep delim l else dump_all delim (firstn (Z.to_nat (room / (2 + zlen delim))) l).
Lemma hexdump_spec out buf delim al : zlen delim < 2147483645 -> 1 <= zlen out < 2147483648 -> bytes buf ->
  let str := dumped delim (zlen out - 1) al buf in hexdump_buf out buf (zlen buf) delim al = Ok (str ++ 0 :: skipn (S (length str)) out, zlen str) /\ zlen str < zlen out.
Proof.
  intros Hd Ho Hb str. unfold hexdump_buf. replace (zlen out =? 0) with false by lia. pose proof (hexdump_loop_spec delim al buf (zlen out) Hd ltac:(lia) Hb buf [] [] out (Z.to_nat (zlen buf)) eq_refl) as L. change (zlen (@nil Z)) with 0 in L. cbn [app] in L.
  rewrite L by (unfold zlen in *; lia). cbv zeta. fold str. cbn [bind]. pose proof (zlen_dumped delim al buf (zlen out - 1) ltac:(lia)) as B. fold str in B. split; [|lia].
  assert (Hs : skipn (length str) out <> []). { intros E. apply (f_equal (@length Z)) in E. rewrite skipn_length in E. cbn in E. unfold zlen in *. lia. }
  destruct (skipn (length str) out) as [|x r] eqn:Er; [congruence|]. assert (Es : skipn (S (length str)) out = r). { change (S (length str)) with (1 + length str)%nat. rewrite <- skipn_skipn, Er. reflexivity. }
  rewrite wr_mid by lia. cbn [bind]. rewrite Es. f_equal.
Qed.

(* ------------ BCD ------------ *)
Lemma bcd2char_nib n : 0 <= n < 16 -> bcd2char n = bcd_char n.
Proof. intros H. unfold bcd2char, bcd_char, s8, u8. destruct (n <? 10) eqn:E; rewrite Z.mod_small by lia; match goal with |- context [?x <? 128] => replace (x <? 128) with true by lia end; lia. Qed.
Lemma char2bcd_nib n : 0 <= n < 16 -> char2bcd (bcd_char n) = n.
Proof.
  intros H. unfold char2bcd, bcd_char, u8. destruct (n <? 10) eqn:E.
  - replace ((48 <=? n + 48) && (n + 48 <=? 57)) with true by lia. rewrite Z.mod_small; lia.
  - replace ((48 <=? n + 55) && (n + 55 <=? 57)) with false by lia. replace ((65 <=? n + 55) && (n + 55 <=? 70)) with true by lia. rewrite Z.mod_small; lia.
Qed.
Lemma nib_read bcd i : 0 <= i -> Z.shiftr i 1 < zlen bcd -> bytes bcd -> exists b, rd bcd (Z.shiftr i 1) = Ok b /\ Z.land (if Z.land i 1 =? 0 then b else Z.shiftr b 4) 15 = nibble bcd i /\ 0 <= nibble bcd i < 16.
Proof.
  intros Hi Hl Hb. rewrite Z.shiftr_div_pow2 in * by lia. change (2 ^ 1) with 2 in *. exists (at0 bcd (i / 2)). split; [apply rd_at0; lia|]. pose proof (bytes_at0 bcd (i / 2) Hb) as B. unfold is_byte in B. unfold nibble. rewrite land1. destruct (i mod 2 =? 0); change 15 with (Z.ones 4); rewrite Z.land_ones by lia; change (2 ^ 4) with 16; [lia|]. rewrite Z.shiftr_div_pow2 by lia. change (2 ^ 4) with 16. lia.
Qed.
Definition nibs (bcd : list Z) (start n : Z) : list Z := map (nibble bcd) (zseq start (Z.to_nat n)).
Lemma bcd2str_loop_spec bcd allow_hex e : bytes bcd -> forall n a b i rc, 0 <= i -> zlen b = Z.of_nat n + 1 -> (e + 1) / 2 <= zlen bcd ->
  let k := Z.max 0 (Z.min (e - i) (Z.of_nat n)) in let ns := nibs bcd i k in
  bcd2str_loop (a ++ b) bcd (zlen a) i e allow_hex rc n = Ok ((a ++ map bcd_char ns) ++ skipn (Z.to_nat k) b, zlen a + k, if negb allow_hex && existsb (fun x => 9 <? x) ns then -22 else rc).
Proof.
  intros Hb. induction n as [|n IH]; intros a b i rc Hi Hlb He; cbv zeta; cbn [bcd2str_loop]; destruct (i <? e) eqn:E; cbn [negb].
  - replace (Z.max 0 (Z.min (e - i) (Z.of_nat 0))) with 0 by lia. unfold nibs. change (Z.to_nat 0) with O. cbn [zseq map existsb skipn]. rewrite andb_false_r, app_nil_r, Z.add_0_r. reflexivity.
  - replace (Z.max 0 (Z.min (e - i) (Z.of_nat 0))) with 0 by lia. unfold nibs. change (Z.to_nat 0) with O. cbn [zseq map existsb skipn]. rewrite andb_false_r, app_nil_r, Z.add_0_r. reflexivity.
  - destruct (nib_read bcd i Hi) as (x & -> & Ex & Hn); auto. { rewrite Z.shiftr_div_pow2 by lia. change (2 ^ 1) with 2. lia. } cbn [bind]. rewrite Ex. rewrite bcd2char_nib by auto. destruct b as [|y b]; [rewrite zlen_nil in Hlb; lia|]. rewrite zlen_cons in Hlb. rewrite wr_end by auto. cbn [bind].
    replace (zlen a + 1) with (zlen (a ++ [bcd_char (nibble bcd i)])) by (rewrite zlen_app, zlen_cons, zlen_nil; lia). rewrite IH by lia. cbv zeta.
    set (k := Z.max 0 (Z.min (e - (i + 1)) (Z.of_nat n))). replace (Z.max 0 (Z.min (e - i) (Z.of_nat (S n)))) with (k + 1) by (unfold k; lia). unfold nibs. replace (Z.to_nat (k + 1)) with (S (Z.to_nat k)) by (unfold k; lia). cbn [zseq map existsb skipn]. rewrite <- !app_assoc. cbn [app]. f_equal. f_equal; [f_equal|].
    + rewrite zlen_app, zlen_cons, zlen_nil. lia.
    + destruct allow_hex; cbn [negb andb]; auto. destruct (9 <? nibble bcd i); cbn [orb]; [destruct (existsb _ _); reflexivity|reflexivity].
  - replace (Z.max 0 (Z.min (e - i) (Z.of_nat (S n)))) with 0 by lia. unfold nibs. change (Z.to_nat 0) with O. cbn [zseq map existsb skipn]. rewrite andb_false_r, app_nil_r, Z.add_0_r. reflexivity.
Qed.
Lemma bcd2str_spec dst bcd start e allow_hex : bytes bcd -> 1 <= zlen dst -> 0 <= start -> (e + 1) / 2 <= zlen bcd -> is_s32 e -> is_s32 start ->
  let k := Z.max 0 (Z.min (e - start) (zlen dst - 1)) in let ns := nibs bcd start k in
  -2147483648 <= e - start ->
  bcd2str dst bcd start e allow_hex = Ok (map bcd_char ns ++ 0 :: skipn (Z.to_nat (k + 1)) dst, if negb allow_hex && existsb (fun x => 9 <? x) ns then -22 else Z.max 0 (e - start)).
Proof.
  intros Hb Hd Hs He Hi Hi2 k ns Hov. unfold bcd2str. replace ((zlen dst <? 1) || (start <? 0)) with false by lia.
  pose proof (bcd2str_loop_spec bcd allow_hex e Hb (Z.to_nat (zlen dst - 1)) [] dst start 0 Hs ltac:(lia) He) as L. cbv zeta in L. change (zlen (@nil Z)) with 0 in L. cbn [app] in L. rewrite L. clear L. cbn [bind]. rewrite Z2Nat.id by lia. fold k. fold ns.
  assert (Hk : 0 <= k < zlen dst) by (unfold k; lia). assert (Hns : skipn (Z.to_nat k) dst <> []). { intros E. apply (f_equal (@length Z)) in E. rewrite skipn_length in E. cbn in E. unfold zlen in *. lia. }
  destruct (skipn (Z.to_nat k) dst) as [|x r] eqn:Er; [congruence|]. rewrite wr_mid. 2: { unfold ns, nibs. unfold zlen. rewrite !map_length, zseq_length. lia. } cbn [bind].
  assert (Es : skipn (Z.to_nat (k + 1)) dst = r). { replace (Z.to_nat (k + 1)) with (1 + Z.to_nat k)%nat by lia. rewrite <- skipn_skipn, Er. reflexivity. } rewrite Es.
  destruct (negb allow_hex && existsb (fun x0 => 9 <? x0) ns); [reflexivity|]. replace (e - start <? -2147483648) with false by lia. reflexivity.
Qed.
(* the value of a digit character for str2bcd *)
Definition bcdval (allow_hex : bool) (c : Z) : option Z := match hexval c with Some v => if (9 <? v) && negb allow_hex then None else Some v | None => None end.
Lemma str_digit allow_hex c (r : list Z) : (if (48 <=? c) && (c <=? 57) then Ok (u8 (c - 48), r) else if allow_hex && (65 <=? c) && (c <=? 70) then Ok (u8 (10 + (c - 65)), r) else if allow_hex && (97 <=? c) && (c <=? 102) then Ok (u8 (10 + (c - 97)), r) else Err (-22)) = match bcdval allow_hex c with Some v => Ok (v, r) | None => Err (-22) end.
Proof.
  unfold bcdval, hexval, u8. destruct ((48 <=? c) && (c <=? 57)) eqn:E1. { replace (9 <? c - 48) with false by lia. cbn [andb]. rewrite Z.mod_small by lia. reflexivity. }
  destruct allow_hex; cbn [andb negb].
  - destruct ((97 <=? c) && (c <=? 102)) eqn:E3.
    + replace ((65 <=? c) && (c <=? 70)) with false by lia. rewrite andb_false_r, Z.mod_small by lia. do 2 f_equal. lia.
    + destruct ((65 <=? c) && (c <=? 70)) eqn:E2; auto. rewrite andb_false_r, Z.mod_small by lia. do 2 f_equal. lia.
  - destruct ((97 <=? c) && (c <=? 102)) eqn:E3; [replace (9 <? c - 87) with true by lia; reflexivity|]. destruct ((65 <=? c) && (c <=? 70)) eqn:E2; [replace (9 <? c - 55) with true by lia; reflexivity|reflexivity].
Qed.
Fixpoint bcdvals (allow_hex : bool) (n : nat) (s : list Z) : option (list Z) :=
  match n with
  | O => Some []
  | S n => match s with [] => option_map (cons 15) (bcdvals allow_hex n []) | c :: r => match bcdval allow_hex c with None => None | Some v => option_map (cons v) (bcdvals allow_hex n r) end end
  end.
Lemma bcdval_range a c v : bcdval a c = Some v -> 0 <= v < 16.
Proof. unfold bcdval. destruct (hexval c) eqn:E; [|discriminate]. apply hexval_range in E. destruct (_ && _); [discriminate|]. intros H. injection H as <-. auto. Qed.
Lemma set_nib dst i v : bytes dst -> 0 <= i -> i / 2 < zlen dst -> 0 <= v < 16 -> let o := at0 dst (i / 2) in let x := if Z.land i 1 =? 0 then Z.lor (Z.land o 240) v else u8 (Z.lor (Z.shiftl v 4) (Z.land o 15)) in
  let dst' := upd dst (Z.to_nat (i / 2)) x in bytes dst' /\ zlen dst' = zlen dst /\ forall j, 0 <= j -> nibble dst' j = if j =? i then v else nibble dst j.
Proof.
  intros Hb Hi Hl Hv o x dst'. pose proof (bytes_at0 dst (i / 2) Hb) as Ho. fold o in Ho. unfold is_byte in Ho.
  assert (Hx : x = if i mod 2 =? 0 then o / 16 * 16 + v else v * 16 + o mod 16).
  { unfold x. rewrite land1. destruct (i mod 2 =? 0).
    - replace (Z.land o 240) with (o / 16 * 16). { apply lor_nib; lia. } symmetry. assert (G : (Z.land o 240 =? o / 16 * 16) = true) by (apply (forall_byte (fun o => Z.land o 240 =? o / 16 * 16)); [vm_compute; reflexivity|exact Ho]). lia.
    - rewrite Z.shiftl_mul_pow2 by lia. change (2 ^ 4) with 16. change 15 with (Z.ones 4). rewrite Z.land_ones by lia. change (2 ^ 4) with 16. rewrite lor_nib by lia. apply u8_small. unfold is_byte. lia. }
  assert (Hxb : is_byte x) by (unfold is_byte; rewrite Hx; destruct (i mod 2 =? 0); lia).
  split; [apply Forall_upd; auto|]. split; [unfold dst', zlen; rewrite upd_length; reflexivity|]. intros j Hj. unfold nibble. unfold dst'. assert (Ea : at0 (upd dst (Z.to_nat (i / 2)) x) (j / 2) = if j / 2 =? i / 2 then x else at0 dst (j / 2)).
  { unfold at0. destruct (j / 2 =? i / 2) eqn:E. - replace (j / 2) with (i / 2) by lia. apply upd_nth_same. unfold zlen in Hl. lia. - apply upd_nth_other. lia. }
  rewrite Ea. destruct (j / 2 =? i / 2) eqn:E2.
  - replace (j / 2) with (i / 2) by lia. fold o. rewrite Hx. destruct (i mod 2 =? 0) eqn:Ei, (j mod 2 =? 0) eqn:Ej.
    + replace (j =? i) with true by lia. lia.
    + replace (j =? i) with false by lia. lia.
    + replace (j =? i) with false by lia. lia.
    + replace (j =? i) with true by lia. lia.
  - replace (j =? i) with false by lia. reflexivity.
Qed.
Lemma str2bcd_loop_spec allow_hex : forall n dst s i, bytes dst -> 0 <= i -> (i + Z.of_nat n + 1) / 2 <= zlen dst ->
  match bcdvals allow_hex n s with
  | None => str2bcd_loop dst s i allow_hex n = Err (-22)
  | Some vs => exists dst', str2bcd_loop dst s i allow_hex n = Ok dst' /\ bytes dst' /\ zlen dst' = zlen dst /\ forall j, 0 <= j -> nibble dst' j = if (i <=? j) && (j <? i + Z.of_nat n) then at0 vs (j - i) else nibble dst j
  end.
Proof.
  induction n as [|n IH]; intros dst s i Hb Hi Hl; cbn [bcdvals str2bcd_loop].
  - exists dst. sp; auto. intros j Hj. replace ((i <=? j) && (j <? i + Z.of_nat 0)) with false by lia. reflexivity.
  - assert (Step : forall v r, 0 <= v < 16 -> match bcdvals allow_hex n r with None => (do o <- rd dst (Z.shiftr i 1);; do dst0 <- wr dst (Z.shiftr i 1) (if Z.land i 1 =? 0 then Z.lor (Z.land o 240) (Z.land v 15) else u8 (Z.lor (Z.shiftl (Z.land v 15) 4) (Z.land o 15)));; str2bcd_loop dst0 r (i + 1) allow_hex n) = Err (-22)
      | Some vs => exists dst', (do o <- rd dst (Z.shiftr i 1);; do dst0 <- wr dst (Z.shiftr i 1) (if Z.land i 1 =? 0 then Z.lor (Z.land o 240) (Z.land v 15) else u8 (Z.lor (Z.shiftl (Z.land v 15) 4) (Z.land o 15)));; str2bcd_loop dst0 r (i + 1) allow_hex n) = Ok dst' /\ bytes dst' /\ zlen dst' = zlen dst /\ forall j, 0 <= j -> nibble dst' j = if (i <=? j) && (j <? i + Z.of_nat (S n)) then at0 (v :: vs) (j - i) else nibble dst j end).
    { intros v r Hv. assert (Ev : Z.land v 15 = v) by (change 15 with (Z.ones 4); rewrite Z.land_ones by lia; apply Z.mod_small; auto). rewrite Ev. rewrite Z.shiftr_div_pow2 by lia. change (2 ^ 1) with 2. rewrite rd_at0 by lia. cbn [bind]. rewrite wr_in by lia. cbn [bind].
      destruct (set_nib dst i v Hb Hi ltac:(lia) Hv) as (S1 & S2 & S3). cbv zeta in S1, S2, S3. set (d1 := upd dst _ _) in *. specialize (IH d1 r (i + 1) S1 ltac:(lia) ltac:(lia)). destruct (bcdvals allow_hex n r) as [vs|]; [|exact IH].
      destruct IH as (d2 & I1 & I2 & I3 & I4). exists d2. sp; auto; [congruence|]. intros j Hj. rewrite I4, S3 by lia. destruct (j =? i) eqn:Eji.
      - replace ((i + 1 <=? j) && (j <? i + 1 + Z.of_nat n)) with false by lia. replace ((i <=? j) && (j <? i + Z.of_nat (S n))) with true by lia. replace (j - i) with 0 by lia. reflexivity.
      - destruct ((i + 1 <=? j) && (j <? i + 1 + Z.of_nat n)) eqn:Er.
        + replace ((i <=? j) && (j <? i + Z.of_nat (S n))) with true by lia. unfold at0. replace (Z.to_nat (j - i)) with (S (Z.to_nat (j - (i + 1)))) by lia. reflexivity.
        + replace ((i <=? j) && (j <? i + Z.of_nat (S n))) with false by lia. reflexivity. }
    destruct s as [|c r].
    + cbn [bind]. specialize (Step 15 [] ltac:(lia)). destruct (bcdvals allow_hex n []); exact Step.
    + rewrite str_digit. destruct (bcdval allow_hex c) as [v|] eqn:Ev; cbn [bind]; [|reflexivity]. specialize (Step v r (bcdval_range _ _ _ Ev)). destruct (bcdvals allow_hex n r); exact Step.
Qed.
Definition hexdigit (c : Z) : Z := match hexval c with Some v => v | None => 0 end.
Definition valid_digit (allow_hex : bool) (c : Z) : Prop := exists v, hexval c = Some v /\ (allow_hex = true \/ v <= 9).
Lemma bcdval_valid a c : (exists v, bcdval a c = Some v /\ v = hexdigit c) /\ valid_digit a c \/ bcdval a c = None /\ ~ valid_digit a c.
Proof.
  unfold bcdval, valid_digit, hexdigit. destruct (hexval c) as [v|] eqn:E; [|right; split; auto; intros (v & H & _); discriminate]. destruct ((9 <? v) && negb a) eqn:Eb.
  - right. split; auto. intros (w & H & C). injection H as <-. destruct a; [lia|]. destruct C; [discriminate|lia].
  - left. split; [eauto|]. exists v. split; auto. destruct a; auto. cbn [negb] in Eb. right. lia.
Qed.
Lemma bcdvals_spec a : forall n s, match bcdvals a n s with
  | Some vs => length vs = n /\ forall k, (k < n)%nat -> match nth_error s k with Some c => valid_digit a c /\ nth k vs 0 = hexdigit c | None => nth k vs 0 = 15 end
  | None => exists k c, (k < n)%nat /\ nth_error s k = Some c /\ ~ valid_digit a c end.
Proof.
  induction n as [|n IH]; intros s; cbn [bcdvals]; [split; auto; intros; lia|]. destruct s as [|c r].
  - specialize (IH []). destruct (bcdvals a n []) as [vs|]; cbn [option_map].
    + destruct IH as [I1 I2]. split; [cbn [length]; lia|]. intros [|k] Hk; [reflexivity|]. specialize (I2 k ltac:(lia)). destruct k; exact I2.
    + destruct IH as (k & c & _ & H & _). destruct k; discriminate.
  - destruct (bcdval_valid a c) as [[(v & -> & Ev) V]|[-> V]].
    + specialize (IH r). destruct (bcdvals a n r) as [vs|]; cbn [option_map].
      * destruct IH as [I1 I2]. split; [cbn [length]; lia|]. intros [|k] Hk; [cbn; auto|]. apply (I2 k). lia.
      * destruct IH as (k & c' & H1 & H2 & H3). exists (S k), c'. sp; auto. lia.
    + exists O, c. sp; auto. lia.
Qed.
Lemma zseq_nth n : forall i start, (i < n)%nat -> nth i (zseq start n) 0 = start + Z.of_nat i.
Proof. induction n; intros i start H; [lia|]. destruct i; cbn [zseq nth]; [lia|]. rewrite IHn by lia. lia. Qed.
