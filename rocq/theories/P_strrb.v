From Verif Require Import Base Lib M_strrb.

Definition cut (d : list Z) : list Z := firstn 239 d.
Definition cstring (d : list Z) : Prop := Forall (fun c => c <> 0) d.

Definition kept (size n : Z) : Z := Z.min n (size - 1).

Record inv (size : Z) (h : list (list Z)) (rb : strrb) : Prop := Inv {
  v_size : rsize rb = size;
  v_buf : zlen (rbuf rb) = size;
  v_slot : Forall (fun s => zlen s = 240) (rbuf rb);
  v_end : rend rb = zlen h mod size;
  v_start : rstart rb = (zlen h - kept size (zlen h)) mod size;
  v_cont : forall i, zlen h - kept size (zlen h) <= i < zlen h ->
     cstr (nth (Z.to_nat (i mod size)) (rbuf rb) []) = cut (nth (Z.to_nat i) h [])
}.

Lemma cstr_app a t : cstring a -> cstr (a ++ 0 :: t) = a.
Proof. induction 1 as [|c a Hc _ IH]; cbn [app cstr]; [reflexivity|]. replace (c =? 0) with false by lia. rewrite IH. auto. Qed.

Lemma slot_write slot data len : zlen slot = 240 -> cstring data -> 0 <= len <= 239 -> len <= zlen data ->
  exists s, (do s <- memcpy slot 0 data 0 len ;; wr s len 0) = Ok s /\ zlen s = 240 /\ cstr s = firstn (Z.to_nat len) data.
Proof.
  intros Hs Hd Hl Hl2. destruct (memcpy_ok slot 0 data 0 len) as (s1 & E & L & A); try lia. rewrite E. cbn [bind].
  rewrite wr_in by lia. eexists; split; [reflexivity|]. split; [rewrite zlen_upd; lia|].
  assert (Es : s1 = firstn (Z.to_nat len) data ++ skipn (Z.to_nat len) s1).
  { rewrite <- (firstn_skipn (Z.to_nat len) s1) at 1. f_equal.
    apply at0_ext. { unfold zlen in *. rewrite !firstn_length. lia. }
    intros i Hi. assert (i < len) by (unfold zlen in *; rewrite firstn_length in Hi; lia). rewrite !at0_firstn by lia. replace (i <? len) with true by lia. rewrite A by lia.
    replace ((0 <=? i) && (i <? 0 + len)) with true by lia. f_equal. lia. }
  assert (Hsk : exists x t, skipn (Z.to_nat len) s1 = x :: t).
  { destruct (skipn (Z.to_nat len) s1) eqn:Ek; eauto. exfalso. apply (f_equal (@length Z)) in Ek. rewrite skipn_length in Ek. unfold zlen in *. cbn in Ek. lia. }
  destruct Hsk as (x & t & Ek). rewrite Ek in Es. rewrite Es.
  assert (Hf : length (firstn (Z.to_nat len) data) = Z.to_nat len) by (rewrite firstn_length; unfold zlen in *; lia).
  replace (upd (firstn (Z.to_nat len) data ++ x :: t) (Z.to_nat len) 0) with (firstn (Z.to_nat len) data ++ 0 :: t).
  - apply cstr_app. unfold cstring in *. rewrite Forall_forall in *. intros y Hy. apply Hd. rewrite <- (firstn_skipn (Z.to_nat len) data). apply in_or_app; auto.
  - revert Hf. generalize (firstn (Z.to_nat len) data). intros l <-. induction l; cbn; auto. f_equal. auto.
Qed.

Lemma mod_neq a b n : 0 < n -> 0 < a - b < n -> a mod n <> b mod n.
Proof.
  intros Hn Hd E. pose proof (Z.div_mod a n ltac:(lia)). pose proof (Z.div_mod b n ltac:(lia)).
  assert (Hx : a - b = n * (a / n - b / n)) by lia.
  destruct (Z_lt_le_dec (a / n - b / n) 1).
  - assert (n * (a / n - b / n) <= 0) by (apply Z.mul_nonneg_nonpos; lia). lia.
  - assert (n * 1 <= n * (a / n - b / n)) by (apply Z.mul_le_mono_nonneg_l; lia). lia.
Qed.

Lemma nth_upd_ne (l : list (list Z)) i j v : i <> j -> nth j (upd l i v) [] = nth j l [].
Proof. revert i j; induction l as [|x l IH]; intros [|i] [|j] H; cbn; auto; try congruence. Qed.
Lemma nth_upd_eq (l : list (list Z)) i v : (i < length l)%nat -> nth i (upd l i v) [] = v.
Proof. revert i; induction l as [|x l IH]; intros [|i] H; cbn in *; auto; try lia. apply IH. lia. Qed.

Lemma add_inv size h rb d : 1 <= size <= 65535 -> cstring d -> inv size h rb ->
  exists rb', osmo_strrb_add rb d = Ok (rb', if 240 <=? zlen d then 1 else 0) /\ inv size (h ++ [d]) rb'.
Proof.
  intros Hs Hd [V1 V2 V3 V4 V5 V6]. unfold osmo_strrb_add.
  pose proof (zlen_nonneg h) as Hh. pose proof (zlen_nonneg d) as Hd0.
  assert (He : 0 <= rend rb < size) by (rewrite V4; apply Z.mod_pos_bound; lia).
  assert (Hst : 0 <= rstart rb < size) by (rewrite V5; apply Z.mod_pos_bound; lia).
  destruct (nth_error (rbuf rb) (Z.to_nat (rend rb))) as [slot|] eqn:Es.
  2:{ apply nth_error_None in Es. unfold zlen in V2. lia. }
  assert (Hsl : zlen slot = 240) by (rewrite Forall_forall in V3; apply V3; eapply nth_error_In; eauto).
  assert (Hlen : forall len ret, 0 <= len <= 239 -> len <= zlen d -> firstn (Z.to_nat len) d = cut d ->
    exists rb', (do slot <- memcpy slot 0 d 0 len ;; do slot <- wr slot len 0 ;;
      let buf := upd (rbuf rb) (Z.to_nat (rend rb)) slot in
      if rsize rb =? 0 then UB else
      let e := u16 (rend rb + 1) mod rsize rb in
      let s := if e =? rstart rb then u16 (rstart rb + 1) mod rsize rb else rstart rb in
      Ok (Rb s e (rsize rb) buf, ret : Z)) = Ok (rb', ret) /\ inv size (h ++ [d]) rb').
  { intros len ret H1 H2 H3. destruct (slot_write slot d len Hsl Hd H1 H2) as (s & E & Ls & Cs).
    destruct (memcpy slot 0 d 0 len) as [s0| | |]; try discriminate. cbn [bind] in *. rewrite E. cbn [bind]. cbv zeta.
    rewrite V1. replace (size =? 0) with false by lia. rewrite !u16_small by (unfold is_u16; lia).
    eexists. split; [reflexivity|].
    assert (Zh : zlen (h ++ [d]) = zlen h + 1) by (rewrite zlen_app; reflexivity).
    assert (Em : (rend rb + 1) mod size = (zlen h + 1) mod size) by (rewrite V4; apply Zplus_mod_idemp_l).
    rewrite Em. constructor; cbn [rsize rbuf rstart rend]; auto.
    - unfold zlen in *. rewrite upd_length. auto.
    - apply Forall_upd; auto.
    - rewrite Zh. reflexivity.
    - rewrite Zh. unfold kept in *. destruct (Z_lt_le_dec (zlen h) (size - 1)).
      + replace (Z.min (zlen h) (size - 1)) with (zlen h) in V5 by lia. rewrite Z.sub_diag in V5. rewrite Z.mod_0_l in V5 by lia.
        replace (Z.min (zlen h + 1) (size - 1)) with (zlen h + 1) by lia. rewrite Z.sub_diag, Z.mod_0_l by lia.
        rewrite (Z.mod_small (zlen h + 1)) by lia. replace (zlen h + 1 =? rstart rb) with false by lia. auto.
      + replace (Z.min (zlen h) (size - 1)) with (size - 1) in V5 by lia.
        replace (Z.min (zlen h + 1) (size - 1)) with (size - 1) by lia.
        assert (Ee : (zlen h + 1) mod size = rstart rb).
        { rewrite V5. replace (zlen h - (size - 1)) with (zlen h + 1 + (-1) * size) by lia. rewrite Z.mod_add by lia. auto. }
        rewrite Ee, Z.eqb_refl, V5. rewrite Zplus_mod_idemp_l. f_equal. lia.
    - rewrite Zh. intros i Hi. unfold kept in Hi. destruct (Z.eq_dec i (zlen h)) as [->|Hne].
      + rewrite <- V4, nth_upd_eq by (unfold zlen in V2; lia). rewrite Cs, H3. f_equal. rewrite app_nth2 by (unfold zlen; lia).
        replace (Z.to_nat (zlen h) - length h)%nat with 0%nat by (unfold zlen; lia). reflexivity.
      + rewrite nth_upd_ne.
        * rewrite V6 by (unfold kept; lia). rewrite app_nth1 by (unfold zlen in *; lia). auto.
        * rewrite V4. intros Eq. apply Z2Nat.inj in Eq; try (apply Z.mod_pos_bound; lia).
          revert Eq. apply mod_neq; lia. }
  unfold RB_MAX_MESSAGE_SIZE. destruct (Z.leb_spec 240 (zlen d)).
  - apply (Hlen 239 1); try lia. reflexivity.
  - apply (Hlen (zlen d) 0); try lia. unfold cut, zlen in *. rewrite Nat2Z.id, !firstn_all2 by lia. auto.
Qed.

Lemma create_inv size : 1 <= size <= 65535 -> inv size [] (osmo_strrb_create size).
Proof.
  intros Hs. unfold osmo_strrb_create. rewrite u16_small by (unfold is_u16; lia). constructor; cbn [rsize rbuf rstart rend]; auto.
  - unfold zlen. rewrite repeat_length. lia.
  - apply Forall_forall. intros x Hx. apply repeat_spec in Hx. subst. reflexivity.
  - unfold kept. change (zlen (@nil (list Z))) with 0. rewrite Z.min_l by lia. reflexivity.
  - unfold kept. change (zlen (@nil (list Z))) with 0. intros; lia.
Qed.

Lemma adds_inv size : 1 <= size <= 65535 -> forall l h rb, Forall cstring l -> inv size h rb ->
  exists rb', adds rb l = Ok (rb', map (fun d => if 240 <=? zlen d then 1 else 0) l) /\ inv size (h ++ l) rb'.
Proof.
  intros Hs. induction l as [|d l IH]; intros h rb F V; cbn [adds map].
  - exists rb. rewrite app_nil_r. auto.
  - inversion F; subst. destruct (add_inv size h rb d Hs) as (rb1 & E & V1); auto. rewrite E. cbn [bind].
    destruct (IH (h ++ [d]) rb1) as (rb2 & E2 & V2); auto. rewrite E2. cbn [bind]. exists rb2. split; auto.
    rewrite <- app_assoc in V2. exact V2.
Qed.

Lemma start_end size h rb : 1 <= size <= 65535 -> inv size h rb ->
  (zlen h <= size - 1 /\ rstart rb = 0 /\ rend rb = zlen h) \/
  (size - 1 < zlen h /\ kept size (zlen h) = size - 1 /\ rend rb = zlen h mod size /\ rstart rb = (if rend rb =? size - 1 then 0 else rend rb + 1)).
Proof.
  intros Hs [V1 V2 V3 V4 V5 V6]. unfold kept in *. pose proof (zlen_nonneg h). destruct (Z_le_gt_dec (zlen h) (size - 1)).
  - left. replace (Z.min (zlen h) (size - 1)) with (zlen h) in V5 by lia. rewrite Z.sub_diag, Z.mod_0_l in V5 by lia.
    rewrite Z.mod_small in V4 by lia. auto.
  - right. split; [lia|]. split; [lia|]. split; auto. rewrite V5. replace (Z.min (zlen h) (size - 1)) with (size - 1) by lia.
    replace (zlen h - (size - 1)) with (zlen h + 1 + (-1) * size) by lia. rewrite Z.mod_add by lia.
    rewrite <- Zplus_mod_idemp_l, <- V4. pose proof (Z.mod_pos_bound (zlen h) size ltac:(lia)).
    destruct (Z.eqb_spec (rend rb) (size - 1)) as [->|]; [|apply Z.mod_small; lia].
    replace (size - 1 + 1) with size by lia. apply Z.mod_same. lia.
Qed.

Lemma elements_ok size h rb : 1 <= size <= 65535 -> inv size h rb -> osmo_strrb_elements rb = kept size (zlen h).
Proof.
  intros Hs V. pose proof (start_end size h rb Hs V) as D. pose proof (v_size _ _ _ V) as V1. pose proof (v_end _ _ _ V) as V4.
  pose proof (Z.mod_pos_bound (zlen h) size ltac:(lia)). pose proof (zlen_nonneg h).
  unfold osmo_strrb_elements. rewrite V1. destruct D as [(D1 & -> & ->)|(D1 & D2 & D3 & D4)].
  - replace (zlen h <? 0) with false by lia. unfold kept. lia.
  - rewrite D2, D4. destruct (Z.eqb_spec (rend rb) (size - 1)).
    + replace (rend rb <? 0) with false by lia. lia.
    + replace (rend rb <? rend rb + 1) with true by lia. lia.
Qed.

Lemma get_ok size h rb i : 1 <= size <= 65535 -> inv size h rb -> 0 <= i < size ->
  osmo_strrb_get_nth rb i = if i <? kept size (zlen h) then Some (cut (nth (Z.to_nat (zlen h - kept size (zlen h) + i)) h [])) else None.
Proof.
  intros Hs V Hi. pose proof (start_end size h rb Hs V) as D. destruct V as [V1 V2 V3 V4 V5 V6].
  pose proof (Z.mod_pos_bound (zlen h) size ltac:(lia)). pose proof (zlen_nonneg h).
  unfold osmo_strrb_get_nth, bufindex_valid, osmo_strrb_is_empty. rewrite V1.
  assert (Hst : 0 <= rstart rb < size) by (rewrite V5; apply Z.mod_pos_bound; lia).
  rewrite u32_small by (unfold is_u32; lia).
  destruct D as [(D1 & D2 & D3)|(D1 & D2 & D3 & D4)].
  - unfold kept in *. replace (Z.min (zlen h) (size - 1)) with (zlen h) in * by lia.
    rewrite D2, D3. replace (zlen h <? 0) with false by lia. rewrite andb_false_r, Z.add_0_r. replace (size <=? i) with false by lia.
    destruct (Z.ltb_spec i (zlen h)).
    + replace (zlen h =? 0) with false by lia. replace (0 <? zlen h) with true by lia. replace ((0 <=? i) && true) with true by lia.
      f_equal. rewrite <- V6 by lia. rewrite Z.sub_diag, Z.add_0_l, Z.mod_small by lia. reflexivity.
    + destruct (Z.eqb_spec (zlen h) 0); auto. replace (0 <? zlen h) with true by lia. rewrite andb_false_r. auto.
  - rewrite D2 in *. destruct (Z.eqb_spec (rend rb) (size - 1)) as [Ee|Ee].
    + rewrite D4. replace (rend rb <? 0) with false by lia. rewrite andb_false_r, Z.add_0_r. replace (size <=? i) with false by lia.
      destruct (Z.ltb_spec i (size - 1)).
      * replace (rend rb =? 0) with false by lia. replace (0 <? rend rb) with true by lia. replace ((0 <=? i) && (i <? rend rb)) with true by lia.
        f_equal. rewrite <- V6 by lia. f_equal. f_equal. f_equal.
        rewrite <- Zplus_mod_idemp_l, <- V5, D4. rewrite Z.add_0_l. symmetry. apply Z.mod_small. lia.
      * destruct (Z.eqb_spec (rend rb) 0); auto. replace (0 <? rend rb) with true by lia. replace ((0 <=? i) && (i <? rend rb)) with false by lia. auto.
    + rewrite D4. replace (rend rb <? rend rb + 1) with true by lia. rewrite andb_true_r.
      replace (rend rb =? rend rb + 1) with false by lia. replace (rend rb + 1 <? rend rb) with false by lia.
      assert (Ho : (if size <=? i + (rend rb + 1) then u32 (i + (rend rb + 1) - size) else i + (rend rb + 1)) = (rend rb + 1 + i) mod size).
      { destruct (Z.leb_spec size (i + (rend rb + 1))).
        - rewrite u32_small by (unfold is_u32; lia). replace (rend rb + 1 + i) with (i + (rend rb + 1) - size + 1 * size) by lia. rewrite Z.mod_add, Z.mod_small by lia. auto.
        - rewrite Z.mod_small by lia. lia. }
      rewrite Ho. pose proof (Z.mod_pos_bound (rend rb + 1 + i) size ltac:(lia)). replace (size <=? (rend rb + 1 + i) mod size) with false by lia.
      assert (Hm : (rend rb + 1 + i) mod size = if size <=? rend rb + 1 + i then rend rb + 1 + i - size else rend rb + 1 + i).
      { destruct (Z.leb_spec size (rend rb + 1 + i)).
        - replace (rend rb + 1 + i) with (rend rb + 1 + i - size + 1 * size) at 1 by lia. rewrite Z.mod_add, Z.mod_small by lia. auto.
        - apply Z.mod_small. lia. }
      destruct (Z.ltb_spec i (size - 1)).
      * replace (((rend rb + 1 + i) mod size <? rend rb) || (rend rb + 1 <=? (rend rb + 1 + i) mod size)) with true.
        -- f_equal. rewrite <- V6 by lia. do 3 f_equal. rewrite <- (Zplus_mod_idemp_l (zlen h - (size - 1))), <- V5, D4. reflexivity.
        -- rewrite Hm. destruct (Z.leb_spec size (rend rb + 1 + i)); lia.
      * replace (((rend rb + 1 + i) mod size <? rend rb) || (rend rb + 1 <=? (rend rb + 1 + i) mod size)) with false; auto.
        rewrite Hm. destruct (Z.leb_spec size (rend rb + 1 + i)); lia.
Qed.

Lemma strrb_main size l i : 1 <= size <= 65535 -> Forall cstring l -> 0 <= i < size ->
  let k := Z.min (zlen l) (size - 1) in
  exists rb, adds (osmo_strrb_create size) l = Ok (rb, map (fun d => if 240 <=? zlen d then 1 else 0) l) /\
    osmo_strrb_elements rb = k /\ (osmo_strrb_is_empty rb = true <-> k = 0) /\
    osmo_strrb_get_nth rb i = if i <? k then Some (firstn 239 (nth (Z.to_nat (zlen l - k + i)) l [])) else None.
Proof.
  intros Hs F Hi k. destruct (adds_inv size Hs l [] (osmo_strrb_create size) F (create_inv size Hs)) as (rb & E & V).
  cbn [app] in V. exists rb. split; auto. split; [apply elements_ok; auto|]. split; [|apply (get_ok size l); auto].
  pose proof (start_end _ _ _ Hs V) as D. pose proof (zlen_nonneg l). unfold osmo_strrb_is_empty, k.
  destruct D as [(D1 & -> & ->)|(D1 & D2 & D3 & ->)].
  - rewrite Z.eqb_eq. lia.
  - rewrite Z.eqb_eq. pose proof (Z.mod_pos_bound (zlen l) size ltac:(lia)). destruct (Z.eqb_spec (rend rb) (size - 1)); lia.
Qed.

(* non-wrapped buffers also answer NULL for any larger index *)
Lemma get_big_ok size l i rb rs : 1 <= size <= 65535 -> Forall cstring l -> zlen l < size -> size <= i < 4294967296 ->
  adds (osmo_strrb_create size) l = Ok (rb, rs) -> osmo_strrb_get_nth rb i = None.
Proof.
  intros Hs F Hl Hi E0. destruct (adds_inv size Hs l [] (osmo_strrb_create size) F (create_inv size Hs)) as (rb' & E & V).
  rewrite E0 in E. injection E as -> ->. cbn [app] in V. destruct (start_end _ _ _ Hs V) as [(D1 & D2 & D3)|D]; [|lia].
  unfold osmo_strrb_get_nth, bufindex_valid, osmo_strrb_is_empty. rewrite D2, D3, (v_size _ _ _ V).
  pose proof (zlen_nonneg l). replace (zlen l <? 0) with false by lia. rewrite andb_false_r, Z.add_0_r, u32_small by (unfold is_u32; lia).
  replace (size <=? i) with true by lia. destruct (zlen l =? 0); auto.
Qed.
