From Verif Require Import Base M_bitgen P_bitgen S_msgb M_msgb.

Definition same_hdrs (a b : msgb) : Prop :=
  data_len a = data_len b /\ l1h a = l1h b /\ l2h a = l2h b /\ l3h a = l3h b /\ l4h a = l4h b.

Definition hdrs_ok (m : msgb) : Prop :=
  match hdr_step (hdr_step (hdr_step (hdr_step (Some 0) (l1h m)) (l2h m)) (l3h m)) (l4h m) with
  | None => False | Some lb => lb <= data_len m end.

Lemma test_invariant_iff m :
  msgb_test_invariant m = true <->
  (mdata m + mlen m = mtail m /\ 0 <= mdata m /\ mtail m <= data_len m /\ hdrs_ok m).
Proof.
  unfold msgb_test_invariant, hdrs_ok.
  destruct (Z.eqb_spec (mdata m + mlen m) (mtail m)); simpl negb; cbn [orb].
  2:{ split; [discriminate|intuition]. }
  destruct (Z.ltb_spec (mdata m) 0); cbn [orb]. { split; [discriminate|lia]. }
  destruct (Z.ltb_spec (data_len m) (mtail m)); cbn [orb]. { split; [discriminate|lia]. }
  destruct (hdr_step _ (l4h m)).
  - rewrite Z.leb_le. intuition.
  - split; [discriminate|intuition].
Qed.

Lemma same_hdrs_ok a b : same_hdrs a b -> hdrs_ok a -> hdrs_ok b.
Proof. intros (H0&H1&H2&H3&H4). unfold hdrs_ok. rewrite H0,H1,H2,H3,H4. auto. Qed.

Lemma s32_small n : 0 <= n < 2147483648 -> s32 n = n.
Proof.
  intros. unfold s32. rewrite u32_small by (unfold is_u32; lia).
  destruct (Z.ltb_spec n 2147483648); lia.
Qed.

Lemma zslice_length (l : list Z) off n :
  0 <= off -> 0 <= n -> off + n <= zlen l -> zlen (zslice l off n) = n.
Proof. intros. unfold zslice, zlen in *. rewrite slice_length; lia. Qed.

Lemma msgb_ok_inv m : msgb_ok m ->
  0 <= mdata m /\ 0 <= mlen m /\ mtail m = mdata m + mlen m /\ mtail m <= data_len m /\
  zlen (mem m) = data_len m /\ bytes (mem m) /\ data_len m <= 65535 /\ hdrs_ok m.
Proof.
  intros (H & H1 & H2 & H3 & H4). apply test_invariant_iff in H. intuition.
Qed.

Lemma msgb_ok_intro m :
  0 <= mdata m -> 0 <= mlen m -> mtail m = mdata m + mlen m -> mtail m <= data_len m ->
  zlen (mem m) = data_len m -> bytes (mem m) -> data_len m <= 65535 -> hdrs_ok m -> msgb_ok m.
Proof. intros; split; [apply test_invariant_iff; intuition|intuition]. Qed.

Lemma content_len m : msgb_ok m -> zlen (content (view m)) = mlen m.
Proof. intros H; apply msgb_ok_inv in H. cbn [view content]. apply zslice_length; lia. Qed.

Lemma zlen_blit (l : list Z) off s : 0 <= off -> off + zlen s <= zlen l ->
  zlen (blit l (Z.to_nat off) s) = zlen l.
Proof. unfold zlen; intros. rewrite blit_length; lia. Qed.

(* slices of blits *)
Lemma zslice_ext (a b : list Z) o n o' n' :
  0 <= o -> 0 <= n -> o + n <= zlen a -> 0 <= o' -> n' = n -> o' + n <= zlen b ->
  (forall i, 0 <= i < n -> at0 a (o + i) = at0 b (o' + i)) ->
  zslice a o n = zslice b o' n'.
Proof.
  intros. subst n'. unfold zslice, zlen, at0 in *. apply (list_ext _ _ 0).
  - rewrite !slice_length; lia.
  - rewrite slice_length by lia. intros i Hi. rewrite !nth_slice.
    destruct (Nat.ltb_spec i (Z.to_nat n)); [|lia].
    specialize (H5 (Z.of_nat i) ltac:(lia)).
    replace (Z.to_nat o + i)%nat with (Z.to_nat (o + Z.of_nat i)) by lia.
    replace (Z.to_nat o' + i)%nat with (Z.to_nat (o' + Z.of_nat i)) by lia. auto.
Qed.

Lemma zslice_app_split (l : list Z) o a b :
  0 <= o -> 0 <= a -> 0 <= b -> zslice l o (a + b) = zslice l o a ++ zslice l (o + a) b.
Proof.
  intros. unfold zslice, slice.
  replace (Z.to_nat (a + b)) with (Z.to_nat a + Z.to_nat b)%nat by lia.
  replace (Z.to_nat (o + a)) with (Z.to_nat a + Z.to_nat o)%nat by lia.
  rewrite <- skipn_skipn.
  generalize (skipn (Z.to_nat o) l); intros k. generalize (Z.to_nat b). generalize (Z.to_nat a).
  clear. intros n; revert k; induction n; intros [|x k] p; simpl; auto.
  - destruct p; auto.
  - f_equal; auto.
Qed.

Lemma at0_blit l o s i : 0 <= o -> 0 <= i -> o + zlen s <= zlen l ->
  at0 (blit l (Z.to_nat o) s) i = if (o <=? i) && (i <? o + zlen s) then at0 s (i - o) else at0 l i.
Proof.
  intros. unfold at0, zlen in *. rewrite nth_blit by lia.
  replace (Z.to_nat (i - o)) with (Z.to_nat i - Z.to_nat o)%nat by lia.
  destruct (Nat.leb_spec (Z.to_nat o) (Z.to_nat i)); destruct (Z.leb_spec o i); try lia; cbn [andb]; auto.
  destruct (Nat.ltb_spec (Z.to_nat i) (Z.to_nat o + length s)); destruct (Z.ltb_spec i (o + Z.of_nat (length s))); try lia; auto.
Qed.

Lemma zslice_blit_same (l : list Z) o s : 0 <= o -> o + zlen s <= zlen l ->
  zslice (blit l (Z.to_nat o) s) o (zlen s) = s.
Proof. intros. unfold zslice, zlen in *. rewrite Nat2Z.id. apply slice_blit_same; lia. Qed.

Lemma zslice_blit_before (l : list Z) o s a n :
  0 <= a -> 0 <= n -> a + n <= o -> o + zlen s <= zlen l ->
  zslice (blit l (Z.to_nat o) s) a n = zslice l a n.
Proof.
  intros. pose proof (zlen_nonneg s). apply zslice_ext; try lia; try (rewrite zlen_blit by lia; lia).
  intros. rewrite at0_blit by lia.
  destruct (Z.leb_spec o (a + i)); cbn [andb]; auto; lia.
Qed.

Lemma zslice_blit_after (l : list Z) o s a n :
  0 <= o -> 0 <= n -> o + zlen s <= a -> a + n <= zlen l ->
  zslice (blit l (Z.to_nat o) s) a n = zslice l a n.
Proof.
  intros. pose proof (zlen_nonneg s). apply zslice_ext; try lia; try (rewrite zlen_blit by lia; lia).
  intros. rewrite at0_blit by lia.
  destruct (Z.ltb_spec (a + i) (o + zlen s)); try lia. rewrite andb_false_r; auto.
Qed.

(* --- put / push with data --- *)

Lemma put_ok m s : msgb_ok m -> bytes s -> zlen s < 2147483648 ->
  match d_put (view m) s with
  | None => (do '(p, m1) <- msgb_put m (zlen s) ;; write_bytes m1 p s) = Abort
  | Some d => exists m', (do '(p, m1) <- msgb_put m (zlen s) ;; write_bytes m1 p s) = Ok m'
               /\ view m' = d /\ msgb_ok m' /\ same_hdrs m m'
  end.
Proof.
  intros Hok Hs Hl. pose proof (msgb_ok_inv _ Hok) as (H1&H2&H3&H4&H5&H6&H7&H8).
  pose proof (zlen_nonneg s).
  unfold d_put. cbn [view troom hroom content]. unfold msgb_put, msgb_tailroom, msgb_headroom.
  rewrite s32_small by lia.
  destruct (Z.leb_spec (zlen s) (data_len m - mtail m)).
  - destruct (Z.ltb_spec (data_len m - mtail m) (zlen s)); [lia|]. cbn [bind].
    unfold write_bytes. cbn [mem].
    destruct (Z.ltb_spec (mtail m) 0); [lia|]. destruct (Z.ltb_spec (zlen (mem m)) (mtail m + zlen s)); [lia|].
    cbn [orb]. eexists; split; [reflexivity|].
    assert (u16 (mlen m + zlen s) = mlen m + zlen s) as Hu by (apply u16_small; unfold is_u16; lia).
    unfold view, set_mem, msgb_headroom, msgb_tailroom. cbn [mem mdata mtail mlen data_len]. rewrite Hu.
    split; [|split].
    + f_equal; [|lia]. rewrite zslice_app_split by lia.
      rewrite zslice_blit_before by lia. rewrite <- H3. rewrite zslice_blit_same by lia. reflexivity.
    + apply msgb_ok_intro; cbn [mem mdata mtail mlen data_len]; try lia.
      * rewrite zlen_blit by lia; lia.
      * apply Forall_blit; auto.
      * eapply same_hdrs_ok; [|exact H8]. repeat split.
    + repeat split.
  - destruct (Z.ltb_spec (data_len m - mtail m) (zlen s)); [reflexivity|lia].
Qed.

Lemma push_ok m s : msgb_ok m -> bytes s -> zlen s < 2147483648 ->
  match d_push (view m) s with
  | None => (do '(p, m1) <- msgb_push m (zlen s) ;; write_bytes m1 p s) = Abort
  | Some d => exists m', (do '(p, m1) <- msgb_push m (zlen s) ;; write_bytes m1 p s) = Ok m'
               /\ view m' = d /\ msgb_ok m' /\ same_hdrs m m'
  end.
Proof.
  intros Hok Hs Hl. pose proof (msgb_ok_inv _ Hok) as (H1&H2&H3&H4&H5&H6&H7&H8).
  pose proof (zlen_nonneg s).
  unfold d_push. cbn [view troom hroom content]. unfold msgb_push, msgb_headroom, msgb_tailroom.
  rewrite s32_small by lia.
  destruct (Z.leb_spec (zlen s) (mdata m)).
  - destruct (Z.ltb_spec (mdata m) (zlen s)); [lia|]. cbn [bind].
    unfold write_bytes. cbn [mem].
    destruct (Z.ltb_spec (mdata m - zlen s) 0); [lia|].
    destruct (Z.ltb_spec (zlen (mem m)) (mdata m - zlen s + zlen s)); [lia|].
    cbn [orb]. eexists; split; [reflexivity|].
    assert (u16 (mlen m + zlen s) = zlen s + mlen m) as Hu by (rewrite u16_small; unfold is_u16; lia).
    unfold view, set_mem, msgb_headroom, msgb_tailroom. cbn [mem mdata mtail mlen data_len]. rewrite Hu.
    split; [|split].
    + f_equal. rewrite zslice_app_split by lia.
      rewrite zslice_blit_same by lia. f_equal. rewrite zslice_blit_after by lia.
      f_equal; lia.
    + apply msgb_ok_intro; cbn [mem mdata mtail mlen data_len]; try lia.
      * rewrite zlen_blit by lia; lia.
      * apply Forall_blit; auto.
      * eapply same_hdrs_ok; [|exact H8]. repeat split.
    + repeat split.
  - destruct (Z.ltb_spec (mdata m) (zlen s)); [reflexivity|lia].
Qed.

Lemma firstn_zslice (l : list Z) o n k : 0 <= k <= n -> 0 <= o ->
  firstn (Z.to_nat k) (zslice l o n) = zslice l o k.
Proof. intros. unfold zslice, slice. rewrite firstn_firstn. f_equal; lia. Qed.

Lemma skipn_zslice (l : list Z) o n k : 0 <= k <= n -> 0 <= o -> o + n <= zlen l ->
  skipn (Z.to_nat k) (zslice l o n) = zslice l (o + k) (n - k).
Proof.
  intros. replace n with (k + (n - k)) at 1 by lia. rewrite zslice_app_split by lia.
  apply skipn_app_exact. 
  pose proof (zslice_length l o k ltac:(lia) ltac:(lia) ltac:(lia)) as E. unfold zlen in E. lia.
Qed.

Lemma get_ok m n : msgb_ok m -> 0 <= n < 4294967296 ->
  match d_get (view m) n with
  | None => (do '(p, m1) <- msgb_get m n ;; do l <- read_bytes m1 p n ;; Ok (m1, l)) = Abort
  | Some (d, out) => exists m', (do '(p, m1) <- msgb_get m n ;; do l <- read_bytes m1 p n ;; Ok (m1, l)) = Ok (m', out)
               /\ view m' = d /\ msgb_ok m' /\ same_hdrs m m'
  end.
Proof.
  intros Hok Hn. pose proof (msgb_ok_inv _ Hok) as (H1&H2&H3&H4&H5&H6&H7&H8).
  unfold d_get. rewrite content_len by auto. unfold msgb_get.
  destruct (Z.leb_spec n (mlen m)).
  - destruct (Z.ltb_spec (mlen m) n); [lia|]. cbn [bind].
    unfold read_bytes. cbn [mem].
    destruct (Z.ltb_spec (mtail m - n) 0); [lia|]. destruct (Z.ltb_spec n 0); [lia|].
    destruct (Z.ltb_spec (zlen (mem m)) (mtail m - n + n)); [lia|].
    cbn [orb bind]. eexists; split; [|split; [|split]].
    + f_equal. f_equal. cbn [view content]. rewrite skipn_zslice by lia. f_equal; lia.
    + unfold view, msgb_headroom, msgb_tailroom. cbn [mem mdata mtail mlen data_len content hroom troom].
      rewrite u16_small by (unfold is_u16; lia). f_equal; [|lia].
      rewrite firstn_zslice by lia. reflexivity.
    + apply msgb_ok_intro; cbn [mem mdata mtail mlen data_len]; rewrite ?u16_small by (unfold is_u16; lia); try lia; auto.
    + repeat split.
  - destruct (Z.ltb_spec (mlen m) n); [reflexivity|lia].
Qed.

Lemma pull_ok m n : msgb_ok m -> 0 <= n < 4294967296 ->
  match d_pull (view m) n with
  | None => (do '(p, m1) <- msgb_pull m n ;; do l <- read_bytes m1 (p - n) n ;; Ok (m1, l)) = Abort
  | Some (d, out) => exists m', (do '(p, m1) <- msgb_pull m n ;; do l <- read_bytes m1 (p - n) n ;; Ok (m1, l)) = Ok (m', out)
               /\ view m' = d /\ msgb_ok m' /\ same_hdrs m m'
  end.
Proof.
  intros Hok Hn. pose proof (msgb_ok_inv _ Hok) as (H1&H2&H3&H4&H5&H6&H7&H8).
  unfold d_pull. rewrite content_len by auto. unfold msgb_pull.
  destruct (Z.leb_spec n (mlen m)).
  - destruct (Z.ltb_spec (mlen m) n); [lia|]. cbn [bind].
    unfold read_bytes. cbn [mem].
    destruct (Z.ltb_spec (mdata m + n - n) 0); [lia|]. destruct (Z.ltb_spec n 0); [lia|].
    destruct (Z.ltb_spec (zlen (mem m)) (mdata m + n - n + n)); [lia|].
    cbn [orb bind]. eexists; split; [|split; [|split]].
    + f_equal. f_equal. cbn [view content]. rewrite firstn_zslice by lia. f_equal; lia.
    + unfold view, msgb_headroom, msgb_tailroom. cbn [mem mdata mtail mlen data_len content hroom troom].
      rewrite u16_small by (unfold is_u16; lia). f_equal.
      rewrite skipn_zslice by lia. reflexivity.
    + apply msgb_ok_intro; cbn [mem mdata mtail mlen data_len]; rewrite ?u16_small by (unfold is_u16; lia); try lia; auto.
    + repeat split.
  - destruct (Z.ltb_spec (mlen m) n); [reflexivity|lia].
Qed.

(* --- fixed-size integers reduce to byte strings --- *)

Lemma st_be_bytes m w x off : 0 <= w -> 0 <= off -> off + w <= zlen (mem m) ->
  st_be m w x off = write_bytes m off (be_bytes (Z.to_nat w) x).
Proof.
  intros. unfold st_be, write_bytes. destruct (Z.ltb_spec off 0); [lia|].
  assert (zlen (be_bytes (Z.to_nat w) x) = w) as Hz by (unfold zlen; rewrite be_bytes_length; lia).
  rewrite Hz. destruct (Z.ltb_spec (zlen (mem m)) (off + w)); [lia|]. cbn [orb].
  unfold store_be. rewrite store_be_ext_ok; [|lia|unfold zlen in *; rewrite skipn_length; lia].
  cbn [bind]. f_equal. f_equal. unfold blit. f_equal. f_equal.
  rewrite skipn_skipn. f_equal. rewrite be_bytes_length. lia.
Qed.

Lemma ld_be_bytes m w off : 0 <= w -> 0 <= off -> off + w <= zlen (mem m) -> bytes (mem m) ->
  ld_be m w off = do l <- read_bytes m off w ;; Ok (be_val l).
Proof.
  intros. unfold ld_be, read_bytes. destruct (Z.ltb_spec off 0); [lia|].
  destruct (Z.ltb_spec w 0); [lia|].
  destruct (Z.ltb_spec (zlen (mem m)) (off + w)); [lia|]. cbn [orb bind].
  unfold load_be. rewrite load_be_ext_ok; [|lia|unfold zlen in *; rewrite skipn_length; lia|apply Forall_skipn; auto].
  rewrite Z.sub_diag. rewrite Z.mul_1_r. reflexivity.
Qed.

Lemma zlen_be_bytes w x : 0 <= w -> zlen (be_bytes (Z.to_nat w) x) = w.
Proof. intros; unfold zlen; rewrite be_bytes_length; lia. Qed.

Lemma be_bytes_1 x : be_bytes 1 x = [x mod 256].
Proof. reflexivity. Qed.

Lemma put_u_eq w m x : msgb_ok m -> is_width w ->
  msgb_put_u w m x = (do '(p, m1) <- msgb_put m (zlen (be_bytes (Z.to_nat w) x)) ;;
                      write_bytes m1 p (be_bytes (Z.to_nat w) x)).
Proof.
  intros Hok Hw. assert (0 < w <= 4) by (unfold is_width in Hw; lia).
  rewrite zlen_be_bytes by lia. unfold msgb_put_u.
  destruct (msgb_put m w) as [[p m1]| | |] eqn:E; auto. cbn [bind].
  destruct (Z.eqb_spec w 1).
  - subst. rewrite be_bytes_1, land_255. reflexivity.
  - pose proof (msgb_ok_inv _ Hok) as (H1&H2&H3&H4&H5&H6&H7&H8).
    unfold msgb_put, msgb_tailroom in E. rewrite s32_small in E by lia.
    destruct (Z.ltb_spec (data_len m - mtail m) w); [discriminate|]. inversion E; subst; clear E.
    apply st_be_bytes; cbn [mem]; lia.
Qed.

Lemma push_u_eq w m x : msgb_ok m -> is_width w ->
  msgb_push_u w m x = (do '(p, m1) <- msgb_push m (zlen (be_bytes (Z.to_nat w) x)) ;;
                      write_bytes m1 p (be_bytes (Z.to_nat w) x)).
Proof.
  intros Hok Hw. assert (0 < w <= 4) by (unfold is_width in Hw; lia).
  rewrite zlen_be_bytes by lia. unfold msgb_push_u.
  destruct (msgb_push m w) as [[p m1]| | |] eqn:E; auto. cbn [bind].
  destruct (Z.eqb_spec w 1).
  - subst. rewrite be_bytes_1. reflexivity.
  - pose proof (msgb_ok_inv _ Hok) as (H1&H2&H3&H4&H5&H6&H7&H8).
    unfold msgb_push, msgb_headroom in E. rewrite s32_small in E by lia.
    destruct (Z.ltb_spec (mdata m) w); [discriminate|]. inversion E; subst; clear E.
    apply st_be_bytes; cbn [mem]; lia.
Qed.

Lemma be_val_1 (l : list Z) : length l = 1%nat -> be_val l = nth 0 l 0.
Proof. destruct l as [|a [|]]; try discriminate. intros. unfold be_val. cbn [rev app le_val nth]. lia. Qed.

Lemma get_u_eq w m : msgb_ok m -> is_width w ->
  msgb_get_u w m = do '(m1, l) <- (do '(p, m1) <- msgb_get m w ;; do l <- read_bytes m1 p w ;; Ok (m1, l)) ;; Ok (be_val l, m1).
Proof.
  intros Hok Hw. assert (0 < w <= 4) by (unfold is_width in Hw; lia).
  unfold msgb_get_u. destruct (msgb_get m w) as [[p m1]| | |] eqn:E; auto. cbn [bind].
  pose proof (msgb_ok_inv _ Hok) as (H1&H2&H3&H4&H5&H6&H7&H8).
  unfold msgb_get in E. destruct (Z.ltb_spec (mlen m) w); [discriminate|]. inversion E; subst; clear E.
  destruct (Z.eqb_spec w 1).
  - subst. unfold read_bytes. cbn [mem].
    destruct (Z.ltb_spec (mtail m - 1) 0); [lia|].
    destruct (Z.ltb_spec (zlen (mem m)) (mtail m - 1 + 1)); [lia|]. cbn [orb bind].
    change (1 <? 0) with false. cbn [orb bind].
    rewrite be_val_1; [reflexivity|].
    pose proof (zslice_length (mem m) (mtail m - 1) 1 ltac:(lia) ltac:(lia) ltac:(lia)) as G. unfold zlen in G; lia.
  - rewrite ld_be_bytes; cbn [mem]; try lia; auto.
    destruct (read_bytes _ _ w); reflexivity.
Qed.

Lemma pull_u_eq w m : msgb_ok m -> is_width w ->
  msgb_pull_u w m = do '(m1, l) <- (do '(p, m1) <- msgb_pull m w ;; do l <- read_bytes m1 (p - w) w ;; Ok (m1, l)) ;; Ok (be_val l, m1).
Proof.
  intros Hok Hw. assert (0 < w <= 4) by (unfold is_width in Hw; lia).
  unfold msgb_pull_u. destruct (msgb_pull m w) as [[p m1]| | |] eqn:E; auto. cbn [bind].
  pose proof (msgb_ok_inv _ Hok) as (H1&H2&H3&H4&H5&H6&H7&H8).
  unfold msgb_pull in E. destruct (Z.ltb_spec (mlen m) w); [discriminate|]. inversion E; subst; clear E.
  destruct (Z.eqb_spec w 1).
  - subst. unfold read_bytes. cbn [mem].
    destruct (Z.ltb_spec (mdata m + 1 - 1) 0); [lia|].
    destruct (Z.ltb_spec (zlen (mem m)) (mdata m + 1 - 1 + 1)); [lia|]. cbn [orb bind].
    change (1 <? 0) with false. cbn [orb bind].
    rewrite be_val_1; [reflexivity|].
    pose proof (zslice_length (mem m) (mdata m + 1 - 1) 1 ltac:(lia) ltac:(lia) ltac:(lia)) as G. unfold zlen in G; lia.
  - rewrite ld_be_bytes; cbn [mem]; try lia; auto.
    destruct (read_bytes _ _ w); reflexivity.
Qed.

Lemma m_step_ok m o : msgb_ok m -> op_ok o ->
  match d_step (view m) o with
  | None => m_step m o = Abort
  | Some (d, out) => exists m', m_step m o = Ok (m', out) /\ view m' = d /\ msgb_ok m' /\ same_hdrs m m'
  end.
Proof.
  intros Hok Ho. destruct o as [s|s|n|n|w x|w x|w|w]; cbn [op_ok] in Ho; cbn [d_step m_step].
  - destruct Ho as [Hb Hl]. pose proof (put_ok m s Hok Hb Hl) as G. destruct (d_put (view m) s).
    + destruct G as (m' & E & G). exists m'. split; auto.
      destruct (msgb_put m (zlen s)) as [[p m1]| | |]; cbn [bind] in *; try discriminate. rewrite E. reflexivity.
    + destruct (msgb_put m (zlen s)) as [[p m1]| | |]; cbn [bind] in *; try discriminate; auto. rewrite G. reflexivity.
  - destruct Ho as [Hb Hl]. pose proof (push_ok m s Hok Hb Hl) as G. destruct (d_push (view m) s).
    + destruct G as (m' & E & G). exists m'. split; auto.
      destruct (msgb_push m (zlen s)) as [[p m1]| | |]; cbn [bind] in *; try discriminate. rewrite E. reflexivity.
    + destruct (msgb_push m (zlen s)) as [[p m1]| | |]; cbn [bind] in *; try discriminate; auto. rewrite G. reflexivity.
  - apply get_ok; auto.
  - apply pull_ok; auto.
  - rewrite put_u_eq by auto.
    assert (0 < w <= 4) by (unfold is_width in Ho; lia).
    pose proof (put_ok m (be_bytes (Z.to_nat w) x) Hok (be_bytes_bytes _ _)) as G.
    rewrite zlen_be_bytes in * by lia. specialize (G ltac:(lia)).
    destruct (d_put (view m) (be_bytes (Z.to_nat w) x)).
    + destruct G as (m' & E & G). exists m'. rewrite E. split; auto.
    + rewrite G. reflexivity.
  - rewrite push_u_eq by auto.
    assert (0 < w <= 4) by (unfold is_width in Ho; lia).
    pose proof (push_ok m (be_bytes (Z.to_nat w) x) Hok (be_bytes_bytes _ _)) as G.
    rewrite zlen_be_bytes in * by lia. specialize (G ltac:(lia)).
    destruct (d_push (view m) (be_bytes (Z.to_nat w) x)).
    + destruct G as (m' & E & G). exists m'. rewrite E. split; auto.
    + rewrite G. reflexivity.
  - rewrite get_u_eq by auto.
    assert (0 < w <= 4) by (unfold is_width in Ho; lia).
    pose proof (get_ok m w Hok ltac:(lia)) as G.
    destruct (d_get (view m) w) as [[d out]|].
    + destruct G as (m' & E & G). exists m'. rewrite E. split; auto.
    + rewrite G. reflexivity.
  - rewrite pull_u_eq by auto.
    assert (0 < w <= 4) by (unfold is_width in Ho; lia).
    pose proof (pull_ok m w Hok ltac:(lia)) as G.
    destruct (d_pull (view m) w) as [[d out]|].
    + destruct G as (m' & E & G). exists m'. rewrite E. split; auto.
    + rewrite G. reflexivity.
Qed.

Lemma same_hdrs_trans a b c : same_hdrs a b -> same_hdrs b c -> same_hdrs a c.
Proof. unfold same_hdrs; intuition congruence. Qed.

Lemma m_run_ok ops : forall m, msgb_ok m -> Forall op_ok ops ->
  match d_run (view m) ops with
  | None => m_run m ops = Abort
  | Some (d, outs) => exists m', m_run m ops = Ok (m', outs) /\ view m' = d /\ msgb_ok m' /\ same_hdrs m m'
  end.
Proof.
  induction ops as [|o ops IH]; intros m Hok Ho; cbn [d_run m_run].
  - exists m. repeat split; auto; apply Hok.
  - inversion Ho; subst. pose proof (m_step_ok m o Hok H1) as G.
    destruct (d_step (view m) o) as [[d out]|].
    + destruct G as (m1 & E & V & Hok1 & S1). rewrite E. cbn [bind].
      specialize (IH m1 Hok1 H2). rewrite V in IH.
      destruct (d_run d ops) as [[d2 outs]|].
      * destruct IH as (m2 & E2 & V2 & Hok2 & S2). rewrite E2. cbn [bind].
        exists m2; split; auto. split; auto. split; auto. eapply same_hdrs_trans; eauto.
      * rewrite IH. reflexivity.
    + rewrite G. reflexivity.
Qed.

(* number of bytes in the deque is constant *)
Lemma d_step_size d o d' out : op_ok o -> d_step d o = Some (d', out) ->
  hroom d' + zlen (content d') + troom d' = hroom d + zlen (content d) + troom d.
Proof.
  assert (Hget: forall n d' out, 0 <= n -> d_get d n = Some (d', out) ->
     hroom d' + zlen (content d') + troom d' = hroom d + zlen (content d) + troom d).
  { intros n e ou Hn. unfold d_get. destruct (Z.leb_spec n (zlen (content d))); [|discriminate].
    intros [= <- <-]. cbn [hroom content troom].
    unfold zlen in *. rewrite firstn_length. lia. }
  assert (Hpull: forall n d' out, 0 <= n -> d_pull d n = Some (d', out) ->
     hroom d' + zlen (content d') + troom d' = hroom d + zlen (content d) + troom d).
  { intros n e ou Hn. unfold d_pull. destruct (Z.leb_spec n (zlen (content d))); [|discriminate].
    intros [= <- <-]. cbn [hroom content troom].
    unfold zlen in *. rewrite skipn_length. lia. }
  assert (Hput: forall s d', d_put d s = Some d' ->
     hroom d' + zlen (content d') + troom d' = hroom d + zlen (content d) + troom d).
  { intros s e. unfold d_put. destruct (Z.leb_spec (zlen s) (troom d)); [|discriminate].
    intros [= <-]. cbn [hroom content troom]. rewrite zlen_app. lia. }
  assert (Hpush: forall s d', d_push d s = Some d' ->
     hroom d' + zlen (content d') + troom d' = hroom d + zlen (content d) + troom d).
  { intros s e. unfold d_push. destruct (Z.leb_spec (zlen s) (hroom d)); [|discriminate].
    intros [= <-]. cbn [hroom content troom]. rewrite zlen_app. lia. }
  intros Ho. destruct o; cbn [op_ok d_step] in *; intros E.
  - destruct (d_put d s) eqn:F; inversion E; subst; eauto.
  - destruct (d_push d s) eqn:F; inversion E; subst; eauto.
  - eapply Hget; [|eauto]; lia.
  - eapply Hpull; [|eauto]; lia.
  - destruct (d_put d (be_bytes (Z.to_nat w) x)) eqn:F; inversion E; subst; eauto.
  - destruct (d_push d (be_bytes (Z.to_nat w) x)) eqn:F; inversion E; subst; eauto.
  - destruct (d_get d w) as [[? ?]|] eqn:F; inversion E; subst. eapply Hget; [|eauto]. unfold is_width in Ho; lia.
  - destruct (d_pull d w) as [[? ?]|] eqn:F; inversion E; subst. eapply Hpull; [|eauto]. unfold is_width in Ho; lia.
Qed.

Lemma repeat_bytes n : bytes (repeat 0 n).
Proof. induction n; simpl; constructor; auto. unfold is_byte; lia. Qed.

Lemma alloc_headroom_ok size headroom :
  0 <= headroom <= size -> size <= 65535 ->
  exists m, msgb_alloc_headroom size headroom = Ok m /\ msgb_ok m /\
            view m = Deque headroom [] (size - headroom) /\ data_len m = size.
Proof.
  intros. unfold msgb_alloc_headroom. destruct (Z.ltb_spec size headroom); [lia|].
  eexists; split; [reflexivity|]. split; [|split; [|reflexivity]].
  - apply msgb_ok_intro; cbn [mem mdata mtail mlen data_len msgb_reserve msgb_alloc]; try lia.
    + unfold zlen; rewrite repeat_length; lia.
    + apply repeat_bytes.
    + unfold hdrs_ok; cbn. lia.
  - unfold view. cbn. unfold msgb_tailroom; cbn. reflexivity.
Qed.

(* --- trim --- *)
Lemma trim_spec m n : msgb_ok m -> 0 <= n ->
  (data_len m < n -> msgb_trim m n = Err (-1)) /\
  (n <= data_len m -> exists m', msgb_trim m n = Ok m' /\
     mlen m' = n /\ same_hdrs m m' /\ mdata m' = mdata m /\ mem m' = mem m /\
     (msgb_test_invariant m' = true <-> mdata m + n <= data_len m)).
Proof.
  intros Hok Hn. pose proof (msgb_ok_inv _ Hok) as (H1&H2&H3&H4&H5&H6&H7&H8).
  unfold msgb_trim. destruct (Z.ltb_spec n 0); [lia|]. split; intros.
  - destruct (Z.ltb_spec (data_len m) n); [reflexivity|lia].
  - destruct (Z.ltb_spec (data_len m) n); [lia|].
    eexists; split; [reflexivity|]. cbn [mlen mdata mem]. split; [apply u16_small; unfold is_u16; lia|].
    split; [repeat split|]. split; auto. split; auto.
    rewrite test_invariant_iff. cbn [mdata mlen mtail data_len].
    rewrite u16_small by (unfold is_u16; lia).
    assert (hdrs_ok (Msgb (mem m) (mdata m) (mdata m + n) n (data_len m) (l1h m) (l2h m) (l3h m) (l4h m))).
    { eapply same_hdrs_ok; [|exact H8]. repeat split. }
    intuition.
Qed.

Lemma trim_view m n : msgb_ok m -> 0 <= n -> mdata m + n <= data_len m ->
  exists m', msgb_trim m n = Ok m' /\ msgb_ok m' /\
    hroom (view m') = hroom (view m) /\ zlen (content (view m')) = n /\
    troom (view m') = data_len m - mdata m - n /\
    firstn (Z.to_nat (Z.min n (mlen m))) (content (view m')) =
    firstn (Z.to_nat (Z.min n (mlen m))) (content (view m)).
Proof.
  intros Hok Hn Hfit. pose proof (msgb_ok_inv _ Hok) as (H1&H2&H3&H4&H5&H6&H7&H8).
  destruct (trim_spec m n Hok Hn) as [_ G]. destruct (G ltac:(lia)) as (m' & E & L & S & D & M & I).
  assert (Hok' : msgb_ok m').
  { destruct S as (S0&S1). split; [apply I; lia|]. rewrite L, M, <- S0. intuition. }
  exists m'. split; auto. split; auto.
  pose proof (msgb_ok_inv _ Hok') as (G1&G2&G3&G4&G5&G6&G7&G8).
  cbn [view hroom content troom]. unfold msgb_headroom, msgb_tailroom.
  split; auto. split; [|split].
  - rewrite zslice_length; lia.
  - destruct S as (S0&_). lia.
  - rewrite !firstn_zslice by lia. rewrite D, M. reflexivity.
Qed.

Lemma put_huge m len : msgb_ok m -> 2147483648 <= len < 4294967296 ->
  exists p m', msgb_put m len = Ok (p, m') /\ msgb_test_invariant m' = false.
Proof.
  intros Hok Hl. pose proof (msgb_ok_inv _ Hok) as (H1&H2&H3&H4&H5&H6&H7&H8).
  unfold msgb_put, msgb_tailroom, s32. rewrite u32_small by (unfold is_u32; lia).
  destruct (Z.ltb_spec len 2147483648); [lia|].
  destruct (Z.ltb_spec (data_len m - mtail m) (len - 4294967296)); [lia|].
  eexists _, _; split; [reflexivity|].
  apply not_true_is_false. rewrite test_invariant_iff. cbn. lia.
Qed.

Lemma push_huge m len : msgb_ok m -> 2147483648 <= len < 4294967296 ->
  exists p m', msgb_push m len = Ok (p, m') /\ msgb_test_invariant m' = false.
Proof.
  intros Hok Hl. pose proof (msgb_ok_inv _ Hok) as (H1&H2&H3&H4&H5&H6&H7&H8).
  unfold msgb_push, msgb_headroom, s32. rewrite u32_small by (unfold is_u32; lia).
  destruct (Z.ltb_spec len 2147483648); [lia|].
  destruct (Z.ltb_spec (mdata m) (len - 4294967296)); [lia|].
  eexists _, _; split; [reflexivity|].
  apply not_true_is_false. rewrite test_invariant_iff. cbn. lia.
Qed.

(* --- copy --- *)
Lemma copy_resize_spec m new_len : msgb_ok m -> 0 <= new_len <= 65535 ->
  (new_len < mlen m -> msgb_copy_resize true m new_len = Ok None) /\
  (mlen m <= new_len < mdata m + mlen m -> msgb_copy_resize true m new_len = UB) /\
  (mdata m + mlen m <= new_len -> exists c, msgb_copy_resize true m new_len = Ok (Some c) /\
     zlen (mem c) = new_len /\ data_len c = new_len /\
     hroom (view c) = hroom (view m) /\ content (view c) = content (view m) /\
     troom (view c) = new_len - mdata m - mlen m /\
     l1h c = l1h m /\ l2h c = l2h m /\ l3h c = l3h m /\ l4h c = l4h m /\ bytes (mem c)).
Proof.
  intros Hok Hn. pose proof (msgb_ok_inv _ Hok) as (H1&H2&H3&H4&H5&H6&H7&H8).
  unfold msgb_copy_resize. split; [|split]; intros Hc.
  - destruct (Z.ltb_spec new_len (mlen m)); [reflexivity|lia].
  - destruct (Z.ltb_spec new_len (mlen m)); [lia|]. cbn [negb].
    unfold read_bytes. destruct (Z.ltb_spec (mdata m) 0); [lia|]. destruct (Z.ltb_spec (mlen m) 0); [lia|].
    destruct (Z.ltb_spec (zlen (mem m)) (mdata m + mlen m)); [lia|]. cbn [orb bind].
    unfold write_bytes. cbn [mem mdata msgb_alloc].
    rewrite zslice_length by lia.
    destruct (Z.ltb_spec (0 + mdata m) 0); [lia|].
    destruct (Z.ltb_spec (zlen (repeat 0 (Z.to_nat new_len))) (0 + mdata m + mlen m)).
    + reflexivity.
    + unfold zlen in *. rewrite repeat_length in *. lia.
  - destruct (Z.ltb_spec new_len (mlen m)); [lia|]. cbn [negb].
    unfold read_bytes. destruct (Z.ltb_spec (mdata m) 0); [lia|]. destruct (Z.ltb_spec (mlen m) 0); [lia|].
    destruct (Z.ltb_spec (zlen (mem m)) (mdata m + mlen m)); [lia|]. cbn [orb bind].
    unfold write_bytes. cbn [mem mdata msgb_alloc]. rewrite !Z.add_0_l.
    rewrite zslice_length by lia.
    assert (Hz: zlen (repeat 0 (Z.to_nat new_len)) = new_len) by (unfold zlen; rewrite repeat_length; lia).
    destruct (Z.ltb_spec (mdata m) 0); [lia|].
    destruct (Z.ltb_spec (zlen (repeat 0 (Z.to_nat new_len))) (mdata m + mlen m)); [lia|].
    cbn [orb bind]. eexists; split; [reflexivity|].
    pose proof (zslice_length (mem m) (mdata m) (mlen m) ltac:(lia) ltac:(lia) ltac:(lia)) as Hzs.
    cbn [mem mdata mtail mlen data_len l1h l2h l3h l4h set_mem view hroom content troom].
    unfold msgb_headroom, msgb_tailroom.
    cbn [mem mdata mtail mlen data_len l1h l2h l3h l4h].
    assert (zlen (blit (repeat 0 (Z.to_nat new_len)) (Z.to_nat (mdata m)) (zslice (mem m) (mdata m) (mlen m))) = new_len).
    { rewrite zlen_blit; lia. }
    repeat split; auto; try lia.
    + pose proof (zslice_blit_same (repeat 0 (Z.to_nat new_len)) (mdata m) (zslice (mem m) (mdata m) (mlen m)) ltac:(lia) ltac:(lia)) as G.
      rewrite Hzs in G. exact G.
    + cbn [data_len msgb_alloc]. lia.
    + apply Forall_blit; [apply repeat_bytes|]. apply Forall_slice; auto.
Qed.

(* --- resize_area --- *)
Lemma zslice_self_app (l : list Z) o a b :
  0 <= o -> 0 <= a -> 0 <= b -> o + a + b <= zlen l ->
  zslice l o (a + b) = zslice l o a ++ zslice l (o + a) b.
Proof. intros; apply zslice_app_split; lia. Qed.

Lemma resize_area_grow m area old new :
  msgb_ok m -> 0 <= old < new -> mdata m <= area -> area + old <= mtail m ->
  mdata m + mlen m + (new - old) <= data_len m ->
  exists m', msgb_resize_area m area old new = Ok m' /\
    mdata m' = mdata m /\ mlen m' = mlen m + (new - old) /\ mtail m' = mdata m' + mlen m' /\
    zlen (mem m') = data_len m' /\ bytes (mem m') /\ data_len m' = data_len m /\
    zslice (mem m') (mdata m) (area + old - mdata m) = zslice (mem m) (mdata m) (area + old - mdata m) /\
    zslice (mem m') (area + new) (mtail m - area - old) = zslice (mem m) (area + old) (mtail m - area - old) /\
    l1h m' = shift_hdr (area + old) (new - old) (l1h m) /\ l2h m' = shift_hdr (area + old) (new - old) (l2h m) /\
    l3h m' = shift_hdr (area + old) (new - old) (l3h m) /\ l4h m' = shift_hdr (area + old) (new - old) (l4h m).
Proof.
  intros Hok Ho Ha Ht Hfit. pose proof (msgb_ok_inv _ Hok) as (H1&H2&H3&H4&H5&H6&H7&H8).
  unfold msgb_resize_area.
  destruct (Z.leb_spec (-2147483648) (new - old)); [|lia].
  destruct (Z.ltb_spec (new - old) 2147483648); [|lia]. cbn [andb negb].
  destruct (Z.ltb_spec old 0); [lia|]. destruct (Z.ltb_spec new 0); [lia|]. cbn [orb].
  destruct (Z.ltb_spec area (mdata m)); [lia|]. destruct (Z.ltb_spec (mtail m) (area + old)); [lia|]. cbn [orb].
  destruct (Z.eqb_spec (new - old) 0); [lia|]. destruct (Z.ltb_spec 0 (new - old)); [|lia].
  destruct (Z.leb_spec 2147483648 (mlen m + (new - old))); [lia|].
  unfold msgb_trim at 1. destruct (Z.ltb_spec (mlen m + (new - old)) 0); [lia|].
  destruct (Z.ltb_spec (data_len m) (mlen m + (new - old))); [lia|]. cbn [bind].
  unfold memmove, read_bytes. cbn [mem].
  set (pl := mlen m - old - (area - mdata m)).
  assert (Hpl : pl = mtail m - area - old) by (unfold pl; lia).
  destruct (Z.ltb_spec (area + old) 0); [lia|]. destruct (Z.ltb_spec pl 0); [lia|].
  destruct (Z.ltb_spec (zlen (mem m)) (area + old + pl)); [lia|]. cbn [orb bind].
  unfold write_bytes. cbn [mem].
  pose proof (zslice_length (mem m) (area + old) pl ltac:(lia) ltac:(lia) ltac:(lia)) as Hz.
  rewrite Hz. destruct (Z.ltb_spec (area + new) 0); [lia|].
  destruct (Z.ltb_spec (zlen (mem m)) (area + new + pl)); [lia|]. cbn [orb bind].
  destruct (Z.ltb_spec (new - old) 0); [lia|].
  eexists; split; [reflexivity|]. cbn [mem mdata mtail mlen data_len l1h l2h l3h l4h set_mem].
  rewrite u16_small by (unfold is_u16; lia).
  repeat split; auto; try lia.
  - rewrite zlen_blit by lia. auto.
  - apply Forall_blit; auto. apply Forall_slice; auto.
  - apply zslice_blit_before; lia.
  - rewrite <- Hpl. 
    pose proof (zslice_blit_same (mem m) (area + new) (zslice (mem m) (area + old) pl) ltac:(lia) ltac:(lia)) as G.
    rewrite Hz in G. exact G.
Qed.

Lemma resize_area_shrink m area old new :
  msgb_ok m -> 0 <= new < old -> mdata m <= area -> area + old <= mtail m ->
  exists m', msgb_resize_area m area old new = Ok m' /\
    mdata m' = mdata m /\ mlen m' = mlen m + (new - old) /\ mtail m' = mdata m' + mlen m' /\
    zlen (mem m') = data_len m' /\ bytes (mem m') /\ data_len m' = data_len m /\
    zslice (mem m') (mdata m) (area + new - mdata m) = zslice (mem m) (mdata m) (area + new - mdata m) /\
    zslice (mem m') (area + new) (mtail m - area - old) = zslice (mem m) (area + old) (mtail m - area - old) /\
    l1h m' = shift_hdr (area + old) (new - old) (l1h m) /\ l2h m' = shift_hdr (area + old) (new - old) (l2h m) /\
    l3h m' = shift_hdr (area + old) (new - old) (l3h m) /\ l4h m' = shift_hdr (area + old) (new - old) (l4h m).
Proof.
  intros Hok Ho Ha Ht. pose proof (msgb_ok_inv _ Hok) as (H1&H2&H3&H4&H5&H6&H7&H8).
  unfold msgb_resize_area.
  destruct (Z.leb_spec (-2147483648) (new - old)); [|lia].
  destruct (Z.ltb_spec (new - old) 2147483648); [|lia]. cbn [andb negb].
  destruct (Z.ltb_spec old 0); [lia|]. destruct (Z.ltb_spec new 0); [lia|]. cbn [orb].
  destruct (Z.ltb_spec area (mdata m)); [lia|]. destruct (Z.ltb_spec (mtail m) (area + old)); [lia|]. cbn [orb].
  destruct (Z.eqb_spec (new - old) 0); [lia|]. destruct (Z.ltb_spec 0 (new - old)); [lia|].
  cbn [bind].
  unfold memmove, read_bytes.
  set (pl := mlen m - old - (area - mdata m)).
  assert (Hpl : pl = mtail m - area - old) by (unfold pl; lia).
  destruct (Z.ltb_spec (area + old) 0); [lia|]. destruct (Z.ltb_spec pl 0); [lia|].
  destruct (Z.ltb_spec (zlen (mem m)) (area + old + pl)); [lia|]. cbn [orb bind].
  unfold write_bytes. cbn [mem].
  pose proof (zslice_length (mem m) (area + old) pl ltac:(lia) ltac:(lia) ltac:(lia)) as Hz.
  rewrite Hz. destruct (Z.ltb_spec (area + new) 0); [lia|].
  destruct (Z.ltb_spec (zlen (mem m)) (area + new + pl)); [lia|]. cbn [orb bind].
  destruct (Z.ltb_spec (new - old) 0); [|lia].
  unfold msgb_trim. cbn [mem mdata mtail mlen data_len l1h l2h l3h l4h set_mem].
  destruct (Z.ltb_spec (mlen m + (new - old)) 0); [lia|].
  destruct (Z.ltb_spec (data_len m) (mlen m + (new - old))); [lia|].
  eexists; split; [reflexivity|]. cbn [mem mdata mtail mlen data_len l1h l2h l3h l4h set_mem].
  rewrite u16_small by (unfold is_u16; lia).
  repeat split; auto; try lia.
  - rewrite zlen_blit by lia. auto.
  - apply Forall_blit; auto. apply Forall_slice; auto.
  - apply zslice_blit_before; lia.
  - rewrite <- Hpl.
    pose proof (zslice_blit_same (mem m) (area + new) (zslice (mem m) (area + old) pl) ltac:(lia) ltac:(lia)) as G.
    rewrite Hz in G. exact G.
Qed.

Lemma resize_area_spec m area old new :
  msgb_ok m -> 0 <= old -> 0 <= new -> mdata m <= area -> area + old <= mtail m ->
  mdata m + mlen m + (new - old) <= data_len m ->
  let keep := Z.min old new in
  exists m', msgb_resize_area m area old new = Ok m' /\
    hroom (view m') = hroom (view m) /\
    zlen (content (view m')) = mlen m + (new - old) /\
    troom (view m') = troom (view m) - (new - old) /\
    data_len m' = data_len m /\ zlen (mem m') = data_len m /\ bytes (mem m') /\
    firstn (Z.to_nat (area - mdata m + keep)) (content (view m')) =
    firstn (Z.to_nat (area - mdata m + keep)) (content (view m)) /\
    skipn (Z.to_nat (area - mdata m + new)) (content (view m')) =
    skipn (Z.to_nat (area - mdata m + old)) (content (view m)) /\
    l1h m' = shift_hdr (area + old) (new - old) (l1h m) /\ l2h m' = shift_hdr (area + old) (new - old) (l2h m) /\
    l3h m' = shift_hdr (area + old) (new - old) (l3h m) /\ l4h m' = shift_hdr (area + old) (new - old) (l4h m).
Proof.
  intros Hok Ho Hn Ha Ht Hfit keep.
  pose proof (msgb_ok_inv _ Hok) as (H1&H2&H3&H4&H5&H6&H7&H8).
  destruct (Z.lt_trichotomy old new) as [Hlt|[Heq|Hgt]].
  - destruct (resize_area_grow m area old new Hok ltac:(lia) Ha Ht Hfit) as (m' & E & D & L & T & ZM & B & DL & F & S & X).
    exists m'. split; auto. cbn [view hroom content troom]. unfold msgb_headroom, msgb_tailroom.
    rewrite D in *. split; auto.
    rewrite zslice_length by lia. split; auto. split; [lia|]. split; auto. split; [lia|]. split; auto.
    unfold keep. rewrite Z.min_l by lia. rewrite !firstn_zslice by lia.
    split; [|split; auto].
    + replace (area - mdata m + old) with (area + old - mdata m) by lia. auto.
    + rewrite !skipn_zslice by lia.
      replace (mdata m + (area - mdata m + new)) with (area + new) by lia.
      replace (mdata m + (area - mdata m + old)) with (area + old) by lia.
      replace (mlen m' - (area - mdata m + new)) with (mtail m - area - old) by lia.
      replace (mlen m - (area - mdata m + old)) with (mtail m - area - old) by lia. auto.
  - subst new. exists m. rewrite Z.sub_diag. unfold keep.
    assert (Hsh: forall h, h = shift_hdr (area + old) 0 h).
    { intros [x|]; simpl; auto. destruct (_ <=? _); auto. rewrite Z.add_0_r. auto. }
    rewrite content_len by auto.
    split; [|repeat split; auto; try lia; apply Hsh].
    unfold msgb_resize_area. rewrite Z.sub_diag. cbn [negb andb Z.leb Z.ltb Z.compare].
    destruct (Z.ltb_spec old 0); [lia|]. cbn [orb].
    destruct (Z.ltb_spec area (mdata m)); [lia|]. destruct (Z.ltb_spec (mtail m) (area + old)); [lia|]. reflexivity.
  - destruct (resize_area_shrink m area old new Hok ltac:(lia) Ha Ht) as (m' & E & D & L & T & ZM & B & DL & F & S & X).
    exists m'. split; auto. cbn [view hroom content troom]. unfold msgb_headroom, msgb_tailroom.
    rewrite D in *. split; auto.
    rewrite zslice_length by lia. split; auto. split; [lia|]. split; auto. split; [lia|]. split; auto.
    unfold keep. rewrite Z.min_r by lia. rewrite !firstn_zslice by lia.
    split; [|split; auto].
    + replace (area - mdata m + new) with (area + new - mdata m) by lia. auto.
    + rewrite !skipn_zslice by lia.
      replace (mdata m + (area - mdata m + new)) with (area + new) by lia.
      replace (mdata m + (area - mdata m + old)) with (area + old) by lia.
      replace (mlen m' - (area - mdata m + new)) with (mtail m - area - old) by lia.
      replace (mlen m - (area - mdata m + old)) with (mtail m - area - old) by lia. auto.
Qed.

Lemma resize_area_outside m area old new :
  msgb_ok m -> is_s32 (new - old) ->
  (old < 0 \/ new < 0 \/ area < mdata m \/ mtail m < area + old) ->
  msgb_resize_area m area old new = Abort.
Proof.
  intros Hok Hd H. unfold msgb_resize_area, is_s32 in *.
  destruct (Z.leb_spec (-2147483648) (new - old)); [|lia].
  destruct (Z.ltb_spec (new - old) 2147483648); [|lia]. cbn [andb negb].
  destruct (Z.ltb_spec old 0); auto. destruct (Z.ltb_spec new 0); auto. cbn [orb].
  destruct (Z.ltb_spec area (mdata m)); auto. destruct (Z.ltb_spec (mtail m) (area + old)); auto. lia.
Qed.

Lemma resize_area_toolong m area old new :
  msgb_ok m -> 0 <= old -> 0 <= new -> mdata m <= area -> area + old <= mtail m ->
  is_s32 (mlen m + (new - old)) -> data_len m < mlen m + (new - old) ->
  msgb_resize_area m area old new = Err (-1).
Proof.
  intros Hok Ho Hn Ha Ht Hs Hd. pose proof (msgb_ok_inv _ Hok) as (H1&H2&H3&H4&H5&H6&H7&H8).
  unfold msgb_resize_area, is_s32 in *.
  destruct (Z.leb_spec (-2147483648) (new - old)); [|lia].
  destruct (Z.ltb_spec (new - old) 2147483648); [|lia]. cbn [andb negb].
  destruct (Z.ltb_spec old 0); [lia|]. destruct (Z.ltb_spec new 0); [lia|]. cbn [orb].
  destruct (Z.ltb_spec area (mdata m)); [lia|]. destruct (Z.ltb_spec (mtail m) (area + old)); [lia|]. cbn [orb].
  destruct (Z.eqb_spec (new - old) 0); [lia|]. destruct (Z.ltb_spec 0 (new - old)); [|lia].
  destruct (Z.leb_spec 2147483648 (mlen m + (new - old))); [lia|].
  unfold msgb_trim. destruct (Z.ltb_spec (mlen m + (new - old)) 0); [lia|].
  destruct (Z.ltb_spec (data_len m) (mlen m + (new - old))); [reflexivity|lia].
Qed.

Lemma pull_to_l3_spec m h : msgb_ok m -> l3h m = Some h ->
  (mdata m <= h <= mtail m -> exists m', msgb_pull_to_l3 m = Ok m' /\
      view m' = Deque h (skipn (Z.to_nat (h - mdata m)) (content (view m))) (troom (view m)) /\
      l1h m' = None /\ l2h m' = None /\ l3h m' = Some h) /\
  (h < mdata m \/ mtail m < h -> msgb_pull_to_l3 m = Abort).
Proof.
  intros Hok Hh. pose proof (msgb_ok_inv _ Hok) as (H1&H2&H3&H4&H5&H6&H7&H8).
  unfold msgb_pull_to_l3. rewrite Hh. 
  assert (Hhd : 0 <= h <= data_len m).
  { unfold hdrs_ok in H8. rewrite Hh in H8. unfold hdr_step in H8.
    destruct (l1h m) as [x1|]; destruct (l2h m) as [x2|]; destruct (l4h m) as [x4|];
    repeat match type of H8 with
    | context [if ?b then _ else _] => destruct b eqn:?
    end; try contradiction; lia. }
  split; intros Hc.
  - assert (u32 (h - mdata m) = h - mdata m) as Eu by (apply u32_small; unfold is_u32; lia).
    rewrite Eu.
    pose proof (pull_ok m (h - mdata m) Hok ltac:(lia)) as G.
    unfold d_pull in G. rewrite content_len in G by auto.
    destruct (Z.leb_spec (h - mdata m) (mlen m)); [|lia].
    unfold msgb_pull in *. destruct (Z.ltb_spec (mlen m) (h - mdata m)); [lia|]. cbn [bind].
    eexists; split; [reflexivity|]. split.
    + unfold view, msgb_headroom, msgb_tailroom; cbn [mem mdata mtail mlen data_len content troom].
      rewrite u16_small by (unfold is_u16; lia). f_equal; [lia|].
      rewrite skipn_zslice by lia. f_equal; lia.
    + cbn. auto.
  - unfold msgb_pull. destruct (Z.ltb_spec (mlen m) (u32 (h - mdata m))); [reflexivity|].
    unfold u32 in *. lia.
Qed.

Lemma pull_to_l2_spec m h : msgb_ok m -> l2h m = Some h ->
  (mdata m <= h <= mtail m -> exists m', msgb_pull_to_l2 m = Ok m' /\
      view m' = Deque h (skipn (Z.to_nat (h - mdata m)) (content (view m))) (troom (view m)) /\
      l1h m' = None /\ l2h m' = Some h /\ l3h m' = l3h m) /\
  (h < mdata m \/ mtail m < h -> msgb_pull_to_l2 m = Abort).
Proof.
  intros Hok Hh. pose proof (msgb_ok_inv _ Hok) as (H1&H2&H3&H4&H5&H6&H7&H8).
  unfold msgb_pull_to_l2. rewrite Hh. 
  assert (Hhd : 0 <= h <= data_len m).
  { unfold hdrs_ok in H8. rewrite Hh in H8. unfold hdr_step in H8.
    destruct (l1h m) as [x1|]; destruct (l3h m) as [x2|]; destruct (l4h m) as [x4|];
    repeat match type of H8 with
    | context [if ?b then _ else _] => destruct b eqn:?
    end; try contradiction; lia. }
  split; intros Hc.
  - assert (u32 (h - mdata m) = h - mdata m) as Eu by (apply u32_small; unfold is_u32; lia).
    rewrite Eu.
    unfold msgb_pull in *. destruct (Z.ltb_spec (mlen m) (h - mdata m)); [lia|]. cbn [bind].
    eexists; split; [reflexivity|]. split.
    + unfold view, msgb_headroom, msgb_tailroom; cbn [mem mdata mtail mlen data_len content troom].
      rewrite u16_small by (unfold is_u16; lia). f_equal; [lia|].
      rewrite skipn_zslice by lia. f_equal; lia.
    + cbn. auto.
  - unfold msgb_pull. destruct (Z.ltb_spec (mlen m) (u32 (h - mdata m))); [reflexivity|].
    unfold u32 in *. lia.
Qed.

Lemma m_run_deque m ops : msgb_ok m -> Forall op_ok ops ->
  match d_run (view m) ops with
  | None => m_run m ops = Abort
  | Some (d, outs) =>
      exists m', m_run m ops = Ok (m', outs) /\ view m' = d /\ msgb_ok m' /\
        zlen (content d) = mlen m' /\ mtail m' - mdata m' = mlen m' /\
        hroom d + zlen (content d) + troom d = data_len m /\ data_len m' = data_len m /\
        l1h m' = l1h m /\ l2h m' = l2h m /\ l3h m' = l3h m /\ l4h m' = l4h m
  end.
Proof.
  intros Hok Ho. pose proof (m_run_ok ops m Hok Ho) as G.
  destruct (d_run (view m) ops) as [[d outs]|]; auto.
  destruct G as (m' & E & V & Hok' & S). exists m'.
  pose proof (msgb_ok_inv _ Hok') as (H1&H2&H3&H4&H5&H6&H7&H8).
  destruct S as (S0&S1&S2&S3&S4).
  subst d. rewrite content_len by auto.
  split; [auto|]. split; [auto|]. split; [auto|]. split; auto. split; [lia|].
  split; [cbn [view hroom troom]; unfold msgb_headroom, msgb_tailroom; lia|].
  repeat split; congruence.
Qed.

Lemma trim_full m n : msgb_ok m -> 0 <= n ->
  (data_len m < n -> msgb_trim m n = Err (-1)) /\
  (n <= data_len m -> exists m', msgb_trim m n = Ok m' /\
     (msgb_test_invariant m' = true <-> msgb_headroom m + n <= data_len m) /\
     (msgb_headroom m + n <= data_len m ->
        hroom (view m') = hroom (view m) /\ zlen (content (view m')) = n /\
        troom (view m') = data_len m - msgb_headroom m - n /\
        firstn (Z.to_nat (Z.min n (mlen m))) (content (view m')) =
        firstn (Z.to_nat (Z.min n (mlen m))) (content (view m)))).
Proof.
  intros Hok Hn. destruct (trim_spec m n Hok Hn) as [T1 T2]. split; auto.
  intros Hle. destruct (T2 Hle) as (m' & E & L & S & D & M & I). exists m'. split; auto. split; auto.
  intros Hfit. destruct (trim_view m n Hok Hn Hfit) as (m2 & E2 & _ & G). 
  rewrite E in E2. inversion E2; subst. exact G.
Qed.

Lemma copy_spec m : msgb_ok m ->
  exists c, msgb_copy true m = Ok (Some c) /\ view c = view m /\ msgb_ok c /\
    l1h c = l1h m /\ l2h c = l2h m /\ l3h c = l3h m /\ l4h c = l4h m.
Proof.
  intros Hok. pose proof (msgb_ok_inv _ Hok) as (H1&H2&H3&H4&H5&H6&H7&H8).
  destruct (copy_resize_spec m (data_len m) Hok ltac:(lia)) as (_ & _ & G).
  destruct (G ltac:(lia)) as (c & E & Z1 & Z2 & V1 & V2 & V3 & L1 & L2 & L3 & L4 & B).
  exists c. split; auto.
  assert (mdata c = mdata m) as ED by exact V1.
  assert (mlen c = mlen m /\ mtail c = mdata c + mlen c) as [EL ET].
  { unfold msgb_copy_resize in E.
    destruct (data_len m <? mlen m); [discriminate|]. cbn [negb] in E.
    apply bind_Ok_inv in E. destruct E as (src & _ & E).
    apply bind_Ok_inv in E. destruct E as (n2 & E2 & E).
    unfold write_bytes in E2. destruct (_ || _); [discriminate|].
    inversion E2; subst; clear E2. inversion E; subst; clear E. cbn in *. lia. }
  split; [|split].
  - unfold view in *. cbn [hroom content troom] in *. f_equal; auto. unfold msgb_tailroom. lia.
  - apply msgb_ok_intro; try lia; auto.
    eapply same_hdrs_ok; [|exact H8]. repeat split; congruence.
  - auto.
Qed.

Lemma push_tl_ok m tag : msgb_ok m ->
  (msgb_headroom m < 2 -> msgb_push_tl m tag = Abort) /\
  (2 <= msgb_headroom m -> exists m', msgb_push_tl m tag = Ok m' /\ msgb_ok m' /\
     view m' = Deque (hroom (view m) - 2) ([tag mod 256; zlen (content (view m)) mod 256] ++ content (view m)) (troom (view m)) /\ same_hdrs m m').
Proof.
  intros Hok. pose proof (content_len m Hok) as Hc.
  assert (Hb : bytes [u8 tag; u8 (zlen (content (view m)))]) by (repeat constructor; apply u8_range).
  pose proof (push_ok m _ Hok Hb ltac:(cbn; lia)) as P. change (zlen [_; _]) with 2 in P.
  assert (E : msgb_push_tl m tag = do ' (p, m1) <- msgb_push m 2 ;; write_bytes m1 p [u8 tag; u8 (zlen (content (view m)))]).
  { unfold msgb_push_tl, msgb_push. destruct (msgb_headroom m <? s32 2); [reflexivity|]. cbn [bind]. cbn [mlen].
    destruct (msgb_ok_inv m Hok) as (? & ? & ? & ? & ? & ? & ? & _).
    rewrite Hc. replace (u8 (u16 (mlen m + 2) - 2)) with (u8 (mlen m)); [reflexivity|]. unfold u8, u16.
    replace ((mlen m + 2) mod 65536 - 2) with (mlen m + (- ((mlen m + 2) / 65536) * 256) * 256).
    - rewrite Z.mod_add by lia. reflexivity.
    - pose proof (Z.div_mod (mlen m + 2) 65536 ltac:(lia)). lia. }
  rewrite E. unfold d_push in P. change (zlen [_; _]) with 2 in P. cbn [hroom view] in *. unfold msgb_headroom in *.
  destruct (Z.leb_spec 2 (mdata m)).
  - split; [lia|]. intros _. destruct P as (m' & P1 & P2 & P3 & P4). exists m'. auto.
  - split; [auto|lia].
Qed.

(* l3trim keeps the octets before l3h and makes the layer-3 part l3len octets long *)
Lemma l3trim_ok m h n : msgb_ok m -> l3h m = Some h -> mdata m <= h -> 0 <= n -> h + n <= data_len m ->
  exists m', msgb_l3trim m n = Ok m' /\ mdata m' = mdata m /\ l3h m' = Some h /\ mtail m' - h = n /\
    zlen (content (view m')) = h - mdata m + n /\
    firstn (Z.to_nat (Z.min (h - mdata m + n) (mlen m))) (content (view m')) = firstn (Z.to_nat (Z.min (h - mdata m + n) (mlen m))) (content (view m)).
Proof.
  intros Hok El Hh Hn Hl. unfold msgb_l3trim. rewrite El.
  destruct (msgb_ok_inv m Hok) as (? & ? & ? & ? & ? & ? & ? & _).
  destruct (trim_full m (h - mdata m + n) Hok ltac:(lia)) as [_ T]. destruct T as (m' & E & _ & T); [lia|].
  destruct T as (_ & T2 & _ & T3). { unfold msgb_headroom. lia. }
  exists m'. split; auto. pose proof E as E'. unfold msgb_trim in E'.
  destruct (_ <? 0) in E'; [discriminate|]. destruct (_ <? _) in E'; [discriminate|]. injection E' as <-.
  cbn [mdata mtail l3h]. repeat split; auto. lia.
Qed.

Lemma reset_ok m : 0 <= data_len m <= 65535 -> zlen (mem m) = data_len m -> bytes (mem m) ->
  (forall h, l1h m = Some h -> 0 <= h <= data_len m) ->
  let m' := msgb_reset m in
  msgb_ok m' /\ view m' = Deque 0 [] (data_len m) /\ data_len m' = data_len m /\ l2h m' = None /\ l3h m' = None /\ l4h m' = None.
Proof.
  intros Hd Hz Hb H1 m'. unfold m', msgb_reset. split.
  - split; [|cbn [mlen mem data_len]; split; [lia|split; [auto|split; [auto|lia]]]].
    unfold msgb_test_invariant. cbn [mdata mlen mtail data_len l1h l2h l3h l4h].
    replace (data_len m <? 0) with false by lia. change (negb (0 + 0 =? 0) || (0 <? 0) || false) with false. cbn iota.
    destruct (l1h m) as [h|]; cbn [hdr_step].
    + specialize (H1 h eq_refl). replace (h <? 0) with false by lia. apply Z.leb_le. lia.
    + apply Z.leb_le. lia.
  - split; [|auto]. unfold view, msgb_headroom, msgb_tailroom. cbn [mdata mem mlen mtail data_len]. rewrite Z.sub_0_r. reflexivity.
Qed.
