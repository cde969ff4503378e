From Verif Require Import Base Lib S_base64 M_base64.

(* ---------- encode ---------- *)
Lemma enc_map_c64 d : 0 <= d < 64 -> rd enc_map d = Ok (c64 d).
Proof.
  intros H. assert (E : (match rd enc_map d with Ok v => v =? c64 d | _ => false end) = true).
  { apply (forall_zseq (fun d => match rd enc_map d with Ok v => v =? c64 d | _ => false end) 0 64); [vm_compute; reflexivity|lia]. }
  destruct (rd enc_map d); try discriminate. f_equal. lia.
Qed.

Lemma land63 x : Z.land x 63 = x mod 64. Proof. change 63 with (Z.ones 6). apply Z.land_ones; lia. Qed.
Lemma land3 x : Z.land x 3 = x mod 4. Proof. change 3 with (Z.ones 2). apply Z.land_ones; lia. Qed.
Lemma land15 x : Z.land x 15 = x mod 16. Proof. change 15 with (Z.ones 4). apply Z.land_ones; lia. Qed.

Lemma rd_app_r {A} (a b : list A) i : 0 <= i -> rd (a ++ b) (zlen a + i) = rd b i.
Proof.
  intros. unfold rd, zlen. destruct (Z.ltb_spec (Z.of_nat (length a) + i) 0); [lia|]. destruct (Z.ltb_spec i 0); [lia|].
  rewrite nth_error_app2 by lia. do 2 f_equal. replace (Z.to_nat (Z.of_nat (length a) + i) - length a)%nat with (Z.to_nat i) by lia. reflexivity.
Qed.

Lemma b64_len l : zlen (b64 l) = 4 * ((zlen l + 2) / 3).
Proof.
  induction l as [|a|a b|a b c t IH] using list_ind3; try reflexivity.
  cbn [b64]. cbv zeta. rewrite !zlen_cons, IH. pose proof (zlen_nonneg t). lia.
Qed.

Ltac sh := rewrite ?land63, ?land3, ?land15, ?Z.shiftr_div_pow2, ?Z.shiftl_mul_pow2 by lia;
  change (2 ^ 2) with 4; change (2 ^ 4) with 16; change (2 ^ 6) with 64.

Lemma enc_group_ok pre a b c t m p : is_byte a -> is_byte b -> is_byte c -> 0 <= p -> p + 4 <= zlen m ->
  enc_group (pre ++ a :: b :: c :: t) (zlen pre) (m, p) =
  Ok (blit m (Z.to_nat p) (firstn 4 (b64 [a; b; c])), p + 4).
Proof.
  unfold is_byte. intros Ha Hb Hc Hp Hm. unfold enc_group.
  replace (zlen pre) with (zlen pre + 0) at 1 by lia. rewrite !rd_app_r by lia.
  change (rd (a :: b :: c :: t) 0) with (Ok a). change (rd (a :: b :: c :: t) 1) with (Ok b). change (rd (a :: b :: c :: t) 2) with (Ok c).
  cbn [bind]. sh. rewrite !enc_map_c64 by lia. cbn [bind]. rewrite puts_ok by (rewrite ?zlen_cons; change (zlen (@nil Z)) with 0; lia).
  cbn [b64 firstn]. cbv zeta. f_equal. f_equal. f_equal. repeat (f_equal; try lia).
Qed.

Lemma enc_loop l : forall k pre m p, bytes l -> zlen pre = 3 * k -> 0 <= k -> 0 <= p ->
  p + 4 * (zlen l / 3) <= zlen m ->
  zfor (Z.to_nat (zlen l / 3)) k (fun k st => enc_group (pre ++ l) (3 * k) st) (m, p) =
  Ok (blit m (Z.to_nat p) (firstn (Z.to_nat (4 * (zlen l / 3))) (b64 l)), p + 4 * (zlen l / 3)).
Proof.
  induction l as [|a|a b|a b c t IH] using list_ind3; intros k pre m p Hb Hpre Hk Hp Hm.
  1-3: cbn; rewrite blit_nil, Z.add_0_r; reflexivity.
  inversion Hb as [|? ? Ha Hb1]; inversion Hb1 as [|? ? Hb' Hb2]; inversion Hb2 as [|? ? Hc Ht]; subst.
  rewrite !zlen_cons in Hm |- *. pose proof (zlen_nonneg t).
  assert (E : (1 + (1 + (1 + zlen t))) / 3 = 1 + zlen t / 3) by lia. rewrite E in *.
  replace (Z.to_nat (1 + zlen t / 3)) with (S (Z.to_nat (zlen t / 3))) by lia. cbn [zfor].
  rewrite <- Hpre. rewrite enc_group_ok by (auto; lia). cbn [bind].
  rewrite zfor_ext with (g := fun k st => enc_group ((pre ++ [a; b; c]) ++ t) (3 * k) st).
  2:{ intros. rewrite <- app_assoc. reflexivity. }
  assert (L4 : zlen (firstn 4 (b64 [a; b; c])) = 4) by reflexivity.
  rewrite IH; auto; try lia.
  - f_equal. f_equal; [|lia].
    replace (p + 4) with (p + zlen (firstn 4 (b64 [a; b; c]))) by (rewrite L4; reflexivity).
    rewrite zblit_blit by (rewrite ?L4; lia). f_equal.
    replace (Z.to_nat (4 * (1 + zlen t / 3))) with (4 + Z.to_nat (4 * (zlen t / 3)))%nat by lia. reflexivity.
  - rewrite zlen_app. change (zlen [a; b; c]) with 3. lia.
  - rewrite zlen_blit; rewrite ?L4; lia.
Qed.

Lemma enc_len_ok n : 0 < n < 2 ^ 61 -> enc_len n = 4 * ((n + 2) / 3).
Proof.
  intros H. change (2 ^ 61) with 2305843009213693952 in H. unfold enc_len. rewrite Z.shiftl_mul_pow2 by lia. change (2 ^ 3) with 8.
  rewrite (u64_small (n * 8)) by (unfold is_u64; lia). rewrite (u64_small (n * 8 / 6 * 6)) by (unfold is_u64; lia).
  rewrite (u64_small (n * 8 - _)) by (unfold is_u64; lia).
  destruct (Z.eqb_spec (n * 8 - n * 8 / 6 * 6) 2); [rewrite u64_small by (unfold is_u64; lia); lia|].
  destruct (Z.eqb_spec (n * 8 - n * 8 / 6 * 6) 4); [rewrite u64_small by (unfold is_u64; lia); lia|]. lia.
Qed.

Lemma split3 (l : list Z) : exists a b, l = a ++ b /\ zlen a = 3 * (zlen l / 3) /\ zlen b < 3 /\ b64 l = firstn (Z.to_nat (4 * (zlen l / 3))) (b64 l) ++ b64 b.
Proof.
  induction l as [|x|x y|x y z t IH] using list_ind3.
  - exists [], []. repeat split.
  - exists [], [x]. repeat split.
  - exists [], [x; y]. repeat split.
  - destruct IH as (a & b & -> & Ha & Hb & E). exists (x :: y :: z :: a), b. rewrite !zlen_cons in *.
    pose proof (zlen_nonneg (a ++ b)).
    assert (E3 : (1 + (1 + (1 + zlen (a ++ b)))) / 3 = 1 + zlen (a ++ b) / 3) by lia. rewrite E3.
    split; [reflexivity|]. split; [lia|]. split; [auto|].
    replace (Z.to_nat (4 * (1 + zlen (a ++ b) / 3))) with (4 + Z.to_nat (4 * (zlen (a ++ b) / 3)))%nat by lia.
    cbn [b64]. cbv zeta. cbn [Nat.add firstn app]. rewrite <- E. reflexivity.
Qed.

Lemma encode_ok dst src : bytes src -> zlen src < 2 ^ 61 ->
  osmo_base64_encode dst (zlen dst) src (zlen src) =
  Ok (if zlen src =? 0 then (0, 0, dst)
      else if zlen dst <? zlen (b64 src) + 1 then (- ENOBUFS, zlen (b64 src) + 1, dst)
      else (0, zlen (b64 src), blit dst 0 (b64 src ++ [0]))).
Proof.
  intros Hb Hs. pose proof (zlen_nonneg src). unfold osmo_base64_encode. destruct (Z.eqb_spec (zlen src) 0); auto.
  rewrite enc_len_ok by lia. rewrite <- b64_len. pose proof (b64_len src) as L. change (2 ^ 61) with 2305843009213693952 in Hs.
  rewrite u64_small by (unfold is_u64; lia).
  destruct (Z.ltb_spec (zlen dst) (zlen (b64 src) + 1)) as [|Hd]; auto.
  pose proof (enc_loop src 0 [] dst 0 Hb) as E. cbn [app] in E. rewrite E by (try reflexivity; lia). clear E. cbn [bind].
  destruct (split3 src) as (a & b & Es & La & Lb & E64).
  assert (Hbb : bytes b) by (rewrite Es in Hb; apply Forall_app in Hb; apply Hb).
  set (f := firstn (Z.to_nat (4 * (zlen src / 3))) (b64 src)) in *.
  assert (Lf : zlen f = 4 * (zlen src / 3)). { unfold f. rewrite zlen_firstn'. lia. }
  assert (Ls : zlen src = zlen a + zlen b) by (rewrite Es, zlen_app; lia).
  replace (0 + 4 * (zlen src / 3)) with (0 + zlen f) by lia.
  replace (zlen src / 3 * 3) with (zlen a) by lia.
  assert (T : (if zlen a <? zlen src
   then do c1 <- rd src (zlen a) ;;
        do c2 <- (if zlen a + 1 <? zlen src then rd src (zlen a + 1) else Ok 0) ;;
        do e1 <- rd enc_map (Z.land (Z.shiftr c1 2) 63) ;;
        do e2 <- rd enc_map (Z.land (Z.shiftl (Z.land c1 3) 4 + Z.shiftr c2 4) 63) ;;
        do e3 <- (if zlen a + 1 <? zlen src then rd enc_map (Z.land (Z.shiftl (Z.land c2 15) 2) 63) else Ok 61) ;;
        puts (blit dst (Z.to_nat 0) f) (0 + zlen f) [e1; e2; e3; 61]
   else Ok (blit dst (Z.to_nat 0) f, 0 + zlen f)) = Ok (blit dst 0 (b64 src), zlen (b64 src))).
  { rewrite E64. assert (L64 : zlen (b64 src) = zlen f + zlen (b64 b)) by (rewrite E64 at 1; apply zlen_app).
    rewrite zlen_app. destruct b as [|x [|y [|? ?]]].
    - change (zlen (@nil Z)) with 0 in Ls. destruct (Z.ltb_spec (zlen a) (zlen src)); [lia|]. cbn [b64]. rewrite app_nil_r.
      change (zlen (@nil Z)) with 0. do 2 f_equal. lia.
    - change (zlen [x]) with 1 in Ls. destruct (Z.ltb_spec (zlen a) (zlen src)); [|lia]. destruct (Z.ltb_spec (zlen a + 1) (zlen src)); [lia|].
      rewrite Es. replace (zlen a) with (zlen a + 0) by lia. rewrite rd_app_r by lia. change (rd [x] 0) with (Ok x). cbn [bind].
      inversion Hbb as [|? ? Hx _]; subst. unfold is_byte in Hx. sh. rewrite !enc_map_c64 by lia. cbn [bind]. change (zlen (b64 [x])) with 4 in L64.
      rewrite puts_ok; [|lia|rewrite zlen_blit by lia; change (zlen [c64 (x / 4 mod 64); c64 ((x mod 4 * 16 + 0 / 16) mod 64); 61; 61]) with 4; lia].
      rewrite zblit_blit by lia. cbn [b64]. cbv zeta. apply f_equal. apply f_equal2; [|reflexivity || lia]. unfold PAD. f_equal. f_equal. repeat (f_equal; try lia).
    - change (zlen [x; y]) with 2 in Ls. destruct (Z.ltb_spec (zlen a) (zlen src)); [|lia]. destruct (Z.ltb_spec (zlen a + 1) (zlen src)); [|lia].
      rewrite Es. replace (rd (a ++ [x; y]) (zlen a)) with (rd (a ++ [x; y]) (zlen a + 0)) by (f_equal; lia). rewrite !rd_app_r by lia.
      change (rd [x; y] 0) with (Ok x). change (rd [x; y] 1) with (Ok y). cbn [bind].
      inversion Hbb as [|? ? Hx Hbb']; subst. inversion Hbb' as [|? ? Hy _]; subst. unfold is_byte in Hx, Hy. sh. rewrite !enc_map_c64 by lia. cbn [bind]. change (zlen (b64 [x; y])) with 4 in L64.
      rewrite puts_ok; [|lia|rewrite zlen_blit by lia; rewrite !zlen_cons; change (zlen (@nil Z)) with 0; lia].
      rewrite zblit_blit by lia. cbn [b64]. cbv zeta. apply f_equal. apply f_equal2; [|reflexivity || lia]. unfold PAD. f_equal. f_equal. repeat (f_equal; try lia).
    - rewrite !zlen_cons in Lb. pose proof (zlen_nonneg l). lia. }
  rewrite T. cbn [bind].
  pose proof (puts_ok [0] (blit dst 0 (b64 src)) (zlen (b64 src))) as P. cbn [puts] in P.
  change (blit dst 0 (b64 src)) with (blit dst (Z.to_nat 0) (b64 src)) in *.
  rewrite zlen_blit in P by lia. change (zlen [0]) with 1 in P. specialize (P (zlen_nonneg _) Hd).
  destruct (wr (blit dst (Z.to_nat 0) (b64 src)) (zlen (b64 src)) 0) as [m'| | |]; try discriminate. cbn [bind] in *.
  injection P as ->. do 2 f_equal. pose proof (zblit_blit dst 0 (b64 src) [0]) as Z0. rewrite Z.add_0_l in Z0. apply Z0; lia.
Qed.

(* ---------- decode ---------- *)
Definition sext (c : Z) : Z := match rd dec_map c with Ok d => d | _ => 127 end.
Notation keep := significant.
(* a character with a 6 bit value *)
Definition dig (c : Z) : Prop := 0 <= c < 128 /\ 0 <= sext c < 64.

Lemma rd_dec c : 0 <= c < 128 -> rd dec_map c = Ok (sext c) /\ 0 <= sext c < 128.
Proof.
  intros. unfold sext. assert (zlen dec_map = 128) by reflexivity. rewrite rd_at0 by lia. split; auto.
  pose proof (forall_zseq (fun c => (0 <=? at0 dec_map c) && (at0 dec_map c <? 128)) 0 128 ltac:(vm_compute; reflexivity) c). lia.
Qed.
Lemma sext_pad c : 0 <= c < 128 -> sext c = 127 \/ (sext c = 64 /\ c = 61) \/ 0 <= sext c < 64.
Proof.
  intros. pose proof (forall_zseq (fun c => (sext c =? 127) || ((sext c =? 64) && (c =? 61)) || ((0 <=? sext c) && (sext c <? 64))) 0 128 ltac:(vm_compute; reflexivity) c). lia.
Qed.
Lemma sext_c64 d : 0 <= d < 64 -> dig (c64 d) /\ sext (c64 d) = d.
Proof.
  intros. pose proof (forall_zseq (fun d => (sext (c64 d) =? d) && (0 <=? c64 d) && (c64 d <? 128)) 0 64 ltac:(vm_compute; reflexivity) d). unfold dig. lia.
Qed.
Lemma dig_keep c : dig c -> keep c = true /\ c <> 61.
Proof.
  intros [H1 H2]. pose proof (forall_zseq (fun c => if (0 <=? sext c) && (sext c <? 64) then keep c && negb (c =? 61) else true) 0 128 ltac:(vm_compute; reflexivity) c).
  cbv beta in H. replace ((0 <=? sext c) && (sext c <? 64)) with true in H by lia. specialize (H ltac:(lia)). cbv iota in H. apply andb_prop in H. destruct H as [H H3]. split; [exact H|]. intros ->. discriminate.
Qed.

Lemma scan_ok l : forall n j x n' j', dec_scan l n j x = Ok (Some (n', j')) -> bytes l ->
  0 <= j <= 2 -> 0 <= n -> n + zlen l < 2 ^ 61 ->
  exists d k, filter keep l = d ++ repeat 61 k /\ Forall dig d /\ (0 < j -> d = []) /\
    n' = n + zlen d + Z.of_nat k /\ j' = j + Z.of_nat k /\ j' <= 2.
Proof.
  change (2 ^ 61) with 2305843009213693952.
  induction l as [|c t IH]; intros n j x n' j' H Hb Hj Hn Hl; cbn [dec_scan] in H.
  - injection H as <- <-. exists [], 0%nat. cbn. repeat split; auto; lia.
  - rewrite zlen_cons in Hl. inversion Hb as [|? ? Hc Hbt]; subst. unfold is_byte in Hc.
    assert (SK : forall x', dec_scan t n j x' = Ok (Some (n', j')) -> keep c = false -> exists d k, filter keep (c :: t) = d ++ repeat 61 k /\ Forall dig d /\ (0 < j -> d = []) /\ n' = n + zlen d + Z.of_nat k /\ j' = j + Z.of_nat k /\ j' <= 2).
    { intros x' E K. cbn [filter]. rewrite K. apply (IH n j x'); auto. lia. }
    destruct (Z.eqb_spec c 32); [apply (SK (u32 (x + 1))); auto; subst; reflexivity|].
    destruct (Z.eqb_spec c 13) as [->|N13]; cbn [andb] in H.
    { destruct t as [|d t'].
      - change (13 =? 10) with false in H. change (13 =? 61) with false in H. cbn [andb] in H.
        destruct (negb (x =? 0)); [discriminate|]. change (127 <? 13) with false in H.
        change (rd dec_map 13) with (Ok 127) in H. cbn [bind] in H. discriminate.
      - destruct (d =? 10); [apply (SK 0); auto|].
        change (13 =? 10) with false in H. change (13 =? 61) with false in H. cbn [andb] in H.
        destruct (negb (x =? 0)); [discriminate|]. change (127 <? 13) with false in H.
        change (rd dec_map 13) with (Ok 127) in H. cbn [bind] in H. discriminate. }
    destruct (Z.eqb_spec c 10); [apply (SK 0); auto; subst; reflexivity|].
    assert (K : keep c = true) by (unfold significant; lia).
    destruct (negb (x =? 0)); [discriminate|].
    remember (if c =? 61 then u32 (j + 1) else j) as j1 eqn:Ej1.
    assert (Ej : j1 = if c =? 61 then j + 1 else j) by (rewrite Ej1; destruct (c =? 61); auto; apply u32_small; unfold is_u32; lia).
    destruct ((c =? 61) && (2 <? j1)) eqn:G1; [discriminate|].
    destruct (Z.ltb_spec 127 c); [discriminate|].
    destruct (rd_dec c) as [E Hs]; [lia|]. rewrite E in H. cbn [bind] in H.
    destruct (Z.eqb_spec (sext c) 127); [discriminate|].
    destruct ((sext c <? 64) && negb (j1 =? 0)) eqn:G2; [discriminate|].
    rewrite u64_small in H by (unfold is_u64; pose proof (zlen_nonneg t); lia).
    destruct (sext_pad c) as [|[[S1 S2]|S1]]; [lia|lia| |].
    + (* '=' *) destruct (Z.eqb_spec c 61); [|lia].
      apply IH in H; auto; try lia. destruct H as (d & k & F & D1 & D2 & D3 & D4 & D5).
      specialize (D2 ltac:(lia)). subst d. cbn [app] in F. exists [], (S k). cbn [filter]. rewrite K, F. change (zlen (@nil Z)) with 0 in *.
      split; [rewrite e; reflexivity|]. repeat split; auto; lia.
    + destruct (Z.eqb_spec c 61); [subst; cbv in S1; destruct S1; discriminate|].
      apply IH in H; auto; try lia. destruct H as (d & k & F & D1 & D2 & D3 & D4 & D5).
      exists (c :: d), k. cbn [filter]. rewrite K, F, zlen_cons. repeat split; auto; try lia.
      constructor; auto. split; auto. lia.
Qed.

(* the second pass ignores CR, LF and space *)
Lemma dec_out_filter l : forall j n x m p, dec_out l j n x m p = dec_out (filter keep l) j n x m p.
Proof.
  induction l as [|c t IH]; intros; auto. cbn [filter]. unfold significant at 1.
  destruct ((c =? 13) || (c =? 10) || (c =? 32)) eqn:E; cbn [negb]; cbn [dec_out]; rewrite E; [apply IH|].
  destruct (rd dec_map c); cbn [bind]; auto.
  destruct (n + 1 =? 4); auto.
  destruct (if 0 <? (if a =? 64 then u32 (j - 1) else j) then _ else _) as [[? ?]| | |]; cbn [bind]; auto.
  destruct (if 1 <? (if a =? 64 then u32 (j - 1) else j) then _ else _) as [[? ?]| | |]; cbn [bind]; auto.
  destruct (if 2 <? (if a =? 64 then u32 (j - 1) else j) then _ else _) as [[? ?]| | |]; cbn [bind]; auto.
Qed.

(* what the second pass produces from digits d followed by k pads *)
Fixpoint out64 (d : list Z) (k : nat) : list Z :=
  match d with
  | a :: b :: c :: e :: t =>
      let v := sext a * 262144 + sext b * 4096 + sext c * 64 + sext e in v / 65536 :: v / 256 mod 256 :: v mod 256 :: out64 t k
  | [a; b; c] => match k with O => [] | _ => let v := sext a * 262144 + sext b * 4096 + sext c * 64 in [v / 65536; v / 256 mod 256] end
  | [a; b] => match k with O | 1%nat => [] | _ => let v := sext a * 262144 + sext b * 4096 in [v / 65536] end
  | _ => []
  end.

Definition stepx (x d : Z) : Z := Z.lor (u32 (Z.shiftl x 6)) (Z.land d 63).
Lemma stepx_eq x d : 0 <= d < 64 -> stepx x d = u32 (64 * x + d).
Proof.
  intros. unfold stepx. rewrite land63, Z.mod_small by lia. rewrite Z.shiftl_mul_pow2 by lia. change (2 ^ 6) with 64.
  unfold u32. replace ((x * 64) mod 4294967296) with (Z.shiftl (x mod 67108864) 6).
  - rewrite Z.lor_comm, lor_shiftl_add by (try lia; change (2 ^ 6) with 64; lia). change (2 ^ 6) with 64. lia.
  - rewrite Z.shiftl_mul_pow2 by lia. change (2 ^ 6) with 64. lia.
Qed.

Lemma dec_step c t j n x m p : dig c -> n + 1 <> 4 ->
  dec_out (c :: t) j n x m p = dec_out t j (n + 1) (u32 (64 * x + sext c)) m p.
Proof.
  intros Hd Hn. pose proof (dig_keep c Hd) as [K _]. destruct Hd as [H1 H2]. cbn [dec_out].
  replace ((c =? 13) || (c =? 10) || (c =? 32)) with false by (unfold significant in K; lia).
  destruct (rd_dec c H1) as [E _]. rewrite E. cbn [bind]. replace (sext c =? 64) with false by lia.
  replace (n + 1 =? 4) with false by lia. fold (stepx x (sext c)). rewrite stepx_eq by lia. reflexivity.
Qed.
Lemma dec_pad t j n x m p : n + 1 <> 4 ->
  dec_out (61 :: t) j n x m p = dec_out t (u32 (j - 1)) (n + 1) (u32 (64 * x + 0)) m p.
Proof.
  intros Hn. cbn [dec_out]. change ((61 =? 13) || (61 =? 10) || (61 =? 32)) with false. change (rd dec_map 61) with (Ok 64). cbn [bind].
  replace (n + 1 =? 4) with false by lia. change (64 =? 64) with true. cbv iota.
  change (Z.lor (u32 (Z.shiftl x 6)) (Z.land 64 63)) with (stepx x 0). rewrite stepx_eq by lia. reflexivity.
Qed.
Lemma dec_last c t x m p : dig c -> 0 <= p -> p + 3 <= zlen m ->
  dec_out (c :: t) 3 3 x m p =
  let x' := u32 (64 * x + sext c) in
  dec_out t 3 0 x' (blit m (Z.to_nat p) [u8 (Z.shiftr x' 16); u8 (Z.shiftr x' 8); u8 x']) (p + 3).
Proof.
  intros Hd Hp Hm. pose proof (dig_keep c Hd) as [K _]. destruct Hd as [H1 H2]. cbn [dec_out].
  replace ((c =? 13) || (c =? 10) || (c =? 32)) with false by (unfold significant in K; lia).
  destruct (rd_dec c H1) as [E _]. rewrite E. cbn [bind]. replace (sext c =? 64) with false by lia.
  change (3 + 1 =? 4) with true. change (0 <? 3) with true. change (1 <? 3) with true. change (2 <? 3) with true. cbv iota zeta.
  fold (stepx x (sext c)). rewrite stepx_eq by lia. set (x' := u32 (64 * x + sext c)).
  pose proof (puts_ok [u8 (Z.shiftr x' 16); u8 (Z.shiftr x' 8); u8 x'] m p Hp ltac:(rewrite !zlen_cons; change (zlen (@nil Z)) with 0; lia)) as P.
  change [u8 (Z.shiftr x' 16); u8 (Z.shiftr x' 8); u8 x'] with ([u8 (Z.shiftr x' 16)] ++ [u8 (Z.shiftr x' 8)] ++ [u8 x']) in P at 1.
  rewrite puts_app in P. destruct (puts m p [u8 (Z.shiftr x' 16)]) as [[m1 p1]| | |]; try discriminate. cbn [bind] in *.
  rewrite puts_app in P. destruct (puts m1 p1 [u8 (Z.shiftr x' 8)]) as [[m2 p2]| | |]; try discriminate. cbn [bind] in *.
  rewrite P. cbn [bind]. reflexivity.
Qed.
Lemma dec_last_pad t j x m p : (j = 3 \/ j = 2) -> 0 <= p -> p + (j - 1) <= zlen m ->
  dec_out (61 :: t) j 3 x m p =
  let x' := u32 (64 * x) in
  dec_out t (j - 1) 0 x' (blit m (Z.to_nat p) (if j =? 3 then [u8 (Z.shiftr x' 16); u8 (Z.shiftr x' 8)] else [u8 (Z.shiftr x' 16)])) (p + (j - 1)).
Proof.
  intros Hj Hp Hm. cbn [dec_out]. change ((61 =? 13) || (61 =? 10) || (61 =? 32)) with false. change (rd dec_map 61) with (Ok 64). cbn [bind].
  change (3 + 1 =? 4) with true. change (64 =? 64) with true. cbv iota zeta.
  change (Z.lor (u32 (Z.shiftl x 6)) (Z.land 64 63)) with (stepx x 0). rewrite stepx_eq by lia. rewrite Z.add_0_r. set (x' := u32 (64 * x)).
  destruct Hj; subst j.
  - change (u32 (3 - 1)) with 2. change (0 <? 2) with true. change (1 <? 2) with true. change (2 <? 2) with false. change (3 =? 3) with true. cbv iota.
    pose proof (puts_ok [u8 (Z.shiftr x' 16); u8 (Z.shiftr x' 8)] m p Hp ltac:(rewrite !zlen_cons; change (zlen (@nil Z)) with 0; lia)) as P.
    change [u8 (Z.shiftr x' 16); u8 (Z.shiftr x' 8)] with ([u8 (Z.shiftr x' 16)] ++ [u8 (Z.shiftr x' 8)]) in P at 1.
    rewrite puts_app in P. destruct (puts m p [u8 (Z.shiftr x' 16)]) as [[m1 p1]| | |]; try discriminate. cbn [bind] in *.
    rewrite P. cbn [bind]. reflexivity.
  - change (u32 (2 - 1)) with 1. change (0 <? 1) with true. change (1 <? 1) with false. change (2 <? 1) with false. change (2 =? 3) with false. cbv iota.
    rewrite puts_ok by (try lia; rewrite !zlen_cons; change (zlen (@nil Z)) with 0; lia). cbn [bind]. reflexivity.
Qed.

Definition announced (d : list Z) (k : nat) : Z := (6 * (zlen d + Z.of_nat k) + 7) / 8 - Z.of_nat k.

Lemma out64_len d k : (k <= 2)%nat -> 0 <= zlen (out64 d k) <= announced d k.
Proof.
  intros Hk. unfold announced. induction d as [|a|a b|a b c|a b c e t IH] using list_ind4.
  - destruct k as [|[|[|]]]; cbn; lia.
  - destruct k as [|[|[|]]]; cbn; lia.
  - destruct k as [|[|[|]]]; cbn; lia.
  - destruct k as [|[|[|]]]; cbn; lia.
  - cbn [out64]. cbv zeta. rewrite !zlen_cons. lia.
Qed.

Lemma dec_out_ok d : forall k x m p, Forall dig d -> (k <= 2)%nat -> 0 <= p -> p + announced d k <= zlen m -> 0 <= x ->
  dec_out (d ++ repeat 61 k) 3 0 x m p = Ok (blit m (Z.to_nat p) (out64 d k), p + zlen (out64 d k)).
Proof.
  induction d as [|a|a b|a b c|a b c e t IH] using list_ind4; intros k x m p Hd Hk Hp Hm Hx.
  - assert (out64 [] k = []) as -> by reflexivity. rewrite blit_nil. change (zlen (@nil Z)) with 0. rewrite Z.add_0_r.
    destruct k as [|[|[|]]]; [reflexivity| | |lia]; cbn [app repeat]; rewrite !dec_pad by lia; reflexivity.
  - assert (out64 [a] k = []) as -> by reflexivity. rewrite blit_nil. change (zlen (@nil Z)) with 0. rewrite Z.add_0_r.
    inversion Hd; subst. cbn [app]. rewrite dec_step by (auto; lia).
    destruct k as [|[|[|]]]; [reflexivity| | |lia]; cbn [app repeat]; rewrite !dec_pad by lia; reflexivity.
  - inversion Hd as [|? ? Ha Hd1]; subst. inversion Hd1 as [|? ? Hb _]; subst. cbn [app]. rewrite dec_step by (auto; lia). rewrite dec_step by (auto; lia).
    change (0 + 1 + 1) with 2. destruct k as [|[|[|]]]; [| | |lia]; cbn [app repeat].
    + cbn. rewrite blit_nil, Z.add_0_r. reflexivity.
    + rewrite dec_pad by lia. cbn. rewrite blit_nil, Z.add_0_r. reflexivity.
    + rewrite dec_pad by lia. change (u32 (3 - 1)) with 2. unfold announced in Hm. rewrite !zlen_cons in Hm. change (zlen (@nil Z)) with 0 in Hm.
      rewrite dec_last_pad by (auto; lia). change (2 =? 3) with false. cbv iota zeta. cbn [dec_out].
      cbn [out64]. cbv zeta. f_equal. f_equal. f_equal. f_equal.
      destruct Ha as [_ Ha], Hb as [_ Hb]. rewrite Z.shiftr_div_pow2 by lia. change (2 ^ 16) with 65536. unfold u32, u8. lia.
  - inversion Hd as [|? ? Ha Hd1]; subst. inversion Hd1 as [|? ? Hb Hd2]; subst. inversion Hd2 as [|? ? Hc _]; subst. cbn [app].
    do 3 (rewrite dec_step by (auto; lia)). change (0 + 1 + 1 + 1) with 3. destruct k as [|k]; cbn [app repeat].
    + cbn. rewrite blit_nil, Z.add_0_r. reflexivity.
    + unfold announced in Hm. rewrite !zlen_cons in Hm. change (zlen (@nil Z)) with 0 in Hm.
      rewrite dec_last_pad by (auto; lia). change (3 =? 3) with true. cbv iota zeta.
      replace (dec_out (repeat 61 k) (3 - 1) 0 _ _ _) with (Ok (blit m (Z.to_nat p) [u8 (Z.shiftr (u32 (64 * u32 (64 * u32 (64 * u32 (64 * x + sext a) + sext b) + sext c))) 16);
         u8 (Z.shiftr (u32 (64 * u32 (64 * u32 (64 * u32 (64 * x + sext a) + sext b) + sext c))) 8)], p + (3 - 1))).
      2:{ destruct k as [|[|k]]; [reflexivity| |lia]. cbn [repeat]. rewrite dec_pad by lia. reflexivity. }
      cbn [out64]. cbv zeta. f_equal. f_equal. f_equal.
      destruct Ha as [_ Ha], Hb as [_ Hb], Hc as [_ Hc]. rewrite !Z.shiftr_div_pow2 by lia. change (2 ^ 16) with 65536. change (2 ^ 8) with 256. unfold u32, u8.
      f_equal; [lia|]. f_equal. lia.
  - inversion Hd as [|? ? Ha Hd1]; subst. inversion Hd1 as [|? ? Hb Hd2]; subst. inversion Hd2 as [|? ? Hc Hd3]; subst. inversion Hd3 as [|? ? He Ht]; subst.
    cbn [app]. do 3 (rewrite dec_step by (auto; lia)). change (0 + 1 + 1 + 1) with 3.
    pose proof (out64_len t k Hk) as L. 
    assert (An : announced (a :: b :: c :: e :: t) k = 3 + announced t k) by (unfold announced; rewrite !zlen_cons; lia). rewrite An in Hm.
    rewrite dec_last by (auto; lia). cbv zeta.
    set (y := u32 (64 * u32 (64 * u32 (64 * u32 (64 * x + sext a) + sext b) + sext c) + sext e)).
    assert (L3 : zlen [u8 (Z.shiftr y 16); u8 (Z.shiftr y 8); u8 y] = 3) by reflexivity.
    rewrite IH; auto; [|lia|rewrite zlen_blit; rewrite ?L3; lia|unfold y, u32; lia].
    replace (p + 3) with (p + zlen [u8 (Z.shiftr y 16); u8 (Z.shiftr y 8); u8 y]) by (rewrite L3; reflexivity).
    rewrite zblit_blit by (rewrite ?L3; lia). cbn [out64]. cbv zeta. rewrite !zlen_cons. change (zlen (@nil Z)) with 0.
    f_equal. f_equal; [|lia]. f_equal. cbn [app].
    destruct Ha as [_ Ha], Hb as [_ Hb], Hc as [_ Hc], He as [_ He]. rewrite !Z.shiftr_div_pow2 by lia. change (2 ^ 16) with 65536. change (2 ^ 8) with 256. subst y. unfold u32, u8.
    f_equal; [lia|]. f_equal; [lia|]. f_equal. lia.
Qed.

(* never out of bounds, whatever the input *)
Lemma dec_scan_total l : forall n j x, bytes l -> exists r, dec_scan l n j x = Ok r.
Proof.
  induction l as [|c t IH]; intros n j x Hb; cbn [dec_scan]; eauto. inversion Hb; subst.
  unfold is_byte in *. destruct (c =? 32); auto. destruct ((c =? 13) && _); auto. destruct (c =? 10); auto.
  destruct (negb (x =? 0)); eauto. destruct ((c =? 61) && _); eauto. destruct (Z.ltb_spec 127 c); eauto.
  destruct (rd_dec c) as [E _]; [lia|]. rewrite E. cbn [bind]. destruct (sext c =? 127); eauto.
  destruct ((sext c <? 64) && _); eauto.
Qed.

Lemma decode_safe dst olen src : bytes src -> zlen src < 2 ^ 61 ->
  exists rc ol dst', osmo_base64_decode (Some dst) (zlen dst) olen src = Ok (rc, ol, Some dst') /\
    zlen dst' = zlen dst /\
    ((rc = - EINVAL /\ ol = olen /\ dst' = dst) \/
     (rc = 0 /\ filter keep src = [] /\ ol = olen /\ dst' = dst) \/
     (rc = - ENOBUFS /\ zlen dst < ol /\ dst' = dst /\
      osmo_base64_decode None 0 olen src = Ok (- ENOBUFS, ol, None)) \/
     (rc = 0 /\ 0 <= ol <= zlen dst /\ (forall i, ol <= i -> at0 dst' i = at0 dst i) /\
      exists n, ol <= n <= zlen dst /\ osmo_base64_decode None 0 olen src = Ok (- ENOBUFS, n, None))).
Proof.
  intros Hb Hs. unfold osmo_base64_decode. destruct (dec_scan_total src 0 0 0 Hb) as [[[n j]|] E]; rewrite E; cbn [bind].
  2:{ do 3 eexists. split; [reflexivity|]. auto. }
  pose proof (scan_ok src 0 0 0 n j E Hb ltac:(lia) ltac:(lia) ltac:(lia)) as (d & k & F & D1 & _ & D3 & D4 & D5).
  pose proof (zlen_nonneg d). change (2 ^ 61) with 2305843009213693952 in Hs.
  assert (Fl : zlen (filter keep src) <= zlen src).
  { unfold zlen. clear. induction src; cbn [filter length]; [lia|]. destruct (keep a); cbn [length]; lia. }
  rewrite F, zlen_app in Fl. unfold zlen at 2 in Fl. rewrite repeat_length in Fl.
  destruct (Z.eqb_spec n 0).
  - do 3 eexists. split; [reflexivity|]. split; auto. right. left. repeat split. rewrite F.
    destruct k; [|lia]. destruct d; [reflexivity|]. rewrite zlen_cons in *. pose proof (zlen_nonneg d). lia.
  - rewrite (u64_small (n * 6)) by (unfold is_u64; lia). rewrite (u64_small (n * 6 + 7)) by (unfold is_u64; lia).
    rewrite Z.shiftr_div_pow2 by lia. change (2 ^ 3) with 8.
    assert (A : (n * 6 + 7) / 8 - j = announced d k) by (unfold announced; lia). rewrite A.
    pose proof (out64_len d k ltac:(lia)) as Lo.
    rewrite u64_small by (unfold is_u64, announced in *; lia).
    destruct (Z.ltb_spec (zlen dst) (announced d k)).
    + do 3 eexists. split; [reflexivity|]. split; auto. right. right. left. repeat split; auto.
    + rewrite dec_out_filter, F. rewrite dec_out_ok by (auto; lia). cbn [bind].
      do 3 eexists. split; [reflexivity|]. split; [apply zlen_blit; lia|]. right. right. right.
      split; auto. split; [lia|]. split.
      * intros i Hi. rewrite at0_blit by lia. replace ((0 <=? i) && (i <? 0 + zlen (out64 d k))) with false by lia. reflexivity.
      * eexists. split; [|reflexivity]. lia.
Qed.

(* ---------- round trip ---------- *)
(* digits and pads of the encoding *)
Definition npad (l : list Z) : nat := (if zlen l mod 3 =? 1 then 2%nat else if zlen l mod 3 =? 2 then 1%nat else 0%nat)%Z.
Lemma b64_shape l : bytes l -> exists d, b64 l = d ++ repeat 61 (npad l) /\ Forall dig d /\ out64 d (npad l) = l /\
  announced d (npad l) = zlen l.
Proof.
  unfold announced. induction l as [|a|a b|a b c t IH] using list_ind3; intros Hb.
  - exists []. repeat split; auto.
  - inversion Hb as [|? ? Ha _]; subst. unfold is_byte in Ha. exists [c64 (a * 65536 / 262144); c64 (a * 65536 / 4096 mod 64)].
    destruct (sext_c64 (a * 65536 / 262144)) as [D1 S1]; [lia|]. destruct (sext_c64 (a * 65536 / 4096 mod 64)) as [D2 S2]; [lia|].
    split; [reflexivity|]. split; [auto|]. split; [|reflexivity]. change (npad [a]) with 2%nat. cbn [out64]. cbv zeta. rewrite S1, S2. f_equal. lia.
  - inversion Hb as [|? ? Ha Hb']; subst. inversion Hb' as [|? ? Hb2 _]; subst. unfold is_byte in Ha, Hb2. set (v := a * 65536 + b * 256).
    exists [c64 (v / 262144); c64 (v / 4096 mod 64); c64 (v / 64 mod 64)].
    destruct (sext_c64 (v / 262144)) as [D1 S1]; [lia|]. destruct (sext_c64 (v / 4096 mod 64)) as [D2 S2]; [lia|].
    destruct (sext_c64 (v / 64 mod 64)) as [D3 S3]; [lia|].
    split; [reflexivity|]. split; [auto|]. split; [|reflexivity]. change (npad [a; b]) with 1%nat. cbn [out64]. cbv zeta. rewrite S1, S2, S3.
    f_equal; [lia|]. f_equal. lia.
  - inversion Hb as [|? ? Ha Hb']; subst. inversion Hb' as [|? ? Hb2 Hb'']; subst. inversion Hb'' as [|? ? Hc Ht]; subst.
    unfold is_byte in Ha, Hb2, Hc. destruct (IH Ht) as (d & E1 & E2 & E3 & E4).
    assert (En : npad (a :: b :: c :: t) = npad t).
    { unfold npad. rewrite !zlen_cons. replace ((1 + (1 + (1 + zlen t))) mod 3) with (zlen t mod 3) by lia. reflexivity. }
    rewrite En. set (v := a * 65536 + b * 256 + c).
    destruct (sext_c64 (v / 262144)) as [D1 S1]; [lia|]. destruct (sext_c64 (v / 4096 mod 64)) as [D2 S2]; [lia|].
    destruct (sext_c64 (v / 64 mod 64)) as [D3 S3]; [lia|]. destruct (sext_c64 (v mod 64)) as [D4 S4]; [lia|].
    exists (c64 (v / 262144) :: c64 (v / 4096 mod 64) :: c64 (v / 64 mod 64) :: c64 (v mod 64) :: d).
    split; [cbn [b64]; cbv zeta; fold v; rewrite E1; reflexivity|]. split; [auto|]. split.
    + cbn [out64]. cbv zeta. rewrite S1, S2, S3, S4, E3. f_equal; [lia|]. f_equal; [lia|]. f_equal. lia.
    + rewrite !zlen_cons. lia.
Qed.

Lemma scan_spaces k t n j : forall x, dec_scan (repeat 32 k ++ 10 :: t) n j x = dec_scan t n j 0.
Proof. induction k; intros; cbn [repeat app dec_scan]; [reflexivity|]. apply IHk. Qed.
Lemma scan_spaces_cr k t n j : forall x, dec_scan (repeat 32 k ++ 13 :: 10 :: t) n j x = dec_scan t n j 0.
Proof. induction k; intros; cbn [repeat app dec_scan]; [reflexivity|]. apply IHk. Qed.
Lemma scan_spaces_end k n j : forall x, dec_scan (repeat 32 k) n j x = Ok (Some (n, j)).
Proof. induction k; intros; cbn [repeat dec_scan]; [reflexivity|]. apply IHk. Qed.

Lemma scan_broken c t : broken c t -> forall n j, Forall (fun x => keep x = true) c -> dec_scan t n j 0 = dec_scan c n j 0.
Proof.
  induction 1; intros n j Hk.
  - apply scan_spaces_end.
  - inversion Hk as [|? ? Hx Hc]; subst. unfold significant in Hx. cbn [dec_scan].
    replace (x =? 32) with false by lia. replace (x =? 13) with false by lia. replace (x =? 10) with false by lia. cbn [andb].
    destruct (negb (0 =? 0)); auto. destruct ((x =? 61) && _); auto. destruct (127 <? x); auto. destruct (rd dec_map x); cbn [bind]; auto.
    destruct (a =? 127); auto. destruct ((a <? 64) && _); auto.
  - unfold SP, LF. rewrite scan_spaces. auto.
  - unfold SP, LF, CR. rewrite scan_spaces_cr. auto.
Qed.
Lemma filter_spaces k t : filter keep (repeat 32 k ++ t) = filter keep t.
Proof. induction k; cbn; auto. Qed.
Lemma filter_broken c t : broken c t -> Forall (fun x => keep x = true) c -> filter keep t = c.
Proof.
  induction 1; intros Hk.
  - rewrite <- (app_nil_r (repeat SP k)). unfold SP. rewrite filter_spaces. reflexivity.
  - inversion Hk; subst. cbn [filter]. rewrite H2. f_equal. auto.
  - unfold SP. rewrite filter_spaces. cbn. auto.
  - unfold SP. rewrite filter_spaces. cbn. auto.
Qed.

Lemma scan_digits d : forall n l, Forall dig d -> 0 <= n -> n + zlen d < 2 ^ 61 -> dec_scan (d ++ l) n 0 0 = dec_scan l (n + zlen d) 0 0.
Proof.
  change (2 ^ 61) with 2305843009213693952. induction d as [|c t IH]; intros n l Hd Hn Hl.
  - change (zlen (@nil Z)) with 0. rewrite Z.add_0_r. reflexivity.
  - inversion Hd as [|? ? Hc Ht]; subst. rewrite zlen_cons in *. pose proof (zlen_nonneg t). pose proof (dig_keep c Hc) as [K N]. destruct Hc as [H1 H2].
    cbn [app dec_scan]. unfold significant in K. replace (c =? 32) with false by lia. replace (c =? 13) with false by lia. replace (c =? 10) with false by lia.
    replace (c =? 61) with false by lia. replace (127 <? c) with false by lia. change (negb (0 =? 0)) with false. cbn [andb]. destruct (rd_dec c H1) as [E _]. rewrite E. cbn [bind].
    replace (sext c =? 127) with false by lia. rewrite andb_false_r. rewrite u64_small by (unfold is_u64; lia). rewrite IH by (auto; lia). f_equal. lia.
Qed.

Lemma keep_b64 l : bytes l -> Forall (fun x => keep x = true) (b64 l).
Proof.
  intros Hb. destruct (b64_shape l Hb) as (d & -> & Hd & _). apply Forall_app. split.
  - eapply Forall_impl; [|exact Hd]. intros x Hx. apply dig_keep; auto.
  - apply Forall_forall. intros x Hx. apply repeat_spec in Hx. subst. reflexivity.
Qed.

Lemma roundtrip dst olen src text : bytes src -> src <> [] -> zlen src < 2 ^ 60 -> broken (b64 src) text ->
  osmo_base64_decode (Some dst) (zlen dst) olen text =
  Ok (if zlen dst <? zlen src then (- ENOBUFS, zlen src, Some dst) else (0, zlen src, Some (blit dst 0 src))).
Proof.
  intros Hb Hne Hs Hbr. pose proof (keep_b64 src Hb) as Hk. unfold osmo_base64_decode. rewrite (scan_broken _ _ Hbr) by auto.
  change (2 ^ 60) with 1152921504606846976 in Hs.
  destruct (b64_shape src Hb) as (d & E & Hd & Ho & Ha). pose proof (b64_len src) as L. pose proof (zlen_nonneg src).
  assert (Ld : zlen (b64 src) = zlen d + Z.of_nat (npad src)) by (rewrite E, zlen_app; unfold zlen at 2; rewrite repeat_length; reflexivity).
  assert (Sc : dec_scan (b64 src) 0 0 0 = Ok (Some (zlen (b64 src), Z.of_nat (npad src)))).
  { rewrite Ld. rewrite E. rewrite scan_digits by (auto; try lia; change (2 ^ 61) with 2305843009213693952; lia). rewrite Z.add_0_l.
    assert (zlen d < 2305843009213693952 - 10) by lia. pose proof (zlen_nonneg d).
    assert (P1 : forall t n j, (j = 0 \/ j = 1) -> dec_scan (61 :: t) n j 0 = dec_scan t (u64 (n + 1)) (j + 1) 0).
    { intros t n j [-> | ->]; reflexivity. }
    unfold npad in *. destruct (zlen src mod 3 =? 1); [|destruct (zlen src mod 3 =? 2)]; cbn [repeat]; rewrite ?P1 by auto; cbn [dec_scan].
    - rewrite (u64_small (zlen d + 1)) by (unfold is_u64; lia). rewrite u64_small by (unfold is_u64; lia). do 3 f_equal. lia.
    - rewrite (u64_small (zlen d + 1)) by (unfold is_u64; lia). reflexivity.
    - rewrite Z.add_0_r. reflexivity. }
  rewrite Sc. cbn [bind]. assert (0 < zlen src) by (destruct src; [congruence|rewrite zlen_cons; pose proof (zlen_nonneg src); lia]).
  replace (zlen (b64 src) =? 0) with false by lia.
  rewrite (u64_small (zlen (b64 src) * 6)) by (unfold is_u64; lia). rewrite (u64_small (zlen (b64 src) * 6 + 7)) by (unfold is_u64; lia).
  rewrite Z.shiftr_div_pow2 by lia. change (2 ^ 3) with 8.
  assert (A : (zlen (b64 src) * 6 + 7) / 8 - Z.of_nat (npad src) = zlen src) by (unfold announced in Ha; lia). rewrite A.
  rewrite u64_small by (unfold is_u64; lia). destruct (Z.ltb_spec (zlen dst) (zlen src)); auto.
  rewrite dec_out_filter, (filter_broken _ _ Hbr) by auto. rewrite E.
  rewrite dec_out_ok; auto; try lia. { rewrite Ho. reflexivity. }
Qed.
