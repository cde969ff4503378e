(* P_mi.v - proofs for M_mi.v *)
From Verif Require Import Base S_hex M_hex Lib P_hex T_hex S_mi M_mi.

Lemma pair_ind (P : list Z -> Prop) : P [] -> (forall a, P [a]) -> (forall a b l, P l -> P (a :: b :: l)) -> forall l, P l.
Proof. intros H0 H1 H2. fix F 1. intros [|a [|b l]]; [exact H0|apply H1|apply H2, F]. Qed.
Definition nib (d : Z) : Prop := 0 <= d <= 15.
Lemma nibble_cons x l j : 0 <= j -> nibble (x :: l) j = if j <? 2 then (if j =? 0 then x mod 16 else x / 16) else nibble l (j - 2).
Proof.
  intros H. unfold nibble. destruct (j <? 2) eqn:E.
  - assert (j = 0 \/ j = 1) as [-> | ->] by lia; reflexivity.
  - replace ((j - 2) mod 2) with (j mod 2) by lia. replace ((j - 2) / 2) with (j / 2 - 1) by lia. rewrite at0_cons by lia. replace (j / 2 =? 0) with false by lia. reflexivity.
Qed.
Lemma pack_len l : zlen (pack l) = zlen l / 2.
Proof. induction l using pair_ind; cbn [pack]; [reflexivity|reflexivity|]. rewrite !zlen_cons, IHl. pose proof (zlen_nonneg l). lia. Qed.
Lemma pack_bytes l : Forall nib l -> bytes (pack l).
Proof. induction l using pair_ind; intros F; cbn [pack]; [constructor|constructor|]. inversion_clear F. inversion_clear H0. unfold nib in *. constructor; [red; lia|]. apply IHl. auto. Qed.
Lemma pack_nibble l : Forall nib l -> forall j, 0 <= j < 2 * (zlen l / 2) -> nibble (pack l) j = at0 l j.
Proof.
  induction l using pair_ind; intros F j H; cbn [pack]; [cbn in H; lia|cbn in H; lia|]. inversion_clear F. inversion_clear H1. unfold nib in *. rewrite !zlen_cons in H.
  rewrite nibble_cons by lia. rewrite at0_cons by lia. destruct (j <? 2) eqn:E.
  - assert (j = 0 \/ j = 1) as [-> | ->] by lia; [change (0 =? 0) with true; cbv iota; lia|]. change (1 =? 0) with false. cbv iota. rewrite at0_cons by lia. change (1 - 1 =? 0) with true. cbv iota. lia.
  - replace (j =? 0) with false by lia. rewrite at0_cons by lia. replace (j - 1 =? 0) with false by lia. rewrite IHl; auto; [f_equal; lia|lia].
Qed.
Lemma at0_nibbles l i : bytes l -> 0 <= i -> at0 l i = nibble l (2 * i) + 16 * nibble l (2 * i + 1).
Proof. intros B H. unfold nibble. replace (2 * i mod 2 =? 0) with true by lia. replace ((2 * i + 1) mod 2 =? 0) with false by lia. replace (2 * i / 2) with i by lia. replace ((2 * i + 1) / 2) with i by lia. lia. Qed.
Lemma nib_ext a b : bytes a -> bytes b -> zlen a = zlen b -> (forall j, 0 <= j < 2 * zlen a -> nibble a j = nibble b j) -> a = b.
Proof. intros A B L H. apply at0_ext; auto. intros i Hi. rewrite !at0_nibbles by (auto; lia). rewrite !H by lia. reflexivity. Qed.
Lemma nibble_range l j : bytes l -> nib (nibble l j).
Proof. intros B. pose proof (bytes_at0 l (j / 2) B) as H. unfold is_byte in H. unfold nibble, nib. destruct (_ =? 0); lia. Qed.
Lemma nibble_app a b j : 0 <= j < 2 * zlen a -> nibble (a ++ b) j = nibble a j.
Proof. intros H. unfold nibble. rewrite at0_app by lia. replace (j / 2 <? zlen a) with true by lia. reflexivity. Qed.

Definition mi_nibs (ty : Z) (ds : list Z) : list Z := (ty + 8 * (zlen ds mod 2)) :: ds ++ (if zlen ds mod 2 =? 0 then [15] else []).
Lemma mi_nibs_len ty ds : zlen (mi_nibs ty ds) = 2 * ((zlen ds + 2) / 2).
Proof. unfold mi_nibs. rewrite zlen_cons, zlen_app. pose proof (zlen_nonneg ds). destruct (_ =? 0) eqn:E; rewrite ?zlen_cons, zlen_nil; lia. Qed.
Lemma mi_octets_len ty ds : zlen (mi_octets ty ds) = (zlen ds + 2) / 2.
Proof. unfold mi_octets. fold (mi_nibs ty ds). rewrite pack_len, mi_nibs_len. lia. Qed.
Lemma mi_nibs_nib ty ds : 0 <= ty <= 7 -> Forall nib ds -> Forall nib (mi_nibs ty ds).
Proof.
  intros T F. constructor; [unfold nib; lia|]. apply Forall_app. split; auto. destruct (_ =? 0); constructor; [unfold nib; lia|constructor].
Qed.
Lemma mi_nibble ty ds j : 0 <= ty <= 7 -> Forall nib ds -> 0 <= j < 2 * ((zlen ds + 2) / 2) ->
  nibble (mi_octets ty ds) j = if j =? 0 then ty + 8 * (zlen ds mod 2) else if j <=? zlen ds then at0 ds (j - 1) else 15.
Proof.
  intros T F H. unfold mi_octets. fold (mi_nibs ty ds). rewrite pack_nibble; [|apply mi_nibs_nib; auto|rewrite mi_nibs_len; lia].
  unfold mi_nibs. rewrite at0_cons by lia. destruct (j =? 0) eqn:E; auto. rewrite at0_app by lia. replace (j - 1 <? zlen ds) with (j <=? zlen ds) by lia.
  destruct (j <=? zlen ds) eqn:E1; auto. replace (zlen ds mod 2 =? 0) with true by lia. replace (j - 1 - zlen ds) with 0 by lia. reflexivity.
Qed.
Lemma mi_bytes ty ds : 0 <= ty <= 7 -> Forall nib ds -> bytes (mi_octets ty ds).
Proof. intros T F. apply pack_bytes. apply mi_nibs_nib; auto. Qed.
Lemma len_ok_ty ty n : len_ok ty n -> 1 <= ty <= 3 /\ 6 <= n <= 16.
Proof. unfold len_ok. lia. Qed.

(* ---- encoding ---- *)
Lemma cstr_app s pad : ~ In 0 s -> cstr (s ++ 0 :: pad) = Ok s.
Proof. induction s as [|c s IH]; intros N; cbn [app cstr]; [reflexivity|]. replace (c =? 0) with false by (cbn in N; lia). rewrite IH by (intros X; apply N; right; auto). reflexivity. Qed.
Lemma cstr_split l s : cstr l = Ok s -> exists pad, l = s ++ 0 :: pad /\ ~ In 0 s.
Proof.
  revert s. induction l as [|c l IH]; intros s E; cbn [cstr] in E; [discriminate E|]. destruct (c =? 0) eqn:Ec.
  - injection E as <-. exists l. split; [cbn; f_equal; lia|intros []].
  - destruct (cstr l) as [t| | |]; cbn [bind] in E; try discriminate E. injection E as <-. destruct (IH t eq_refl) as (pad & -> & N). exists pad. split; auto. intros [X|X]; [lia|auto].
Qed.
Lemma valid_nib hex c : valid_digit hex c -> digit_ok hex (hexdigit c).
Proof.
  intros (v & E & H). unfold hexdigit, digit_ok. rewrite E. apply hexval_range in E. destruct hex; [lia|]. destruct H; [discriminate|lia].
Qed.
Lemma digit_nib hex d : digit_ok hex d -> nib d.
Proof. unfold digit_ok, nib. destruct hex; lia. Qed.

Lemma encoded_len_ok ty s pad t : ~ In 0 s -> len_ok ty (zlen s) -> osmo_mobile_identity_encoded_len (Some (mkmid ty (s ++ 0 :: pad) t)) = Ok ((zlen s + 2) / 2, zlen s).
Proof.
  intros N L. unfold osmo_mobile_identity_encoded_len. cbn [mi_type mi_str]. rewrite cstr_app by auto. cbn [bind].
  destruct L as [[-> L]|[[-> L]|[-> L]]]; cbn [Z.eqb Pos.eqb].
  - replace ((zlen s <? 6) || (15 <? zlen s)) with false by lia. cbn [bind]. rewrite Z.quot_div_nonneg by lia. reflexivity.
  - replace ((zlen s <? 14) || (15 <? zlen s)) with false by lia. cbn [bind]. rewrite Z.quot_div_nonneg by lia. reflexivity.
  - replace (zlen s =? 16) with true by lia. cbn [negb bind]. rewrite Z.quot_div_nonneg by lia. reflexivity.
Qed.
Lemma encoded_len_bad ty s pad t : ~ In 0 s -> 1 <= ty <= 3 -> ~ len_ok ty (zlen s) -> osmo_mobile_identity_encoded_len (Some (mkmid ty (s ++ 0 :: pad) t)) = Err (- EINVAL).
Proof.
  intros N T L. unfold osmo_mobile_identity_encoded_len. cbn [mi_type mi_str]. rewrite cstr_app by auto. cbn [bind]. unfold len_ok in L.
  assert (ty = 1 \/ ty = 2 \/ ty = 3) as [-> |[-> | ->]] by lia; cbn [Z.eqb Pos.eqb].
  - replace ((zlen s <? 6) || (15 <? zlen s)) with true by lia. reflexivity.
  - replace ((zlen s <? 14) || (15 <? zlen s)) with true by lia. reflexivity.
  - replace (zlen s =? 16) with false by lia. reflexivity.
Qed.
Lemma b0_val ty n : 1 <= ty <= 3 -> Z.lor (Z.land ty 7) (if Z.land n 1 =? 0 then 0 else 8) = ty + 8 * (n mod 2).
Proof. intros H. rewrite land1. assert (n mod 2 = 0 \/ n mod 2 = 1) as [E|E] by lia; rewrite E; assert (ty = 1 \/ ty = 2 \/ ty = 3) as [-> |[-> | ->]] by lia; reflexivity. Qed.

Lemma encode_digits buf ty s pad t hex : ~ In 0 s -> len_ok ty (zlen s) -> bytes buf -> zlen buf < 2147483648 ->
  let n := (zlen s + 2) / 2 in
  (zlen buf < n -> osmo_mobile_identity_encode_buf buf (mkmid ty (s ++ 0 :: pad) t) hex = Err (if zlen buf =? 0 then - EIO else - ENOSPC)) /\
  (n <= zlen buf -> Forall (valid_digit hex) s -> osmo_mobile_identity_encode_buf buf (mkmid ty (s ++ 0 :: pad) t) hex = Ok (mi_octets ty (map hexdigit s) ++ skipn (Z.to_nat n) buf, n)) /\
  (n <= zlen buf -> ~ Forall (valid_digit hex) s -> osmo_mobile_identity_encode_buf buf (mkmid ty (s ++ 0 :: pad) t) hex = Err (- EINVAL)).
Proof.
  intros N L B LB n. pose proof (len_ok_ty _ _ L) as [T Ls]. unfold osmo_mobile_identity_encode_buf. rewrite encoded_len_ok by auto. cbn [bind mi_type mi_str mi_tmsi].
  destruct (zlen buf =? 0) eqn:E0. { split; [reflexivity|]. split; intros; unfold n in *; lia. }
  fold n. split; [intros H; replace (zlen buf <? n) with true by lia; reflexivity|].
  assert (Run : n <= zlen buf -> (if zlen buf <? n then Err (- ENOSPC) else
    let b0 := Z.lor (Z.land ty 7) (if Z.land (zlen s) 1 =? 0 then 0 else 8) in
    if ty =? 4 then (do buf0 <- wr buf 0 (Z.lor b0 240);; do buf1 <- store32be t buf0 1;; Ok (buf1, n))
    else (do buf0 <- wr buf 0 b0;; do s0 <- cstr (s ++ 0 :: pad);; do ' (buf1, rc) <- str2bcd buf0 s0 1 (-1) hex;; (if negb (rc =? n) then Err (- EINVAL) else Ok (buf1, n)))) =
    (do ' (buf1, rc) <- str2bcd (upd buf 0 (ty + 8 * (zlen s mod 2))) s 1 (-1) hex;; (if negb (rc =? n) then Err (- EINVAL) else Ok (buf1, n)))).
  { intros H. replace (zlen buf <? n) with false by lia. cbv zeta. rewrite b0_val by auto. replace (ty =? 4) with false by lia. rewrite wr_in by lia. cbn [bind]. rewrite cstr_app by auto. reflexivity. }
  set (b1 := upd buf 0 _) in *. assert (B1 : bytes b1) by (apply Forall_upd; [auto|red; lia]). assert (L1 : zlen b1 = zlen buf) by (unfold b1, zlen; rewrite upd_length; reflexivity).
  pose proof (zlen_nonneg buf) as Nb.
  destruct (C35_str2bcd b1 s 1 (-1) hex B1 ltac:(lia) ltac:(lia) ltac:(lia) ltac:(lia)) as (_ & G & Bad). cbv zeta in G, Bad. unfold str2bcd_end in G, Bad. change (-1 <? 0) with true in G, Bad. cbv iota in G, Bad.
  assert (En : (1 + zlen s + (1 + zlen s) mod 2) / 2 = n) by (unfold n; lia).
  split; intros H V; cbv zeta in Run; rewrite Run by auto.
  - destruct G as (d & -> & D1 & D2 & D3); [lia| |].
    { intros k c _ Hk. apply nth_error_In in Hk. rewrite Forall_forall in V. auto. }
    cbn [bind]. rewrite En, Z.eqb_refl. cbn [negb]. f_equal. f_equal.
    assert (F : Forall nib (map hexdigit s)). { rewrite Forall_map. eapply Forall_impl; [|exact V]. intros c Hc. eapply digit_nib, valid_nib. exact Hc. }
    assert (Lm : zlen (mi_octets ty (map hexdigit s)) = n) by (rewrite mi_octets_len, zlen_map; reflexivity).
    apply nib_ext; auto.
    { apply Forall_app. split; [apply mi_bytes; auto; lia|]. apply Forall_skipn. auto. }
    { rewrite zlen_app, Lm. unfold zlen in *. rewrite skipn_length. lia. }
    intros j Hj. rewrite D3 by lia. destruct (j <? 2 * n) eqn:Ej.
    + rewrite nibble_app by lia. rewrite mi_nibble by (auto; rewrite ?zlen_map; lia). rewrite zlen_map. destruct (j =? 0) eqn:E2.
      * replace (1 <=? j) with false by lia. cbn [andb]. replace j with 0 by lia. unfold nibble. cbn [Z.modulo Z.div]. change (0 mod 2 =? 0) with true. change (0 / 2) with 0. cbv iota. unfold b1. destruct buf; [discriminate E0|]. match goal with |- at0 (upd (?z :: ?b) 0 ?v) 0 mod 16 = _ => change (at0 (upd (z :: b) 0 v) 0) with v end. lia.
      * replace ((1 <=? j) && (j <? 1 + zlen s + (1 + zlen s) mod 2)) with true by (unfold n in *; lia). destruct (j <=? zlen s) eqn:E3.
        -- unfold at0. assert (Hk : (Z.to_nat (j - 1) < length s)%nat) by (unfold zlen in *; lia). destruct (nth_error s (Z.to_nat (j - 1))) as [c|] eqn:Ec; [|apply nth_error_None in Ec; lia].
           rewrite nth_indep with (d' := hexdigit 0) by (rewrite map_length; lia). rewrite map_nth. rewrite (nth_error_nth _ _ _ Ec). reflexivity.
        -- destruct (nth_error s (Z.to_nat (j - 1))) as [c|] eqn:Ec; auto. assert (Hk : (Z.to_nat (j - 1) < length s)%nat) by (apply nth_error_Some; congruence). unfold zlen in *. lia.
    + replace ((1 <=? j) && (j <? 1 + zlen s + (1 + zlen s) mod 2)) with false by (unfold n in *; lia).
      unfold nibble. rewrite at0_app by lia. rewrite Lm. replace (j / 2 <? n) with false by lia. rewrite at0_skipn by lia. replace (n + (j / 2 - n)) with (j / 2) by lia.
      unfold b1, at0. rewrite upd_nth_other by lia. reflexivity.
  - rewrite Bad; [reflexivity|lia|]. rewrite <- Exists_Forall_neg in V.
    + apply Exists_exists in V. destruct V as (c & Hc & Nc). apply In_nth_error in Hc. destruct Hc as [k Hk]. exists k, c. split; [|auto]. assert ((k < length s)%nat) by (apply nth_error_Some; congruence). unfold zlen. lia.
    + intros c. destruct (bcdval_valid hex c) as [[_ X]|[_ X]]; auto.
Qed.

(* ---- decoding ---- *)
Definition len_okb (ty n : Z) : bool := (ty =? 1) && (6 <=? n) && (n <=? 15) || (ty =? 2) && ((n =? 14) || (n =? 15)) || (ty =? 3) && (n =? 16).
Lemma len_okb_ok ty n : len_okb ty n = true <-> len_ok ty n.
Proof. unfold len_okb, len_ok. lia. Qed.
Definition bad : res (Z * mid) := Ok (- EBADMSG, mi_none).
Definition be32 (m : list Z) : Z := at0 m 1 * 16777216 + at0 m 2 * 65536 + at0 m 3 * 256 + at0 m 4.
Definition str_size (ty : Z) : Z := if ty =? 3 then 17 else 16.
Definition good (ty : Z) (ds : list Z) : mid := mkmid ty (map bcd_char ds ++ repeat 0 (Z.to_nat (str_size ty - zlen ds))) 0.

Lemma land8 b : is_byte b -> (Z.land b 8 =? 0) = (b mod 16 / 8 =? 0).
Proof. intros H. assert (G : Bool.eqb (Z.land b 8 =? 0) (b mod 16 / 8 =? 0) = true) by (apply (forall_byte (fun b => Bool.eqb (Z.land b 8 =? 0) (b mod 16 / 8 =? 0))); [vm_compute; reflexivity|exact H]). apply Bool.eqb_prop in G. exact G. Qed.
Lemma land240 b : is_byte b -> (Z.land b 240 =? 240) = (b / 16 =? 15).
Proof. intros H. assert (G : Bool.eqb (Z.land b 240 =? 240) (b / 16 =? 15) = true) by (apply (forall_byte (fun b => Bool.eqb (Z.land b 240 =? 240) (b / 16 =? 15))); [vm_compute; reflexivity|exact H]). apply Bool.eqb_prop in G. exact G. Qed.
Lemma land7 b : Z.land b 7 = b mod 8.
Proof. change 7 with (Z.ones 3). apply Z.land_ones. lia. Qed.
Lemma lor_be a b c d : is_byte a -> is_byte b -> is_byte c -> is_byte d ->
  Z.lor (Z.lor (Z.shiftl a 24) (Z.shiftl b 16)) (Z.lor (Z.shiftl c 8) d) = a * 16777216 + b * 65536 + c * 256 + d.
Proof.
  assert (D : forall x y k, 1 <= k -> 0 <= y < 2 ^ k -> Z.lor (Z.shiftl x k) y = x * 2 ^ k + y).
  { intros x y k Hk Hy. rewrite Z.shiftl_mul_pow2 by lia. assert (N : Z.land (x * 2 ^ k) y = 0).
    { apply Z.bits_inj'. intros n Hn. rewrite Z.land_spec, Z.bits_0. destruct (Z_lt_le_dec n k); [rewrite Z.mul_pow2_bits_low by lia; reflexivity|].
      rewrite (Z.bits_above_log2 y n), andb_false_r; [auto|lia|]. destruct (Z.eq_dec y 0) as [->|]; [cbn; lia|]. apply Z.log2_lt_pow2; [lia|]. apply Z.lt_le_trans with (2 ^ k); [lia|apply Z.pow_le_mono_r; lia]. }
    rewrite <- (Z.lxor_lor _ _ N), <- (Z.add_nocarry_lxor _ _ N). reflexivity. }
  unfold is_byte. intros A B C E. rewrite (D c d 8) by (change (2 ^ 8) with 256; lia). change (2 ^ 8) with 256.
  replace (Z.shiftl a 24) with (Z.shiftl (Z.shiftl a 8) 16) by (rewrite Z.shiftl_shiftl by lia; reflexivity).
  rewrite <- Z.shiftl_lor, (D a b 8) by (change (2 ^ 8) with 256; lia). rewrite (D _ _ 16) by (change (2 ^ 16) with 65536; lia). change (2 ^ 16) with 65536. change (2 ^ 8) with 256. lia.
Qed.
Lemma load_be m r : bytes m -> zlen m = 5 -> load32be (m ++ r) 1 = Ok (be32 m).
Proof.
  intros B L. unfold load32be. rewrite !rd_at0 by (rewrite zlen_app; pose proof (zlen_nonneg r); lia). cbn [bind].
  rewrite !at0_app by lia. rewrite L. cbn [Z.ltb Z.compare Z.add Pos.add Pos.succ Pos.compare Pos.compare_cont]. rewrite lor_be by (apply bytes_at0; auto). reflexivity.
Qed.
Lemma nibs_len m s n : 0 <= n -> zlen (nibs m s n) = n.
Proof. intros H. unfold nibs. rewrite zlen_map. unfold zlen. rewrite zseq_length. lia. Qed.
Lemma nibs_at m s n i : 0 <= i < n -> at0 (nibs m s n) i = nibble m (s + i).
Proof. intros H. unfold nibs, at0. rewrite nth_indep with (d' := nibble m 0) by (rewrite map_length, zseq_length; lia). rewrite map_nth, zseq_nth by lia. f_equal. lia. Qed.
Lemma nibs_nib m s n : bytes m -> Forall nib (nibs m s n).
Proof. intros B. apply Forall_forall. intros x Hx. apply in_map_iff in Hx. destruct Hx as (j & <- & _). apply nibble_range. auto. Qed.
Lemma existsb_digit hex ds : Forall nib ds -> (negb hex && existsb (fun x => 9 <? x) ds = false <-> Forall (digit_ok hex) ds).
Proof.
  intros F. destruct hex; cbn [negb andb].
  - split; intros _; [|reflexivity]. eapply Forall_impl; [|exact F]. intros; unfold digit_ok, nib in *; lia.
  - split.
    + intros E. apply Forall_forall. intros x Hx. rewrite Forall_forall in F. specialize (F x Hx). unfold nib, digit_ok in *. destruct (9 <? x) eqn:E9; [|lia]. exfalso. assert (existsb (fun x => 9 <? x) ds = true) by (apply existsb_exists; eauto). congruence.
    + intros E. destruct (existsb _ ds) eqn:X; auto. apply existsb_exists in X. destruct X as (x & Hx & X). rewrite Forall_forall in E. specialize (E x Hx). unfold digit_ok in E. lia.
Qed.

Lemma mi_digits_spec m r hex ty size : bytes (m ++ r) -> 1 <= zlen m -> let o := nibble m 0 / 8 in let nl := (zlen m - 1) * 2 + o in
  1 <= nl < size -> size <= 17 -> str_size ty = size ->
  mi_digits (m ++ r) (zlen m) nl (at0 m 0) ty size hex =
  if (o =? 0) && negb (nibble m (nl + 1) =? 15) then bad else
  if negb hex && existsb (fun x => 9 <? x) (nibs m 1 nl) then bad else Ok (0, good ty (nibs m 1 nl)).
Proof.
  intros B L o nl Hn Hs Sz. assert (Bm : bytes m) by (apply Forall_app in B; apply B). pose proof (zlen_nonneg r). pose proof (bytes_at0 m 0 Bm) as B0.
  assert (Ho : o = at0 m 0 mod 16 / 8) by reflexivity. assert (0 <= o <= 1) by (unfold is_byte in B0; lia).
  unfold mi_digits. rewrite land8 by auto. rewrite <- Ho.
  assert (R : (do l <- (if o =? 0 then rd (m ++ r) (zlen m - 1) else Ok 240) ;; if negb (Z.land l 240 =? 240) then bad else
     (do ' (s, rc) <- bcd2str (repeat 0 (Z.to_nat size)) (m ++ r) 1 (1 + nl) hex ;; if (rc <? 1) || (size <=? rc) then Ok (- EBADMSG, mi_none) else Ok (0, mkmid ty s 0))) =
     if (o =? 0) && negb (nibble m (nl + 1) =? 15) then bad else
     (do ' (s, rc) <- bcd2str (repeat 0 (Z.to_nat size)) (m ++ r) 1 (1 + nl) hex ;; if (rc <? 1) || (size <=? rc) then Ok (- EBADMSG, mi_none) else Ok (0, mkmid ty s 0))).
  { destruct (o =? 0) eqn:Eo; cbn [andb].
    - rewrite rd_at0 by (rewrite zlen_app; lia). cbn [bind]. rewrite at0_app by lia. replace (zlen m - 1 <? zlen m) with true by lia. rewrite land240 by (apply bytes_at0; auto).
      unfold nibble. replace ((nl + 1) mod 2 =? 0) with false by (unfold nl; lia). replace ((nl + 1) / 2) with (zlen m - 1) by (unfold nl; lia). reflexivity.
    - reflexivity. }
  unfold bad in R at 1. rewrite R. destruct ((o =? 0) && _); auto.
  assert (Lr : zlen (repeat 0 (Z.to_nat size)) = size) by (unfold zlen; rewrite repeat_length; lia).
  pose proof (bcd2str_spec (repeat 0 (Z.to_nat size)) (m ++ r) 1 (1 + nl) hex B ltac:(lia) ltac:(lia) ltac:(rewrite zlen_app; unfold nl; lia) ltac:(unfold is_s32; lia) ltac:(unfold is_s32; lia)) as Q. cbv zeta in Q. rewrite Q by lia. clear Q.
  rewrite Lr. replace (Z.max 0 (Z.min (1 + nl - 1) (size - 1))) with nl by lia. replace (Z.max 0 (1 + nl - 1)) with nl by lia.
  assert (En : nibs (m ++ r) 1 nl = nibs m 1 nl).
  { apply at0_ext; [rewrite !nibs_len by lia; reflexivity|]. intros i Hi. rewrite nibs_len in Hi by lia. rewrite !nibs_at by lia. apply nibble_app. unfold nl in *. lia. }
  rewrite En. cbn [bind]. destruct (negb hex && _).
  - reflexivity.
  - replace ((nl <? 1) || (size <=? nl)) with false by lia. unfold good. rewrite Sz, nibs_len by lia. do 3 f_equal.
    replace (Z.to_nat size) with (S (Z.to_nat nl) + (Z.to_nat (size - nl - 1)))%nat by lia. rewrite repeat_app, skipn_app, repeat_length. replace (Z.to_nat (nl + 1)) with (S (Z.to_nat nl)) by lia.
    rewrite skipn_all2 by (rewrite repeat_length; lia). rewrite Nat.sub_diag. cbn [app skipn]. replace (Z.to_nat (size - nl)) with (S (Z.to_nat (size - nl - 1))) by lia. reflexivity.
Qed.

Definition decode_as (m : list Z) (hex : bool) : res (Z * mid) :=
  let t := nibble m 0 mod 8 in let o := nibble m 0 / 8 in let nl := (zlen m - 1) * 2 + o in
  if t =? 4 then if (nl =? 8) && (nibble m 1 =? 15) then Ok (0, mkmid 4 (repeat 0 17) (be32 m)) else bad
  else if len_okb t nl then
    if (o =? 0) && negb (nibble m (nl + 1) =? 15) then bad else
    if negb hex && existsb (fun x => 9 <? x) (nibs m 1 nl) then bad else Ok (0, good t (nibs m 1 nl))
  else if (1 <=? t) && (t <=? 3) then bad else Ok (- EINVAL, mi_none).

Lemma decode_gen m r hex : bytes (m ++ r) -> 1 <= zlen m -> osmo_mobile_identity_decode (m ++ r) (zlen m) hex = decode_as m hex.
Proof.
  intros B L. assert (Bm : bytes m) by (apply Forall_app in B; apply B). pose proof (zlen_nonneg r). pose proof (bytes_at0 m 0 Bm) as B0. unfold osmo_mobile_identity_decode. replace (zlen m <? 1) with false by lia.
  rewrite rd_at0 by (rewrite zlen_app; lia). rewrite at0_app by lia. replace (0 <? zlen m) with true by lia. cbn [bind]. rewrite land8, land7, land240 by auto.
  assert (Hn : nibble m 0 = at0 m 0 mod 16) by reflexivity. assert (Hn1 : nibble m 1 = at0 m 0 / 16) by reflexivity.
  unfold decode_as. cbv zeta. rewrite Hn1, <- Hn. replace (at0 m 0 mod 8) with (nibble m 0 mod 8) by (rewrite Hn; lia).
  set (o := nibble m 0 / 8). assert (Ho : 0 <= o <= 1) by (unfold o; rewrite Hn; lia). replace (if o =? 0 then 0 else 1) with o by (destruct (o =? 0) eqn:E; lia).
  set (nl := (zlen m - 1) * 2 + o). set (t := nibble m 0 mod 8). assert (Ht : 0 <= t < 8) by (unfold t; lia).
  destruct (t =? 4) eqn:E4.
  { destruct (nl =? 8) eqn:En; cbn [negb andb]; [|reflexivity]. destruct (at0 m 0 / 16 =? 15); cbn [negb]; [|reflexivity]. rewrite load_be by (auto; unfold nl in *; lia). cbn [bind]. do 3 f_equal. lia. }
  unfold len_okb. destruct (t =? 1) eqn:E1.
  { replace (t =? 2) with false by lia. replace (t =? 3) with false by lia. replace ((1 <=? t) && (t <=? 3)) with true by lia. cbn [andb orb].
    replace ((nl <? 6) || (15 <? nl)) with (negb ((6 <=? nl) && (nl <=? 15) || false || false)) by lia. destruct ((6 <=? nl) && (nl <=? 15)) eqn:El; cbn [negb orb]; [|reflexivity].
    apply mi_digits_spec; auto; fold o; fold nl; try lia. unfold str_size. replace (t =? 3) with false by lia. reflexivity. }
  destruct (t =? 2) eqn:E2.
  { replace (t =? 3) with false by lia. replace ((1 <=? t) && (t <=? 3)) with true by lia. cbn [andb orb].
    replace (negb (nl =? 15) && negb (nl =? 14)) with (negb ((nl =? 14) || (nl =? 15))) by lia. destruct ((nl =? 14) || (nl =? 15)) eqn:El; cbn [negb orb]; [|reflexivity].
    apply mi_digits_spec; auto; fold o; fold nl; try lia. unfold str_size. replace (t =? 3) with false by lia. reflexivity. }
  destruct (t =? 3) eqn:E3; cbn [andb orb].
  { replace ((1 <=? t) && (t <=? 3)) with true by lia. destruct (nl =? 16) eqn:El; cbn [negb]; [|reflexivity].
    apply mi_digits_spec; auto; fold o; fold nl; try lia. unfold str_size. rewrite E3. reflexivity. }
  replace ((1 <=? t) && (t <=? 3)) with false by lia. reflexivity.
Qed.

Lemma decode_as_digits ty ds hex : len_ok ty (zlen ds) -> Forall nib ds ->
  decode_as (mi_octets ty ds) hex = if negb hex && existsb (fun x => 9 <? x) ds then bad else Ok (0, good ty ds).
Proof.
  intros L F. pose proof (len_ok_ty _ _ L) as [T Ls]. unfold decode_as. rewrite mi_nibble by (auto; lia). change (0 =? 0) with true. cbv iota. rewrite mi_octets_len.
  replace ((ty + 8 * (zlen ds mod 2)) mod 8) with ty by lia. replace ((ty + 8 * (zlen ds mod 2)) / 8) with (zlen ds mod 2) by lia. cbv zeta.
  replace (((zlen ds + 2) / 2 - 1) * 2 + zlen ds mod 2) with (zlen ds) by lia. replace (ty =? 4) with false by lia. rewrite (proj2 (len_okb_ok ty (zlen ds)) L).
  assert (E : nibs (mi_octets ty ds) 1 (zlen ds) = ds).
  { apply at0_ext; [apply nibs_len; lia|]. intros i Hi. rewrite nibs_len in Hi by lia. rewrite nibs_at by lia. rewrite mi_nibble by (auto; lia). replace (1 + i =? 0) with false by lia. replace (1 + i <=? zlen ds) with true by lia. f_equal. lia. }
  rewrite E. destruct (zlen ds mod 2 =? 0) eqn:Eo; cbn [andb]; [|reflexivity]. rewrite mi_nibble by (auto; lia). replace (zlen ds + 1 =? 0) with false by lia. replace (zlen ds + 1 <=? zlen ds) with false by lia. reflexivity.
Qed.
Lemma decode_as_tmsi t hex : is_u32 t -> decode_as (tmsi_octets t) hex = Ok (0, mkmid 4 (repeat 0 17) t).
Proof.
  intros H. unfold is_u32 in H. unfold decode_as, tmsi_octets. cbv zeta. change (nibble [244; t / 16777216; t / 65536 mod 256; t / 256 mod 256; t mod 256] 0) with 4. change (nibble [244; t / 16777216; t / 65536 mod 256; t / 256 mod 256; t mod 256] 1) with 15.
  change (4 mod 8 =? 4) with true. cbv iota. rewrite !zlen_cons, zlen_nil. change ((1 + (1 + (1 + (1 + (1 + 0)))) - 1) * 2 + 4 / 8 =? 8) with true. change (15 =? 15) with true. cbn [andb].
  do 3 f_equal. unfold be32. change (at0 [244; t / 16777216; t / 65536 mod 256; t / 256 mod 256; t mod 256] 1) with (t / 16777216). change (at0 [244; t / 16777216; t / 65536 mod 256; t / 256 mod 256; t mod 256] 2) with (t / 65536 mod 256).
  change (at0 [244; t / 16777216; t / 65536 mod 256; t / 256 mod 256; t mod 256] 3) with (t / 256 mod 256). change (at0 [244; t / 16777216; t / 65536 mod 256; t / 256 mod 256; t mod 256] 4) with (t mod 256). lia.
Qed.
(* whatever decodes is an encoding *)
Lemma decode_as_inv m hex : bytes m -> 1 <= zlen m ->
  (exists ty ds, len_ok ty (zlen ds) /\ Forall (digit_ok hex) ds /\ m = mi_octets ty ds /\ decode_as m hex = Ok (0, good ty ds)) \/
  (exists t, is_u32 t /\ m = tmsi_octets t /\ decode_as m hex = Ok (0, mkmid 4 (repeat 0 17) t)) \/
  decode_as m hex = bad /\ 1 <= at0 m 0 mod 8 <= 4 \/
  decode_as m hex = Ok (- EINVAL, mi_none) /\ ~ 1 <= at0 m 0 mod 8 <= 4.
Proof.
  intros B L. unfold decode_as. cbv zeta. pose proof (bytes_at0 m 0 B) as B0. unfold is_byte in B0. assert (Hn : nibble m 0 = at0 m 0 mod 16) by reflexivity. assert (Hn1 : nibble m 1 = at0 m 0 / 16) by reflexivity.
  set (o := nibble m 0 / 8). assert (Ho : 0 <= o <= 1) by (unfold o; rewrite Hn; lia). set (nl := (zlen m - 1) * 2 + o). set (t := nibble m 0 mod 8). assert (Ht : t = at0 m 0 mod 8) by (unfold t; rewrite Hn; lia). rewrite <- Ht.
  destruct (t =? 4) eqn:E4.
  { destruct ((nl =? 8) && (nibble m 1 =? 15)) eqn:E; [|right; right; left; split; [reflexivity|lia]]. right. left.
    assert (L5 : zlen m = 5) by (unfold nl in *; lia). assert (O0 : o = 0) by (unfold nl in *; lia).
    assert (M5 : length m = 5%nat) by (unfold zlen in L5; lia). destruct m as [|a [|b [|c [|d [|e [|? ?]]]]]]; try discriminate M5.
    inversion_clear B. inversion_clear H0. inversion_clear H2. inversion_clear H3. inversion_clear H4. unfold is_byte in *. change (at0 (a :: b :: c :: d :: e :: nil) 0) with a in *.
    exists (b * 16777216 + c * 65536 + d * 256 + e). split; [unfold is_u32; lia|]. split.
    - unfold tmsi_octets. f_equal; [unfold t, o in *; lia|]. f_equal; [lia|]. f_equal; [lia|]. f_equal; [lia|]. f_equal; lia.
    - reflexivity. }
  destruct (len_okb t nl) eqn:El.
  2: { right. right. destruct ((1 <=? t) && (t <=? 3)) eqn:E; [left|right]; split; auto; lia. }
  apply len_okb_ok in El. pose proof (len_ok_ty _ _ El) as [T Ls].
  destruct ((o =? 0) && _) eqn:Ef; [right; right; left; split; [reflexivity|lia]|].
  destruct (negb hex && _) eqn:Ed; [right; right; left; split; [reflexivity|lia]|]. left.
  exists t, (nibs m 1 nl). rewrite nibs_len by lia. split; auto. split; [apply existsb_digit; [apply nibs_nib; auto|auto]|]. split; [|reflexivity].
  assert (Ln : zlen m = (nl + 2) / 2) by (unfold nl; lia).
  apply nib_ext; auto; [apply mi_bytes; [lia|apply nibs_nib; auto]|rewrite mi_octets_len, nibs_len by lia; auto|].
  intros j Hj. rewrite mi_nibble by (try apply nibs_nib; auto; try lia; rewrite nibs_len by lia; lia). rewrite nibs_len by lia. destruct (j =? 0) eqn:Ej.
  - replace j with 0 by lia. replace (nl mod 2) with o by (unfold nl; lia). unfold t, o. lia.
  - destruct (j <=? nl) eqn:Ej2.
    + rewrite nibs_at by lia. f_equal. lia.
    + assert (O0 : o = 0) by (unfold nl in *; lia). rewrite O0 in Ef. change (0 =? 0) with true in Ef. cbn [andb] in Ef. replace j with (nl + 1) by (unfold nl in *; lia). lia.
Qed.

Lemma decode_app m r hex : bytes (m ++ r) -> osmo_mobile_identity_decode (m ++ r) (zlen m) hex = osmo_mobile_identity_decode m (zlen m) hex.
Proof.
  intros B. destruct m as [|x m]; [reflexivity|]. assert (1 <= zlen (x :: m)) by (rewrite zlen_cons; pose proof (zlen_nonneg m); lia). rewrite decode_gen by auto.
  rewrite <- (app_nil_r (x :: m)) at 2. rewrite decode_gen by (rewrite ?app_nil_r; auto; apply Forall_app in B; apply B). reflexivity.
Qed.
Lemma encode_tmsi buf s t hex : is_u32 t ->
  osmo_mobile_identity_encode_buf buf (mkmid 4 s t) hex = if zlen buf =? 0 then Err (- EIO) else if zlen buf <? 5 then Err (- ENOSPC) else Ok (tmsi_octets t ++ skipn 5 buf, 5).
Proof.
  intros H. unfold is_u32 in H. unfold osmo_mobile_identity_encode_buf, osmo_mobile_identity_encoded_len. cbn [mi_type mi_tmsi Z.eqb Pos.eqb bind]. change (Z.quot (8 + 2) 2) with 5. destruct (zlen buf =? 0); auto.
  destruct (zlen buf <? 5) eqn:E; auto. destruct buf as [|b0 [|b1 [|b2 [|b3 [|b4 buf]]]]]; try (vm_compute in E; discriminate E).
  change (Z.lor (Z.lor (Z.land 4 7) (if Z.land 8 1 =? 0 then 0 else 8)) 240) with 244. unfold store32be.
  pose proof (zlen_nonneg buf) as Lb. assert (LL : forall a b c d e, zlen (a :: b :: c :: d :: e :: buf) = 5 + zlen buf) by (intros; rewrite !zlen_cons; lia).
  rewrite wr_in by (rewrite LL; lia). change (Z.to_nat 0) with 0%nat. cbn [bind upd]. rewrite wr_in by (rewrite LL; lia). change (Z.to_nat 1) with 1%nat. cbn [bind upd].
  rewrite wr_in by (rewrite LL; lia). change (Z.to_nat (1 + 1)) with 2%nat. cbn [bind upd]. rewrite wr_in by (rewrite LL; lia). change (Z.to_nat (1 + 2)) with 3%nat. cbn [bind upd].
  rewrite wr_in by (rewrite LL; lia). change (Z.to_nat (1 + 3)) with 4%nat. cbn [bind upd skipn].
  unfold tmsi_octets, u8. rewrite !Z.shiftr_div_pow2 by lia. change (2 ^ 24) with 16777216. change (2 ^ 16) with 65536. change (2 ^ 8) with 256. rewrite (Z.mod_small (t / 16777216)) by lia. reflexivity.
Qed.

(* ---- Complete Layer 3 ---- *)
Lemma got_mi_at pre m rest hex : bytes (m ++ rest) -> got_mi (pre ++ m ++ rest) (zlen pre) (zlen m) hex = osmo_mobile_identity_decode m (zlen m) hex.
Proof.
  intros B. unfold got_mi. rewrite !zlen_app. pose proof (zlen_nonneg rest). replace (_ <? _) with false by lia. assert (Lz : Z.to_nat (zlen pre) = length pre) by (unfold zlen; lia). rewrite Lz, skipn_app, skipn_all, Nat.sub_diag. cbn [app skipn]. apply decode_app. auto.
Qed.
Lemma got_cm2_at pre cm2 m rest hex : bytes (m ++ rest) -> got_cm2 (pre ++ cm2 ++ zlen m :: m ++ rest) (zlen pre) (zlen cm2) hex = osmo_mobile_identity_decode m (zlen m) hex.
Proof.
  intros B. unfold got_cm2. rewrite !zlen_app, zlen_cons, zlen_app. pose proof (zlen_nonneg rest). pose proof (zlen_nonneg m). replace (_ <? _) with false by lia.
  rewrite app_assoc. rewrite rd_at0 by (rewrite !zlen_app, zlen_cons, zlen_app; pose proof (zlen_nonneg pre); pose proof (zlen_nonneg cm2); lia). rewrite at0_app by (pose proof (zlen_nonneg pre); pose proof (zlen_nonneg cm2); lia).
  rewrite zlen_app, Z.ltb_irrefl, Z.sub_diag. change (at0 (zlen m :: m ++ rest) 0) with (zlen m). cbn [bind].
  replace (zlen pre + zlen cm2 + 1) with (zlen ((pre ++ cm2) ++ [zlen m])) by (rewrite !zlen_app, zlen_cons, zlen_nil; lia).
  replace ((pre ++ cm2) ++ zlen m :: m ++ rest) with (((pre ++ cm2) ++ [zlen m]) ++ m ++ rest) by (rewrite <- !app_assoc; reflexivity). apply got_mi_at. auto.
Qed.
Definition noned : mid := mkmid 0 (repeat 0 17) 4294967295.
Lemma got_mi_inv l3 off len hex : bytes l3 -> 0 <= off -> 0 <= len -> off <= zlen l3 ->
  got_mi l3 off len hex = Ok (- EBADMSG, noned) \/
  exists m rest, l3 = firstn (Z.to_nat off) l3 ++ m ++ rest /\ zlen m = len /\ got_mi l3 off len hex = osmo_mobile_identity_decode m (zlen m) hex.
Proof.
  intros B O L Ol. destruct (Z_lt_le_dec (zlen l3) (off + len)) as [C|C]; [left; unfold got_mi; replace (_ <? _) with true by lia; reflexivity|]. right.
  set (t := skipn (Z.to_nat off) l3). exists (firstn (Z.to_nat len) t), (skipn (Z.to_nat len) t). rewrite firstn_skipn.
  assert (Bt : bytes t) by (apply Forall_skipn; auto). assert (E : l3 = firstn (Z.to_nat off) l3 ++ t) by (unfold t; rewrite firstn_skipn; auto). split; [exact E|].
  assert (Lt : zlen t = zlen l3 - off) by (unfold t, zlen in *; rewrite skipn_length; lia). assert (Lm : zlen (firstn (Z.to_nat len) t) = len) by (rewrite zlen_firstn'; lia). split; [exact Lm|].
  rewrite <- (decode_app _ (skipn (Z.to_nat len) t)) by (rewrite firstn_skipn; auto). rewrite firstn_skipn. unfold got_mi. replace (_ <? _) with false by lia. rewrite Lm. reflexivity.
Qed.
Lemma firstn_split (l : list Z) k : 0 <= k < zlen l -> firstn (Z.to_nat (k + 1)) l = firstn (Z.to_nat k) l ++ [at0 l k].
Proof.
  intros H. apply at0_ext; [unfold zlen in *; rewrite app_length, !firstn_length; cbn [length]; lia|]. intros i Hi. rewrite zlen_firstn' in Hi. rewrite at0_firstn by lia. rewrite at0_app by lia. rewrite zlen_firstn'. rewrite at0_firstn by lia.
  replace (Z.min (Z.max k 0) (zlen l)) with k by lia. replace (i <? k + 1) with true by lia. destruct (i <? k) eqn:E; auto. replace i with k by lia. rewrite Z.sub_diag. reflexivity.
Qed.
Lemma got_cm2_inv l3 off len hex : bytes l3 -> 0 <= off -> 0 <= len ->
  got_cm2 l3 off len hex = Ok (- EBADMSG, noned) \/
  exists cm2 m rest, l3 = firstn (Z.to_nat off) l3 ++ cm2 ++ zlen m :: m ++ rest /\ zlen cm2 = len /\ got_cm2 l3 off len hex = osmo_mobile_identity_decode m (zlen m) hex.
Proof.
  intros B O L. unfold got_cm2. destruct (zlen l3 <? off + len + 1) eqn:C; [left; reflexivity|]. rewrite rd_at0 by lia. cbn [bind]. pose proof (bytes_at0 l3 (off + len) B) as Ba. unfold is_byte in Ba.
  destruct (got_mi_inv l3 (off + len + 1) (at0 l3 (off + len)) hex B ltac:(lia) ltac:(lia) ltac:(lia)) as [E|(m & rest & E & Lm & G)]; [left; exact E|]. right.
  exists (skipn (Z.to_nat off) (firstn (Z.to_nat (off + len)) l3)), m, rest. rewrite G. split; [|split; [|reflexivity]].
  - rewrite Lm. replace (firstn (Z.to_nat off) l3) with (firstn (Z.to_nat off) (firstn (Z.to_nat (off + len)) l3)) by (rewrite firstn_firstn; f_equal; lia).
    rewrite app_assoc, firstn_skipn. rewrite firstn_split in E by lia. rewrite <- app_assoc in E. exact E.
  - unfold zlen in *. rewrite skipn_length, firstn_length. lia.
Qed.

Lemma land15 x : Z.land x 15 = x mod 16. Proof. change 15 with (Z.ones 4). apply Z.land_ones; lia. Qed.
Lemma land63 x : Z.land x 63 = x mod 64. Proof. change 63 with (Z.ones 6). apply Z.land_ones; lia. Qed.
Definition l3mm (l3 : list Z) (mtype : Z) (hex : bool) : res (Z * mid) :=
    if mtype =? 8 then
      if zlen l3 <? 2 + 8 then Ok (- EBADMSG, noned) else
      do mi_len <- rd l3 9 ;; if zlen l3 <? 2 + 8 + mi_len then Ok (- EBADMSG, noned) else got_mi l3 10 mi_len hex
    else if (mtype =? 36) || (mtype =? 40) then
      if zlen l3 <? 2 + 2 then Ok (- EBADMSG, noned) else do cm2_len <- rd l3 3 ;; got_cm2 l3 4 cm2_len hex
    else if mtype =? 1 then if zlen l3 <? 2 + 2 then Ok (- EBADMSG, noned) else do mi_len <- rd l3 3 ;; got_mi l3 4 mi_len hex
    else if mtype =? 25 then if zlen l3 <? 2 + 2 then Ok (- EBADMSG, noned) else do mi_len <- rd l3 2 ;; got_mi l3 3 mi_len hex
    else Ok (- ENOTSUP, noned).
Definition l3rr (l3 : list Z) (mtype : Z) (hex : bool) : res (Z * mid) :=
    if mtype =? 39 then if zlen l3 <? 2 + 6 then Ok (- EBADMSG, noned) else do cm2_len <- rd l3 3 ;; got_cm2 l3 4 cm2_len hex
    else if mtype =? 17 then if zlen l3 <? 2 + 4 + 2 then Ok (- EBADMSG, noned) else
      do cm2_len <- rd l3 2 ;; if negb (cm2_len =? 3) then Ok (- EBADMSG, noned) else got_cm2 l3 3 cm2_len hex
    else Ok (- ENOTSUP, noned).
Lemma l3_dispatch h h2 t hex : is_byte h ->
  osmo_mobile_identity_decode_from_l3_buf (h :: h2 :: t) hex =
  if h mod 16 =? 5 then l3mm (h :: h2 :: t) (h2 mod 64) hex else if h mod 16 =? 6 then l3rr (h :: h2 :: t) h2 hex else Ok (- ENOTSUP, noned).
Proof.
  intros B. unfold is_byte in B. unfold osmo_mobile_identity_decode_from_l3_buf. cbv zeta. replace (zlen (h :: h2 :: t) <? 2) with false by (rewrite !zlen_cons; pose proof (zlen_nonneg t); lia).
  change (rd (h :: h2 :: t) 0) with (Ok h). change (rd (h :: h2 :: t) 1) with (Ok h2). cbn [bind]. rewrite land15, land63.
  destruct (h mod 16 =? 5) eqn:E5.
  { replace (h mod 16 =? 14) with false by lia. rewrite E5. cbn [orb]. reflexivity. }
  destruct (h mod 16 =? 6) eqn:E6.
  { replace (h mod 16 =? 14) with false by lia. rewrite E5, E6. replace (false || (h mod 16 =? 3) || (h mod 16 =? 11) || (h mod 16 =? 0) || (h mod 16 =? 1) || (h mod 16 =? 12)) with false by lia. reflexivity. }
  destruct (h mod 16 =? 14) eqn:E14.
  { replace (h =? 5) with false by lia. replace (h =? 6) with false by lia. reflexivity. }
  rewrite E5, E6. reflexivity.
Qed.
Lemma rd_pre (pre : list Z) x t : rd (pre ++ x :: t) (zlen pre) = Ok x.
Proof. rewrite rd_at0 by (rewrite zlen_app, zlen_cons; pose proof (zlen_nonneg pre); pose proof (zlen_nonneg t); lia). rewrite at0_app by apply zlen_nonneg. rewrite Z.ltb_irrefl, Z.sub_diag. reflexivity. Qed.

Lemma carries_decode l3 m hex : carries l3 m -> bytes l3 -> 1 <= zlen m -> osmo_mobile_identity_decode_from_l3_buf l3 hex = osmo_mobile_identity_decode m (zlen m) hex.
Proof.
  intros C B L. destruct C as [h h2 d mi rest H H2 Ld|h h2 t cm2 mi rest H H2|h h2 cm1 mi rest H H2|h h2 mi rest H H2|h t cm2 mi rest H H2|h cm2 mi rest H H2];
    rewrite l3_dispatch by exact (Forall_inv B); rewrite H; cbn [Z.eqb Pos.eqb]; pose proof (zlen_nonneg rest).
  - unfold l3mm. rewrite H2. cbn [Z.eqb Pos.eqb]. set (l3 := h :: _). assert (E : l3 = (h :: h2 :: d) ++ zlen mi :: mi ++ rest) by reflexivity. 
    assert (Ll : zlen l3 = 10 + zlen mi + zlen rest) by (rewrite E, zlen_app, !zlen_cons, zlen_app; lia). rewrite Ll. replace (_ <? 2 + 8) with false by lia.
    replace 9 with (zlen (h :: h2 :: d)) by (rewrite !zlen_cons; lia). rewrite E at 1. rewrite rd_pre. cbn [bind]. replace (_ <? _) with false by lia.
    replace l3 with ((h :: h2 :: d ++ [zlen mi]) ++ mi ++ rest) by (rewrite E; cbn [app]; rewrite <- app_assoc; reflexivity).
    replace 10 with (zlen (h :: h2 :: d ++ [zlen mi])) by (rewrite !zlen_cons, zlen_app, zlen_cons, zlen_nil; lia). apply got_mi_at.
    change (bytes l3) in B. rewrite E in B. apply Forall_app in B. destruct B as [_ B]. inversion_clear B. auto.
  - unfold l3mm. replace (h2 mod 64 =? 8) with false by lia. replace ((h2 mod 64 =? 36) || (h2 mod 64 =? 40)) with true by lia. rewrite !zlen_cons. pose proof (zlen_nonneg (cm2 ++ zlen mi :: mi ++ rest)). replace (_ <? 2 + 2) with false by lia.
    change (rd (h :: h2 :: t :: zlen cm2 :: cm2 ++ zlen mi :: mi ++ rest) 3) with (Ok (zlen cm2)). cbn [bind]. change 4 with (zlen [h; h2; t; zlen cm2]) at 1. apply (got_cm2_at [h; h2; t; zlen cm2]).
    do 4 apply Forall_inv_tail in B. apply Forall_app in B. destruct B as [_ B]. inversion_clear B. auto.
  - unfold l3mm. rewrite H2. cbn [Z.eqb Pos.eqb orb]. rewrite !zlen_cons, zlen_app. replace (_ <? 2 + 2) with false by lia.
    change (rd (h :: h2 :: cm1 :: zlen mi :: mi ++ rest) 3) with (Ok (zlen mi)). cbn [bind]. change 4 with (zlen [h; h2; cm1; zlen mi]) at 1. apply (got_mi_at [h; h2; cm1; zlen mi]).
    do 4 apply Forall_inv_tail in B. auto.
  - unfold l3mm. rewrite H2. cbn [Z.eqb Pos.eqb orb]. rewrite !zlen_cons, zlen_app. replace (_ <? 2 + 2) with false by lia.
    change (rd (h :: h2 :: zlen mi :: mi ++ rest) 2) with (Ok (zlen mi)). cbn [bind]. change 3 with (zlen [h; h2; zlen mi]) at 1. apply (got_mi_at [h; h2; zlen mi]).
    do 3 apply Forall_inv_tail in B. auto.
  - unfold l3rr. cbn [Z.eqb Pos.eqb]. rewrite !zlen_cons, zlen_app, zlen_cons, zlen_app. replace (_ <? 2 + 6) with false by lia.
    change (rd (h :: 39 :: t :: zlen cm2 :: cm2 ++ zlen mi :: mi ++ rest) 3) with (Ok (zlen cm2)). cbn [bind]. change 4 with (zlen [h; 39; t; zlen cm2]) at 1. apply (got_cm2_at [h; 39; t; zlen cm2]).
    do 4 apply Forall_inv_tail in B. apply Forall_app in B. destruct B as [_ B]. inversion_clear B. auto.
  - unfold l3rr. cbn [Z.eqb Pos.eqb]. rewrite !zlen_cons, zlen_app, zlen_cons, zlen_app. replace (_ <? 2 + 4 + 2) with false by lia.
    change (rd (h :: 17 :: zlen cm2 :: cm2 ++ zlen mi :: mi ++ rest) 2) with (Ok (zlen cm2)). cbn [bind]. replace (zlen cm2 =? 3) with true by lia. cbn [negb]. change 3 with (zlen [h; 17; zlen cm2]) at 1. apply (got_cm2_at [h; 17; zlen cm2]).
    do 3 apply Forall_inv_tail in B. apply Forall_app in B. destruct B as [_ B]. inversion_clear B. auto.
Qed.

Lemma decode_total m hex : bytes m -> exists rc mi, osmo_mobile_identity_decode m (zlen m) hex = Ok (rc, mi) /\ (rc = 0 -> 1 <= zlen m) /\ (rc = 0 \/ rc < 0 /\ mi_type mi = 0).
Proof.
  intros B. destruct m as [|x m]; [do 2 eexists; split; [reflexivity|split; [discriminate|right; split; reflexivity]]|].
  assert (L : 1 <= zlen (x :: m)) by (rewrite zlen_cons; pose proof (zlen_nonneg m); lia). pose proof (decode_gen (x :: m) [] hex) as G. rewrite app_nil_r in G. rewrite G by auto. clear G.
  destruct (decode_as_inv (x :: m) hex B L) as [(ty & ds & _ & _ & _ & E)|[(t & _ & _ & E)|[[E _]|[E _]]]]; rewrite E.
  - do 2 eexists. split; [reflexivity|]. split; auto.
  - do 2 eexists. split; [reflexivity|]. split; auto.
  - do 2 eexists. split; [reflexivity|]. split; [discriminate|]. right. split; reflexivity.
  - do 2 eexists. split; [reflexivity|]. split; [discriminate|]. right. split; reflexivity.
Qed.

Lemma l3_only l3 hex : bytes l3 -> exists rc mi, osmo_mobile_identity_decode_from_l3_buf l3 hex = Ok (rc, mi) /\
  (rc < 0 /\ mi_type mi = 0 \/ rc = 0 /\ exists m, carries l3 m /\ osmo_mobile_identity_decode m (zlen m) hex = Ok (0, mi)).
Proof.
  intros B. destruct l3 as [|h [|h2 t]]; [do 2 eexists; split; [reflexivity|left; split; reflexivity]|do 2 eexists; split; [reflexivity|left; split; reflexivity]|].
  rewrite l3_dispatch by exact (Forall_inv B). set (l3 := h :: h2 :: t) in *.
  assert (Q : forall (r : res (Z * mid)) , (r = Ok (- EBADMSG, noned) \/ r = Ok (- ENOTSUP, noned) \/ exists m, carries l3 m /\ bytes m /\ r = osmo_mobile_identity_decode m (zlen m) hex) ->
    exists rc mi, r = Ok (rc, mi) /\ (rc < 0 /\ mi_type mi = 0 \/ rc = 0 /\ exists m, carries l3 m /\ osmo_mobile_identity_decode m (zlen m) hex = Ok (0, mi))).
  { intros r [-> |[-> |(m & C & Bm & ->)]]; [do 2 eexists; split; [reflexivity|left; split; reflexivity]|do 2 eexists; split; [reflexivity|left; split; reflexivity]|].
    destruct (decode_total m hex Bm) as (rc & mi & E & _ & [-> |[H H']]); exists rc, mi || exists 0, mi; (split; [exact E|]); [right; split; eauto|left; auto]. }
  assert (Sub : forall a m r : list Z, l3 = a ++ m ++ r -> bytes m). { intros a m r E. rewrite E in B. apply Forall_app in B. destruct B as [_ B]. apply Forall_app in B. apply B. }
  assert (Sub2 : forall (a c m r : list Z) x, l3 = a ++ c ++ x :: m ++ r -> bytes m). { intros a c m r x E. rewrite E in B. apply Forall_app in B. destruct B as [_ B]. apply Forall_app in B. destruct B as [_ B]. inversion_clear B. apply Forall_app in H0. apply H0. }
  assert (Pre : forall k r, l3 = firstn (Z.to_nat k) l3 ++ r -> True) by auto. clear Pre.
  apply Q. clear Q. destruct (h mod 16 =? 5) eqn:E5; [|destruct (h mod 16 =? 6) eqn:E6; [|right; left; reflexivity]].
  - unfold l3mm. destruct (h2 mod 64 =? 8) eqn:M8.
    { destruct (zlen l3 <? 2 + 8) eqn:L; [left; reflexivity|]. rewrite rd_at0 by lia. cbn [bind]. destruct (_ <? 2 + 8 + _); [left; reflexivity|]. pose proof (bytes_at0 l3 9 B) as Bx. unfold is_byte in Bx.
      destruct (got_mi_inv l3 10 (at0 l3 9) hex B ltac:(lia) ltac:(lia) ltac:(lia)) as [G|(m & r & E & Lm & G)]; [left; exact G|]. right. right. exists m. split; [|split; [eapply Sub; exact E|exact G]].
      change 10 with (9 + 1) in E. rewrite firstn_split in E by lia. rewrite <- app_assoc in E. cbn [app] in E. rewrite <- Lm in E. assert (E' : firstn (Z.to_nat 9) l3 = h :: h2 :: firstn (Z.to_nat 7) t) by reflexivity. rewrite E' in E.
      rewrite E. apply LocUpd; [lia|lia|]. rewrite zlen_firstn'. unfold l3 in L. rewrite !zlen_cons in L. lia. }
    destruct ((h2 mod 64 =? 36) || (h2 mod 64 =? 40)) eqn:M36.
    { destruct (zlen l3 <? 2 + 2) eqn:L; [left; reflexivity|]. rewrite rd_at0 by lia. cbn [bind]. pose proof (bytes_at0 l3 3 B) as Bx. unfold is_byte in Bx.
      destruct (got_cm2_inv l3 4 (at0 l3 3) hex B ltac:(lia) ltac:(lia)) as [G|(cm2 & m & r & E & Lm & G)]; [left; exact G|]. right. right. exists m. split; [|split; [eapply Sub2; exact E|exact G]].
      change 4 with (3 + 1) in E. rewrite firstn_split in E by lia. rewrite <- app_assoc in E. cbn [app] in E. rewrite <- Lm in E. unfold l3 in E at 2. destruct t as [|x t]; [unfold l3 in L; cbn in L; lia|]. change (firstn (Z.to_nat 3) (h :: h2 :: x :: t)) with [h; h2; x] in E.
      cbn [app] in E. rewrite E. apply CmServ; lia. }
    destruct (h2 mod 64 =? 1) eqn:M1.
    { destruct (zlen l3 <? 2 + 2) eqn:L; [left; reflexivity|]. rewrite rd_at0 by lia. cbn [bind]. pose proof (bytes_at0 l3 3 B) as Bx. unfold is_byte in Bx.
      destruct (got_mi_inv l3 4 (at0 l3 3) hex B ltac:(lia) ltac:(lia) ltac:(lia)) as [G|(m & r & E & Lm & G)]; [left; exact G|]. right. right. exists m. split; [|split; [eapply Sub; exact E|exact G]].
      change 4 with (3 + 1) in E. rewrite firstn_split in E by lia. rewrite <- app_assoc in E. cbn [app] in E. rewrite <- Lm in E. unfold l3 in E at 2. destruct t as [|x t]; [unfold l3 in L; cbn in L; lia|]. change (firstn (Z.to_nat 3) (h :: h2 :: x :: t)) with [h; h2; x] in E.
      cbn [app] in E. rewrite E. apply Detach; lia. }
    destruct (h2 mod 64 =? 25) eqn:M25; [|right; left; reflexivity].
    { destruct (zlen l3 <? 2 + 2) eqn:L; [left; reflexivity|]. rewrite rd_at0 by lia. cbn [bind]. pose proof (bytes_at0 l3 2 B) as Bx. unfold is_byte in Bx.
      destruct (got_mi_inv l3 3 (at0 l3 2) hex B ltac:(lia) ltac:(lia) ltac:(lia)) as [G|(m & r & E & Lm & G)]; [left; exact G|]. right. right. exists m. split; [|split; [eapply Sub; exact E|exact G]].
      change 3 with (2 + 1) in E. rewrite firstn_split in E by lia. rewrite <- app_assoc in E. cbn [app] in E. rewrite <- Lm in E. unfold l3 in E at 2. change (firstn (Z.to_nat 2) (h :: h2 :: t)) with [h; h2] in E.
      cbn [app] in E. rewrite E. apply IdResp; lia. }
  - unfold l3rr. destruct (h2 =? 39) eqn:M39.
    { destruct (zlen l3 <? 2 + 6) eqn:L; [left; reflexivity|]. rewrite rd_at0 by lia. cbn [bind]. pose proof (bytes_at0 l3 3 B) as Bx. unfold is_byte in Bx.
      destruct (got_cm2_inv l3 4 (at0 l3 3) hex B ltac:(lia) ltac:(lia)) as [G|(cm2 & m & r & E & Lm & G)]; [left; exact G|]. right. right. exists m. split; [|split; [eapply Sub2; exact E|exact G]].
      change 4 with (3 + 1) in E. rewrite firstn_split in E by lia. rewrite <- app_assoc in E. cbn [app] in E. rewrite <- Lm in E. unfold l3 in E at 2. destruct t as [|x t]; [unfold l3 in L; cbn in L; lia|]. change (firstn (Z.to_nat 3) (h :: h2 :: x :: t)) with [h; h2; x] in E.
      cbn [app] in E. rewrite E in L. rewrite E. replace h2 with 39 by lia. apply PagResp; [lia|]. rewrite !zlen_cons, zlen_app, zlen_cons, zlen_app in L. lia. }
    destruct (h2 =? 17) eqn:M17; [|right; left; reflexivity].
    { destruct (zlen l3 <? 2 + 4 + 2) eqn:L; [left; reflexivity|]. rewrite rd_at0 by lia. cbn [bind]. pose proof (bytes_at0 l3 2 B) as Bx. unfold is_byte in Bx. destruct (at0 l3 2 =? 3) eqn:E3; cbn [negb]; [|left; reflexivity].
      destruct (got_cm2_inv l3 3 (at0 l3 2) hex B ltac:(lia) ltac:(lia)) as [G|(cm2 & m & r & E & Lm & G)]; [left; exact G|]. right. right. exists m. split; [|split; [eapply Sub2; exact E|exact G]].
      change 3 with (2 + 1) in E. rewrite firstn_split in E by lia. rewrite <- app_assoc in E. cbn [app] in E. rewrite <- Lm in E. unfold l3 in E at 2. change (firstn (Z.to_nat 2) (h :: h2 :: t)) with [h; h2] in E.
      cbn [app] in E. rewrite E. replace h2 with 17 by lia. apply Talker; lia. }
Qed.

(* ---- comparison ---- *)
Lemma strncmp_lex n : forall a b p q, ~ In 0 a -> ~ In 0 b -> bytes a -> bytes b -> (length a < n)%nat -> (length b < n)%nat -> strncmp n (a ++ 0 :: p) (b ++ 0 :: q) = Ok (lex a b).
Proof.
  induction n as [|n IH]; intros a b p q Na Nb Ba Bb La Lb; [lia|]. cbn [strncmp].
  destruct a as [|x a], b as [|y b]; cbn [app lex].
  - reflexivity.
  - inversion_clear Bb. unfold is_byte in H. assert (y <> 0) by (intros ->; apply Nb; left; reflexivity). replace (0 <? y) with true by lia. reflexivity.
  - inversion_clear Ba. unfold is_byte in H. assert (x <> 0) by (intros ->; apply Na; left; reflexivity). replace (x <? 0) with false by lia. replace (0 <? x) with true by lia. reflexivity.
  - inversion_clear Ba. inversion_clear Bb. destruct (x <? y); auto. destruct (y <? x); auto. assert (x <> 0) by (intros ->; apply Na; left; reflexivity). replace (x =? 0) with false by lia.
    apply IH; auto; cbn [length] in *; try lia; intros X; [apply Na|apply Nb]; right; auto.
Qed.
Lemma lex_eq a : forall b, lex a b = 0 <-> a = b.
Proof.
  induction a as [|x a IH]; intros [|y b]; cbn [lex]; try (split; [discriminate|discriminate]); [split; auto|]. destruct (x <? y) eqn:E1; [split; [discriminate|intros [= -> _]; lia]|]. destruct (y <? x) eqn:E2; [split; [discriminate|intros [= -> _]; lia]|].
  rewrite IH. split; [intros ->; f_equal; lia|intros [= _ ->]; auto].
Qed.
Lemma lex_opp a : forall b, lex b a = - lex a b.
Proof. induction a as [|x a IH]; intros [|y b]; cbn [lex]; auto. destruct (x <? y) eqn:E1, (y <? x) eqn:E2; auto; lia. Qed.
Lemma lex_sign a : forall b, lex a b = -1 \/ lex a b = 0 \/ lex a b = 1.
Proof. induction a as [|x a IH]; intros [|y b]; cbn [lex]; auto. destruct (x <? y); auto. destruct (y <? x); auto. Qed.
Lemma lex_trans a : forall b c, lex a b = -1 -> lex b c = -1 -> lex a c = -1.
Proof.
  induction a as [|x a IH]; intros [|y b] [|z c]; cbn [lex]; auto; try discriminate. destruct (x <? y) eqn:E1, (y <? z) eqn:E2; intros H1 H2; try (replace (x <? z) with true by lia; auto; fail).
  - destruct (z <? y) eqn:E3; [discriminate H2|]. replace (x <? z) with true by lia. auto.
  - destruct (y <? x) eqn:E3; [discriminate H1|]. replace (x <? z) with true by lia. auto.
  - destruct (y <? x) eqn:E3; [discriminate H1|]. destruct (z <? y) eqn:E4; [discriminate H2|]. replace (x <? z) with false by lia. replace (z <? x) with false by lia. eapply IH; eauto.
Qed.
