(** Proofs about RLP: layout of the frames. *)
From Verif Require Import Base S_crc M_crc P_crc S_rlp M_rlp P_rlp.

Lemma rd_cons0 (a : Z) l : rd (a :: l) 0 = Ok a. Proof. reflexivity. Qed.
Lemma rd_cons1 (a b : Z) l : rd (a :: b :: l) 1 = Ok b. Proof. reflexivity. Qed.
Lemma or0 a b t v : or_byte (a :: b :: t) 0 v = Ok (u8 (Z.lor a v) :: b :: t).
Proof. unfold or_byte. rewrite rd_cons0. cbn [bind]. rewrite wr_in by (rewrite !zlen_cons; pose proof (zlen_nonneg t); lia). reflexivity. Qed.
Lemma or1 a b t v : or_byte (a :: b :: t) 1 v = Ok (a :: u8 (Z.lor b v) :: t).
Proof. unfold or_byte. rewrite rd_cons1. cbn [bind]. rewrite wr_in by (rewrite !zlen_cons; pose proof (zlen_nonneg t); lia). reflexivity. Qed.

(** closed forms of the two header octets *)
Definition hd0 (cr : bool) (s ns : Z) : Z := b2z cr + 2 * (s mod 4) + 8 * (ns mod 32).
Definition hd1 (ns : Z) (pf : bool) (nr : Z) : Z := (ns / 32) mod 2 + 2 * b2z pf + 4 * (nr mod 64).
Definition frame_body (size : Z) (cr : bool) (s ns : Z) (pf : bool) (nr : Z) (info : list Z) : list Z :=
  hd0 cr s ns :: hd1 ns pf nr :: info ++ repeat 0 (Z.to_nat (size - 5 - zlen info)).

Lemma hd0_eq cr s ns : 0 <= s -> 0 <= ns ->
  u8 (Z.lor (u8 (Z.lor (if (cr : bool) then u8 (Z.lor 0 1) else 0) (Z.shiftl (Z.land ns 31) 3))) (Z.shiftl (Z.land s 3) 1)) = hd0 cr s ns.
Proof.
  intros Hs Hn. unfold hd0. change 31 with (Z.ones 5). change 3 with (Z.ones 2) at 2. rewrite !Z.land_ones by lia.
  change (2 ^ 5) with 32. change (2 ^ 2) with 4.
  assert (K : forallb (fun c => forallb (fun a => forallb (fun b =>
     u8 (Z.lor (u8 (Z.lor (if (c : bool) then u8 (Z.lor 0 1) else 0) (Z.shiftl a 3))) (Z.shiftl b 1)) =? b2z c + 2 * b + 8 * a) (zseq 0 4)) (zseq 0 32)) [true; false] = true)
    by (vm_compute; reflexivity).
  rewrite forallb_forall in K. specialize (K cr ltac:(destruct cr; cbn; auto)). cbv beta in K.
  pose proof (forall_zseq _ 0 32%nat K (ns mod 32) ltac:(pose proof (Z.mod_pos_bound ns 32); lia)) as K2. cbv beta in K2.
  pose proof (forall_zseq _ 0 4%nat K2 (s mod 4) ltac:(pose proof (Z.mod_pos_bound s 4); lia)) as K3. cbv beta in K3. lia.
Qed.
Lemma land32 ns : 0 <= ns -> Z.shiftr (Z.land ns 32) 5 = (ns / 32) mod 2.
Proof.
  intros H. apply Z.bits_inj'. intros k Hk. rewrite Z.shiftr_spec, Z.land_spec by lia. change 32 with (2 ^ 5). rewrite testbit_pow2 by lia.
  change ((ns / 2 ^ 5) mod 2) with ((ns / 2 ^ 5) mod 2 ^ 1). rewrite <- Z.shiftr_div_pow2 by lia. destruct (Z.eqb_spec (k + 5) 5).
  - rewrite andb_true_r. replace k with 0 by lia. rewrite Z.mod_pow2_bits_low, Z.shiftr_spec by lia. reflexivity.
  - rewrite andb_false_r. rewrite Z.mod_pow2_bits_high by lia. reflexivity.
Qed.
Lemma hd1_eq ns pf nr : 0 <= ns -> 0 <= nr ->
  u8 (Z.lor (u8 (Z.lor (if (pf : bool) then u8 (Z.lor 0 2) else 0) (Z.shiftr (Z.land ns 32) 5))) (Z.shiftl (Z.land nr 63) 2)) = hd1 ns pf nr.
Proof.
  intros Hn Hr. unfold hd1. rewrite land32 by lia. change 63 with (Z.ones 6). rewrite !Z.land_ones by lia. change (2 ^ 6) with 64.
  assert (K : forallb (fun c => forallb (fun a => forallb (fun b =>
     u8 (Z.lor (u8 (Z.lor (if (c : bool) then u8 (Z.lor 0 2) else 0) a)) (Z.shiftl b 2)) =? a + 2 * b2z c + 4 * b) (zseq 0 64)) (zseq 0 2)) [true; false] = true)
    by (vm_compute; reflexivity).
  rewrite forallb_forall in K. specialize (K pf ltac:(destruct pf; cbn; auto)). cbv beta in K.
  pose proof (forall_zseq _ 0 2%nat K ((ns / 32) mod 2) ltac:(pose proof (Z.mod_pos_bound (ns / 32) 2); lia)) as K2. cbv beta in K2.
  pose proof (forall_zseq _ 0 64%nat K2 (nr mod 64) ltac:(pose proof (Z.mod_pos_bound nr 64); lia)) as K3. cbv beta in K3. lia.
Qed.
Lemma hd0_byte cr s ns : is_byte (hd0 cr s ns).
Proof. unfold hd0, is_byte. pose proof (Z.mod_pos_bound s 4). pose proof (Z.mod_pos_bound ns 32). destruct cr; cbn [b2z]; lia. Qed.
Lemma hd1_byte ns pf nr : is_byte (hd1 ns pf nr).
Proof. unfold hd1, is_byte. pose proof (Z.mod_pos_bound (ns / 32) 2). pose proof (Z.mod_pos_bound nr 64). destruct pf; cbn [b2z]; lia. Qed.

Fixpoint leqb (a b : list Z) : bool := match a, b with [], [] => true | x :: s, y :: t => (x =? y) && leqb s t | _, _ => false end.
Lemma leqb_eq a : forall b, leqb a b = true -> a = b.
Proof. induction a as [|x a IH]; intros [|y b] H; cbn [leqb] in H; try discriminate; [reflexivity|]. apply andb_prop in H. destruct H as [H1 H2]. apply Z.eqb_eq in H1. subst. f_equal. now apply IH. Qed.

Lemma lsb_mod n x m : 0 <= x -> 2 ^ Z.of_nat n = m -> lsb_bits n x = lsb_bits n (x mod m).
Proof.
  intros Hx <-. unfold lsb_bits. apply map_ext_in. intros k Hk. apply zseq_In in Hk. now rewrite Z.mod_pow2_bits_low by lia.
Qed.
Lemma header_bits cr s ns pf nr : 0 <= s -> 0 <= ns -> 0 <= nr ->
  tx_bits [hd0 cr s ns; hd1 ns pf nr] = rlp_header (b2z cr) s ns (b2z pf) nr.
Proof.
  intros Hs Hn Hr. unfold rlp_header. rewrite (lsb_mod 2 s 4), (lsb_mod 6 ns 64), (lsb_mod 6 nr 64) by (auto; reflexivity).
  unfold hd0, hd1. replace (ns mod 32) with ((ns mod 64) mod 32) by (clear; Z.div_mod_to_equations; lia).
  replace ((ns / 32) mod 2) with ((ns mod 64) / 32) by (clear; Z.div_mod_to_equations; lia).
  set (n := ns mod 64). set (r := nr mod 64). set (q := s mod 4).
  assert (Bn : 0 <= n < 64) by (apply Z.mod_pos_bound; lia). assert (Br : 0 <= r < 64) by (apply Z.mod_pos_bound; lia). assert (Bq : 0 <= q < 4) by (apply Z.mod_pos_bound; lia).
  clearbody n r q.
  assert (K : forallb (fun c => forallb (fun a => forallb (fun b => leqb (lsb_bits 8 (b2z c + 2 * b + 8 * (a mod 32)) ++ [b2z (Z.testbit a 5)]) ([b2z c] ++ lsb_bits 2 b ++ lsb_bits 6 a)) (zseq 0 4)) (zseq 0 64)) [true; false] = true)
    by (vm_compute; reflexivity).
  assert (K' : forallb (fun c => forallb (fun a => forallb (fun b => leqb (lsb_bits 8 (a / 32 + 2 * b2z c + 4 * b)) ([b2z (Z.testbit a 5)] ++ [b2z c] ++ lsb_bits 6 b)) (zseq 0 64)) (zseq 0 64)) [true; false] = true)
    by (vm_compute; reflexivity).
  rewrite forallb_forall in K, K'. specialize (K cr ltac:(destruct cr; cbn; auto)). specialize (K' pf ltac:(destruct pf; cbn; auto)). cbv beta in K, K'.
  pose proof (forall_zseq _ 0 64%nat K n ltac:(lia)) as K2. cbv beta in K2. pose proof (forall_zseq _ 0 4%nat K2 q ltac:(lia)) as K3. cbv beta in K3.
  pose proof (forall_zseq _ 0 64%nat K' n ltac:(lia)) as K2'. cbv beta in K2'. pose proof (forall_zseq _ 0 64%nat K2' r ltac:(lia)) as K3'. cbv beta in K3'.
  apply leqb_eq in K3, K3'. unfold tx_bits. cbn [flat_map]. rewrite app_nil_r, K3'. rewrite app_assoc, K3. rewrite <- !app_assoc. reflexivity.
Qed.

(** the octets of the check sequence *)
Definition fcs_octets (f : Z) : list Z := [Z.land (Z.shiftr f 0) 255; Z.land (Z.shiftr f 8) 255; Z.land (Z.shiftr f 16) 255].
Lemma fcs_octets_bytes f : bytes (fcs_octets f).
Proof. unfold fcs_octets. repeat constructor; unfold is_byte; rewrite land_255; lia. Qed.
Lemma fcs_octets_bits f : tx_bits (fcs_octets f) = lsb_bits 24 f.
Proof.
  unfold tx_bits, fcs_octets, lsb_bits. cbn [flat_map map zseq]. change 255 with (Z.ones 8).
  cbn [app]. repeat (apply (f_equal2 (@cons Z)); [apply (f_equal b2z); rewrite Z.land_spec, Z.shiftr_spec, testbit_ones by lia; apply andb_true_r|]). reflexivity.
Qed.

Lemma lower_split (m : list Z) n : (n <= length m)%nat -> m = firstn n m ++ skipn n m. Proof. intros. now rewrite firstn_skipn. Qed.

(** the tail of rlp_encode, once header and information are in place *)
Lemma wr_app_at (a : list Z) x t v : wr (a ++ x :: t) (zlen a) v = Ok (a ++ v :: t).
Proof.
  rewrite wr_in by (rewrite zlen_app, zlen_cons; pose proof (zlen_nonneg a); pose proof (zlen_nonneg t); lia).
  unfold zlen. rewrite Nat2Z.id. now rewrite upd_app_at.
Qed.
Lemma fcs_prefix a b n : bytes a -> bytes b -> zlen a = n -> rlp_fcs_compute (a ++ b) n = rlp_fcs_compute a n.
Proof.
  intros Ha Hb Hn. unfold rlp_fcs_compute. apply zfor_ext. intros j s Hj.
  rewrite !rd_at0 by (rewrite ?zlen_app; pose proof (zlen_nonneg b); lia). unfold at0. rewrite app_nth1 by (unfold zlen in *; lia). reflexivity.
Qed.
Lemma enc_tail size body rest : (size = 30 \/ size = 72) -> zlen body = size - 3 -> bytes body -> bytes rest ->
  exists f, rlp_fcs_compute body (size - 3) = Ok f /\ 0 <= f < 2 ^ 24 /\
  (do fcs <- rlp_fcs_compute (body ++ [0; 0; 0] ++ rest) (size - 3) ;;
   do out <- wr (body ++ [0; 0; 0] ++ rest) (size - 3) (Z.land (Z.shiftr fcs 0) 255) ;;
   do out <- wr out (size - 2) (Z.land (Z.shiftr fcs 8) 255) ;;
   do out <- wr out (size - 1) (Z.land (Z.shiftr fcs 16) 255) ;;
   Ok (size, out)) = Ok (size, body ++ fcs_octets f ++ rest).
Proof.
  intros Hs HL Hb Hr. destruct (fcs_spec body (size - 3) Hb) as (f & E & Hf & _); [rewrite HL; lia|]. exists f. split; [exact E|]. split; [exact Hf|].
  rewrite fcs_prefix by (auto; repeat (constructor; [unfold is_byte; lia|]); assumption). rewrite E. cbn [bind app].
  rewrite <- HL, wr_app_at. cbn [bind].
  set (v0 := Z.land (Z.shiftr f 0) 255). set (v1 := Z.land (Z.shiftr f 8) 255). set (v2 := Z.land (Z.shiftr f 16) 255).
  replace (body ++ v0 :: 0 :: 0 :: rest) with ((body ++ [v0]) ++ 0 :: 0 :: rest) by now rewrite <- app_assoc.
  replace (size - 2) with (zlen (body ++ [v0])) by (rewrite zlen_app, zlen_cons, zlen_nil; lia). rewrite wr_app_at. cbn [bind].
  replace ((body ++ [v0]) ++ v1 :: 0 :: rest) with ((body ++ [v0; v1]) ++ 0 :: rest) by now rewrite <- !app_assoc.
  replace (size - 1) with (zlen (body ++ [v0; v1])) by (rewrite zlen_app, !zlen_cons, zlen_nil; lia). rewrite wr_app_at. cbn [bind].
  rewrite <- !app_assoc. reflexivity.
Qed.

Lemma repeat_app' {A} (x : A) n m : repeat x (n + m) = repeat x n ++ repeat x m. Proof. apply repeat_app. Qed.
(** memset of the output area *)
Lemma memset_ok out size : (size = 30 \/ size = 72) -> size <= zlen out ->
  put_bytes out 0 (repeat 0 (Z.to_nat size)) = Ok (0 :: 0 :: repeat 0 (Z.to_nat (size - 2)) ++ skipn (Z.to_nat size) out).
Proof.
  intros Hs Hl. unfold put_bytes. rewrite (proj2 (Z.leb_le _ _)) by (unfold zlen at 1; rewrite repeat_length; lia).
  unfold blit. change (Z.to_nat 0) with 0%nat. cbn [firstn app]. rewrite repeat_length. cbn [Nat.add].
  replace (Z.to_nat size) with (2 + Z.to_nat (size - 2))%nat at 1 by lia. reflexivity.
Qed.
Lemma put_info a b size rest info : (size = 30 \/ size = 72) -> zlen info <= size - 5 ->
  put_bytes (a :: b :: repeat 0 (Z.to_nat (size - 2)) ++ rest) 2 info =
  Ok (a :: b :: info ++ repeat 0 (Z.to_nat (size - 5 - zlen info)) ++ [0; 0; 0] ++ rest).
Proof.
  intros Hs Hl. pose proof (zlen_nonneg info). unfold put_bytes.
  rewrite (proj2 (Z.leb_le _ _)) by (rewrite !zlen_cons, zlen_app; unfold zlen at 2; rewrite repeat_length; pose proof (zlen_nonneg rest); lia).
  unfold blit. change (Z.to_nat 2) with 2%nat. cbn [firstn app Nat.add skipn]. do 3 f_equal. f_equal.
  replace (Z.to_nat (size - 2)) with (length info + (Z.to_nat (size - 5 - zlen info) + 3))%nat by (unfold zlen in *; lia).
  rewrite !repeat_app', <- !app_assoc. rewrite skipn_app_exact by now rewrite repeat_length. reflexivity.
Qed.
Lemma no_info a b size rest : (size = 30 \/ size = 72) ->
  a :: b :: repeat 0 (Z.to_nat (size - 2)) ++ rest = a :: b :: repeat (0 : Z) (Z.to_nat (size - 5)) ++ [0; 0; 0] ++ rest.
Proof.
  intros Hs. do 2 f_equal. replace (Z.to_nat (size - 2)) with (Z.to_nat (size - 5) + 3)%nat by lia. now rewrite repeat_app', <- app_assoc.
Qed.

(** What a frame carries in the fields of its header, and its information. *)
Definition hdr_ns (f : rlp) : Z := if r_ftype f =? FT_U then 63 else if r_ftype f =? FT_S then 62 else r_ns f.
Definition hdr_nr (f : rlp) : Z := if r_ftype f =? FT_U then r_u f else r_nr f.
Definition hdr_s (f : rlp) : Z := if r_ftype f =? FT_U then 0 else r_s f.
Definition has_info (f : rlp) : bool := (r_ftype f =? FT_IS) || ((r_ftype f =? FT_U) && (r_u f =? U_FT_XID)).
Definition payload (f : rlp) : list Z := if has_info f then zslice (r_info f) 0 (r_info_len f) else [].
Definition body_of (size : Z) (f : rlp) : list Z := frame_body size (r_cr f) (hdr_s f) (hdr_ns f) (r_pf f) (hdr_nr f) (payload f).
Lemma u8_mod x m : 0 < m -> (m | 256) -> u8 x mod m = x mod m.
Proof. intros Hm (q & Hq). unfold u8. rewrite Hq, Z.mul_comm. rewrite Z.rem_mul_r by nia. rewrite (Z.mul_comm m), Z_mod_plus_full. apply Z.mod_mod. lia. Qed.
Lemma u8_div32 x : (u8 x / 32) mod 2 = (x / 32) mod 2.
Proof. unfold u8. clear. Z.div_mod_to_equations. lia. Qed.
Lemma hd0_u8 cr s ns : hd0 cr (u8 s) (u8 ns) = hd0 cr s ns.
Proof. unfold hd0. rewrite (u8_mod s 4), (u8_mod ns 32) by (lia || (exists 64; reflexivity) || (exists 8; reflexivity)). reflexivity. Qed.
Lemma hd1_u8 ns pf nr : hd1 (u8 ns) pf (u8 nr) = hd1 ns pf nr.
Proof. unfold hd1. rewrite u8_div32, u8_mod by (lia || (exists 4; reflexivity)). reflexivity. Qed.
Lemma zlen_zslice_le (l : list Z) n : 0 <= n <= zlen l -> zlen (zslice l 0 n) = n.
Proof. intros H. unfold zlen, zslice. rewrite slice_length by (unfold zlen in H; lia). lia. Qed.
Lemma bytes_rep n : bytes (repeat 0 n).
Proof. induction n; constructor; [unfold is_byte; lia|assumption]. Qed.

Lemma enc_ok out size f : rlp_typed f -> bytes out -> (size = 30 \/ size = 72) -> size <= zlen out -> r_version f < 2 ->
  (r_ftype f = FT_U \/ r_ftype f = FT_S \/ r_ftype f = FT_IS) -> (has_info f = true -> r_info_len f <= size - 5) ->
  exists c, rlp_fcs_compute (body_of size f) (size - 3) = Ok c /\ 0 <= c < 2 ^ 24 /\ bytes (body_of size f) /\ zlen (body_of size f) = size - 3 /\
    rlp_encode out size f = Ok (size, body_of size f ++ fcs_octets c ++ skipn (Z.to_nat size) out).
Proof.
  intros (Hv & Hu & Hsf & Hns & Hnr & Hib & Hil & Hlen) Ho Hs Hsz Hver Hty Hfit. unfold is_u16 in *.
  assert (HP : bytes (payload f) /\ zlen (payload f) <= size - 5).
  { unfold payload. destruct (has_info f) eqn:HI; [|split; [constructor|rewrite zlen_nil; lia]]. specialize (Hfit eq_refl).
    split; [unfold zslice; apply Forall_slice; assumption|]. rewrite zlen_zslice_le by (unfold zlen; lia). lia. }
  destruct HP as (PB & PL). pose proof (zlen_nonneg (payload f)).
  assert (BB : bytes (body_of size f)).
  { unfold body_of, frame_body. constructor; [apply hd0_byte|]. constructor; [apply hd1_byte|]. apply Forall_app. split; [exact PB|apply bytes_rep]. }
  assert (BL : zlen (body_of size f) = size - 3).
  { unfold body_of, frame_body. rewrite !zlen_cons, zlen_app. unfold zlen at 2. rewrite repeat_length. lia. }
  assert (SB : bytes (skipn (Z.to_nat size) out)) by (apply Forall_skipn; exact Ho).
  destruct (enc_tail size (body_of size f) _ Hs BL BB SB) as (c & Ec & Hc & ET). exists c. repeat (split; [assumption|]).
  unfold rlp_encode. rewrite (proj2 (Z.leb_gt _ _)) by lia.
  replace (negb (size =? 30) && negb (size =? 72)) with false by lia.
  rewrite memset_ok by assumption. cbn [bind].
  set (rest := skipn (Z.to_nat size) out) in *.
  set (a0 := if r_cr f then u8 (Z.lor 0 1) else 0). set (b0 := if r_pf f then u8 (Z.lor 0 2) else 0).
  replace (if r_cr f then or_byte (0 :: 0 :: repeat 0 (Z.to_nat (size - 2)) ++ rest) 0 1 else Ok (0 :: 0 :: repeat 0 (Z.to_nat (size - 2)) ++ rest))
    with (Ok (a0 :: 0 :: repeat 0 (Z.to_nat (size - 2)) ++ rest)) by (unfold a0; destruct (r_cr f); [now rewrite or0|reflexivity]).
  cbn [bind].
  replace (if r_pf f then or_byte (a0 :: 0 :: repeat 0 (Z.to_nat (size - 2)) ++ rest) 1 2 else Ok (a0 :: 0 :: repeat 0 (Z.to_nat (size - 2)) ++ rest))
    with (Ok (a0 :: b0 :: repeat 0 (Z.to_nat (size - 2)) ++ rest)) by (unfold b0; destruct (r_pf f); [now rewrite or1|reflexivity]).
  cbn [bind].
  assert (FIN : forall ns nr s t, 0 <= ns -> 0 <= nr -> 0 <= s ->
     hd0 (r_cr f) s ns = hd0 (r_cr f) (hdr_s f) (hdr_ns f) -> hd1 ns (r_pf f) nr = hd1 (hdr_ns f) (r_pf f) (hdr_nr f) ->
     t = payload f ++ repeat 0 (Z.to_nat (size - 5 - zlen (payload f))) ++ [0; 0; 0] ++ rest ->
     (do out <- or_byte (a0 :: b0 :: t) 0 (Z.shiftl (Z.land ns 31) 3) ;;
      do out <- or_byte out 1 (Z.shiftr (Z.land ns 32) 5) ;;
      do out <- or_byte out 1 (Z.shiftl (Z.land nr 63) 2) ;;
      do out <- or_byte out 0 (Z.shiftl (Z.land s 3) 1) ;;
      do fcs <- rlp_fcs_compute out (size - 3) ;;
      do out <- wr out (size - 3) (Z.land (Z.shiftr fcs 0) 255) ;;
      do out <- wr out (size - 2) (Z.land (Z.shiftr fcs 8) 255) ;;
      do out <- wr out (size - 1) (Z.land (Z.shiftr fcs 16) 255) ;;
      Ok (size, out)) = Ok (size, body_of size f ++ fcs_octets c ++ rest)).
  { intros ns nr s t H1 H2 H3 E0 E1 Et. rewrite or0. cbn [bind]. rewrite or1. cbn [bind]. rewrite or1. cbn [bind]. rewrite or0. cbn [bind].
    unfold a0, b0. rewrite hd0_eq, hd1_eq, E0, E1, Et by assumption. rewrite <- ET. unfold body_of, frame_body. cbn [app]. rewrite <- !app_assoc. reflexivity. }
  assert (PI : has_info f = true -> get_bytes (r_info f) 0 (r_info_len f) = Ok (payload f)).
  { intros HI. specialize (Hfit HI). unfold payload. rewrite HI. unfold get_bytes.
    replace ((0 <=? r_info_len f) && (0 + r_info_len f <=? zlen (r_info f))) with true by (unfold zlen; lia). reflexivity. }
  assert (NP : has_info f = false -> repeat 0 (Z.to_nat (size - 2)) ++ rest = payload f ++ repeat 0 (Z.to_nat (size - 5 - zlen (payload f))) ++ [0; 0; 0] ++ rest).
  { intros HI. unfold payload. rewrite HI. cbn [app]. change (zlen (@nil Z)) with 0. rewrite Z.sub_0_r. pose proof (no_info 0 0 size rest Hs) as N. injection N as N. exact N. }
  unfold FT_U, FT_S, FT_IS in *. destruct Hty as [T|[T|T]]; rewrite T; cbn [Z.eqb Pos.eqb].
  - destruct (Z.eqb_spec (r_u f) U_FT_XID) as [EX|EX].
    + assert (HI : has_info f = true) by (unfold has_info; rewrite T, EX; reflexivity).
      rewrite (proj2 (Z.ltb_ge _ _)) by (apply Hfit; exact HI). rewrite PI by exact HI. cbn [bind]. rewrite put_info by assumption. cbn [bind].
      apply FIN; try (unfold u8; lia); [| |reflexivity].
      * unfold hdr_s, hdr_ns. rewrite T. reflexivity.
      * unfold hdr_ns, hdr_nr. rewrite T. exact (hd1_u8 63 _ _).
    + assert (HI : has_info f = false) by (unfold has_info; rewrite T; cbn; lia). cbn [bind].
      apply FIN; try (unfold u8; lia); [| |now apply NP].
      * unfold hdr_s, hdr_ns. rewrite T. reflexivity.
      * unfold hdr_ns, hdr_nr. rewrite T. exact (hd1_u8 63 _ _).
  - assert (HI : has_info f = false) by (unfold has_info; rewrite T; reflexivity). cbn [bind].
    apply FIN; try (unfold u8; lia); [| |now apply NP].
    + unfold hdr_s, hdr_ns. rewrite T. exact (hd0_u8 _ _ 62).
    + unfold hdr_ns, hdr_nr. rewrite T. exact (hd1_u8 62 _ _).
  - assert (HI : has_info f = true) by (unfold has_info; rewrite T; reflexivity).
    rewrite (proj2 (Z.ltb_ge _ _)) by (apply Hfit; exact HI). rewrite PI by exact HI. cbn [bind]. rewrite put_info by assumption. cbn [bind].
    apply FIN; try (unfold u8; lia); [| |reflexivity].
    + unfold hdr_s, hdr_ns. rewrite T. apply hd0_u8.
    + unfold hdr_ns, hdr_nr. rewrite T. apply hd1_u8.
Qed.
