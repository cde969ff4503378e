(** C77: half rate SID frames through the channel coder. *)
From Verif Require Import Base S_bits P_bits M_hrsid S_hrsid P_hrsid.

Lemma wrong_zeros sent d f js : (forall j, In j js -> at0 sent j = 1) -> (forall j, In j js -> at0 d j = b2z (pbit false f (at0 (table f) j))) ->
  wrong sent d js = zeros f js.
Proof.
  unfold wrong, zeros. induction js as [|j js IH]; intros H1 H2; [reflexivity|]. cbn [filter fold_right].
  rewrite (H1 j), (H2 j) by (left; reflexivity). specialize (IH (fun k Hk => H1 k (or_intror Hk)) (fun k Hk => H2 k (or_intror Hk))).
  destruct (pbit false f (at0 (table f) j)); cbn [b2z]; [change (negb (1 =? 1)) with false|change (negb (1 =? 0)) with true]; cbv iota; try rewrite zlen_cons; lia.
Qed.
Lemma codeword_In j : In j codeword -> 0 <= j < 112 /\ 33 <= at0 gsm620_voiced_bitorder j.
Proof. unfold codeword. rewrite filter_In, zseq_In. lia. Qed.
Lemma protected_In j : In j protected -> In j codeword.
Proof. unfold protected. rewrite filter_In. tauto. Qed.
Lemma order_mode l : at0 (choose l) 93 = 35 /\ at0 (choose l) 94 = 34.
Proof. destruct l; vm_compute; split; reflexivity. Qed.
Lemma table_choose f : table f = choose (negb (pbit false f 34 || pbit false f 35)).
Proof. unfold table, choose. destruct (pbit false f 34 || pbit false f 35); reflexivity. Qed.
Lemma b2z_0 x : (b2z x =? 0) = negb x. Proof. destruct x; reflexivity. Qed.

(** receiving [d] gives a frame with its bits in the places of the table *)
Lemma receive_ok b0 d : zlen b0 = 112 -> zlen d = 112 -> bits d -> exists b f, tch_hr_d_to_b b0 d = Ok b /\ tch_hr_reassemble b = Ok f /\ frame f /\
  negb (pbit false f 34 || pbit false f 35) = (at0 d 93 =? 0) && (at0 d 94 =? 0) /\ forall j, 0 <= j < 112 -> at0 d j = b2z (pbit false f (at0 (table f) j)).
Proof.
  intros L0 Ld Hd. destruct (d_to_b_ok b0 d L0 Ld Hd) as (b & E1 & Lb & Hb & K1). destruct (reassemble_ok b Hb Lb) as (f & E2 & F & K2).
  exists b, f. split; [exact E1|]. split; [exact E2|]. split; [exact F|].
  assert (Kb : forall i, 0 <= i < 112 -> at0 b i = b2z (pbit false f i)).
  { intros i Hi. rewrite K2 by exact Hi. destruct (bits_at0 b i Hb) as [-> | ->]; reflexivity. }
  assert (M : negb (pbit false f 34 || pbit false f 35) = (at0 d 93 =? 0) && (at0 d 94 =? 0)).
  { set (l := (at0 d 93 =? 0) && (at0 d 94 =? 0)) in K1. destruct (order_mode l) as [O1 O2]. pose proof (K1 93 ltac:(lia)) as Q1. pose proof (K1 94 ltac:(lia)) as Q2.
    rewrite O1, Kb in Q1 by lia. rewrite O2, Kb in Q2 by lia. rewrite <- Q1, <- Q2, !b2z_0, negb_orb, andb_comm. reflexivity. }
  split; [exact M|]. intros j Hj. rewrite table_choose, M. rewrite <- Kb by (apply perm_c; exact Hj). symmetry. apply K1. exact Hj.
Qed.

(** sending [f] puts its bits on the channel in the order of the table *)
Lemma send_ok b0 d0 f : zlen b0 = 112 -> zlen d0 = 112 -> frame f -> exists b d, tch_hr_disassemble b0 f = Ok b /\ tch_hr_b_to_d d0 b = Ok d /\ zlen d = 112 /\ bits d /\
  forall j, 0 <= j < 112 -> at0 d j = b2z (pbit false f (at0 (table f) j)).
Proof.
  intros L0 L1 F. destruct (disassemble_ok b0 f L0 F) as (b & E1 & Lb & Hb & K1). destruct (b_to_d_ok d0 b Lb L1 Hb) as (d & E2 & Ld & Hd & K2).
  exists b, d. split; [exact E1|]. split; [exact E2|]. split; [exact Ld|]. split; [exact Hd|]. intros j Hj.
  rewrite K2 by exact Hj. rewrite !(K1 34), !(K1 35), !b2z_0 by lia. rewrite <- negb_orb, <- table_choose. apply K1. rewrite table_choose. apply perm_c. exact Hj.
Qed.

(** A SID frame is sent and any 112 bits are received. The frame the receiver puts together, in the order of the mode it received, is classified by the
    number of wrong bits of the code word, and of its protected part, alone: valid up to two wrong protected bits (unless these are the mode: then invalid),
    invalid up to 10 wrong bits (15 if the channel decoder was uncertain), else speech. The bad frame flag is raised from 16 to 25 wrong bits, if it was uncertain. *)
Theorem C77_channel : forall f received bci b0 d0 b1, sid_frame f -> zlen received = 112 -> bits received -> zlen b0 = 112 -> zlen d0 = 112 -> zlen b1 = 112 ->
  exists b sent b' f', tch_hr_disassemble b0 f = Ok b /\ tch_hr_b_to_d d0 b = Ok sent /\ tch_hr_d_to_b b1 received = Ok b' /\ tch_hr_reassemble b' = Ok f' /\
  let e1 := wrong sent received protected in let e := wrong sent received codeword in
  osmo_hr_sid_classify f' bci = Ok (verdict ((at0 received 93 =? 0) && (at0 received 94 =? 0)) bci e1 e, upgrade bci e).
Proof.
  intros f d' bci b0 d0 b1 [F S] Ld Hd L0 L1 L2. destruct (send_ok b0 d0 f L0 L1 F) as (b & d & E1 & E2 & _ & _ & K). destruct (receive_ok b1 d' L2 Ld Hd) as (b' & f' & E3 & E4 & F' & M & K').
  exists b, d, b', f'. split; [exact E1|]. split; [exact E2|]. split; [exact E3|]. split; [exact E4|]. cbv zeta.
  assert (T : table f = gsm620_voiced_bitorder) by (unfold table; rewrite S by lia; reflexivity).
  assert (O : forall j, In j codeword -> at0 d j = 1).
  { intros j Hj. apply codeword_In in Hj. rewrite K by lia. rewrite T, S; [reflexivity|]. split; [lia|]. apply perm_v. lia. }
  assert (W1 : wrong d d' codeword = zeros f' codeword) by (apply wrong_zeros; [exact O|intros j Hj; apply codeword_In in Hj; apply K'; lia]).
  assert (W2 : wrong d d' protected = zeros f' protected) by (apply wrong_zeros; [intros j Hj; apply O, protected_In, Hj|intros j Hj; apply protected_In, codeword_In in Hj; apply K'; lia]).
  rewrite (classify_ok f' bci F'), M, W1, W2. reflexivity.
Qed.
Print Assumptions C77_channel.
(* 3 protected bits wrong: invalid; 2: valid *)
Example C77_channel_nonvacuous : let f := [1; 2; 3; 4; 0xFF] ++ repeat 0xFF 9 in sid_frame f /\
  (exists b sent, tch_hr_disassemble (repeat 7 112) f = Ok b /\ tch_hr_b_to_d (repeat 7 112) b = Ok sent /\
   wrong sent (upd (upd sent 93 0) 20 0) protected = 2 /\
   (do b' <- tch_hr_d_to_b (repeat 7 112) (upd (upd sent 93 0) 20 0) ;; do f' <- tch_hr_reassemble b' ;; osmo_hr_sid_classify f' false) = Ok (VALID, false) /\
   (do b' <- tch_hr_d_to_b (repeat 7 112) (upd (upd sent 93 0) 94 0) ;; do f' <- tch_hr_reassemble b' ;; osmo_hr_sid_classify f' false) = Ok (INVALID, false)) /\
  zlen codeword = 79 /\ zlen protected = 62.
Proof.
  cbv zeta. split; [|split; [eexists; eexists; split; [vm_compute; reflexivity|]; split; [vm_compute; reflexivity|]; vm_compute; repeat split|split; reflexivity]].
  split; [split; [reflexivity|repeat (apply Forall_cons; [unfold is_byte; lia|]); apply Forall_nil]|].
  intros i Hi. assert (K : forallb (pbit false ([1; 2; 3; 4; 0xFF] ++ repeat 0xFF 9)) (zseq 33 79) = true) by (vm_compute; reflexivity).
  rewrite forallb_forall in K. apply K, zseq_In. lia.
Qed.

(** Any frame at all is classified in the same way, by the code word bits it has when put on the channel. *)
Theorem C77_any : forall f bci b0 d0, frame f -> zlen b0 = 112 -> zlen d0 = 112 ->
  exists b d, tch_hr_disassemble b0 f = Ok b /\ tch_hr_b_to_d d0 b = Ok d /\
  let e1 := wrong (repeat 1 112) d protected in let e := wrong (repeat 1 112) d codeword in
  osmo_hr_sid_classify f bci = Ok (verdict (negb (pbit false f 34 || pbit false f 35)) bci e1 e, upgrade bci e).
Proof.
  intros f bci b0 d0 F L0 L1. destruct (send_ok b0 d0 f L0 L1 F) as (b & d & E1 & E2 & _ & _ & K). exists b, d. split; [exact E1|]. split; [exact E2|]. cbv zeta.
  assert (O : forall j, 0 <= j < 112 -> at0 (repeat 1 112) j = 1).
  { intros j Hj. unfold at0. rewrite (nth_indep _ 0 1) by (rewrite repeat_length; lia). apply nth_repeat. }
  assert (W1 : wrong (repeat 1 112) d codeword = zeros f codeword) by (apply wrong_zeros; intros j Hj; apply codeword_In in Hj; [apply O; lia|apply K; lia]).
  assert (W2 : wrong (repeat 1 112) d protected = zeros f protected) by (apply wrong_zeros; intros j Hj; apply protected_In, codeword_In in Hj; [apply O; lia|apply K; lia]).
  rewrite (classify_ok f bci F), W1, W2. reflexivity.
Qed.
Print Assumptions C77_any.
Example C77_any_nonvacuous : frame (repeat 0 14) /\ osmo_hr_sid_classify (repeat 0 14) true = Ok (SPEECH, false) /\
  osmo_hr_sid_classify (repeat 0 6 ++ repeat 0xFF 8) true = Ok (SPEECH, false) /\ osmo_hr_sid_classify (repeat 0 4 ++ [0x10; 0x3F] ++ repeat 0xFF 8) true = Ok (INVALID, false).
Proof. split; [split; [reflexivity|repeat (apply Forall_cons; [unfold is_byte; lia|]); apply Forall_nil]|]. vm_compute. repeat split. Qed.

(** Every frame comes back unchanged from the two reorderings. *)
Theorem C77_reorder : forall f b0 d0 b1, frame f -> zlen b0 = 112 -> zlen d0 = 112 -> zlen b1 = 112 ->
  exists b d b' f', tch_hr_disassemble b0 f = Ok b /\ tch_hr_b_to_d d0 b = Ok d /\ tch_hr_d_to_b b1 d = Ok b' /\ tch_hr_reassemble b' = Ok f' /\ f' = f.
Proof.
  intros f b0 d0 b1 F L0 L1 L2. destruct (send_ok b0 d0 f L0 L1 F) as (b & d & E1 & E2 & Ld & Hd & K). destruct (receive_ok b1 d L2 Ld Hd) as (b' & f' & E3 & E4 & F' & M & K').
  exists b, d, b', f'. split; [exact E1|]. split; [exact E2|]. split; [exact E3|]. split; [exact E4|].
  assert (T : table f' = table f).
  { rewrite !table_choose, M. f_equal. rewrite (K 93), (K 94), !b2z_0 by lia. rewrite table_choose. destruct (order_mode (negb (pbit false f 34 || pbit false f 35))) as [-> ->].
    rewrite negb_orb, andb_comm. reflexivity. }
  assert (P : forall i, 0 <= i < 112 -> pbit false f' i = pbit false f i).
  { intros i Hi. destruct (perm_c (negb (pbit false f 34 || pbit false f 35))) as (_ & _ & _ & P4). rewrite <- table_choose in P4. destruct (P4 i Hi) as (j & Hj & <-).
    pose proof (K j Hj) as Q. rewrite (K' j Hj), T in Q. destruct (pbit false f' (at0 (table f) j)), (pbit false f (at0 (table f) j)); (reflexivity || discriminate Q). }
  destruct F as [Lf Bf], F' as [Lf' Bf']. apply (list_ext f' f 0); [lia|]. intros i Hi.
  assert (Q1 : is_byte (nth i f' 0)) by (apply (bytes_at0 f' (Z.of_nat i)) in Bf'; unfold at0 in Bf'; rewrite Nat2Z.id in Bf'; exact Bf').
  assert (Q2 : is_byte (nth i f 0)) by (apply (bytes_at0 f (Z.of_nat i)) in Bf; unfold at0 in Bf; rewrite Nat2Z.id in Bf; exact Bf).
  rewrite <- (u8_small _ Q1), <- (u8_small _ Q2). apply Z.bits_inj'. intros n Hn. rewrite !testbit_u8. destruct (Z.ltb_spec n 8); [|reflexivity]. cbn [andb].
  specialize (P (8 * Z.of_nat i + (7 - n)) ltac:(lia)). unfold pbit, at0 in P.
  replace ((8 * Z.of_nat i + (7 - n)) / 8) with (Z.of_nat i) in P by lia. rewrite Nat2Z.id in P.
  replace (7 - (8 * Z.of_nat i + (7 - n)) mod 8) with n in P by lia. exact P.
Qed.
Print Assumptions C77_reorder.
Example C77_reorder_nonvacuous : frame (zseq 40 14) /\ (do b <- tch_hr_disassemble (repeat 7 112) (zseq 40 14) ;; do d <- tch_hr_b_to_d (repeat 7 112) b ;;
  do b' <- tch_hr_d_to_b (repeat 9 112) d ;; tch_hr_reassemble b') = Ok (zseq 40 14).
Proof. split; [split; [reflexivity|repeat (apply Forall_cons; [unfold is_byte; lia|]); apply Forall_nil]|vm_compute; reflexivity]. Qed.

Lemma low_bits w n : 0 <= w -> 0 <= n < w -> Z.testbit (Z.ones w) n = true.
Proof. intros. apply Z.ones_spec_low. lia. Qed.
Lemma all_ones x w : 0 <= w -> (forall n, 0 <= n < w -> Z.testbit x n = true) <-> Z.land x (Z.ones w) = Z.ones w.
Proof.
  intros Hw. split.
  - intros H. apply Z.bits_inj'. intros n Hn. rewrite Z.land_spec. destruct (Z_lt_le_dec n w); [rewrite H by lia; reflexivity|]. rewrite Z.ones_spec_high by lia. apply andb_false_r.
  - intros H n Hn. pose proof (low_bits w n Hw Hn) as K. rewrite <- H, Z.land_spec in K. apply andb_prop in K. apply K.
Qed.
Lemma byte_ones x : is_byte x -> (forall n, 0 <= n < 8 -> Z.testbit x n = true) <-> x = 255.
Proof. intros H. rewrite (all_ones x 8) by lia. rewrite Z.land_ones, Z.mod_small by (unfold is_byte in H; change (2 ^ 8) with 256; lia). reflexivity. Qed.
Lemma sid_iff f : frame f -> sid_frame f <-> Z.land (at0 f 4) 127 = 127 /\ forall k, 5 <= k < 14 -> at0 f k = 255.
Proof.
  intros F. change 127 with (Z.ones 7). rewrite <- all_ones by lia. split.
  - intros [_ S]. split.
    + intros n Hn. specialize (S (39 - n) ltac:(lia)). unfold pbit in S. replace ((39 - n) / 8) with 4 in S by lia. replace (7 - (39 - n) mod 8) with n in S by lia. exact S.
    + intros k Hk. apply byte_ones; [apply bytes_at0, F|]. intros n Hn. specialize (S (8 * k + (7 - n)) ltac:(lia)). unfold pbit in S.
      replace ((8 * k + (7 - n)) / 8) with k in S by lia. replace (7 - (8 * k + (7 - n)) mod 8) with n in S by lia. exact S.
  - intros [H1 H2]. split; [exact F|]. intros i Hi. unfold pbit. destruct (Z.eqb_spec (i / 8) 4) as [E|E].
    + rewrite E. apply H1. lia.
    + pose proof (H2 (i / 8) ltac:(lia)) as Q. apply byte_ones; [apply bytes_at0, F|exact Q|lia].
Qed.

(** The check of a payload for the error-free code word says yes exactly for SID frames, and no for payloads that are too short. *)
Theorem C77_check : forall p, (zlen p < 14 -> osmo_hr_check_sid p = Ok false) /\
  (frame p -> exists r, osmo_hr_check_sid p = Ok r /\ (r = true <-> sid_frame p)).
Proof.
  intros p. unfold osmo_hr_check_sid. split.
  - intros H. replace (zlen p <? 14) with true by lia. reflexivity.
  - intros F. pose proof (sid_iff p F) as I.
    enough (exists r, osmo_hr_check_sid p = Ok r /\ (r = true <-> Z.land (at0 p 4) 127 = 127 /\ forall k, 5 <= k < 14 -> at0 p k = 255)) as (r & R1 & R2) by (exists r; split; [exact R1|tauto]).
    clear I. unfold osmo_hr_check_sid. destruct F as [L Hb]. assert (Lz : zlen p = 14) by (unfold zlen; rewrite L; reflexivity). replace (zlen p <? 14) with false by lia.
    rewrite rd_at0 by lia. cbn [bind]. destruct (Z.eqb_spec (Z.land (at0 p 4) 127) 127) as [E|E]; cbn [negb].
    2:{ exists false. split; [reflexivity|]. split; [discriminate|]. intros [K _]. contradiction. }
    assert (Q : zslice p 5 9 = repeat 255 9 <-> forall k, 5 <= k < 14 -> at0 p k = 255).
    { unfold zslice. split.
      - intros K k Hk. assert (N : nth (Z.to_nat (k - 5)) (slice p 5 9) 0 = 255).
        { change (Z.to_nat 5) with 5%nat in K. change (Z.to_nat 9) with 9%nat in K. rewrite K. rewrite (nth_indep _ 0 255) by (rewrite repeat_length; lia). apply nth_repeat. }
        rewrite nth_slice in N. destruct (Nat.ltb_spec (Z.to_nat (k - 5)) 9); [|lia]. unfold at0. rewrite <- N. f_equal. lia.
      - intros K. apply (list_ext _ _ 0); [rewrite slice_length, repeat_length; lia|]. intros i Hi. rewrite slice_length in Hi by lia. rewrite (nth_indep (repeat 255 9) 0 255) by (rewrite repeat_length; lia).
        rewrite nth_repeat, nth_slice. destruct (Nat.ltb_spec i (Z.to_nat 9)); [|lia]. specialize (K (5 + Z.of_nat i) ltac:(lia)). unfold at0 in K. rewrite <- K. f_equal. lia. }
    destruct (list_eq_dec Z.eq_dec (zslice p 5 9) (repeat 255 9)) as [D|D].
    + exists true. split; [reflexivity|]. split; [|reflexivity]. intros _. split; [exact E|apply Q; exact D].
    + exists false. split; [reflexivity|]. split; [discriminate|]. intros [_ K]. apply Q in K. contradiction.
Qed.
Print Assumptions C77_check.
Example C77_check_nonvacuous : osmo_hr_check_sid ([1; 2; 3; 4; 0x7F] ++ repeat 0xFF 9) = Ok true /\ osmo_hr_check_sid ([1; 2; 3; 4; 0x7F] ++ repeat 0xFF 8) = Ok false /\
  osmo_hr_check_sid ([1; 2; 3; 4; 0x7F] ++ repeat 0xFF 8 ++ [0xFE]) = Ok false.
Proof. vm_compute. repeat split. Qed.

(** Resetting makes a SID frame of any frame and keeps the 33 bits of comfort noise parameters; the result is valid to the classification. *)
Theorem C77_reset : forall f bci, frame f -> exists f', osmo_hr_sid_reset f = Ok f' /\ sid_frame f' /\ (forall i, 0 <= i < 33 -> pbit false f' i = pbit false f i) /\
  osmo_hr_sid_classify f' bci = Ok (VALID, false).
Proof.
  intros f bci [L Hb]. assert (Lz : zlen f = 14) by (unfold zlen; rewrite L; reflexivity). unfold osmo_hr_sid_reset. rewrite rd_at0 by lia. cbn [bind].
  set (v := Z.lor (at0 f 4) 127). assert (Hv : is_byte v).
  { unfold v. pose proof (bytes_at0 f 4 Hb) as Q. unfold is_byte in *. split; [apply Z.lor_nonneg; lia|]. change 256 with (2 ^ 8).
    destruct (Z.eq_dec (Z.lor (at0 f 4) 127) 0) as [->|N]; [lia|]. assert (0 <= Z.lor (at0 f 4) 127) by (apply Z.lor_nonneg; lia). apply Z.log2_lt_pow2; [lia|]. rewrite Z.log2_lor by lia. apply Z.max_lub_lt; [|reflexivity].
    destruct (Z.eq_dec (at0 f 4) 0) as [->|]; [reflexivity|apply Z.log2_lt_pow2; lia]. }
  rewrite wr_in by lia. cbn [bind]. set (q := upd f (Z.to_nat 4) v). assert (Lq : zlen q = 14) by (unfold q; rewrite zlen_upd; exact Lz). assert (Bq : bytes q) by (apply Forall_upd; [exact Hb|exact Hv]).
  destruct (zfor_inv (fun i t => zlen t = 14 /\ bytes t /\ forall k, 0 <= k < 14 -> at0 t k = if (5 <=? k) && (k <? i) then 255 else at0 q k) (fun i q => wr q i 255) 9 5 q) as (f' & E & L' & B' & K).
  - split; [exact Lq|]. split; [exact Bq|]. intros k Hk. replace ((5 <=? k) && (k <? 5)) with false by lia. reflexivity.
  - intros j t Hj (Lt & Bt & K). rewrite wr_in by lia. eexists. split; [reflexivity|]. split; [rewrite zlen_upd; exact Lt|]. split; [apply Forall_upd; [exact Bt|unfold is_byte; lia]|].
    intros k Hk. rewrite at0_upd by lia. destruct (Z.eqb_spec k j) as [->|N]; [replace ((5 <=? j) && (j <? j + 1)) with true by lia; reflexivity|].
    rewrite K by lia. replace ((5 <=? k) && (k <? j + 1)) with ((5 <=? k) && (k <? j)) by lia. reflexivity.
  - exists f'. split; [exact E|]. assert (F' : frame f') by (split; [unfold zlen in L'; lia|exact B']).
    assert (Q4 : at0 f' 4 = v) by (rewrite K by lia; replace ((5 <=? 4) && (4 <? 5 + Z.of_nat 9)) with false by reflexivity; unfold q; rewrite at0_upd by lia; reflexivity).
    assert (S : sid_frame f').
    { apply sid_iff; [exact F'|]. split.
      - rewrite Q4. unfold v. change 127 with (Z.ones 7). apply all_ones; [lia|]. intros n Hn. rewrite Z.lor_spec, low_bits by lia. apply orb_true_r.
      - intros k Hk. rewrite K by lia. replace ((5 <=? k) && (k <? 5 + Z.of_nat 9)) with true by lia. reflexivity. }
    split; [exact S|]. split.
    + intros i Hi. unfold pbit. destruct (Z.eq_dec (i / 8) 4) as [N|N].
      * rewrite N, Q4. assert (i = 32) by lia. subst i. change (7 - 32 mod 8) with 7. unfold v. rewrite Z.lor_spec. change (Z.testbit 127 7) with false. apply orb_false_r.
      * rewrite K by lia. replace ((5 <=? i / 8) && (i / 8 <? 5 + Z.of_nat 9)) with false by lia. unfold q. rewrite at0_upd by lia. destruct (Z.eqb_spec (i / 8) 4); [contradiction|reflexivity].
    + assert (Zr : forall js, (forall j, In j js -> In j codeword) -> zeros f' js = 0).
      { destruct S as [_ S]. assert (T : table f' = gsm620_voiced_bitorder) by (unfold table; rewrite S by lia; reflexivity).
        unfold zeros. rewrite T. induction js as [|j js IH]; intros H; [reflexivity|]. cbn [fold_right]. rewrite IH by (intros k Hk; apply H; right; exact Hk).
        pose proof (codeword_In j (H j (or_introl eq_refl))) as Q. rewrite S; [reflexivity|]. split; [lia|apply perm_v; lia]. }
      rewrite (classify_ok f' bci F'). rewrite (Zr codeword) by tauto. rewrite (Zr protected) by exact protected_In. destruct S as [_ S]. rewrite S by lia. destruct bci; reflexivity.
Qed.
Print Assumptions C77_reset.
Example C77_reset_nonvacuous : osmo_hr_sid_reset (zseq 120 14) = Ok ([120; 121; 122; 123; 127] ++ repeat 255 9) /\ osmo_hr_sid_reset (repeat 128 14) = Ok ([128; 128; 128; 128; 255] ++ repeat 255 9).
Proof. vm_compute. split; reflexivity. Qed.
