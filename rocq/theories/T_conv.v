(* T_conv.v - C33: convolutional coding *)
From Verif Require Import Base S_conv M_conv P_conv P_conv2 P_conv3.

(* the encoder walks the trellis (from the start state the termination asks for, through the termination bits) and leaves out the
   punctured bits; the number of bits stored is the announced one *)
Theorem C33_encode : forall c input, usable c -> Forall is_bit input -> zlen input = clen c -> (cterm c = TAIL_BITING -> cK c - 1 <= clen c) ->
  conv_encode c input = Ok (encoded c input) /\ conv_get_output_length c 0 = Ok (zlen (encoded c input)).
Proof. intros. split; [apply encode_ok; auto|apply encoded_len; auto]. Qed.
Print Assumptions C33_encode.

(* decoding any soft bits gives an input whose code word is at the minimum distance, and that distance - whatever malloc returned *)
Theorem C33_decode : forall c h0 input, usable c -> cterm c <> TAIL_BITING -> (cterm c = FLUSH -> flushes c) ->
  n_states c * (clen c + cK c - 1) <= zlen h0 -> Forall (fun x => -128 <= x <= 127) input -> conv_get_output_length c 0 = Ok (zlen input) -> 127 * total c < MAX_AE ->
  exists rv out, conv_decode c h0 input = Ok (rv, out) /\ zlen out = clen c /\ Forall is_bit out /\ rv = dist (encoded c out) input /\
    forall x, zlen x = clen c -> Forall is_bit x -> rv <= dist (encoded c x) input.
Proof. exact decode_ok. Qed.
Print Assumptions C33_decode.

(* an error-free code word is decoded with error 0 to an input with the same code word - the original one if the code tells inputs apart *)
Theorem C33_error_free : forall c h0 x, usable c -> cterm c <> TAIL_BITING -> (cterm c = FLUSH -> flushes c) ->
  n_states c * (clen c + cK c - 1) <= zlen h0 -> 127 * total c < MAX_AE -> zlen x = clen c -> Forall is_bit x ->
  exists out, conv_decode c h0 (certain (encoded c x)) = Ok (0, out) /\ zlen out = clen c /\ Forall is_bit out /\ encoded c out = encoded c x /\
    ((forall a b, zlen a = clen c -> zlen b = clen c -> Forall is_bit a -> Forall is_bit b -> encoded c a = encoded c b -> a = b) -> out = x).
Proof.
  intros c h0 x U NT HF Hh HB Hx Bx.
  assert (L : conv_get_output_length c 0 = Ok (zlen (certain (encoded c x)))).
  { unfold certain, zlen. rewrite map_length. apply encoded_len; auto. }
  destruct (decode_ok c h0 (certain (encoded c x)) U NT HF Hh) as (rv & out & E & Lo & Bo & Ed & Mi); auto.
  { unfold certain. apply Forall_forall. intros y Hy. apply in_map_iff in Hy as (b & <- & _). destruct (b =? 1); lia. }
  specialize (Mi x Hx Bx). rewrite dist_certain in Mi. pose proof (dist_nonneg (encoded c out) (certain (encoded c x))). assert (rv = 0) by lia. subst rv.
  exists out. rewrite E. split; [congruence|]. split; auto. split; auto.
  assert (EE : encoded c out = encoded c x).
  { apply dist_zero; [|apply keep_bits, codeword_bits|apply keep_bits, codeword_bits|lia].
    pose proof (encoded_len c out U Lo) as A1. pose proof (encoded_len c x U Hx) as A2. rewrite A1 in A2. injection A2 as A2. unfold zlen in A2. lia. }
  split; auto.
Qed.
Print Assumptions C33_error_free.

(* the low level API: a scan from any accumulated errors leaves, for each state, the minimum over all ways to reach it (up to the limit
   MAX_AE).  Tail biting decoding is two such scans; that its result is the closest tail biting code word is not claimed *)
Theorem C33_scan_partial : forall c d input, usable c -> o_idx d = 0 -> dp_idx d = 0 -> zlen (ae d) = n_states c -> (forall y, 0 <= y < n_states c -> at0 (ae d) y <= MAX_AE) ->
  n_states c * clen c <= zlen (hist d) -> (forall x, zlen x = clen c -> zlen (keep c 0 (walk_out c 0 x)) <= zlen input) ->
  exists d' l, conv_decode_scan c d input (clen c) = Ok (d', l) /\ o_idx d' = clen c /\
    (forall s0 x, 0 <= s0 < n_states c -> zlen x = clen c -> Forall is_bit x ->
       at0 (ae d') (walk_end c s0 x) <= at0 (ae d) s0 + dist (keep c 0 (walk_out c s0 x)) input) /\
    (forall y, 0 <= y < n_states c -> at0 (ae d') y < MAX_AE -> exists s0 x, 0 <= s0 < n_states c /\ zlen x = clen c /\ Forall is_bit x /\
       walk_end c s0 x = y /\ at0 (ae d') y = at0 (ae d) s0 + dist (keep c 0 (walk_out c s0 x)) input).
Proof.
  intros c d input U O0 D0 L0 M0 Hh Hu. pose proof U as (HN & HK & HLn & _).
  assert (UL : used c (clen c * cN c) <= zlen input).
  { specialize (Hu (repeat 0 (Z.to_nat (clen c))) ltac:(unfold zlen; rewrite repeat_length; lia)). rewrite used_total, walk_len in Hu by lia. unfold zlen in Hu at 1. rewrite repeat_length, Z2Nat.id in Hu by lia. exact Hu. }
  assert (DK : forall s x, zlen x = clen c -> dist (keep c 0 (walk_out c s x)) input = sumd c input 0 (walk_out c s x)).
  { intros s x Hx. rewrite <- (dist_keep c input (walk_out c s x) 0) by (rewrite ?walk_len, ?Z.add_0_l, ?Hx; lia). reflexivity. }
  destruct (scan_any c d input U O0 D0 L0 M0 Hh UL) as (d' & E & E1 & HV). exists d', (used c (clen c * cN c)). split; auto. split; auto. split.
  - intros s0 x Hs Hx Bx. rewrite DK by auto. destruct (bits_path c input (at0 (ae d)) U x s0 Hs Bx ltac:(lia)) as (l & P). replace (length x) with (Z.to_nat (clen c)) in P by (unfold zlen in Hx; lia).
    exact (v_low _ _ _ _ _ _ _ HV _ _ _ P).
  - intros y Hy Hlt. pose proof (v_ach _ _ _ _ _ _ _ HV y Hy Hlt) as P. destruct (path_bits c input (at0 (ae d)) U (Z.to_nat (clen c)) _ _ _ ltac:(lia) P) as (s0 & x & Hs & Bx & Lx & We & Ce & _ & _).
    assert (Zx : zlen x = clen c) by (unfold zlen; lia). exists s0, x. rewrite DK by auto. auto.
Qed.
Print Assumptions C33_scan_partial.

(* a rate 1/2 code of constraint length 3 with generators 7 and 5, four data bits, flushed, two bits punctured *)
Definition code75 : code := Code 2 3 4 FLUSH [0; 3; 2; 1; 3; 0; 1; 2] [0; 1; 2; 3; 0; 1; 2; 3] None (Some [3; 7; -1]).
Example C33_nonvacuous : usable code75 /\ flushes code75 /\ conv_get_output_length code75 0 = Ok 10 /\ 127 * total code75 < MAX_AE /\
  encoded code75 [1; 0; 1; 1] = [1; 1; 1; 0; 0; 0; 0; 1; 1; 1] /\
  (* one wrong bit is corrected *)
  (exists rv, conv_decode code75 (repeat 99 24) (certain [1; 1; 0; 0; 0; 0; 0; 1; 1; 1]) = Ok (rv, [1; 0; 1; 1])).
Proof.
  split; [|split; [|split; [reflexivity|split; [reflexivity|split; [reflexivity|eexists; vm_compute; reflexivity]]]]].
  - unfold usable. change (n_states code75) with 4. change (total code75) with 12. cbn [cN cK clen next_output next_state next_term puncture code75].
    split; [lia|]. split; [lia|]. split; [lia|]. split; [reflexivity|]. split; [reflexivity|].
    assert (S4 : forall s, 0 <= s < 4 -> s = 0 \/ s = 1 \/ s = 2 \/ s = 3) by (intros; lia).
    split. { intros s b Hs Hb. assert (b = 0 \/ b = 1) as [-> | ->] by lia; destruct (S4 s Hs) as [->|[->|[->| ->]]]; vm_compute; split; congruence. }
    split. { intros s Hs. destruct (S4 s Hs) as [->|[->|[->| ->]]]; vm_compute; congruence. }
    split; [auto|]. split. { intros s Hs. destruct (S4 s Hs) as [->|[->|[->| ->]]]; vm_compute; split; congruence. }
    exists [3; 7], (-1). split; [reflexivity|]. split; [lia|]. split; [cbn [incr_from]; lia|]. repeat constructor; lia.
  - intros s Hs. change (n_states code75) with 4 in Hs. assert (s = 0 \/ s = 1 \/ s = 2 \/ s = 3) as [->|[->|[->| ->]]] by lia; reflexivity.
Qed.
