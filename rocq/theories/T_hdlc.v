(** C23: ISDN HDLC encoder and decoder (64 kbit/s B channel). *)
From Coq Require Import ZArith List Lia Bool.
From Verif Require Import Base Lib S_crc16 S_hdlc M_crc16 M_hdlc P_crc16 P_hdlc P_hdlc2 P_hdlc3 P_hdlc4.
Import ListNotations.
Open Scope Z_scope.

(** Six consecutive ones never occur between the flags. *)
Fixpoint run_ok (n : nat) (l : list Z) : Prop := match l with [] => True | b :: t => if b =? 1 then (n < 5)%nat /\ run_ok (S n) t else run_ok 0 t end.
Lemma stuff_ok l : forall n, (n <= 4)%nat -> run_ok n (stuff n l).
Proof.
  induction l as [|b t IH]; intros n H; cbn [stuff run_ok]; [exact Logic.I|]. destruct (Z.eqb_spec b 1) as [-> |E].
  - destruct (Nat.eqb_spec n 4); cbn [run_ok Z.eqb Pos.eqb]; (split; [lia|]); apply IH; lia.
  - cbn [run_ok]. destruct (Z.eqb_spec b 1); [contradiction|]. apply IH. lia.
Qed.
Lemma six_bad a : forall n b, (n <= 5)%nat -> run_ok n (a ++ repeat 1 6 ++ b) -> False.
Proof.
  induction a as [|x a IH]; intros n b Hn H.
  - cbn [app repeat run_ok Z.eqb Pos.eqb] in H. lia.
  - cbn [app run_ok] in H. destruct (x =? 1); [destruct H as [H1 H2]; apply (IH (S n) b); [lia|exact H2]|apply (IH 0%nat b); [lia|exact H]].
Qed.
Theorem C23_no_six_ones (x before after : list Z) : body x <> before ++ repeat 1 6 ++ after.
Proof. intros E. apply (six_bad before 0 after); [lia|]. rewrite <- E. apply stuff_ok. lia. Qed.
Print Assumptions C23_no_six_ones.
Example C23_no_six_ones_nonvacuous : body [255; 255] = [1;1;1;1;1;0;1;1;1;1;1;0;1;1;1;1;1;0;1].
Proof. reflexivity. Qed.

(** Encoder: whatever the caller's pattern of calls, the octets written are, up to a rest still to be
    sent, flags and the stuffed frames (each with its frame check sequence) in the order in which they
    were handed over; at most the last one has not been started. *)
Theorem C23_encode_line_partial cfg ops :
  h_adapt56 cfg = false -> h_dchannel cfg = false ->
  Forall (fun o => match o with Put f => bytes f /\ 2 <= zlen f | Call d => 1 <= d end) ops ->
  (forall d, first_call ops = Some d -> 2 <= d) ->
  exists out h cur given, enc_hist cfg (out_init cfg) [] ops = Ok (out, h, cur, given) /\
    exists sent more rest, given = sent ++ more /\ (length more <= 1)%nat /\ (cur = [] -> more = []) /\
      hdlc_line (map with_fcs sent) (line_bits (h_brev cfg) out ++ rest).
Proof.
  intros A DC OK FC. assert (I : einv cfg [] [] [] (out_init cfg) []).
  { unfold out_init. rewrite A, DC. change 8 with (Z.of_nat 8). change 126 with (at0 xfast_flag_value (Z.of_nat 8)) at 2. apply e_ff with (fs := []); auto.
    - unfold is_byte. lia.
    - apply hl_start.
    - constructor. }
  destruct (hist_inv cfg A DC ops [] [] (out_init cfg) [] I OK) as (out & h & cur & acc & E1 & E2 & _).
  { intros _. exact FC. }
  exists out, h, cur, acc. split; [exact E1|]. cbn [app] in E2. destruct (einv_line _ _ _ _ _ E2) as (fs & more & rest & F1 & F2 & F3 & F4).
  exists fs, more, rest. auto.
Qed.
Print Assumptions C23_encode_line_partial.

(** Decoder: for every segmentation of the octets into calls, it reports exactly what is between the
    flags, in order (a prefix of it while octets are left); [l] and [l ++ t] are the line up to two
    different flags, the octets may end within the last one. *)
Theorem C23_decode_line_partial cfg dsize dst xs l t octets pend lens :
  h_adapt56 cfg = false -> zlen dst = dsize -> bytes octets ->
  hdlc_line xs l -> hdlc_line xs (l ++ t) -> Forall (fun x => zlen x <= dsize) xs ->
  line_bits (h_brev cfg) octets ++ pend = l ++ t -> 8 + zlen pend <= zlen t ->
  exists ev h2 rest, dec_hist cfg dsize rcv_init octets dst lens = Ok (ev, h2, rest) /\
    (exists later, flat_map verdict xs = ev ++ later) /\
    (rest = [] -> ev = flat_map verdict xs).
Proof. apply decode_line. Qed.
Print Assumptions C23_decode_line_partial.

(** A bad frame check sequence is reported as a CRC error. *)
Theorem C23_bad_fcs_partial cfg dsize dst f x octets pend lens :
  h_adapt56 cfg = false -> zlen dst = dsize -> bytes octets -> bytes f -> bytes x -> length x = 2%nat -> zlen f + 2 <= dsize ->
  x <> fcs f ->
  line_bits (h_brev cfg) octets ++ pend = flag ++ body (f ++ x) ++ flag ++ flag ++ flag -> zlen pend <= 8 ->
  exists ev h2 rest, dec_hist cfg dsize rcv_init octets dst lens = Ok (ev, h2, rest) /\ (rest = [] -> ev = [(-2, [])]).
Proof.
  intros A HD HB HF HX LX HS NE E LP.
  assert (NX : f ++ x <> []) by (intros K; apply (f_equal (@length Z)) in K; rewrite app_length in K; cbn [length] in K; lia).
  assert (HL : hdlc_line [f ++ x] (flag ++ body (f ++ x) ++ flag)) by (apply (hl_body []); [apply hl_start|apply Forall_app; split; assumption|exact NX]).
  assert (V : verdict (f ++ x) = [(-2, [])]).
  { unfold verdict. rewrite zlen_app. unfold zlen at 2. rewrite LX. pose proof (zlen_nonneg f). destruct (Z.ltb_spec (zlen f + Z.of_nat 2) 2); [lia|].
    rewrite app_length, LX. replace (length f + 2 - 2)%nat with (length f) by lia. rewrite firstn_app, skipn_app, Nat.sub_diag, firstn_all, skipn_all. cbn [firstn skipn app]. rewrite app_nil_r.
    destruct (list_eq_dec Z.eq_dec x (fcs f)); [contradiction|reflexivity]. }
  destruct (decode_line cfg dsize dst [f ++ x] (flag ++ body (f ++ x) ++ flag) (flag ++ flag) octets pend lens A HD HB HL) as (ev & h2 & rest & E1 & _ & E3).
  - rewrite app_assoc. apply hl_flag, hl_flag, HL.
  - constructor; [|constructor]. rewrite zlen_app. unfold zlen at 2. rewrite LX. lia.
  - rewrite E, <- !app_assoc. reflexivity.
  - change (zlen (flag ++ flag)) with 16. lia.
  - exists ev, h2, rest. split; [exact E1|]. intros K. rewrite (E3 K). cbn [flat_map]. now rewrite V.
Qed.
Print Assumptions C23_bad_fcs_partial.
Example C23_bad_fcs_nonvacuous :
  [1; 2] <> fcs [7; 8] /\
  line_bits false [126; 7; 8; 1; 2; 126; 126; 126] ++ [] = flag ++ body ([7; 8] ++ [1; 2]) ++ flag ++ flag ++ flag /\
  (exists h, dec_hist (HCfg false false false) 9 rcv_init [126; 7; 8; 1; 2; 126; 126; 126] (repeat 0 9) [3; 3; 2; 2]%nat = Ok ([(-2, [])], h, [])).
Proof. split; [vm_compute; discriminate|]. split; [reflexivity|]. eexists. vm_compute. reflexivity. Qed.

(** Round trip: once all frames have been taken, a call with room for nine octets (end of the frame)
    and one with room for two (flags), without further frames, make the decoder report all the frames
    handed over, in order and unchanged, however the octets are cut. *)
Theorem C23_roundtrip_partial cfg dsize dst ops d1 d2 lens out0 h0 given :
  h_adapt56 cfg = false -> h_dchannel cfg = false ->
  Forall (fun o => match o with Put f => bytes f /\ 2 <= zlen f /\ zlen f + 2 <= dsize | Call d => 1 <= d end) ops ->
  (forall d, first_call ops = Some d -> 2 <= d) ->
  enc_hist cfg (out_init cfg) [] ops = Ok (out0, h0, [], given) -> 9 <= d1 -> 2 <= d2 -> zlen dst = dsize ->
  exists out h, enc_hist cfg (out_init cfg) [] (ops ++ [Call d1; Call d2]) = Ok (out, h, [], given) /\
    exists ev h2 rest, dec_hist cfg dsize rcv_init out dst lens = Ok (ev, h2, rest) /\
      (exists later, map (fun f => (zlen f, f)) given = ev ++ later) /\
      (rest = [] -> ev = map (fun f => (zlen f, f)) given).
Proof.
  intros A DC OK FC E0 D1 D2 HD. assert (I : einv cfg [] [] [] (out_init cfg) []).
  { unfold out_init. rewrite A, DC. change 8 with (Z.of_nat 8). change 126 with (at0 xfast_flag_value (Z.of_nat 8)) at 2. apply e_ff with (fs := []); auto.
    - unfold is_byte. lia.
    - apply hl_start.
    - constructor. }
  assert (OK' : Forall op_ok ops) by (revert OK; apply Forall_impl; intros [f|d]; cbn [op_ok]; unfold frame_ok; tauto).
  destruct (hist_inv cfg A DC ops [] [] (out_init cfg) [] I OK') as (out & h & cur & acc & E1 & E2 & EB & _); [intros _; exact FC|].
  rewrite E0 in E1. injection E1 as <- <- <- <-. cbn [app] in E2.
  (* the frames handed over satisfy the length condition *)
  assert (GV : Forall (fun f => bytes f /\ 2 <= zlen f /\ zlen f + 2 <= dsize) given).
  { clear - OK E0. revert OK E0. generalize (out_init cfg). generalize (@nil Z) at 1. generalize (@nil Z). revert out0 h0 given.
    induction ops as [|o ops IH]; intros out0 h0 given cx cur h OK E0; cbn [enc_hist] in E0; [injection E0 as _ _ _ <-; constructor|].
    inversion OK as [|? ? O1 O2]; subst. destruct o as [f|d].
    - destruct cur as [|c cur].
      + destruct (enc_hist cfg h f ops) as [[[[o1 h1] c1] a1]| | |] eqn:E; cbn [bind] in E0; try discriminate E0. injection E0 as <- <- <- <-. constructor; [exact O1|]. eapply IH; eassumption.
      + eapply IH; eassumption.
    - destruct (hdlc_encode cfg h cur d) as [[[o1 h1] c1]| | |]; cbn [bind] in E0; try discriminate E0.
      destruct (enc_hist cfg h1 c1 ops) as [[[[o2 h2] c2] a2]| | |] eqn:E; cbn [bind] in E0; try discriminate E0. injection E0 as <- <- <- <-. eapply IH; eassumption. }
  destruct (encode_inv cfg _ given h0 [] d1 A DC E2) as (o1 & h1 & c1 & F1 & F2 & F3 & _ & F5 & F6); [split; [lia|intros _ _; lia]|].
  destruct (F5 eq_refl ltac:(left; lia)) as [-> FF]. apply einv_rebase in F2.
  rewrite hist_app, E0. cbn [bind enc_hist]. rewrite F1. cbn [bind].
  remember [] as src0 eqn:ES in F2 at 2. destruct F2 as [fs db b1 crc cb sr rcv clo src Hdb H8 Hcb HL HA HF| | | |]; cbn [e_st] in FF; try discriminate FF.
  cbn [e_db] in F6. set (ff := at0 xfast_flag_value (Z.of_nat db)) in *.
  assert (N8 : (db < 8)%nat) by lia.
  subst src.
  cbn [pend] in HA. rewrite app_nil_r in HA. subst fs.
  unfold hdlc_encode. cbn [e_st]. change (zlen [] =? 1) with false. cbn match.
  set (n := Z.to_nat d2). assert (En : d2 = Z.of_nat n) by (unfold n; lia).
  destruct (idle_loop cfg d2 b1 (Z.of_nat db) crc cb sr ff rcv A F6 n (Z.to_nat (30 * d2 + 30)) clo []) as [clo' L]; [lia|change (zlen []) with 0; lia|].
  rewrite <- En in L. rewrite L. cbn [bind app]. eexists _, _. split; [rewrite !app_nil_r; reflexivity|].
  cbn [line_bits flat_map app] in HL. rewrite <- line_bits_app in HL.
  assert (Hff : is_byte ff) by (unfold ff; clear - Hdb; do 9 (destruct db as [|db]; [vm_compute; split; [discriminate|reflexivity]|]); lia).
  destruct (emitted_bits cfg ff Hff) as [M1 M2].
  assert (TB : line_bits (h_brev cfg) (repeat (emitted cfg ff) n) ++ rb ff db = rb ff db ++ flags n).
  { clear - M1 N8. assert (FL : rb ff 8 ++ rb ff db = rb ff db ++ flag) by (unfold ff; clear - N8; do 8 (destruct db as [|db]; [reflexivity|]); lia).
    clearbody ff. induction n as [|n IH]; [now rewrite app_nil_r|].
    change (repeat (emitted cfg ff) (S n)) with ([emitted cfg ff] ++ repeat (emitted cfg ff) n). rewrite line_bits_app, M1, <- app_assoc, IH. rewrite <- rb_8, app_assoc, FL, <- app_assoc. reflexivity. }
  destruct (decode_line cfg dsize dst (map with_fcs given) (line_bits (h_brev cfg) (out0 ++ o1) ++ rb ff db) (flags n)
    (out0 ++ o1 ++ repeat (emitted cfg ff) n) (rb ff db) lens A HD) as (ev & h2 & rest & G1 & G2 & G3).
  - apply Forall_app. split; [assumption|]. apply Forall_app. split; [assumption|]. clear - M2. induction n; constructor; auto.
  - exact HL.
  - apply line_flags. exact HL.
  - clear - GV. induction GV as [|f l [? [? ?]] _ IH]; constructor; auto. unfold with_fcs. rewrite zlen_app. change (zlen (fcs f)) with 2. lia.
  - rewrite app_assoc, (line_bits_app _ (out0 ++ o1)). rewrite <- app_assoc, TB. now rewrite app_assoc.
  - rewrite flags_len. unfold zlen. rewrite rb_length. lia.
  - assert (VM : flat_map verdict (map with_fcs given) = map (fun f => (zlen f, f)) given).
    { clear - GV. induction GV as [|f l [? [? ?]] _ IH]; [reflexivity|]. cbn [map flat_map]. rewrite IH, verdict_good; [reflexivity|assumption|]. intros ->. change (zlen []) with 0 in *. lia. }
    rewrite VM in *. exists ev, h2, rest. auto.
Qed.
Print Assumptions C23_roundtrip_partial.
Example C23_roundtrip_nonvacuous :
  let cfg := HCfg false false false in
  let ops := [Put [1; 255; 255; 3]; Call 6; Call 20; Put [7; 8]; Call 4; Call 5] in
  exists out0 h0 out h h2,
    enc_hist cfg (out_init cfg) [] ops = Ok (out0, h0, [], [[1; 255; 255; 3]; [7; 8]]) /\
    enc_hist cfg (out_init cfg) [] (ops ++ [Call 9; Call 2]) = Ok (out, h, [], [[1; 255; 255; 3]; [7; 8]]) /\
    dec_hist cfg 10 rcv_init out (repeat 0 10) [3; 5; 1; 1; 9; 30; 30; 30]%nat = Ok ([(4, [1; 255; 255; 3]); (2, [7; 8])], h2, []).
Proof. cbv zeta. do 5 eexists. split; [vm_compute; reflexivity|]. split; vm_compute; reflexivity. Qed.

(** Where the full claim fails. *)
(** A frame longer than the buffer: an error, and then its tail is reported as a good frame. *)
Theorem C23_long_refuted : exists f out h h2,
  enc_hist (HCfg false false false) (out_init (HCfg false false false)) [] [Put f; Call 40; Call 4] = Ok (out, h, [], [f]) /\ zlen f = 7 /\
  dec_hist (HCfg false false false) 5 rcv_init out (repeat 0 5) [40; 40; 40]%nat = Ok ([(-3, []); (1, [7])], h2, []).
Proof. exists [1; 2; 3; 4; 5; 6; 7]. do 3 eexists. split; [vm_compute; reflexivity|]. split; [reflexivity|]. vm_compute; reflexivity. Qed.
Print Assumptions C23_long_refuted.
(** A fresh encoder without a frame writes two octets into a buffer of one. *)
Theorem C23_first_call_refuted : hdlc_encode (HCfg false false false) (out_init (HCfg false false false)) [] 1 = UB.
Proof. reflexivity. Qed.
Print Assumptions C23_first_call_refuted.
(** A one octet frame handed over right after the closing flag of the previous frame: the encoder
    never returns. *)
Theorem C23_one_octet_refuted : exists out h,
  enc_hist (HCfg false false false) (out_init (HCfg false false false)) [] [Put [1; 2]; Call 6] = Ok (out, h, [], [[1; 2]]) /\
  e_st h = SEND_FAST_FLAG /\
  forall passes, let '(E bs b1 db st crc cb sr ff rcv clo) := h in
    enc_loop passes (HCfg false false false) 4 (E bs b1 db SENDFLAG_ONE crc cb sr ff rcv clo) [9] 4 [] = UB.
Proof.
  vm_compute enc_hist. eexists _, _. split; [reflexivity|]. split; [reflexivity|]. cbn match. induction passes as [|n IH]; [reflexivity|exact IH].
Qed.
Print Assumptions C23_one_octet_refuted.
(** After seven ones (an abort) the decoder does not wait for a flag: an aborted frame is reported as
    a good one, with an octet that never was on the line in this form. *)
Theorem C23_abort_refuted : exists rest h2,
  line_bits false [126; 127; 4; 77; 42; 249; 249; 249] = flag ++ repeat 1 7 ++ rest /\
  dec_hist (HCfg false false false) 20 rcv_init [126; 127; 4; 77; 42; 249; 249; 249] (repeat 0 20) [40; 40; 40]%nat
    = Ok ([(2, [31; 65])], h2, []).
Proof. eexists _, _. split; vm_compute; reflexivity. Qed.
Print Assumptions C23_abort_refuted.
