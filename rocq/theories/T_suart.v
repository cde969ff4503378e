(** C21: software UART. *)
From Coq Require Import ZArith List Lia Bool.
From Verif Require Import Base Lib S_suart M_suart P_suart P_suart2.
Import ListNotations.
Open Scope Z_scope.

(** A transmitter just enabled, pulled in any segmentation under any flow control, with a call-back
    that offers at most as many characters as it is asked for: what it puts on the line, completed
    by less than one frame still to be sent, is exactly the frames of all the characters taken from
    the call-back, in order, with idle bits around them.  Nothing remains to be sent exactly when
    the transmitter is idle. *)
Theorem C21_tx_line : forall c l, conf_ok c -> Forall pull_ok l ->
  exists bits taken s rest, pulls c (set_tx tx_init true) l = Ok (bits, taken, s) /\
    on_line c taken (bits ++ rest) /\ zlen rest < frame_len c /\ (rest = [] <-> tx_flow s = IDLE).
Proof.
  intros c l C H. destruct (pulls_ok c C l (set_tx tx_init true) [] [] H Logic.I eq_refl) as (bits & taken & s & E & I & R & L).
  { apply line_nil. }
  exists bits, taken, s, (pend c s). split; [exact E|]. split; [exact L|]. split; [apply pend_len; assumption|]. now apply pend_idle.
Qed.
Print Assumptions C21_tx_line.

(** Single pull, from any state reached so: every character taken is used up (none is left in the
    buffer that is freed), the number of bits is the one asked for unless the peer holds us off;
    then only the character being sent is completed and none is taken. *)
Theorem C21_tx_pull : forall c l fc st n cb, conf_ok c -> Forall pull_ok l -> 0 < n -> (forall k, 0 <= k -> zlen (cb k) <= k) ->
  exists bits taken s, pulls c (set_tx tx_init true) l = Ok (bits, taken, s) /\
  exists out s' tk, tx_ubits c fc st s n cb = Ok (zlen out, out, s', tk, []) /\
    (held_off fc st = false -> zlen out = n) /\
    (held_off fc st = true -> tk = [] /\ zlen out <= n /\ zlen out < frame_len c /\ (zlen out < n -> on_line c taken (bits ++ out))).
Proof.
  intros c l fc st n cb C H Hn Hcb.
  destruct (pulls_ok c C l (set_tx tx_init true) [] [] H Logic.I eq_refl) as (bits & taken & s & E & I & R & L).
  { apply line_nil. }
  exists bits, taken, s. split; [exact E|]. cbn [app] in L.
  destruct (tx_ubits_ok c fc st n cb s taken bits C ltac:(lia) Hcb I R L) as (r & out & s' & tk & E1 & I1 & R1 & L1 & Hr & Hl & Ht).
  destruct (Z.eqb_spec n 0); [lia|]. subst r. exists out, s', tk. split; [exact E1|]. split; intros HH; rewrite HH in *; [exact Hl|].
  pose proof (pend_len c s C I). rewrite (Ht eq_refl) in *. rewrite app_nil_r in L1. split; [reflexivity|]. split; [lia|]. split; [lia|].
  intros Hlt. unfold tx_ubits in E1. destruct (Z.eqb_spec n 0); [lia|]. rewrite R, HH in E1. cbn [negb] in E1.
  destruct (tx_pending_ok c C (Z.to_nat n) s taken bits I L) as (l2 & s2 & E2 & I2 & R2 & L2 & P2 & Z2). rewrite E2 in E1. cbn [bind] in E1.
  injection E1 as _ <- <-. assert (Ep : zlen (pend c s) = zlen l2) by lia. rewrite P2, zlen_app in Ep.
  assert (pend c s2 = []) as K by (destruct (pend c s2) as [|x y]; [reflexivity|]; rewrite zlen_cons in Ep; pose proof (zlen_nonneg y); lia).
  rewrite K, app_nil_r in L2. exact L2.
Qed.
Print Assumptions C21_tx_pull.

(** A receiver just enabled, fed the line in any segmentation, its buffer flushed (by the timer or
    by the application) at any points: it hands over exactly the characters, in order, in messages
    of 1 to rx_buf_size characters, none with an error flag. *)
Theorem C21_rx_line : forall c bufsz cs bits ops, conf_ok c -> 1 <= bufsz <= 65535 ->
  on_line c cs bits -> flat_map fed ops = bits ->
  exists s, rx_ops c bufsz (set_rx bufsz rx_init true) (ops ++ [Flush]) = Ok s /\
    flat_map fst (rx_out s) = map (fun ch => ch mod 2 ^ ndata c) cs /\
    Forall (fun e => snd e = 0 /\ 1 <= zlen (fst e) <= bufsz) (rx_out s).
Proof.
  intros c bufsz cs bits ops C HB L HF.
  assert (G : good c bufsz (set_rx bufsz rx_init true)).
  { split; [reflexivity|split; [exact Logic.I|split; [|constructor]]]. exists (u16 bufsz), []. split; [reflexivity|]. rewrite u16_small by (unfold is_u16; lia).
    change (zlen (@nil Z)) with 0. lia. }
  destruct (rx_ops_ok c bufsz C HB ops _ G) as (s1 & E1 & G1 & C1 & D1 & Z1).
  destruct (line_run c cs bits C L (core_of (set_rx bufsz rx_init true)) eq_refl eq_refl) as (F & Z & S & R).
  rewrite HF in *. destruct (flush_spec c bufsz s1 HB G1) as (G2 & C2 & B2 & O2).
  exists (flush_rx bufsz s1). split; [rewrite rx_ops_app, E1; reflexivity|].
  split.
  - rewrite S in D1. unfold delivered in D1. cbn [flat_map rx_out set_rx rx_init buf app] in D1.
    rewrite O2, flat_map_app. transitivity (flat_map fst (rx_out s1) ++ buf s1).
    { f_equal. destruct (buf s1); cbn [flat_map fst]; [reflexivity|]. now rewrite app_nil_r. }
    exact D1.
  - destruct G2 as (_ & _ & _ & HO2).
    assert (FZ : Forall (fun e => snd e = 0) (rx_out (flush_rx bufsz s1))).
    { rewrite O2. apply Forall_app. split; [apply Z1; auto; constructor|]. assert (rx_flags s1 = 0) by (change (rx_flags s1) with (r_fl (core_of s1)); now rewrite C1).
      destruct (buf s1); constructor; auto. }
    apply Forall_forall. intros e He. rewrite Forall_forall in HO2, FZ. split; auto.
Qed.
Print Assumptions C21_rx_line.

(** Transmitter to receiver, each with its own segmentation: once the transmitter is idle again the
    receiver has handed over the low data bits of every character taken from tx_cb, in order,
    without error flags. *)
Theorem C21_roundtrip : forall c bufsz l bits taken s ops, conf_ok c -> 1 <= bufsz <= 65535 -> Forall pull_ok l ->
  pulls c (set_tx tx_init true) l = Ok (bits, taken, s) -> tx_flow s = IDLE -> flat_map fed ops = bits ->
  exists r, rx_ops c bufsz (set_rx bufsz rx_init true) (ops ++ [Flush]) = Ok r /\
    flat_map fst (rx_out r) = map (fun ch => ch mod 2 ^ ndata c) taken /\ Forall (fun e => snd e = 0) (rx_out r).
Proof.
  intros c bufsz l bits taken s ops C HB H E F HF.
  destruct (C21_tx_line c l C H) as (b & t & s' & rest & E' & L & _ & I). rewrite E in E'. injection E' as <- <- <-.
  rewrite (proj2 I F), app_nil_r in L. destruct (C21_rx_line c bufsz taken bits ops C HB L HF) as (r & E1 & D & O).
  exists r. split; [exact E1|]. split; [exact D|]. eapply Forall_impl; [|exact O]. cbn beta. tauto.
Qed.
Print Assumptions C21_roundtrip.

(** Any character on the line, also a damaged one, while receiving: it is added to what is
    buffered, and the hand-over carries the parity error flag exactly when the parity bit is wrong
    and the framing error flag exactly when a stop bit is not 1. *)
Theorem C21_rx_errors : forall c bufsz ops s ds pb ss, conf_ok c -> 1 <= bufsz <= 65535 ->
  rx_ops c bufsz (set_rx bufsz rx_init true) ops = Ok s -> rx_flow s = IDLE ->
  Forall is_bit ds -> zlen ds = ndata c -> Forall is_bit pb -> zlen pb = (match par c with PNone => 0 | _ => 1 end) -> zlen ss = nstop c ->
  exists s', rx_ops c bufsz s [Feed ([0] ++ ds ++ pb ++ ss)] = Ok s' /\
    rx_out (flush_rx bufsz s') = rx_out s ++ [(buf s ++ [data_val ds], err_flags c ds pb ss)] /\
    (err_flags c ds pb ss <> 0 -> rx_out s' = rx_out (flush_rx bufsz s')).
Proof.
  intros c bufsz ops s ds pb ss C HB E F Hd Ld Hp Lp Ls.
  assert (G : good c bufsz s).
  { assert (G0 : good c bufsz (set_rx bufsz rx_init true)).
    { split; [reflexivity|split; [exact Logic.I|split; [|constructor]]]. exists (u16 bufsz), []. split; [reflexivity|]. rewrite u16_small by (unfold is_u16; lia).
      change (zlen (@nil Z)) with 0. lia. }
    destruct (rx_ops_ok c bufsz C HB ops _ G0) as (s1 & E1 & G1 & _). rewrite E in E1. injection E1 as <-. exact G1. }
  destruct (frame_rx c bufsz s ds pb ss C HB G F Hd Ld Hp Lp Ls) as (s' & E1 & G1 & F1 & O1 & O2).
  exists s'. split; [|split; assumption]. cbn [rx_ops]. unfold rx_ubits. destruct G as (R & _). rewrite R. cbn [negb]. rewrite E1. reflexivity.
Qed.
Print Assumptions C21_rx_errors.

(** Disabling the receiver at any moment hands over what is buffered; while it is disabled the bits on the line are refused
    and change nothing; enabled again, it starts afresh: the characters on the line from then on are handed over, whatever
    part of a character had been received before. *)
Theorem C21_disable : forall c bufsz ops s, conf_ok c -> 1 <= bufsz <= 65535 ->
  rx_ops c bufsz (set_rx bufsz rx_init true) ops = Ok s ->
  let off := set_rx bufsz s false in
  rx_out off = rx_out s ++ (match buf s with [] => [] | d => [(d, rx_flags s)] end) /\
  (forall bits, rx_ubits c bufsz off bits = Ok (- EAGAIN, off)) /\ set_rx bufsz off false = off /\
  forall cs bits ops2, on_line c cs bits -> flat_map fed ops2 = bits ->
    exists r, rx_ops c bufsz (set_rx bufsz off true) (ops2 ++ [Flush]) = Ok r /\
      flat_map fst (rx_out r) = flat_map fst (rx_out off) ++ map (fun ch => ch mod 2 ^ ndata c) cs.
Proof.
  intros c bufsz ops s C HB E.
  assert (G0 : good c bufsz (set_rx bufsz rx_init true)).
  { split; [reflexivity|split; [exact Logic.I|split; [|constructor]]]. exists (u16 bufsz), []. split; [reflexivity|]. rewrite u16_small by (unfold is_u16; lia).
    change (zlen (@nil Z)) with 0. lia. }
  destruct (rx_ops_ok c bufsz C HB ops _ G0) as (s1 & E1 & G & _). rewrite E in E1. injection E1 as <-. clear G0 E ops.
  destruct (flush_spec c bufsz s HB G) as (G2 & C2 & B2 & O2). cbv zeta.
  assert (RS : rx_run s = true) by apply G.
  assert (EO : set_rx bufsz s false = let f := flush_rx bufsz s in Rx false (rx_cnt f) (rx_shift f) (rx_msg f) (rx_par f) (rx_flags f) IDLE (rx_out f)).
  { unfold set_rx. rewrite RS. reflexivity. }
  rewrite EO. cbv zeta. split; [exact O2|]. split; [intros; reflexivity|]. split; [reflexivity|].
  intros cs bits ops2 L HF. destruct G2 as (R2 & CI2 & (cap & d & M2 & Hc2 & Hd2) & HO2).
  set (on := set_rx bufsz _ true).
  assert (EON : on = Rx true (rx_cnt (flush_rx bufsz s)) (rx_shift (flush_rx bufsz s)) (Some (cap, d)) (rx_par (flush_rx bufsz s)) (rx_flags (flush_rx bufsz s)) IDLE (rx_out (flush_rx bufsz s))).
  { unfold on, set_rx. cbn [negb andb rx_run rx_cnt rx_shift rx_msg rx_par rx_flags rx_out]. rewrite M2. reflexivity. }
  assert (GON : good c bufsz on).
  { rewrite EON. split; [reflexivity|]. split; [exact Logic.I|]. split; [exists cap, d; auto|exact HO2]. }
  destruct (rx_ops_ok c bufsz C HB ops2 on GON) as (r & E1 & G1 & _ & D1 & _).
  destruct (flush_spec c bufsz r HB G1) as (_ & _ & _ & O3).
  exists (flush_rx bufsz r). split; [rewrite rx_ops_app, E1; reflexivity|].
  assert (FI : forall l x y, r_cnt x = r_cnt y -> r_sh x = r_sh y -> r_par x = r_par y -> r_flow x = r_flow y -> snd (prun c x l) = snd (prun c y l)).
  { clear. induction l as [|b l IH]; intros x y A1 A2 A3 A4; cbn [prun]; auto.
    destruct (pbit c x b) as [x' o] eqn:Ex. destruct (pbit c y b) as [y' o'] eqn:Ey.
    assert (o = o' /\ r_cnt x' = r_cnt y' /\ r_sh x' = r_sh y' /\ r_par x' = r_par y' /\ r_flow x' = r_flow y') as (-> & B1 & B2 & B3 & B4).
    { unfold pbit in Ex, Ey. rewrite A4 in Ex. destruct (r_flow y) eqn:FY.
      - destruct (b =? 0); injection Ex as <- <-; injection Ey as <- <-; repeat split; auto; congruence.
      - rewrite A1, A2, A3 in Ex. destruct (ndata c <=? r_cnt y + 1); injection Ex as <- <-; injection Ey as <- <-; repeat split; auto; congruence.
      - rewrite A1, A2, A3 in Ex. injection Ex as <- <-; injection Ey as <- <-; repeat split; auto; congruence.
      - rewrite A1, A2, A3 in Ex. destruct (ndata c + nstop c <=? r_cnt y + 1); injection Ex as <- <-; injection Ey as <- <-; repeat split; auto; congruence. }
    specialize (IH x' y' B1 B2 B3 B4). destruct (prun c x' l), (prun c y' l). cbn [snd] in *. now rewrite IH. }
  set (z := Cr (rx_cnt on) (rx_shift on) (rx_par on) 0 IDLE).
  destruct (line_run c cs bits C L z eq_refl eq_refl) as (_ & _ & S & _).
  rewrite HF, (FI bits (core_of on) z) in D1 by (try reflexivity; rewrite EON; reflexivity). rewrite S in D1.
  rewrite O3, flat_map_app. transitivity (flat_map fst (rx_out r) ++ buf r).
  { f_equal. destruct (buf r); cbn [flat_map fst]; [reflexivity|]. now rewrite app_nil_r. }
  unfold delivered in D1. etransitivity; [exact D1|]. cbn [rx_out]. rewrite EON. unfold buf. cbn [rx_out rx_msg].
  assert (d = []) as ->. { unfold buf in B2. rewrite M2 in B2. auto. } now rewrite app_nil_r.
Qed.
Print Assumptions C21_disable.

(** The flag of a hand-over is not always that of its characters: when the buffer is flushed by the timer between the parity
    bit and the stop bit of a damaged character, the good characters before it are handed over with its error flag. *)
Theorem C21_flag_refuted : exists c s, conf_ok c /\
  rx_ops c 64 (set_rx 64 rx_init true) [Feed (frame c 65 ++ [0;0;1;0;0;0;0;1;0;1]); Flush; Feed [1]; Flush] = Ok s /\
  frame c 65 = [0;1;0;0;0;0;0;1;0;0;1] /\ rx_out s = [([65], 2); ([66], 2)].
Proof.
  exists (Conf 8 1 PEven). eexists. split; [cbv; repeat split; discriminate|]. split; [vm_compute; reflexivity|]. split; vm_compute; reflexivity.
Qed.
Print Assumptions C21_flag_refuted.

(** The claims need data + stop bits within an octet: 8 data and 248 stop bits are accepted, but the
    transmitter then never gets past the stop bits: the second of two characters it takes is lost. *)
Theorem C21_stop_bits_refuted : exists c s bits s' taken lost, fst (configure 64 false c 64 (set_rx 64 rx_init true)) = 0 /\ s = set_tx tx_init true /\
  tx_ubits c FC_NONE 0 s 600 (fun k => firstn (Z.to_nat k) [65; 66]) = Ok (600, bits, s', taken, lost) /\ taken = [65; 66] /\ lost = [66].
Proof.
  exists (Conf 8 248 PNone). eexists _, _, _, _, _. split; [reflexivity|]. split; [reflexivity|]. split; [vm_compute; reflexivity|]. split; reflexivity.
Qed.
Print Assumptions C21_stop_bits_refuted.
(** ... and the receiver never hands over a character of such a line. *)
Theorem C21_stop_bits_rx_refuted : exists c cs bits s, fst (configure 64 false c 64 (set_rx 64 rx_init true)) = 0 /\
  on_line c cs bits /\ cs <> [] /\ rx_ops c 64 (set_rx 64 rx_init true) [Feed bits; Flush] = Ok s /\ rx_out s = [].
Proof.
  exists (Conf 8 248 PNone), [65], (frame (Conf 8 248 PNone) 65). eexists. split; [reflexivity|].
  split; [exact (line_char _ [] [] 65 (line_nil _))|]. split; [discriminate|]. split; vm_compute; reflexivity.
Qed.
Print Assumptions C21_stop_bits_rx_refuted.
(** Enlarging rx_buf_size while enabled keeps the small msgb: the second character panics. *)
Theorem C21_enlarge_refuted : exists c s, conf_ok c /\ configure 1 false c 2 (set_rx 1 rx_init true) = (0, s) /\
  rx_ops c 2 s [Feed (frame c 65 ++ frame c 66)] = Abort.
Proof. exists (Conf 8 1 PNone). eexists. split; [cbv; repeat split; discriminate|]. split; [reflexivity|]. vm_compute. reflexivity. Qed.
Print Assumptions C21_enlarge_refuted.
(** An rx_buf_size of 65536 makes a msgb of no size: the first character panics. *)
Theorem C21_big_buffer_refuted : exists c s, conf_ok c /\ s = set_rx 65536 rx_init true /\ rx_ops c 65536 s [Feed (frame c 65)] = Abort.
Proof. exists (Conf 8 1 PNone). eexists. split; [cbv; repeat split; discriminate|]. split; [reflexivity|]. vm_compute. reflexivity. Qed.
Print Assumptions C21_big_buffer_refuted.
(** When the receive timer expires between the parity bit of a damaged character and its end, the
    good characters received before it are handed over with its error flag. *)
Theorem C21_flush_mid_refuted : exists c s, conf_ok c /\
  rx_ops c 64 (set_rx 64 rx_init true) [Feed (frame c 65 ++ [0;0;1;0;0;0;0;1;0;1]); Flush] = Ok s /\ rx_out s = [([65], 2)].
Proof. exists (Conf 8 1 PEven). eexists. split; [cbv; repeat split; discriminate|]. split; vm_compute; reflexivity. Qed.
Print Assumptions C21_flush_mid_refuted.

(** 7E1, "Hi!" offered two at a time, pulled 7 + 23 bits, then 10 with the peer holding off. *)
Example C21_nonvacuous :
  let c := Conf 7 1 PEven in
  let l := [Pull FC_NONE 0 7 (fun k => firstn (Z.to_nat k) [72]); Pull FC_RTS_CTS 32 23 (fun k => firstn (Z.to_nat k) [105; 33]);
            Pull FC_RTS_CTS 0 10 (fun _ => [])] in
  conf_ok c /\ Forall pull_ok l /\
  pulls c (set_tx tx_init true) l = Ok ([0;0;0;0;1;0;0;1;0;1; 0;1;0;0;1;0;1;1;0;1; 0;1;0;0;0;0;1;0;0;1], [72; 105; 33], Tx true 8 0 0 IDLE) /\
  rx_ops c 2 (set_rx 2 rx_init true)
    [Feed [0;0;0;0;1;0;0;1;0;1; 0;1;0]; Flush; Feed [0;1;0;1;1;0;1; 0;1;0;0;0;0;1;0;0;1]; Flush]
  = Ok (Rx true 8 33 (Some (2, [])) 0 0 IDLE [([72], 0); ([105; 33], 0)]).
Proof.
  cbn zeta. split; [cbv; repeat split; discriminate|]. split.
  - repeat constructor; cbn [p_n p_cb]; try lia; intros k Hk; try exact Hk; unfold zlen; rewrite firstn_length; lia.
  - split; vm_compute; reflexivity.
Qed.
