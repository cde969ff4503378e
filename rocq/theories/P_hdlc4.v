From Coq Require Import ZArith List Lia Bool.
From Verif Require Import Base Lib S_crc16 S_hdlc M_bits M_crc16 M_hdlc P_bits P_crc P_crc16 P_hdlc P_hdlc2 P_hdlc3.
Import ListNotations.
Open Scope Z_scope.

Lemma load_rho cfg h h1 src1 : enc_load cfg h [] = (h1, src1) -> h_adapt56 cfg = false -> src1 = [] /\ rho h1 <= rho h.
Proof.
  intros H A. destruct h as [bs b1 db st crc cb sr ff rcv clo]. unfold enc_load in H. rewrite A in H. destruct (Z.eqb_spec bs 0) as [-> |].
  - destruct st; try (injection H as <- <-; split; [reflexivity|lia]). destruct rcv; injection H as <- <-; (split; [reflexivity|]); unfold rho; cbn [e_st e_bs e_b1]; pose proof (five_range b1); lia.
  - injection H as <- <-. split; [reflexivity|lia].
Qed.
Definition soon (h : enc) (src : list Z) (ds : Z) : Prop := src = [] /\ (e_st h = SEND_FAST_FLAG \/ rho h < 8 * ds - e_db h).
Lemma iter_ok cfg cap pre acc h src ds out : h_adapt56 cfg = false -> h_dchannel cfg = false ->
  einv cfg pre out acc h src -> room h src ds -> zlen out + ds <= cap -> bytes out ->
  exists h1 src1 h2 ds2 out2 h3 ds3 out3,
    enc_load cfg h src = (h1, src1) /\ enc_switch cfg cap h1 src1 ds out = Ok (h2, ds2, out2) /\ enc_tail cfg cap h2 ds2 out2 = Ok (h3, ds3, out3) /\
    einv cfg pre out3 acc h3 src1 /\ zlen out3 + ds3 <= cap /\ bytes out3 /\ 0 <= ds3 /\
    3 * (8 * ds3 - e_db h3) + wt h3 < 3 * (8 * ds - e_db h) + wt h /\ (soon h src ds -> soon h3 src1 ds3) /\ (0 < ds3 -> e_db h3 <> 8).
Proof.
  intros A DC I RM CAP OB.
  assert (D : {e_st h = SEND_FAST_FLAG} + {e_st h <> SEND_FAST_FLAG}) by (destruct (e_st h); (left; reflexivity) || (right; discriminate)).
  destruct D as [D|D].
  - destruct (step_ff cfg cap pre acc h src ds out A I D RM CAP OB) as (h1 & src1 & h2 & ds2 & out2 & h3 & ds3 & out3 & E1 & E2 & E3 & E4 & E5 & E6 & E7 & E8 & E9 & E10).
    exists h1, src1, h2, ds2, out2, h3, ds3, out3. repeat split; auto. { apply E9, H. } { left. apply E9, H. }
  - destruct (load_inv cfg pre out acc h src A I D) as (h1 & src1 & L1 & L2 & L3 & L4 & L5). destruct RM as [DS _].
    assert (ST : stepped cfg cap pre acc h1 src1 ds out).
    { pose proof L2 as L2'. destruct L2' as [|fs bs b1 db crc cb sr ff clo src1| | |]; cbn [e_st] in L4; try now elim L4.
      - now apply step_data.
      - now apply step_crc1.
      - now apply step_crc2.
      - now apply step_clos. }
    destruct ST as (h2 & ds2 & out2 & h3 & ds3 & out3 & S1 & S2 & S3 & S4 & S5 & S6 & S7 & S8 & S9).
    exists h1, src1, h2, ds2, out2, h3, ds3, out3. repeat (split; [assumption|]). split.
    + rewrite L5 in *. assert (W0 : wt h = 0) by (unfold wt; destruct (e_st h); try reflexivity; now elim D).
      assert (W3 : wt h3 <= 2) by (unfold wt; destruct (e_st h3); try lia; destruct (e_clo h3); lia). lia.
    + split; [|intros _; exact S9]. intros [-> K]. destruct (load_rho cfg h h1 src1 L1 A) as [-> R]. split; [reflexivity|].
      destruct S8 as [S8|[S8 S8']]; [left; exact S8|right]. destruct K as [K|K]; [now elim D|]. rewrite L5 in *. lia.
Qed.
Lemma einv_db cfg pre out acc h src : einv cfg pre out acc h src -> 0 <= e_db h <= 8.
Proof. intros I. destruct I; cbn [e_db]; lia. Qed.
Lemma einv_rho cfg pre out acc h src : einv cfg pre out acc h src -> rho h <= 57.
Proof. intros I. destruct I; unfold rho; cbn [e_st e_bs e_b1]; try (pose proof (five_range b1)); lia. Qed.
Lemma wt_range h : 0 <= wt h <= 2.
Proof. unfold wt. destruct (e_st h); try lia. destruct (e_clo h); lia. Qed.
Lemma loop_inv cfg cap pre acc : h_adapt56 cfg = false -> h_dchannel cfg = false ->
  forall fuel h src ds out, einv cfg pre out acc h src -> (0 < ds -> room h src ds) -> 0 <= ds -> zlen out + ds <= cap -> bytes out ->
  3 * (8 * ds - e_db h) + wt h + 30 <= Z.of_nat fuel ->
  exists h' src' out', enc_loop fuel cfg cap h src ds out = Ok (h', src', out') /\ einv cfg pre out' acc h' src' /\ bytes out' /\ zlen out' <= cap /\
    (soon h src ds -> src' = [] /\ e_st h' = SEND_FAST_FLAG) /\ (0 < ds -> e_db h' <> 8).
Proof.
  intros A DC. induction fuel as [|n IH]; intros h src ds out I RM D0 CAP OB FU.
  { pose proof (einv_db _ _ _ _ _ _ I). pose proof (wt_range h). lia. }
  cbn [enc_loop]. destruct (Z.leb_spec ds 0) as [L|L].
  - exists h, src, out. split; [reflexivity|]. repeat split; auto; try lia; [apply H|]. destruct H as [_ [H|H]]; [exact H|].
    exfalso. pose proof (einv_db _ _ _ _ _ _ I). assert (0 <= rho h) by (destruct I; unfold rho; cbn [e_st e_bs e_b1]; try (pose proof (five_range b1)); lia). lia.
  - destruct (iter_ok cfg cap pre acc h src ds out A DC I (RM L) CAP OB) as (h1 & src1 & h2 & ds2 & out2 & h3 & ds3 & out3 & E1 & E2 & E3 & E4 & E5 & E6 & E7 & E8 & E9 & E10).
    rewrite E1, E2. cbn [bind]. rewrite E3. cbn [bind].
    destruct (IH h3 src1 ds3 out3 E4) as (h' & src' & out' & F1 & F2 & F3 & F4 & F5 & F6); auto; try lia.
    { intros L3. split; [lia|]. intros K. now elim (E10 L3). }
    exists h', src', out'. split; [exact F1|]. repeat (split; [assumption|]). split; [intros K; apply F5, E9, K|].
    intros _. destruct (Z.eq_dec ds3 0) as [Z0|Z0]; [|apply F6; lia]. subst ds3. destruct n as [|n]; [pose proof (einv_db _ _ _ _ _ _ I); pose proof (wt_range h); lia|].
    cbn [enc_loop] in F1. change (0 <=? 0) with true in F1. cbn match in F1. injection F1 as <- <- <-.
    (* the last octet was complete *)
    unfold enc_tail in E3. destruct h2 as [bs b1 db st crc cb sr ff rcv clo]. rewrite A in E3. cbn [andb] in E3. destruct (Z.eqb_spec db 8).
    + destruct (emit cfg cap out2 cb); cbn [bind] in E3; try discriminate E3. injection E3 as <- _ _. cbn [e_db]. lia.
    + injection E3 as <- _ _. cbn [e_db]. assumption.
Qed.
Lemma encode_inv cfg pre acc h src d : h_adapt56 cfg = false -> h_dchannel cfg = false -> einv cfg pre [] acc h src -> room h src d ->
  exists out h' src', hdlc_encode cfg h src d = Ok (out, h', src') /\ einv cfg pre out acc h' src' /\ bytes out /\ zlen out <= d /\
    (src = [] -> 9 <= d \/ e_st h = SEND_FAST_FLAG -> src' = [] /\ e_st h' = SEND_FAST_FLAG) /\ e_db h' <> 8.
Proof.
  intros A DC I RM. unfold hdlc_encode.
  assert (EQ : (match e_st h with SEND_FAST_FLAG => if zlen src =? 1 then let '(E bs b1 db st crc cb sr ff rcv clo) := h in E bs b1 db SENDFLAG_ONE crc cb sr ff rcv clo else h | _ => h end) = h).
  { destruct I as [fs db b1 crc cb sr rcv clo src Hdb H8 Hcb HL HA HF| | | |]; cbn [e_st]; try reflexivity.
    destruct src as [|o t]; [reflexivity|]. inversion HF as [|? ? [_ FL] _]. destruct (Z.eqb_spec (zlen (o :: t)) 1); [lia|reflexivity]. }
  rewrite EQ. destruct RM as [D1 D2].
  pose proof (einv_db _ _ _ _ _ _ I) as DB. pose proof (wt_range h) as WR.
  destruct (loop_inv cfg d pre acc A DC (Z.to_nat (30 * d + 30)) h src d [] I) as (h' & src' & out' & F1 & F2 & F3 & F4 & F5 & F6); auto; try lia.
  { intros _. split; assumption. } { change (zlen []) with 0. lia. } { constructor. }
  rewrite F1. cbn [bind]. exists out', h', src'. split; [reflexivity|]. repeat (split; [assumption|]). split; [|apply F6; lia].
  intros SE K. apply F5. split; [assumption|]. destruct K as [K|K]; [|left; exact K]. right. pose proof (einv_rho _ _ _ _ _ _ I). lia.
Qed.
Lemma einv_rebase cfg pre out acc h src : einv cfg pre out acc h src -> einv cfg (pre ++ line_bits (h_brev cfg) out) [] acc h src.
Proof.
  intros I. destruct I.
  - apply e_ff with (fs := fs); auto. cbn [line_bits flat_map app]. rewrite <- app_assoc. assumption.
  - apply e_data with (fs := fs); auto. unfold obs in *. cbn [line_bits flat_map app]. rewrite <- !app_assoc in *. assumption.
  - apply e_crc1 with (fs := fs); auto. unfold obs in *. cbn [line_bits flat_map app]. rewrite <- !app_assoc in *. assumption.
  - apply e_crc2 with (fs := fs); auto. unfold obs in *. cbn [line_bits flat_map app]. rewrite <- !app_assoc in *. assumption.
  - apply e_clos with (fs := fs); auto. unfold obs in *. cbn [line_bits flat_map app]. rewrite <- !app_assoc in *. assumption.
Qed.
Lemma einv_put cfg pre acc h f : einv cfg pre [] acc h [] -> frame_ok f -> einv cfg pre [] (acc ++ [f]) h f.
Proof.
  intros I [FB FL]. assert (PF : pend f = [f]) by (destruct f; [change (zlen []) with 0 in FL; lia|reflexivity]).
  assert (FF : Forall frame_ok (pend f)) by (rewrite PF; constructor; [split; assumption|constructor]).
  remember [] as src eqn:ES in I at 2. destruct I; subst src; cbn [pend] in *.
  - apply e_ff with (fs := fs); auto. rewrite PF. now rewrite app_nil_r in H3; subst acc.
  - destruct clo; [|now elim (H6 eq_refl)]. cbn [cut negb pend] in *. apply e_data with (fs := fs); auto; try discriminate.
    cbn [cut negb]. rewrite PF. rewrite app_nil_r in H8. now subst acc.
  - apply e_crc1 with (fs := fs); auto. rewrite PF. rewrite app_nil_r in H5. now subst acc.
  - apply e_crc2 with (fs := fs); auto. rewrite PF. rewrite app_nil_r in H4. now subst acc.
  - apply e_clos with (fs := fs); auto. rewrite PF. rewrite app_nil_r in H7. now subst acc.
Qed.

(** Histories *)
Definition op_ok (o : eop) : Prop := match o with Put f => frame_ok f | Call d => 1 <= d end.
Fixpoint first_call (ops : list eop) : option Z := match ops with [] => None | Put _ :: t => first_call t | Call d :: _ => Some d end.
Lemma hist_inv cfg : h_adapt56 cfg = false -> h_dchannel cfg = false -> forall ops pre acc h cur, einv cfg pre [] acc h cur -> Forall op_ok ops ->
  (e_db h = 8 -> forall d, first_call ops = Some d -> 2 <= d) ->
  exists out h' cur' acc', enc_hist cfg h cur ops = Ok (out, h', cur', acc') /\ einv cfg (pre ++ line_bits (h_brev cfg) out) [] (acc ++ acc') h' cur' /\ bytes out /\
    (e_db h <> 8 \/ first_call ops <> None -> e_db h' <> 8).
Proof.
  intros A DC. induction ops as [|o ops IH]; intros pre acc h cur I OK FC; cbn [enc_hist].
  { exists [], h, cur, []. split; [reflexivity|]. cbn [line_bits flat_map first_call]. rewrite !app_nil_r. split; [assumption|]. split; [constructor|]. intros [K|K]; [assumption|now elim K]. }
  inversion OK as [|? ? O1 O2]; subst. destruct o as [f|d].
  - destruct cur as [|c cur].
    + destruct (IH pre (acc ++ [f]) h f (einv_put cfg pre acc h f I O1) O2 FC) as (out & h' & cur' & acc' & E1 & E2 & E3 & E4).
      rewrite E1. cbn [bind]. exists out, h', cur', (f :: acc'). split; [reflexivity|]. rewrite <- app_assoc in E2. auto.
    + apply IH; assumption.
  - cbn [op_ok] in O1. cbn [first_call] in FC.
    destruct (encode_inv cfg pre acc h cur d A DC I) as (out1 & h1 & cur1 & E1 & E2 & E3 & _ & _ & E4).
    { split; [assumption|]. intros K _. exact (FC K d eq_refl). }
    rewrite E1. cbn [bind]. apply einv_rebase in E2.
    destruct (IH _ acc h1 cur1 E2 O2) as (out2 & h2 & cur2 & acc2 & F1 & F2 & F3 & F4); [intros K; now elim E4|].
    rewrite F1. cbn [bind]. exists (out1 ++ out2), h2, cur2, acc2. split; [reflexivity|]. rewrite line_bits_app, app_assoc. split; [assumption|].
    split; [apply Forall_app; split; assumption|]. intros _. apply F4. left. exact E4.
Qed.
Lemma hist_app cfg : forall ops1 ops2 h cur, enc_hist cfg h cur (ops1 ++ ops2) =
  (do ' (out1, h1, cur1, acc1) <- enc_hist cfg h cur ops1 ;; do ' (out2, h2, cur2, acc2) <- enc_hist cfg h1 cur1 ops2 ;; Ok (out1 ++ out2, h2, cur2, acc1 ++ acc2)).
Proof.
  induction ops1 as [|o ops1 IH]; intros ops2 h cur; cbn [app enc_hist bind].
  { destruct (enc_hist cfg h cur ops2) as [[[[? ?] ?] ?]| | |]; reflexivity. }
  destruct o as [f|d].
  - destruct cur as [|c cur]; rewrite IH; [|reflexivity]. destruct (enc_hist cfg h f ops1) as [[[[o1 h1] c1] a1]| | |]; cbn [bind]; try reflexivity.
    destruct (enc_hist cfg h1 c1 ops2) as [[[[o2 h2] c2] a2]| | |]; reflexivity.
  - destruct (hdlc_encode cfg h cur d) as [[[o0 h0] c0]| | |]; cbn [bind]; try reflexivity. rewrite IH.
    destruct (enc_hist cfg h0 c0 ops1) as [[[[o1 h1] c1] a1]| | |]; cbn [bind]; try reflexivity.
    destruct (enc_hist cfg h1 c1 ops2) as [[[[o2 h2] c2] a2]| | |]; cbn [bind]; try reflexivity. now rewrite app_assoc.
Qed.
Lemma einv_line cfg pre acc h src : einv cfg pre [] acc h src -> exists fs more rest, acc = fs ++ more /\ (length more <= 1)%nat /\ hdlc_line (map with_fcs fs) (pre ++ rest) /\
  (src = [] -> more = []).
Proof.
  intros I. assert (P : forall s, (length (pend s) <= 1)%nat) by (intros [|? ?]; cbn; lia).
  destruct I; cbn [line_bits flat_map app obs] in *; (eexists fs, _, _; split; [eassumption|]; split; [apply P|]; split; [eassumption|]); intros ->; try reflexivity.
  destruct (negb clo); reflexivity.
Qed.
(** Idle: the last flag octet is repeated. *)
Fixpoint flags (n : nat) : list Z := match n with O => [] | S m => flag ++ flags m end.
Lemma flags_snoc n : flags n ++ flag = flag ++ flags n.
Proof. induction n; [reflexivity|]. cbn [flags]. now rewrite <- app_assoc, IHn. Qed.
Lemma flags_len n : zlen (flags n) = 8 * Z.of_nat n.
Proof. induction n; [reflexivity|]. cbn [flags]. rewrite zlen_app, IHn. change (zlen flag) with 8. lia. Qed.
Lemma line_flags xs : forall n l, hdlc_line xs l -> hdlc_line xs (l ++ flags n).
Proof. induction n; intros l H; cbn [flags]; [now rewrite app_nil_r|]. rewrite app_assoc. apply IHn. now apply hl_flag. Qed.
Lemma idle_loop cfg cap b1 db crc cb sr ff rcv : h_adapt56 cfg = false -> db <> 8 -> forall n fuel clo out, (n < fuel)%nat -> zlen out + Z.of_nat n <= cap ->
  exists clo', enc_loop fuel cfg cap (E 0 b1 db SEND_FAST_FLAG crc cb sr ff rcv clo) [] (Z.of_nat n) out
    = Ok (E 0 b1 db SEND_FAST_FLAG crc cb sr ff rcv clo', [], out ++ repeat (emitted cfg ff) n).
Proof.
  intros A N8. induction n as [|n IH]; intros fuel clo out FU CAP; (destruct fuel as [|fuel]; [lia|]); cbn [enc_loop].
  - exists clo. change (Z.of_nat 0 <=? 0) with true. cbn match. cbn [repeat]. now rewrite app_nil_r.
  - destruct (Z.leb_spec (Z.of_nat (S n)) 0); [lia|]. unfold enc_load. change (0 =? 0) with true. cbn match. unfold enc_switch. change (zlen [] =? 0) with true. cbn match.
    rewrite emit_ok by lia. cbn [bind]. unfold enc_tail. rewrite A. cbn [andb]. destruct (Z.eqb_spec db 8); [lia|]. cbn [bind].
    replace (Z.of_nat (S n) - 1) with (Z.of_nat n) by lia.
    destruct (IH fuel false (out ++ [emitted cfg ff])) as [clo' E]; [lia|rewrite zlen_app; change (zlen [_]) with 1; lia|]. exists clo'. rewrite E. cbn [repeat]. now rewrite <- app_assoc.
Qed.
Lemma verdict_good f : bytes f -> f <> [] -> verdict (with_fcs f) = [(zlen f, f)].
Proof.
  intros HB NE. unfold verdict, with_fcs. assert (L : zlen (fcs f) = 2) by reflexivity. assert (L2 : length (fcs f) = 2%nat) by reflexivity. rewrite zlen_app, L. pose proof (zlen_nonneg f).
  assert (1 <= zlen f) by (destruct f; [now elim NE|rewrite zlen_cons; pose proof (zlen_nonneg f); lia]).
  destruct (Z.ltb_spec (zlen f + 2) 2); [lia|]. rewrite app_length, L2. replace (length f + 2 - 2)%nat with (length f) by lia.
  rewrite firstn_app, skipn_app, Nat.sub_diag, firstn_all, skipn_all. cbn [firstn skipn app]. rewrite app_nil_r.
  destruct (list_eq_dec Z.eq_dec (fcs f) (fcs f)) as [_|K]; [|now elim K]. destruct (Z.eqb_spec (zlen f + 2) 2); [lia|]. do 2 f_equal. lia.
Qed.
