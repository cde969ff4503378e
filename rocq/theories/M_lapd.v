(* M_lapd.v - model of the multiple-frame data transfer of the LAPD data link layer:
   src/isdn/lapd_core.c.  The functions are those of a link in normal (not LAPD_F_RTS) operation. *)
From Verif Require Import Base.

(* enum lapd_state, include/osmocom/isdn/lapd_core.h:74-84 (the three TEI states are never entered
   by lapd_core.c and are left out) *)
Inductive lstate := L_NULL | L_IDLE | L_SABM_SENT | L_DISC_SENT | L_MF_EST | L_TIMER_RECOV.

(* enum lapd_format, lapd_core.h:99-104; LAPD_FORM_UKN is refused by lapd_ph_data_ind *)
Inductive lformat := FmtI | FmtS | FmtU.

(* src/isdn/lapd_core.c:84-98 *)
Definition LAPD_U_SABM : Z := 7.
Definition LAPD_U_SABME : Z := 15.
Definition LAPD_U_DM : Z := 3.
Definition LAPD_U_UA : Z := 12.
Definition LAPD_S_RR : Z := 0.
Definition LAPD_S_RNR : Z := 1.
Definition LAPD_S_REJ : Z := 2.

(* include/osmocom/isdn/lapd_core.h:33-47 *)
Definition MDL_CAUSE_T200_EXPIRED : Z := 1.
Definition MDL_CAUSE_UNSOL_UA_RESP : Z := 3.
Definition MDL_CAUSE_UNSOL_SPRV_RESP : Z := 6.
Definition MDL_CAUSE_SEQ_ERR : Z := 7.
Definition MDL_CAUSE_UFRM_INC_PARAM : Z := 8.
Definition MDL_CAUSE_SFRM_INC_PARAM : Z := 9.
Definition MDL_CAUSE_IFRM_INC_MBITS : Z := 10.
Definition MDL_CAUSE_IFRM_INC_LEN : Z := 11.
Definition MDL_CAUSE_FRM_UNIMPL : Z := 12.
Definition MDL_CAUSE_SABM_MF : Z := 13.
Definition MDL_CAUSE_SABM_INFO_NOTALL : Z := 14.

(* A frame on the link: the control part of struct lapd_msg_ctx (lapd_core.h:107-123) and the
   information field.  Simplified: lctx->length is the length of the information field; the address
   fields sapi, tei and lpd are the same for all frames of a data link and left out. *)
Record frame := mkFrame {
  f_cr : Z; f_fmt : lformat; f_su : Z; f_pf : bool; f_ns : Z; f_nr : Z; f_more : bool; f_data : list Z }.

(* What the data link does to its surroundings: a frame passed to send_ph_data_req, a DL-DATA
   indication, an MDL-ERROR indication with its cause, DL-ESTABLISH indication / confirm and
   DL-RELEASE indication passed to send_dlsap (lapd_core.c:456-485). *)
Inductive lout :=
| OFrame (f : frame)
| OData (m : list Z)
| OErr (cause : Z)
| OEstInd (m : list Z)
| OEstConf
| ORelInd.

(* the settings of struct lapd_datalink (lapd_core.h:136-178) that data transfer does not change.
   c_net: mode is LAPD_MODE_NETWORK; c_drop2: LAPD_F_DROP_2ND_REJ; c_t203: t203_sec or t203_usec is
   not 0; c_n201: n201 of the message contexts. *)
Record lcfg := mkCfg {
  c_net : bool; c_drop2 : bool; c_sabme : bool; c_reest : bool; c_n200 : Z; c_n200_est : Z; c_maxf : Z;
  c_k : Z; c_vrange : Z; c_rhist : Z; c_t203 : bool; c_n201 : Z }.

(* the variables of struct lapd_datalink (lapd_core.h:136-178).  d_hist models the array tx_hist:
   None is an entry whose msg is NULL, Some (data, more) one that holds a copy of a frame.
   d_t200 and d_t203: the timer is pending.  Simplified: LAPD_F_RTS is clear, so t200_rts is unused,
   tx_queue stays empty and update_pending_frames has nothing to update. *)
Record ldl := mkDl {
  d_cfg : lcfg; d_vs : Z; d_va : Z; d_vr : Z; d_st : lstate; d_seq_err : Z; d_own_busy : bool;
  d_peer_busy : bool; d_t200 : bool; d_t203 : bool; d_retr : Z; d_squeue : list (list Z);
  d_sbuf : option (list Z); d_sout : Z; d_hist : Z -> option (list Z * bool);
  d_rbuf : option (list Z); d_cont : option (list Z) }.

(* field updates of ldl; not in the code *)
Definition set_vs d x := mkDl (d_cfg d) x (d_va d) (d_vr d) (d_st d) (d_seq_err d) (d_own_busy d) (d_peer_busy d) (d_t200 d) (d_t203 d) (d_retr d) (d_squeue d) (d_sbuf d) (d_sout d) (d_hist d) (d_rbuf d) (d_cont d).
Definition set_va d x := mkDl (d_cfg d) (d_vs d) x (d_vr d) (d_st d) (d_seq_err d) (d_own_busy d) (d_peer_busy d) (d_t200 d) (d_t203 d) (d_retr d) (d_squeue d) (d_sbuf d) (d_sout d) (d_hist d) (d_rbuf d) (d_cont d).
Definition set_vr d x := mkDl (d_cfg d) (d_vs d) (d_va d) x (d_st d) (d_seq_err d) (d_own_busy d) (d_peer_busy d) (d_t200 d) (d_t203 d) (d_retr d) (d_squeue d) (d_sbuf d) (d_sout d) (d_hist d) (d_rbuf d) (d_cont d).
Definition set_st d x := mkDl (d_cfg d) (d_vs d) (d_va d) (d_vr d) x (d_seq_err d) (d_own_busy d) (d_peer_busy d) (d_t200 d) (d_t203 d) (d_retr d) (d_squeue d) (d_sbuf d) (d_sout d) (d_hist d) (d_rbuf d) (d_cont d).
Definition set_seq d x := mkDl (d_cfg d) (d_vs d) (d_va d) (d_vr d) (d_st d) x (d_own_busy d) (d_peer_busy d) (d_t200 d) (d_t203 d) (d_retr d) (d_squeue d) (d_sbuf d) (d_sout d) (d_hist d) (d_rbuf d) (d_cont d).
Definition set_busy d o p := mkDl (d_cfg d) (d_vs d) (d_va d) (d_vr d) (d_st d) (d_seq_err d) o p (d_t200 d) (d_t203 d) (d_retr d) (d_squeue d) (d_sbuf d) (d_sout d) (d_hist d) (d_rbuf d) (d_cont d).
Definition set_t200 d x := mkDl (d_cfg d) (d_vs d) (d_va d) (d_vr d) (d_st d) (d_seq_err d) (d_own_busy d) (d_peer_busy d) x (d_t203 d) (d_retr d) (d_squeue d) (d_sbuf d) (d_sout d) (d_hist d) (d_rbuf d) (d_cont d).
Definition set_t203 d x := mkDl (d_cfg d) (d_vs d) (d_va d) (d_vr d) (d_st d) (d_seq_err d) (d_own_busy d) (d_peer_busy d) (d_t200 d) x (d_retr d) (d_squeue d) (d_sbuf d) (d_sout d) (d_hist d) (d_rbuf d) (d_cont d).
Definition set_retr d x := mkDl (d_cfg d) (d_vs d) (d_va d) (d_vr d) (d_st d) (d_seq_err d) (d_own_busy d) (d_peer_busy d) (d_t200 d) (d_t203 d) x (d_squeue d) (d_sbuf d) (d_sout d) (d_hist d) (d_rbuf d) (d_cont d).
Definition set_send d q b o := mkDl (d_cfg d) (d_vs d) (d_va d) (d_vr d) (d_st d) (d_seq_err d) (d_own_busy d) (d_peer_busy d) (d_t200 d) (d_t203 d) (d_retr d) q b o (d_hist d) (d_rbuf d) (d_cont d).
Definition set_hist d x := mkDl (d_cfg d) (d_vs d) (d_va d) (d_vr d) (d_st d) (d_seq_err d) (d_own_busy d) (d_peer_busy d) (d_t200 d) (d_t203 d) (d_retr d) (d_squeue d) (d_sbuf d) (d_sout d) x (d_rbuf d) (d_cont d).
Definition set_rbuf d x := mkDl (d_cfg d) (d_vs d) (d_va d) (d_vr d) (d_st d) (d_seq_err d) (d_own_busy d) (d_peer_busy d) (d_t200 d) (d_t203 d) (d_retr d) (d_squeue d) (d_sbuf d) (d_sout d) (d_hist d) x (d_cont d).
Definition set_cont d x := mkDl (d_cfg d) (d_vs d) (d_va d) (d_vr d) (d_st d) (d_seq_err d) (d_own_busy d) (d_peer_busy d) (d_t200 d) (d_t203 d) (d_retr d) (d_squeue d) (d_sbuf d) (d_sout d) (d_hist d) (d_rbuf d) x.

(* one entry of tx_hist overwritten; not in the code *)
Definition hupd (h : Z -> option (list Z * bool)) (i : Z) (v : option (list Z * bool)) : Z -> option (list Z * bool) :=
  fun j => if j =? i then v else h j.

Definition st_eqb (a b : lstate) : bool :=
  match a, b with
  | L_NULL, L_NULL | L_IDLE, L_IDLE | L_SABM_SENT, L_SABM_SENT | L_DISC_SENT, L_DISC_SENT
  | L_MF_EST, L_MF_EST | L_TIMER_RECOV, L_TIMER_RECOV => true
  | _, _ => false
  end.

(* lapd_core.c:100-103 and lapd_set_mode, lapd_core.c:432-453: the C/R bit of our commands and
   responses (loc2rem) and of the peer's (rem2loc) *)
Definition loc_cmd (d : ldl) : Z := if c_net (d_cfg d) then 1 else 0.
Definition loc_resp (d : ldl) : Z := if c_net (d_cfg d) then 0 else 1.
Definition rem_cmd (d : ldl) : Z := if c_net (d_cfg d) then 0 else 1.
Definition rem_resp (d : ldl) : Z := if c_net (d_cfg d) then 1 else 0.

(* memcmp() of two octet strings, with the comparison of their lengths *)
Fixpoint bytes_eqb (a b : list Z) : bool :=
  match a, b with
  | [], [] => true
  | x :: a', y :: b' => (x =? y) && bytes_eqb a' b'
  | _, _ => false
  end.

(* do_mod, lapd_core.c:124-127; inc_mod, 129-132; add_mod, 134-137; sub_mod, 139-142 *)
Definition do_mod (x m : Z) : Z := u8 (Z.land x (m - 1)).
Definition inc_mod (x m : Z) : Z := u8 (Z.land (x + 1) (m - 1)).
Definition add_mod (x y m : Z) : Z := u8 (Z.land (x + y) (m - 1)).
Definition sub_mod (x y m : Z) : Z := u8 (Z.land (x - y) (m - 1)).

(* lapd_dl_init2, lapd_core.c:305-361: the clamped window size k *)
Definition init_k (k v_range : Z) : Z := if k >? v_range - 1 then u8 (v_range - 1) else k.

(* lapd_dl_init2, lapd_core.c:332-340: the loop for (m = 0x80; m; m >>= 1) that computes range_hist
   from k + 1; the argument n counts the remaining rounds, 0 stands for the initial memset *)
Fixpoint rhist_loop (n : nat) (m k1 : Z) : Z :=
  match n with
  | O => 0
  | S n' => if Z.land m k1 =? 0 then rhist_loop n' (Z.shiftr m 1) k1
            else u8 (if k1 >? m then Z.shiftl m 1 else m)
  end.
Definition init_rhist (k v_range : Z) : Z := rhist_loop 8 128 (u8 (init_k k v_range + 1)).

(* lapd_dl_init2, lapd_core.c:305-361, with the role set by lapd_set_mode (lapd_core.c:432-453) and
   n200, flags, t203 and n201 as the user of the data link configures them *)
Definition lapd_dl_init2 (k v_range maxf : Z) (net drop2 sabme reest : bool) (n200 n200_est : Z)
    (t203 : bool) (n201 : Z) : ldl :=
  mkDl (mkCfg net drop2 sabme reest n200 n200_est maxf (init_k k v_range) v_range (init_rhist k v_range) t203 n201)
       0 0 0 L_IDLE 0 false false false false 0 [] None 0 (fun _ => None) None None.

(* lapd_start_t200, lapd_core.c:205-218; lapd_stop_t200, 246-258; lapd_start_t203, 238-244;
   lapd_stop_t203, 268-274 *)
Definition start_t200 (d : ldl) : ldl := set_t200 d true.
Definition stop_t200 (d : ldl) : ldl := set_t200 d false.
Definition start_t203 (d : ldl) : ldl := set_t203 d true.
Definition stop_t203 (d : ldl) : ldl := set_t203 d false.

(* lapd_dl_newstate, lapd_core.c:276-295 *)
Definition newstate (d : ldl) (st : lstate) : ldl :=
  let d := if negb (st_eqb st L_MF_EST) && st_eqb (d_st d) L_MF_EST then set_cont (stop_t203 d) None else d in
  let d := if c_t203 (d_cfg d) && st_eqb st L_MF_EST && negb (st_eqb (d_st d) L_MF_EST) then start_t203 d else d in
  set_st d st.

(* lapd_send_rr, lapd_core.c:533-552; lapd_send_rnr, 555-574; lapd_send_rej, 577-596 *)
Definition send_rr (d : ldl) (f_bit cmd : bool) : lout :=
  OFrame (mkFrame (if cmd then loc_cmd d else loc_resp d) FmtS LAPD_S_RR f_bit 0 (d_vr d) false []).
Definition send_rnr (d : ldl) (f_bit cmd : bool) : lout :=
  OFrame (mkFrame (if cmd then loc_cmd d else loc_resp d) FmtS LAPD_S_RNR f_bit 0 (d_vr d) false []).
Definition send_rej (d : ldl) (f_bit : bool) : lout :=
  OFrame (mkFrame (loc_resp d) FmtS LAPD_S_REJ f_bit 0 (d_vr d) false []).

(* lapd_send_ua, lapd_core.c:488-509; lapd_send_dm, 512-530 *)
Definition send_ua (d : ldl) (pf : bool) (data : list Z) : lout :=
  OFrame (mkFrame (loc_resp d) FmtU LAPD_U_UA pf 0 0 false data).
Definition send_dm (d : ldl) (pf : bool) : lout :=
  OFrame (mkFrame (loc_resp d) FmtU LAPD_U_DM pf 0 0 false []).

(* an I frame built by lapd_send_i (lapd_core.c:2013-2027, 2045-2057) or lapd_t200_cb (705-717) *)
Definition mk_iframe (d : ldl) (pf : bool) (ns : Z) (data : list Z) (more : bool) : lout :=
  OFrame (mkFrame (loc_cmd d) FmtI 0 pf ns (d_vr d) more data).

(* lapd_dl_flush_hist, lapd_core.c:157-170; lapd_dl_flush_send, 144-155 *)
Definition flush_hist (d : ldl) : ldl := set_hist d (fun _ => None).
Definition flush_send (d : ldl) : ldl := set_send d [] None (d_sout d).

(* the next_message loop of lapd_send_i, lapd_core.c:1985-1992, 2005-2010: the first queued message
   that has anything to send *)
Fixpoint get_msg (q : list (list Z)) : option (list Z) * list (list Z) :=
  match q with
  | [] => (None, [])
  | m :: q' => if zlen m =? 0 then get_msg q' else (Some m, q')
  end.

(* lapd_send_i, lapd_core.c:1983-2010: what is to be sent next - send_buffer, send_out, send_queue *)
Definition load_msg (d : ldl) : option (list Z) * Z * list (list Z) :=
  match d_sbuf d with
  | Some m => if zlen m - d_sout d =? 0
              then let '(b, q) := get_msg (d_squeue d) in (b, 0, q)
              else (Some m, d_sout d, d_squeue d)
  | None => let '(b, q) := get_msg (d_squeue d) in (b, 0, q)
  end.

(* lapd_send_i, lapd_core.c:2060-2075: V(S) incremented, the timers *)
Definition sent_i (d : ldl) : ldl :=
  let d := set_vs d (inc_mod (d_vs d) (c_vrange (d_cfg d))) in
  if d_t200 d then d else start_t200 (stop_t203 d).

(* lapd_send_i, lapd_core.c:1935-2086, without LAPD_F_RTS.  The first argument bounds the rounds of the
   next_frame loop; lapd_send_i below starts it with the distance of V(S) from V(A) + k, so that at 0 the
   test of line 1970 holds and the loop returns. *)
Fixpoint send_i_loop (n : nat) (d : ldl) (rc : Z) : ldl * Z * list lout :=
  match n with
  | O => (d, rc, [])
  | S n' =>
    if d_peer_busy d then (d, rc, []) else
    if st_eqb (d_st d) L_TIMER_RECOV then (d, rc, []) else
    if d_vs d =? add_mod (d_va d) (c_k (d_cfg d)) (c_vrange (d_cfg d)) then (d, rc, []) else
    let h := do_mod (d_vs d) (c_rhist (d_cfg d)) in
    match d_hist d h with
    | None =>
      match load_msg d with
      | (None, so, q) => (set_send d q None so, rc, [])
      | (Some m, so, q) =>
        let left := zlen m - so in
        let len := if left >? c_n201 (d_cfg d) then c_n201 (d_cfg d) else left in
        let more := left >? len in
        let data := firstn (Z.to_nat len) (skipn (Z.to_nat so) m) in
        let o := mk_iframe d false (d_vs d) data more in
        let d := set_send d q (Some m) (so + len) in
        let d := set_hist d (hupd (d_hist d) h (Some (data, more))) in
        let '(d2, rc2, os) := send_i_loop n' (sent_i d) 0 in
        (d2, rc2, o :: os)
      end
    | Some (data, more) =>
      let o := mk_iframe d false (d_vs d) data more in
      let '(d2, rc2, os) := send_i_loop n' (sent_i d) 0 in
      (d2, rc2, o :: os)
    end
  end.

Definition send_i_rounds (d : ldl) : nat :=
  Z.to_nat (sub_mod (add_mod (d_va d) (c_k (d_cfg d)) (c_vrange (d_cfg d))) (d_vs d) (c_vrange (d_cfg d))).
Definition lapd_send_i (d : ldl) : ldl * Z * list lout := send_i_loop (send_i_rounds d) d (-1).

(* lapd_acknowledge, lapd_core.c:817-825: the loop from V(A) up to N(R); n rounds *)
Fixpoint ack_free (n : nat) (i : Z) (rh vrange : Z) (h : Z -> option (list Z * bool)) : Z -> option (list Z * bool) :=
  match n with
  | O => h
  | S n' => ack_free n' (inc_mod i vrange) rh vrange (hupd h (do_mod i rh) None)
  end.

(* lapd_acknowledge, lapd_core.c:801-867.  Simplified: for an N(R) outside 0..v_range-1 the loop of
   line 818 never ends; frames carry N(R) in 3 or 7 bits, matching v_range 8 and 128. *)
Definition lapd_acknowledge (d : ldl) (f : frame) : ldl * Z :=
  let nr := f_nr f in
  let rej := match f_fmt f with FmtS => f_su f =? LAPD_S_REJ | _ => false end in
  let vra := c_vrange (d_cfg d) in
  let d := set_hist d (ack_free (Z.to_nat (sub_mod nr (d_va d) vra)) (d_va d) (c_rhist (d_cfg d)) vra (d_hist d)) in
  let finish (d : ldl) (reset : bool) : ldl * Z :=
    let d := set_va d nr in
    let d := if reset && negb rej then
               match d_hist d (sub_mod (d_vs d) 1 (c_rhist (d_cfg d))) with
               | Some _ => start_t200 d
               | None => d
               end
             else d in
    let d := stop_t203 d in
    let d := if negb (d_t200 d) && c_t203 (d_cfg d) && st_eqb (d_st d) L_MF_EST then start_t203 d else d in
    (d, 0) in
  if negb (st_eqb (d_st d) L_TIMER_RECOV) then
    let reset := (negb rej && negb (nr =? d_va d)) || (rej && (nr =? d_va d)) in
    let d := if reset then stop_t200 d else d in
    if sub_mod nr (d_va d) vra >? sub_mod (d_vs d) (d_va d) vra then (d, - MDL_CAUSE_SEQ_ERR)
    else finish d reset
  else finish d false.

(* lapd_data_req, lapd_core.c:1912-1932, as dispatched by lapd_recv_dlsap (lapd_core.c:2314-2349): in
   other states than MF_EST and TIMER_RECOV the request is discarded *)
Definition data_req (d : ldl) (m : list Z) : ldl * list lout :=
  if st_eqb (d_st d) L_MF_EST || st_eqb (d_st d) L_TIMER_RECOV then
    if zlen m =? 0 then (d, [])
    else let '(d, _, os) := lapd_send_i (set_send d (d_squeue d ++ [m]) (d_sbuf d) (d_sout d)) in (d, os)
  else (d, []).

(* requests made one after the other *)
Fixpoint data_reqs (d : ldl) (ms : list (list Z)) : ldl * list lout :=
  match ms with
  | [] => (d, [])
  | m :: ms' => let '(d1, o1) := data_req d m in
                let '(d2, o2) := data_reqs d1 ms' in (d2, o1 ++ o2)
  end.

(* lapd_est_req, lapd_core.c:1857-1909, with content data *)
Definition est_req (d : ldl) (data : list Z) : ldl * list lout :=
  let d := flush_hist (flush_send d) in
  let d := set_rbuf d None in
  let f := OFrame (mkFrame (loc_cmd d) FmtU (if c_sabme (d_cfg d) then LAPD_U_SABME else LAPD_U_SABM) true 0 0 false data) in
  let d := set_hist d (hupd (d_hist d) 0 (Some (data, false))) in
  let d := set_vs d 0 in
  let d := set_busy d false false in
  let d := set_retr d 0 in
  let d := newstate d L_SABM_SENT in
  (start_t200 d, [f]).

(* lapd_send_resend, lapd_core.c:599-628, in state SABM_SENT *)
Definition send_resend (d : ldl) : list lout :=
  match d_hist d (do_mod (d_vs d) (c_rhist (d_cfg d))) with
  | Some (data, _) =>
    [OFrame (mkFrame (loc_cmd d) FmtU (if c_sabme (d_cfg d) then LAPD_U_SABME else LAPD_U_SABM) true 0 0 false data)]
  | None => []
  end.

(* lapd_t200_cb, lapd_core.c:645-767, in states SABM_SENT, MF_EST and TIMER_RECOV; the timer that fired is no
   longer pending.  Simplified: in state DISC_SENT nothing is modelled. *)
Definition t200_cb (d : ldl) : ldl * list lout :=
  let d := set_t200 d false in
  let recov (d : ldl) : ldl * list lout :=
    let d := set_retr d (u8 (d_retr d + 1)) in
    if d_retr d <=? c_n200 (d_cfg d) then
      let vs := sub_mod (d_vs d) 1 (c_vrange (d_cfg d)) in
      let os := match d_hist d (do_mod vs (c_rhist (d_cfg d))) with
                | Some (data, more) => [mk_iframe d true vs data more]
                | None => if negb (d_own_busy d) && (d_seq_err d =? 0) then [send_rr d true true]
                          else if d_own_busy d then [send_rnr d true true]
                          else []
                end in
      (start_t200 d, os)
    else if c_reest (d_cfg d) then let '(d, os) := est_req d [] in (d, OErr MDL_CAUSE_T200_EXPIRED :: os)
    else (d, [OErr MDL_CAUSE_T200_EXPIRED]) in
  match d_st d with
  | L_SABM_SENT =>
    let d := set_retr d (u8 (d_retr d + 1)) in
    if d_retr d >=? c_n200_est (d_cfg d) + 1 then
      (newstate (flush_send (flush_hist d)) L_IDLE, [OErr MDL_CAUSE_T200_EXPIRED; ORelInd])
    else (start_t200 d, send_resend d)
  | L_MF_EST => recov (newstate (set_retr d 0) L_TIMER_RECOV)
  | L_TIMER_RECOV => recov d
  | _ => (d, [])
  end.

(* T200 expires n times, and nothing else happens; the outputs of each time.  None if it is not running. *)
Fixpoint t200_expires (n : nat) (d : ldl) : option (ldl * list (list lout)) :=
  match n with
  | O => Some (d, [])
  | S n' => if d_t200 d then
              let '(d1, o) := t200_cb d in
              match t200_expires n' d1 with Some (d2, os) => Some (d2, o :: os) | None => None end
            else None
  end.

(* lapd_t203_cb, lapd_core.c:770-797 *)
Definition t203_cb (d : ldl) : ldl * list lout :=
  let d := set_t203 d false in
  if st_eqb (d_st d) L_MF_EST then
    let d := newstate (set_retr d 0) L_TIMER_RECOV in
    (start_t200 d, [if negb (d_own_busy d) then send_rr d true true else send_rnr d true true])
  else (d, []).

(* the answer to a poll, lapd_core.c:1398-1413, 1488-1507, 1534-1553 *)
Definition poll_reply (d : ldl) : list lout :=
  if negb (d_own_busy d) && (d_seq_err d =? 0) then [send_rr d true false]
  else if d_own_busy d then [send_rnr d true false]
  else [].

(* lapd_rx_s, lapd_core.c:1353-1571.  lapd_dl_flush_tx_queue has nothing to flush without LAPD_F_RTS. *)
Definition rx_s (d : ldl) (f : frame) : ldl * list lout :=
  if (zlen (f_data f) >? 0) || f_more f then (d, [OErr MDL_CAUSE_SFRM_INC_PARAM]) else
  let e0 := if (f_cr f =? rem_resp d) && f_pf f && negb (st_eqb (d_st d) L_TIMER_RECOV)
            then [OErr MDL_CAUSE_UNSOL_SPRV_RESP] else [] in
  let cmd := f_cr f =? rem_cmd d in
  let resp := f_cr f =? rem_resp d in
  match d_st d with
  | L_IDLE => (d, e0 ++ (if f_pf f then [send_dm d (f_pf f)] else []))
  | L_SABM_SENT | L_DISC_SENT => (d, e0)
  | _ =>
    if f_su f =? LAPD_S_RR then
      let '(d, _) := lapd_acknowledge d f in
      let '(d, o1) :=
        if cmd && f_pf f then (d, poll_reply d)
        else if resp && f_pf f && st_eqb (d_st d) L_TIMER_RECOV
             then (newstate (stop_t200 (set_vs d (f_nr f))) L_MF_EST, [])
             else (d, []) in
      let '(d, _, o2) := lapd_send_i d in (d, e0 ++ o1 ++ o2)
    else if f_su f =? LAPD_S_RNR then
      let '(d, _) := lapd_acknowledge d f in
      let d := set_busy d (d_own_busy d) true in
      let d := stop_t200 d in
      let '(d, o1) :=
        if f_pf f then
          if cmd then (d, [if negb (d_own_busy d) then send_rr d true false else send_rnr d true false])
          else if st_eqb (d_st d) L_TIMER_RECOV then (set_vs (newstate d L_MF_EST) (f_nr f), [])
          else (d, [])
        else (d, []) in
      let '(d, _, o2) := lapd_send_i d in (d, e0 ++ o1 ++ o2)
    else if f_su f =? LAPD_S_REJ then
      let '(d, _) := lapd_acknowledge d f in
      let '(d, o1) :=
        if negb (st_eqb (d_st d) L_TIMER_RECOV) then
          let d := set_va (set_vs (set_busy d (d_own_busy d) false) (f_nr f)) (f_nr f) in
          let d := stop_t200 d in
          (d, (if cmd && f_pf f then poll_reply d else []) ++
              (if resp && f_pf f then [OErr MDL_CAUSE_UNSOL_SPRV_RESP] else []))
        else if resp && f_pf f then
          let d := set_va (set_vs (set_busy d (d_own_busy d) false) (f_nr f)) (f_nr f) in
          (newstate (stop_t200 d) L_MF_EST, [])
        else
          let d := set_va (set_vs (set_busy d (d_own_busy d) false) (f_nr f)) (f_nr f) in
          (d, if cmd && f_pf f then poll_reply d else []) in
      let '(d, _, o2) := lapd_send_i d in (d, e0 ++ o1 ++ o2)
    else (d, e0 ++ [OErr MDL_CAUSE_FRM_UNIMPL])
  end.

(* lapd_rx_i, lapd_core.c:1663-1707: reassembly of the segment in f; the message indicated to layer 3 *)
Definition reassemble (d : ldl) (f : frame) : ldl * option (list Z) :=
  match d_rbuf d with
  | None =>
    if negb (f_more f) then (d, Some (f_data f))
    else let b := if zlen (f_data f) >? c_maxf (d_cfg d) then [] else f_data f in
         (set_rbuf d (Some b), None)
  | Some b =>
    let b := if zlen b + zlen (f_data f) >? c_maxf (d_cfg d) then b else b ++ f_data f in
    if f_more f then (set_rbuf d (Some b), None) else (set_rbuf d None, Some b)
  end.

(* lapd_rx_i, lapd_core.c:1574-1769.  rsp: the DL-DATA requests layer 3 makes from within the DL-DATA
   indication (send_dlsap is called in-line); it does not otherwise use the data link from there. *)
Definition rx_i (d : ldl) (f : frame) (rsp : list (list Z)) : ldl * list lout :=
  let len := zlen (f_data f) in
  if f_cr f =? rem_resp d then (d, [OErr MDL_CAUSE_FRM_UNIMPL]) else
  if (len =? 0) || (len >? c_n201 (d_cfg d)) then (d, [OErr MDL_CAUSE_IFRM_INC_LEN]) else
  if f_more f && (len <? c_n201 (d_cfg d)) then (d, [OErr MDL_CAUSE_IFRM_INC_MBITS]) else
  match d_st d with
  | L_IDLE => (d, if f_pf f then [send_dm d (f_pf f)] else [])
  | L_SABM_SENT | L_DISC_SENT => (d, [])
  | _ =>
    if negb (f_ns f =? d_vr d) then
      let '(d, o1) :=
        if negb (d_seq_err d =? 1) || negb (c_drop2 (d_cfg d))
        then (set_seq d 1, [send_rej d (f_pf f)])
        else (set_seq d 2, []) in
      let '(d, cause) := lapd_acknowledge d f in
      let o2 := if cause <? 0 then [OErr (- cause)] else [] in
      let '(d, _, o3) := lapd_send_i d in
      (d, o1 ++ o2 ++ o3)
    else
      let d := set_seq d 0 in
      let d := set_vr d (inc_mod (d_vr d) (c_vrange (d_cfg d))) in
      let '(d, cause) := lapd_acknowledge d f in
      let '(d, o1) :=
        if negb (d_own_busy d) then
          match reassemble d f with
          | (d, Some m) => let '(d, o) := data_reqs d rsp in (d, OData m :: o)
          | (d, None) => (d, [])
          end
        else (d, []) in
      let o2 := if cause <? 0 then [OErr (- cause)] else [] in
      if f_pf f then
        let o3 := [if negb (d_own_busy d) then send_rr d true false else send_rnr d true false] in
        let '(d, _, o4) := lapd_send_i d in (d, o1 ++ o2 ++ o3 ++ o4)
      else if negb (d_own_busy d) then
        let '(d, rc, o3) := lapd_send_i d in
        (d, o1 ++ o2 ++ o3 ++ (if negb (rc =? 0) then [send_rr d false false] else []))
      else
        let o3 := [send_rnr d false false] in
        let '(d, _, o4) := lapd_send_i d in (d, o1 ++ o2 ++ o3 ++ o4)
  end.

(* lapd_rx_u_sabm, lapd_core.c:872-1016 *)
Definition rx_u_sabm (d : ldl) (f : frame) : ldl * list lout :=
  let d := set_seq d 0 in
  let len := zlen (f_data f) in
  if f_cr f =? rem_resp d then (d, [OErr MDL_CAUSE_FRM_UNIMPL]) else
  if f_more f || (len >? c_n201 (d_cfg d)) then (d, [OErr MDL_CAUSE_UFRM_INC_PARAM]) else
  let accept (d : ldl) : ldl * list lout :=
    let o := send_ua d (f_pf f) (f_data f) in
    let d := set_va (set_vr (set_vs d 0) 0) 0 in
    let d := newstate (flush_hist d) L_MF_EST in
    let d := if c_net (d_cfg d) && negb (len =? 0) then set_cont d (Some (f_data f)) else d in
    (d, [o; OEstInd (f_data f)]) in
  match d_st d with
  | L_IDLE => accept d
  | L_TIMER_RECOV =>
    if negb (len =? 0) then (d, [OErr MDL_CAUSE_SABM_INFO_NOTALL; send_dm d (f_pf f)])
    else accept (stop_t200 d)
  | L_MF_EST =>
    if len =? 0 then accept d
    else match d_cont d with
         | None => (d, [OErr MDL_CAUSE_SABM_MF])
         | Some c => if c_net (d_cfg d) && negb (bytes_eqb c (f_data f)) then (d, [])
                     else (d, [send_ua d (f_pf f) (f_data f)])
         end
  | L_DISC_SENT => (stop_t200 d, [send_dm d (f_pf f); OEstInd []])
  | _ =>
    let o := match d_hist d 0 with
             | Some (x, _) => if zlen x =? 0 then [] else [OErr MDL_CAUSE_SABM_INFO_NOTALL]
             | None => []
             end in
    (d, o ++ [send_ua d (f_pf f) (f_data f)])
  end.

(* lapd_rx_u_ua, lapd_core.c:1218-1308; in state DISC_SENT nothing is modelled *)
Definition rx_u_ua (d : ldl) (f : frame) : ldl * list lout :=
  let len := zlen (f_data f) in
  if f_cr f =? rem_cmd d then (d, [OErr MDL_CAUSE_FRM_UNIMPL]) else
  if f_more f || (len >? c_n201 (d_cfg d)) then (d, [OErr MDL_CAUSE_UFRM_INC_PARAM]) else
  if negb (f_pf f) then (d, []) else
  match d_st d with
  | L_SABM_SENT =>
    let d := stop_t200 d in
    let mismatch := match d_hist d 0 with
                    | Some (x, _) => negb (zlen x =? 0) && negb (bytes_eqb x (f_data f))
                    | None => false
                    end in
    if mismatch then (newstate (flush_send (flush_hist d)) L_IDLE, [ORelInd])
    else
      let d := set_va (set_vr (set_vs d 0) 0) 0 in
      let d := newstate (flush_hist d) L_MF_EST in
      let '(d, _, os) := lapd_send_i d in (d, os ++ [OEstConf])
  | L_MF_EST | L_TIMER_RECOV => (d, [OErr MDL_CAUSE_UNSOL_UA_RESP])
  | _ => (d, [])
  end.

(* lapd_ph_data_ind, lapd_core.c:1772-1792, and lapd_rx_u, lapd_core.c:1327-1350.  Simplified: of the U
   frames only SABM(E) and UA are modelled; the others change nothing here. *)
Definition ph_data_ind (d : ldl) (f : frame) (rsp : list (list Z)) : ldl * list lout :=
  match f_fmt f with
  | FmtI => rx_i d f rsp
  | FmtS => rx_s d f
  | FmtU => if (f_su f =? LAPD_U_SABM) || (f_su f =? LAPD_U_SABME) then rx_u_sabm d f
            else if f_su f =? LAPD_U_UA then rx_u_ua d f else (d, [])
  end.

(* ------------------------------------------------------------------ *)
(* Two data links over one physical link.  Not in the code: the surroundings lapd_core.c works in. *)

Inductive side := SideA | SideB.

(* l_ab, l_ba: the frames under way, oldest first; l_sub_x: the DL-DATA requests made at x, oldest first;
   l_del_x: the DL-DATA indications given at x; l_err_x: the MDL-ERROR indications given at x *)
Record lsys := mkSys {
  l_a : ldl; l_b : ldl; l_ab : list frame; l_ba : list frame;
  l_sub_a : list (list Z); l_sub_b : list (list Z); l_del_a : list (list Z); l_del_b : list (list Z);
  l_err_a : list Z; l_err_b : list Z }.

(* what happens next: layer 3 requests the transfer of a message; the oldest frame on the way to x arrives
   there, and layer 3 answers an indicated message with the requests rsp; a frame on the way to x is lost (or
   discarded because of its checksum); a pending timer of x expires *)
Inductive lev :=
| EReq (x : side) (m : list Z)
| EArrive (x : side) (rsp : list (list Z))
| ELose (x : side) (i : nat)
| ET200 (x : side)
| ET203 (x : side).

Definition frames_of (os : list lout) : list frame :=
  concat (map (fun o => match o with OFrame f => [f] | _ => [] end) os).
Definition datas_of (os : list lout) : list (list Z) :=
  concat (map (fun o => match o with OData m => [m] | _ => [] end) os).
Definition errs_of (os : list lout) : list Z :=
  concat (map (fun o => match o with OErr c => [c] | _ => [] end) os).

Definition drop_at {A} (i : nat) (l : list A) : list A := firstn i l ++ skipn (S i) l.

(* the state with side x's data link replaced and its outputs carried out; sub: further requests made *)
Definition after (s : lsys) (x : side) (r : ldl * list lout) (sub : list (list Z)) : lsys :=
  let '(d, os) := r in
  match x with
  | SideA => mkSys d (l_b s) (l_ab s ++ frames_of os) (l_ba s) (l_sub_a s ++ sub) (l_sub_b s)
               (l_del_a s ++ datas_of os) (l_del_b s) (l_err_a s ++ errs_of os) (l_err_b s)
  | SideB => mkSys (l_a s) d (l_ab s) (l_ba s ++ frames_of os) (l_sub_a s) (l_sub_b s ++ sub)
               (l_del_a s) (l_del_b s ++ datas_of os) (l_err_a s) (l_err_b s ++ errs_of os)
  end.

Definition dl_of (s : lsys) (x : side) : ldl := match x with SideA => l_a s | SideB => l_b s end.
(* the frames on the way to x *)
Definition chan_to (s : lsys) (x : side) : list frame := match x with SideA => l_ba s | SideB => l_ab s end.
Definition set_chan_to (s : lsys) (x : side) (c : list frame) : lsys :=
  match x with
  | SideA => mkSys (l_a s) (l_b s) (l_ab s) c (l_sub_a s) (l_sub_b s) (l_del_a s) (l_del_b s) (l_err_a s) (l_err_b s)
  | SideB => mkSys (l_a s) (l_b s) c (l_ba s) (l_sub_a s) (l_sub_b s) (l_del_a s) (l_del_b s) (l_err_a s) (l_err_b s)
  end.

(* neither end has given up: no MDL-ERROR indication with cause T200_EXPIRED *)
Definition gave_up (s : lsys) : bool :=
  existsb (Z.eqb MDL_CAUSE_T200_EXPIRED) (l_err_a s ++ l_err_b s).

(* messages handed over in an answer count as requested only when an indication was given and they are
   not empty (lapd_data_req refuses empty ones) *)
Definition accepted (ms : list (list Z)) : list (list Z) := filter (fun m => negb (zlen m =? 0)) ms.

Definition lstep (s : lsys) (e : lev) : option lsys :=
  if gave_up s then None else
  match e with
  | EReq x m => Some (after s x (data_req (dl_of s x) m) (accepted [m]))
  | EArrive x rsp =>
    match chan_to s x with
    | [] => None
    | f :: c =>
      let r := ph_data_ind (dl_of s x) f rsp in
      Some (after (set_chan_to s x c) x r (match datas_of (snd r) with [] => [] | _ => accepted rsp end))
    end
  | ELose x i => if (Nat.ltb i (length (chan_to s x))) then Some (set_chan_to s x (drop_at i (chan_to s x))) else None
  | ET200 x => if d_t200 (dl_of s x) then Some (after s x (t200_cb (dl_of s x)) []) else None
  | ET203 x => if d_t203 (dl_of s x) then Some (after s x (t203_cb (dl_of s x)) []) else None
  end.

Fixpoint lrun (s : lsys) (es : list lev) : option lsys :=
  match es with
  | [] => Some s
  | e :: es' => match lstep s e with Some s' => lrun s' es' | None => None end
  end.
