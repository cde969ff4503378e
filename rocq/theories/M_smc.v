(** Model of src/gsm/gsm0411_smc.c: the SMS control layer of TS 04.11 (SMC entity).
    Simplifications: the two call-backs are outputs, they do not call back into the instance and their return value is
    left out; logging is left out; the return code of the calls is left out. *)
From Verif Require Import Base.

(** include/osmocom/gsm/protocol/gsm_04_11.h:10-15 enum gsm411_cp_state *)
Definition CPS_IDLE := 0. Definition CPS_MM_CONN_PENDING := 1.
Definition CPS_WAIT_CP_ACK := 2. Definition CPS_MM_ESTABLISHED := 3.
(** gsm_04_11.h:29-31,45,111 *)
Definition MT_CP_DATA := 1. Definition MT_CP_ACK := 4. Definition MT_CP_ERROR := 16.
Definition CAUSE_MSGTYPE_NOTEXIST := 97. Definition TMR_TC1A_SEC := 30.
(** include/osmocom/gsm/gsm0411_smc.h:10-19 *)
Definition MMSMS_EST_REQ := 784. Definition MMSMS_EST_IND := 786. Definition MMSMS_EST_CNF := 785.
Definition MMSMS_REL_REQ := 800. Definition MMSMS_REL_IND := 802.
Definition MMSMS_DATA_REQ := 816. Definition MMSMS_DATA_IND := 818.
(** gsm0411_smc.h:21-27 *)
Definition MNSMS_ABORT_REQ := 257. Definition MNSMS_DATA_REQ := 258. Definition MNSMS_DATA_IND := 259.
Definition MNSMS_EST_REQ := 260. Definition MNSMS_EST_IND := 261. Definition MNSMS_ERROR_IND := 262.
Definition MNSMS_REL_REQ := 263.
(** src/gsm/gsm0411_smc.c:74 MAX_SMS_RETRY *)
Definition MAX_SMS_RETRY := 2.
(** src/gsm/gsm0411_utils.c:47-48: room for data in a fresh message buffer *)
Definition ALLOC_ROOM := 1024 - 128.

(** A message buffer: one of the callers' (with an identity of its own) or a fresh one, and its data. *)
Inductive who := Given (id : Z) | Fresh.
Record msg := Msg { m_who : who; m_data : list Z }.

(** What an instance does to the outside, in order. *)
Inductive out :=
  | MmSend (type : Z) (m : msg) (cp : Z)   (* mm_send, which takes over the message *)
  | MnRecv (type : Z) (m : msg)            (* mn_recv, which only looks at the message *)
  | Free (m : msg)                         (* msgb_free *)
  | TimerStart (sec : Z) | TimerStop.

(** include/osmocom/gsm/gsm0411_smc.h:29-45 struct gsm411_smc_inst; the timer is kept as running or not. *)
Record smc := Smc { c_state : Z; c_timer : bool; c_msg : option msg; c_rel : bool; c_retx : Z; c_max : Z; c_tc1 : Z }.

(** src/gsm/gsm0411_smc.c:79-97 gsm411_smc_init *)
Definition smc_init : smc :=
  Smc CPS_IDLE false None false 0 MAX_SMS_RETRY (Z.quot TMR_TC1A_SEC (MAX_SMS_RETRY + 1)).

Definition set_state (s : smc) (v : Z) : smc := Smc v (c_timer s) (c_msg s) (c_rel s) (c_retx s) (c_max s) (c_tc1 s).
Definition set_timer (s : smc) (v : bool) : smc := Smc (c_state s) v (c_msg s) (c_rel s) (c_retx s) (c_max s) (c_tc1 s).
Definition set_msg (s : smc) (v : option msg) : smc := Smc (c_state s) (c_timer s) v (c_rel s) (c_retx s) (c_max s) (c_tc1 s).
Definition set_rel (s : smc) (v : bool) : smc := Smc (c_state s) (c_timer s) (c_msg s) v (c_retx s) (c_max s) (c_tc1 s).
Definition set_retx (s : smc) (v : Z) : smc := Smc (c_state s) (c_timer s) (c_msg s) (c_rel s) v (c_max s) (c_tc1 s).

(** The recurring "free stored msg" (e.g. gsm0411_smc.c:258-261) *)
Definition drop_msg (s : smc) : smc * list out :=
  match c_msg s with Some m => (set_msg s None, [Free m]) | None => (s, []) end.
(** A fresh empty message, gsm0411_utils.c:52-56 gsm411_msgb_alloc *)
Definition nmsg : msg := Msg Fresh [].

(** src/gsm/gsm0411_smc.c:100-114 gsm411_smc_clear *)
Definition smc_clear (s : smc) : smc * list out :=
  let s := set_timer s false in
  let '(s, o) := drop_msg s in (s, TimerStop :: o).

(** src/gsm/gsm0411_smc.c:146-160 gsm411_tx_cp_error *)
Definition tx_cp_error (cause : Z) : out := MmSend MMSMS_DATA_REQ (Msg Fresh [cause]) MT_CP_ERROR.

(** src/gsm/gsm0411_smc.c:163-182 gsm411_mnsms_est_req *)
Definition mnsms_est_req (s : smc) (m : msg) : res (smc * list out) :=
  let o := match c_msg s with Some old => [Free old] | None => [] end in
  let s := set_msg s (Some m) in
  let s := set_state s CPS_MM_CONN_PENDING in
  let s := set_rel s false in
  Ok (s, o ++ [MmSend MMSMS_EST_REQ nmsg 0]).

(** src/gsm/gsm0411_smc.c:184-206 gsm411_mmsms_send_msg; msgb_put panics when the message does not fit *)
Definition mmsms_send_msg (s : smc) (m : msg) : res (smc * list out) :=
  let s := if negb (c_state s =? CPS_WAIT_CP_ACK) then set_retx s 0 else s in
  let s := set_state s CPS_WAIT_CP_ACK in
  let s := set_timer s true in
  if ALLOC_ROOM <? zlen (m_data m) then Abort else
  Ok (s, [TimerStart (c_tc1 s); MmSend MMSMS_DATA_REQ (Msg Fresh (m_data m)) MT_CP_DATA]).

(** src/gsm/gsm0411_smc.c:208-219 gsm411_mmsms_est_cnf *)
Definition mmsms_est_cnf (s : smc) : res (smc * list out) :=
  match c_msg s with None => Ok (s, []) | Some m => mmsms_send_msg s m end.

(** src/gsm/gsm0411_smc.c:222-253 cp_timer_expired *)
Definition cp_timer_expired (s : smc) : res (smc * list out) :=
  if c_retx s =? c_max s then
    let s := set_state s CPS_IDLE in
    let '(s, o) := drop_msg s in
    Ok (s, [MnRecv MNSMS_ERROR_IND nmsg; Free nmsg] ++ o ++ [MmSend MMSMS_REL_REQ nmsg 0])
  else mmsms_est_cnf (set_retx s (c_retx s + 1)).

(** src/gsm/gsm0411_smc.c:255-284 gsm411_mmsms_cp_ack *)
Definition mmsms_cp_ack (s : smc) : res (smc * list out) :=
  let '(s, o) := drop_msg s in
  let s := set_state s CPS_MM_ESTABLISHED in
  let s := set_timer s false in
  if c_rel s then Ok (set_state s CPS_IDLE, o ++ [TimerStop; MmSend MMSMS_REL_REQ nmsg 0])
  else Ok (s, o ++ [TimerStop]).

(** src/gsm/gsm0411_smc.c:286-307 gsm411_mmsms_cp_data *)
Definition mmsms_cp_data (s : smc) (m : msg) : res (smc * list out) :=
  let '(s, mt) := if c_state s =? CPS_IDLE then (set_rel (set_state s CPS_MM_ESTABLISHED) false, MNSMS_EST_IND)
                  else (s, MNSMS_DATA_IND) in
  Ok (s, [MmSend MMSMS_DATA_REQ nmsg MT_CP_ACK; MnRecv mt m]).

(** src/gsm/gsm0411_smc.c:310-323 gsm411_mnsms_data_req *)
Definition mnsms_data_req (s : smc) (m : msg) : res (smc * list out) :=
  let o := match c_msg s with Some old => [Free old] | None => [] end in
  do r <- mmsms_send_msg (set_msg s (Some m)) m ;;
  let '(s, o2) := r in Ok (s, o ++ o2).

(** src/gsm/gsm0411_smc.c:326-355 gsm411_mnsms_rel_req *)
Definition mnsms_rel_req (s : smc) (m : msg) : res (smc * list out) :=
  if c_state s =? CPS_IDLE then Ok (s, [Free m]) else
  if negb (c_state s =? CPS_MM_ESTABLISHED) then Ok (set_rel s true, [Free m]) else
  let '(s, o) := drop_msg s in
  Ok (set_state s CPS_IDLE, Free m :: o ++ [MmSend MMSMS_REL_REQ nmsg 0]).

(** src/gsm/gsm0411_smc.c:357-376 gsm411_mmsms_cp_error *)
Definition mmsms_cp_error (s : smc) (m : msg) : res (smc * list out) :=
  let '(s, o) := drop_msg s in
  Ok (set_state s CPS_IDLE, o ++ [MnRecv MNSMS_ERROR_IND m; MmSend MMSMS_REL_REQ nmsg 0]).

(** src/gsm/gsm0411_smc.c:378-398 gsm411_mmsms_rel_ind *)
Definition mmsms_rel_ind (s : smc) : res (smc * list out) :=
  let '(s, o) := drop_msg s in
  Ok (set_state s CPS_IDLE, o ++ [MnRecv MNSMS_ERROR_IND nmsg; Free nmsg]).

(** src/gsm/gsm0411_smc.c:401-419 gsm411_mnsms_abort_req *)
Definition mnsms_abort_req (s : smc) (m : msg) : res (smc * list out) :=
  let '(s, o) := drop_msg s in
  Ok (set_state s CPS_IDLE, o ++ [MmSend MMSMS_DATA_REQ m MT_CP_ERROR; MmSend MMSMS_REL_REQ nmsg 0]).

(** include/osmocom/gsm/protocol/gsm_04_08.h:2119-2120 SBIT, ALL_STATES *)
Definition SBIT (a : Z) : Z := Z.shiftl 1 a.
Definition ALL_STATES : Z := 4294967295.

(** src/gsm/gsm0411_smc.c:422-448 smcdownstatelist *)
Definition smcdownstatelist : list (Z * Z * (smc -> msg -> res (smc * list out))) :=
  [ (SBIT CPS_IDLE, MNSMS_EST_REQ, mnsms_est_req);
    (ALL_STATES, MNSMS_REL_REQ, mnsms_rel_req);
    (SBIT CPS_MM_ESTABLISHED, MNSMS_DATA_REQ, mnsms_data_req);
    (u32 (ALL_STATES - SBIT CPS_IDLE), MNSMS_ABORT_REQ, mnsms_abort_req) ].

(** src/gsm/gsm0411_smc.c:454-480 gsm411_smc_send *)
Definition smc_send (s : smc) (msg_type : Z) (m : msg) : res (smc * list out) :=
  match find (fun e => (msg_type =? snd (fst e)) && negb (Z.land (SBIT (c_state s)) (fst (fst e)) =? 0)) smcdownstatelist with
  | None => Ok (s, [Free m])
  | Some e => snd e s m
  end.

(** src/gsm/gsm0411_smc.c:483-520 smcdatastatelist *)
Definition smcdatastatelist : list (Z * Z * Z * (smc -> msg -> res (smc * list out))) :=
  [ (SBIT CPS_MM_CONN_PENDING, MMSMS_EST_CNF, 0, fun s _ => mmsms_est_cnf s);
    (SBIT CPS_IDLE, MMSMS_EST_IND, MT_CP_DATA, mmsms_cp_data);
    (SBIT CPS_MM_ESTABLISHED, MMSMS_DATA_IND, MT_CP_DATA, mmsms_cp_data);
    (SBIT CPS_WAIT_CP_ACK, MMSMS_DATA_IND, MT_CP_ACK, fun s _ => mmsms_cp_ack s);
    (ALL_STATES, MMSMS_DATA_IND, MT_CP_ERROR, mmsms_cp_error);
    (u32 (ALL_STATES - SBIT CPS_IDLE), MMSMS_REL_IND, 0, fun s _ => mmsms_rel_ind s) ].

(** src/gsm/gsm0411_smc.c:528-580 gsm411_smc_recv *)
Definition smc_recv (s : smc) (msg_type : Z) (m : msg) (cp_msg_type : Z) : res (smc * list out) :=
  match find (fun e => (msg_type =? snd (fst (fst e))) && negb (Z.land (SBIT (c_state s)) (fst (fst (fst e))) =? 0)
                       && (negb (msg_type =? MMSMS_DATA_IND) || (cp_msg_type =? snd (fst e)))) smcdatastatelist with
  | None =>
      if (msg_type =? MMSMS_EST_IND) || (msg_type =? MMSMS_DATA_IND) then
        Ok (set_state s CPS_IDLE,
            [tx_cp_error CAUSE_MSGTYPE_NOTEXIST; MnRecv MNSMS_ERROR_IND nmsg; Free nmsg; MmSend MMSMS_REL_REQ nmsg 0])
      else Ok (s, [])
  | Some e => snd e s m
  end.

(** Everything that can happen to an instance; the timer calls back at most once per start (src/core/timer.c). *)
Inductive ev := Send (type : Z) (m : msg) | Recv (type : Z) (m : msg) (cp : Z) | Expire | Clear.
Definition step (s : smc) (e : ev) : res (smc * list out) :=
  match e with
  | Send t m => smc_send s t m
  | Recv t m cp => smc_recv s t m cp
  | Expire => if c_timer s then cp_timer_expired (set_timer s false) else Ok (s, [])
  | Clear => Ok (smc_clear s)
  end.

(** A caller that clears the instance (gsm411_smc_clear) each time a call or a timeout leaves it idle. *)
Definition tidy_step (s : smc) (e : ev) : res (smc * list out) :=
  do r <- step s e ;;
  let '(s1, o1) := r in
  if c_state s1 =? CPS_IDLE then let '(s2, o2) := smc_clear s1 in Ok (s2, o1 ++ o2) else Ok (s1, o1).

(** A history: every event with what the instance did on it. *)
Fixpoint history (f : smc -> ev -> res (smc * list out)) (s : smc) (es : list ev) : res (smc * list (ev * list out)) :=
  match es with
  | [] => Ok (s, [])
  | e :: es' => do r <- f s e ;; let '(s1, o) := r in
                do r2 <- history f s1 es' ;; let '(s2, h) := r2 in Ok (s2, (e, o) :: h)
  end.
