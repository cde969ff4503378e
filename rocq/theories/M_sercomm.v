(* M_sercomm.v - model of src/core/sercomm.c.
   A transmit message is the list of its octets from data to tail together with its headroom; the received msgb is the list
   of its octets, its tailroom is msg_size minus their number (osmo_sercomm_alloc_msgb, sercomm.h:105-108).
   Not modelled: locking (empty functions in the library build), osmo_sercomm_change_speed (busy waiting), failing allocation. *)
From Verif Require Import Base S_sercomm.

Definition HDLC_FLAG := 126.
Definition HDLC_ESCAPE := 125.
Definition HDLC_C_UI := 3.
Definition DLCI_MAX := 129.      (* sercomm.h:17-25 _SC_DLCI_MAX *)
(* enum rx_state, sercomm.c:59-65 *)
Inductive rxst := WAIT_START | ST_ADDR | ST_CTRL | ST_DATA | ST_ESCAPE.

Record sc_tx := mktx {
  tx_q : list (list (list Z));      (* dlci_queues[129]: messages with header *)
  tx_msg : option (list Z);         (* octets from next_char to msg->tail; None: tx.msg == NULL *)
  tx_st : rxst
}.
(* sercomm.c:74-87 osmo_sercomm_init, transmit side; the state is zero-initialised *)
Definition tx_init : sc_tx := mktx (repeat [] (Z.to_nat DLCI_MAX)) None WAIT_START.

(* sercomm.c:102-120 osmo_sercomm_sendmsg; dlci is a uint8_t, the array has 129 entries; msgb_push aborts without headroom *)
Definition osmo_sercomm_sendmsg (s : sc_tx) (dlci : Z) (headroom : Z) (payload : list Z) : res sc_tx :=
  if headroom <? 2 then Abort else
  do q <- rd (tx_q s) dlci ;;
  do qs <- wr (tx_q s) dlci (q ++ [dlci :: HDLC_C_UI :: payload]) ;;
  Ok (mktx qs (tx_msg s) (tx_st s)).

(* sercomm.c:126-136 osmo_sercomm_tx_queue_depth *)
Definition osmo_sercomm_tx_queue_depth (s : sc_tx) (dlci : Z) : res Z := do q <- rd (tx_q s) dlci ;; Ok (u32 (zlen q)).

(* sercomm.c:193-197: first message of the first queue that has one *)
Fixpoint deq_first (qs : list (list (list Z))) : option (list Z * list (list (list Z))) :=
  match qs with
  | [] => None
  | (m :: q) :: r => Some (m, q :: r)
  | [] :: r => match deq_first r with Some (m, r') => Some (m, [] :: r') | None => None end
  end.

(* sercomm.c:179-238 osmo_sercomm_drv_pull; result: octet (None: returns 0) and new state *)
Definition osmo_sercomm_drv_pull (s : sc_tx) : res (option Z * sc_tx) :=
  match tx_msg s with
  | None =>
    match deq_first (tx_q s) with
    | Some (m, qs) => Ok (Some HDLC_FLAG, mktx qs (Some m) (tx_st s))
    | None => Ok (None, s)
    end
  | Some rest =>
    match tx_st s with
    | ST_ESCAPE =>
      match rest with
      | c :: r => Ok (Some c, mktx (tx_q s) (Some r) ST_DATA)
      | [] => UB      (* would read beyond the message *)
      end
    | _ =>
      match rest with
      | [] => Ok (Some HDLC_FLAG, mktx (tx_q s) None (tx_st s))
      | c :: r =>
        if (c =? HDLC_FLAG) || (c =? HDLC_ESCAPE) || (c =? 0)
        then Ok (Some HDLC_ESCAPE, mktx (tx_q s) (Some (Z.lxor c (Z.shiftl 1 5) :: r)) ST_ESCAPE)
        else Ok (Some c, mktx (tx_q s) (Some r) (tx_st s))
      end
    end
  end.

(* ---- receiver ---- *)
Record sc_rx := mkrx {
  rx_size : Z;                  (* msg_size *)
  rx_msg : option (list Z);     (* None: NULL *)
  rx_st : rxst;
  rx_dlci : Z;
  rx_ctrl : Z
}.
(* sercomm.c:74-87 osmo_sercomm_init, receive side *)
Definition rx_init (msg_size : Z) : sc_rx := mkrx (if msg_size =? 0 then 2048 else msg_size) None WAIT_START 0 0.

(* sercomm.c:258-266 dispatch_rx_msg; h d: a handler is registered for dlci d; the result is what handlers are called with *)
Definition dispatch_rx_msg (h : Z -> bool) (dlci : Z) (msg : list Z) : list smsg :=
  if (DLCI_MAX <=? dlci) || negb (h dlci) then [] else [(dlci, msg)].

(* sercomm.c:272-335 osmo_sercomm_drv_rx_char *)
Definition osmo_sercomm_drv_rx_char (h : Z -> bool) (s : sc_rx) (ch : Z) : list smsg * sc_rx :=
  let m := match rx_msg s with Some l => l | None => [] end in
  let set m' st := mkrx (rx_size s) m' st (rx_dlci s) (rx_ctrl s) in
  if rx_size s - zlen m =? 0 then ([], set (Some []) WAIT_START) else
  match rx_st s with
  | WAIT_START => if negb (ch =? HDLC_FLAG) then ([], set (Some m) WAIT_START) else ([], set (Some m) ST_ADDR)
  | ST_ADDR => ([], mkrx (rx_size s) (Some m) ST_CTRL ch (rx_ctrl s))
  | ST_CTRL => ([], mkrx (rx_size s) (Some m) ST_DATA (rx_dlci s) ch)
  | ST_DATA =>
    if ch =? HDLC_ESCAPE then ([], set (Some m) ST_ESCAPE)
    else if ch =? HDLC_FLAG then (dispatch_rx_msg h (rx_dlci s) m, set None WAIT_START)
    else ([], set (Some (m ++ [ch])) ST_DATA)
  | ST_ESCAPE => ([], set (Some (m ++ [Z.lxor ch (Z.shiftl 1 5)])) ST_DATA)
  end.

(* histories *)
Fixpoint tx_run (hr : Z) (s : sc_tx) (ops : list scop) : res (list Z) :=
  match ops with
  | [] => Ok []
  | Send m :: t => do s' <- osmo_sercomm_sendmsg s (fst m) hr (snd m) ;; tx_run hr s' t
  | Pull :: t => do r <- osmo_sercomm_drv_pull s ;;
                 do os <- tx_run hr (snd r) t ;; Ok ((match fst r with Some c => [c] | None => [] end) ++ os)
  end.
(* the transmitter after the operations *)
Fixpoint tx_end (hr : Z) (s : sc_tx) (ops : list scop) : res sc_tx :=
  match ops with
  | [] => Ok s
  | Send m :: t => do s' <- osmo_sercomm_sendmsg s (fst m) hr (snd m) ;; tx_end hr s' t
  | Pull :: t => do r <- osmo_sercomm_drv_pull s ;; tx_end hr (snd r) t
  end.
Fixpoint rx_run (h : Z -> bool) (s : sc_rx) (cs : list Z) : list smsg * sc_rx :=
  match cs with
  | [] => ([], s)
  | c :: t => let '(d, s1) := osmo_sercomm_drv_rx_char h s c in let '(ds, s2) := rx_run h s1 t in (d ++ ds, s2)
  end.
