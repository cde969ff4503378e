(** Model of src/core/soft_uart.c. *)
From Coq Require Import ZArith List Lia Bool.
From Verif Require Import Base S_suart.
Import ListNotations.
Open Scope Z_scope.

(** soft_uart.c:32-37 enum suart_flow_state *)
Inductive flow := IDLE | DATA | PARITY | STOP.

(** soft_uart.c:40-63 struct osmo_soft_uart.  [conf] holds num_data_bits, num_stop_bits and
    parity_mode; rx_cb is set (the calls are recorded in [rx_out] as (octets, flags)); the receive
    timer is not kept: its only effect, osmo_soft_uart_flush_rx, may happen at any time.
    [rx_msg] is None or (allocated size, contents). *)
Record rx_st := Rx { rx_run : bool; rx_cnt : Z; rx_shift : Z; rx_msg : option (Z * list Z);
                     rx_par : Z; rx_flags : Z; rx_flow : flow; rx_out : list (list Z * Z) }.
Record tx_st := Tx { tx_run : bool; tx_cnt : Z; tx_shift : Z; tx_par : Z; tx_flow : flow }.

Definition F_FRAMING := 1. Definition F_PARITY := 2.

(** soft_uart.c:80-92 osmo_soft_uart_flush_rx; msgb_alloc_c takes a uint16_t size *)
Definition flush_rx (bufsz : Z) (s : rx_st) : rx_st :=
  match rx_msg s with
  | Some (cap, d) =>
    if zlen d =? 0 then s
    else Rx (rx_run s) (rx_cnt s) (rx_shift s) (Some (u16 bufsz, [])) (rx_par s) (rx_flags s) (rx_flow s)
            (rx_out s ++ [(d, rx_flags s)])
  | None => s
  end.

(** soft_uart.c:95-111 suart_rx_ch; msgb_put_u8 panics when the msgb is full *)
Definition rx_ch (bufsz : Z) (s : rx_st) (ch : Z) : res rx_st :=
  match rx_msg s with
  | None => Abort
  | Some (cap, d) =>
    if zlen d + 1 <=? cap then
      let s' := Rx (rx_run s) (rx_cnt s) (rx_shift s) (Some (cap, d ++ [ch])) (rx_par s) (rx_flags s) (rx_flow s) (rx_out s) in
      if (bufsz <=? zlen d + 1) || negb (rx_flags s =? 0) then Ok (flush_rx bufsz s') else Ok s'
    else Abort
  end.

(** soft_uart.c:114-185 suart_rx_bit *)
Definition rx_bit (c : conf) (bufsz : Z) (s : rx_st) (bit : Z) : res rx_st :=
  match rx_flow s with
  | IDLE =>
    if bit =? 0 then Ok (Rx (rx_run s) 0 0 (rx_msg s) 0 0 DATA (rx_out s)) else Ok s
  | DATA =>
    let cnt := u8 (rx_cnt s + 1) in
    let sh := Z.shiftr (rx_shift s) 1 in
    let par' := if negb (bit =? 0) then (if rx_par s =? 0 then 1 else 0) else rx_par s in
    let sh := if negb (bit =? 0) then Z.lor sh 128 else sh in
    if ndata c <=? cnt then
      let fl := match par c with PNone => STOP | _ => PARITY end in
      let sh := if ndata c <? 8 then Z.shiftr sh (8 - ndata c) else sh in
      Ok (Rx (rx_run s) cnt sh (rx_msg s) par' (rx_flags s) fl (rx_out s))
    else Ok (Rx (rx_run s) cnt sh (rx_msg s) par' (rx_flags s) DATA (rx_out s))
  | PARITY =>
    let err := match par c with
               | PEven => negb (rx_par s =? bit)
               | POdd => rx_par s =? bit
               | PMark => negb (bit =? 1)
               | PSpace => negb (bit =? 0)
               | PNone => false
               end in
    match par c with
    | PNone => Abort
    | _ => Ok (Rx (rx_run s) (rx_cnt s) (rx_shift s) (rx_msg s) (rx_par s)
                  (if err then Z.lor (rx_flags s) F_PARITY else rx_flags s) STOP (rx_out s))
    end
  | STOP =>
    let cnt := u8 (rx_cnt s + 1) in
    let flags := if negb (bit =? 1) then Z.lor (rx_flags s) F_FRAMING else rx_flags s in
    let s := Rx (rx_run s) cnt (rx_shift s) (rx_msg s) (rx_par s) flags STOP (rx_out s) in
    if ndata c + nstop c <=? cnt then
      do s' <- rx_ch bufsz s (rx_shift s) ;;
      Ok (Rx (rx_run s') (rx_cnt s') (rx_shift s') (rx_msg s') (rx_par s') (rx_flags s') IDLE (rx_out s'))
    else Ok s
  end.
(** soft_uart.c:200-207 osmo_soft_uart_rx_ubits: (return value, state) *)
Fixpoint rx_loop (c : conf) (bufsz : Z) (s : rx_st) (bits : list Z) : res rx_st :=
  match bits with [] => Ok s | b :: t => do s' <- rx_bit c bufsz s b ;; rx_loop c bufsz s' t end.
Definition rx_ubits (c : conf) (bufsz : Z) (s : rx_st) (bits : list Z) : res (Z * rx_st) :=
  if negb (rx_run s) then Ok (- EAGAIN, s)
  else do s' <- rx_loop c bufsz s bits ;; Ok (0, s').

(** soft_uart.c:214-276 suart_tx_bit: (bit, state, rest of the msgb) *)
Definition tx_bit (c : conf) (s : tx_st) (msg : list Z) : res (Z * tx_st * list Z) :=
  match tx_flow s with
  | IDLE =>
    match msg with
    | b :: t => Ok (0, Tx (tx_run s) 0 b 0 DATA, t)
    | [] => Ok (1, s, msg)
    end
  | DATA =>
    let bit := Z.land (tx_shift s) 1 in
    let cnt := u8 (tx_cnt s + 1) in
    let fl := if ndata c <=? cnt then (match par c with PNone => STOP | _ => PARITY end) else DATA in
    Ok (bit, Tx (tx_run s) cnt (Z.shiftr (tx_shift s) 1) (Z.lxor (tx_par s) bit) fl, msg)
  | PARITY =>
    let s' := Tx (tx_run s) (tx_cnt s) (tx_shift s) (tx_par s) STOP in
    match par c with
    | PEven => Ok (tx_par s, s', msg)
    | POdd => Ok (if tx_par s =? 0 then 1 else 0, s', msg)
    | PMark => Ok (1, s', msg)
    | PSpace => Ok (0, s', msg)
    | PNone => Abort
    end
  | STOP =>
    let cnt := u8 (tx_cnt s + 1) in
    Ok (1, Tx (tx_run s) cnt (tx_shift s) (tx_par s) (if ndata c + nstop c <=? cnt then IDLE else STOP), msg)
  end.

(** soft_uart.c:279-290 suart_tx_pending *)
Fixpoint tx_pending (n : nat) (c : conf) (s : tx_st) : res (list Z * tx_st) :=
  match n with
  | O => Ok ([], s)
  | S m =>
    match tx_flow s with
    | IDLE => Ok ([], s)
    | _ => do ' (b, s', _) <- tx_bit c s [] ;; do ' (l, s'') <- tx_pending m c s' ;; Ok (b :: l, s'')
    end
  end.
Fixpoint tx_loop (n : nat) (c : conf) (s : tx_st) (msg : list Z) : res (list Z * tx_st * list Z) :=
  match n with
  | O => Ok ([], s, msg)
  | S m => do ' (b, s', msg') <- tx_bit c s msg ;; do ' (l, s'', msg'') <- tx_loop m c s' msg' ;; Ok (b :: l, s'', msg'')
  end.

(** soft_uart.h:51-73 flow control modes; status lines DSR = 4, CTS = 32 *)
Inductive flowctl := FC_NONE | FC_DTR_DSR | FC_RTS_CTS.
Definition held_off (fc : flowctl) (status : Z) : bool :=
  match fc with
  | FC_NONE => false
  | FC_DTR_DSR => negb (Z.testbit status 2)
  | FC_RTS_CTS => negb (Z.testbit status 5)
  end.

(** soft_uart.c:298-356 osmo_soft_uart_tx_ubits.  [cb] is what .tx_cb() puts into the msgb for
    the given size (uint16_t) of it; more than that size makes msgb_put panic.
    Result: (return value, bits, state, characters taken from the call-back, characters left in
    the msgb when it is freed). *)
Definition tx_ubits (c : conf) (fc : flowctl) (status : Z) (s : tx_st) (n : Z) (cb : Z -> list Z)
  : res (Z * list Z * tx_st * list Z * list Z) :=
  if n =? 0 then Ok (- EINVAL, [], s, [], [])
  else if negb (tx_run s) then Ok (- EAGAIN, [], s, [], [])
  else if held_off fc status then
    do ' (l, s') <- tx_pending (Z.to_nat n) c s ;; Ok (zlen l, l, s', [], [])
  else
    let n_frame_bits := 1 + ndata c + nstop c + (match par c with PNone => 0 | _ => 1 end) in
    let n_chars := n / n_frame_bits in
    let n_chars := if n_chars =? 0 then (match tx_flow s with IDLE => 1 | _ => 0 end) else n_chars in
    let msg := if 0 <? n_chars then cb (u16 n_chars) else [] in
    if u16 n_chars <? zlen msg then Abort
    else
      do ' (l, s', rest) <- tx_loop (Z.to_nat n) c s msg ;;
      Ok (n, l, s', msg, rest).

(** soft_uart.c:443-465 osmo_soft_uart_configure: the checks, and the receive buffer (which is
    flushed with the old size when the size or the time-out shrinks; [shrunk_timeout] stands for
    the comparison of the time-outs). *)
Definition configure (bufsz_old : Z) (shrunk_timeout : bool) (c : conf) (bufsz : Z) (s : rx_st) : Z * rx_st :=
  if (8 <? ndata c) || (ndata c =? 0) then (- EINVAL, s)
  else if nstop c =? 0 then (- EINVAL, s)
  else if bufsz =? 0 then (- EINVAL, s)
  else (0, if (bufsz <? bufsz_old) || shrunk_timeout then flush_rx bufsz_old s else s).

(** soft_uart.c:487-501 osmo_soft_uart_set_rx *)
Definition set_rx (bufsz : Z) (s : rx_st) (enable : bool) : rx_st :=
  if negb enable && rx_run s then
    let s := flush_rx bufsz s in
    Rx false (rx_cnt s) (rx_shift s) (rx_msg s) (rx_par s) (rx_flags s) IDLE (rx_out s)
  else if enable && negb (rx_run s) then
    Rx true (rx_cnt s) (rx_shift s) (match rx_msg s with None => Some (u16 bufsz, []) | m => m end)
       (rx_par s) (rx_flags s) IDLE (rx_out s)
  else s.
(** soft_uart.c:507-518 osmo_soft_uart_set_tx *)
Definition set_tx (s : tx_st) (enable : bool) : tx_st :=
  if Bool.eqb enable (tx_run s) then s else Tx enable (tx_cnt s) (tx_shift s) (tx_par s) IDLE.

(** soft_uart.c:411-427 osmo_soft_uart_alloc (talloc_zero) *)
Definition rx_init : rx_st := Rx false 0 0 None 0 0 IDLE [].
Definition tx_init : tx_st := Tx false 0 0 0 IDLE.

(** Drivers (not C code): a history of transmitter pulls, and a history of receiver inputs. *)
Record pull := Pull { p_fc : flowctl; p_status : Z; p_n : Z; p_cb : Z -> list Z }.
Fixpoint pulls (c : conf) (s : tx_st) (l : list pull) : res (list Z * list Z * tx_st) :=
  match l with
  | [] => Ok ([], [], s)
  | p :: t =>
    do ' (_, bits, s', taken, _) <- tx_ubits c (p_fc p) (p_status p) s (p_n p) (p_cb p) ;;
    do ' (bits', taken', s'') <- pulls c s' t ;;
    Ok (bits ++ bits', taken ++ taken', s'')
  end.
Inductive rx_op := Feed (bits : list Z) | Flush.
Definition fed (o : rx_op) : list Z := match o with Feed b => b | Flush => [] end.
Fixpoint rx_ops (c : conf) (bufsz : Z) (s : rx_st) (l : list rx_op) : res rx_st :=
  match l with
  | [] => Ok s
  | Feed b :: t => do ' (_, s') <- rx_ubits c bufsz s b ;; rx_ops c bufsz s' t
  | Flush :: t => rx_ops c bufsz (flush_rx bufsz s) t
  end.
