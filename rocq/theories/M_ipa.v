(* M_ipa.v - src/gsm/ipa.c: framing of the IPA multiplex on a stream socket.
   A message is the list of the octets from data to tail and whether l2h has been set (behind the 3 octet header); it is
   allocated by ipa_msg_alloc(0) with 1203 octets, 3 of them headroom, so 1200 are left. Failing allocation is not modelled. *)
From Verif Require Import Base.

Record imsg := mkimsg { idata : list Z; il2 : bool }.

(* The socket: octets that will arrive, and what the successive recv() calls meet: Avail n = no more than n octets are
   waiting (none at all if n = 0: EAGAIN), Intr = EINTR, Closed = the peer has closed, Fail e = another errno e.
   When the list is exhausted nothing is waiting. *)
Inductive tick := Avail (n : Z) | Intr | Closed | Fail (e : Z).
Record sock := mksock { stream : list Z; ticks : list tick }.
Inductive ans := Data (l : list Z) | Zero | Errno (e : Z).
Definition recv (s : sock) (needed : Z) : ans * sock :=
  match ticks s with
  | [] => (Errno EAGAIN, s)
  | Avail n :: t =>
    let k := Z.to_nat (Z.min n needed) in
    match firstn k (stream s) with
    | [] => (Errno EAGAIN, mksock (stream s) t)
    | l => (Data l, mksock (skipn k (stream s)) t)
    end
  | Intr :: t => (Errno 4, mksock (stream s) t)
  | Closed :: t => (Zero, mksock (stream s) t)
  | Fail e :: t => (Errno e, mksock (stream s) t)
  end.

(* ipa.c:52 *)
Definition IPA_ALLOC_SIZE := 1200.
Definition HDR := 3.      (* sizeof(struct ipaccess_head), ipaccess.h:10-14 *)
Definition ROOM := 1200.  (* ipa.c:718-728 ipa_msg_alloc(0): tailroom of the fresh message *)

(* The result of the function: return value, *rmsg (if written), *tmp_msg afterwards, the socket *)
Definition out := (Z * option imsg * option imsg * sock)%type.

(* ipa.c:616-628, 667-679: the handling of recv()'s result common to both reads: Some octets to put, or the value to
   return after discarding the message *)
Definition got (a : ans) : list Z + Z :=
  match a with
  | Data l => inl l
  | Zero => inr 0
  | Errno e => if (e =? EAGAIN) || (e =? 4) then inl [] else inr (- e)
  end.

(* ipa.c:651-713: from "hh = ..." to the end; m has its header *)
Definition recv_body (buffered : bool) (m : imsg) (s : sock) : res out :=
  do b0 <- rd (idata m) 0 ;;
  do b1 <- rd (idata m) 1 ;;
  let len := b0 * 256 + b1 in
  if IPA_ALLOC_SIZE <? len + HDR then Ok (- EIO, None, None, s) else
  let needed := len - (zlen (idata m) - HDR) in
  let finish m s :=
    let ret := zlen (idata m) - HDR in
    if ret =? 0 then Ok (- EAGAIN, None, None, s) else Ok (ret, Some m, None, s) in
  if 0 <? needed then
    if ROOM <? zlen (idata m) + needed then UB else
    let '(a, s) := recv s needed in
    match got a with
    | inr r => Ok (r, None, None, s)
    | inl l =>
      let m := mkimsg (idata m ++ l) true in
      if zlen l <? needed then
        if negb buffered then Ok (- EIO, None, None, s) else Ok (- EAGAIN, None, Some m, s)
      else finish m s
    end
  else finish m s.

(* ipa.c:597-713 ipa_msg_recv_buffered; buffered: tmp_msg is not NULL (tmp is then *tmp_msg) *)
Definition ipa_msg_recv_buffered (buffered : bool) (tmp : option imsg) (s : sock) : res out :=
  let m := match tmp with Some m => m | None => mkimsg [] false end in
  if il2 m then recv_body buffered m s else
  let needed := HDR - zlen (idata m) in
  if (needed <? 0) || (ROOM <? zlen (idata m) + needed) then UB else
  let '(a, s) := recv s needed in
  match got a with
  | inr r => Ok (r, None, None, s)
  | inl l =>
    let m := mkimsg (idata m ++ l) false in
    if zlen l <? needed then
      if zlen (idata m) =? 0 then Ok (- EAGAIN, None, None, s)
      else if negb buffered then Ok (- EIO, None, None, s)
      else Ok (- EAGAIN, None, Some m, s)
    else recv_body buffered (mkimsg (idata m) true) s
  end.

(* ipa.c:568-576 ipa_msg_recv: (return value, errno), message *)
Definition ipa_msg_recv (s : sock) : res (Z * Z * option imsg * sock) :=
  do ' (rc, r, _, s) <- ipa_msg_recv_buffered false None s ;;
  Ok (if rc <? 0 then (-1, - rc, r, s) else (rc, 0, r, s)).

(* ipa.c:552-560 ipa_prepend_header on a message with headroom; proto is stored in a uint8_t *)
Definition ipa_prepend_header (headroom : Z) (payload : list Z) (proto : Z) : res (list Z) :=
  if headroom <? HDR then Abort else
  let l := u16 (u16 (zlen payload + HDR) - HDR) in
  Ok (l / 256 :: l mod 256 :: u8 proto :: payload).

(* a caller polling the socket n times, keeping *tmp_msg between the calls, and stopping at the first error or hangup *)
Fixpoint poll (n : nat) (tmp : option imsg) (s : sock) : res (list (Z * option (list Z)) * option imsg * sock) :=
  match n with
  | O => Ok ([], tmp, s)
  | S n =>
    do ' (rc, r, tmp, s) <- ipa_msg_recv_buffered true tmp s ;;
    let e := (rc, match r with Some m => Some (idata m) | None => None end) in
    if (rc <=? 0) && negb (rc =? - EAGAIN) then Ok ([e], tmp, s) else
    do ' (l, tmp, s) <- poll n tmp s ;; Ok (e :: l, tmp, s)
  end.
