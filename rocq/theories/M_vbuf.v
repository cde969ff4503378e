(** Model of src/vty/buffer.c: the output buffer of the VTY, a queue of chunks of one size.
    Simplifications: allocation succeeds; sizes are below 2^63, so that the size_t sums do not wrap; a chunk's identity is
    its distance from the end of the queue (chunks are only removed at its head and added at its end). *)
From Verif Require Import Base.

(** src/vty/buffer.c:50-60 struct buffer_data: first octet not yet flushed, place for new data, data *)
Record chunk := Chunk { k_sp : Z; k_cp : Z; k_data : list Z }.
(** src/vty/buffer.c:39-47 struct buffer: head .. tail as a list, size of a chunk *)
Record vbuf := Vbuf { v_chunks : list chunk; v_size : Z }.

(** include/osmocom/vty/buffer.h:57-69 buffer_status_t *)
Inductive status := BUFFER_ERROR | BUFFER_EMPTY | BUFFER_PENDING.
Definition EINTR := 4.
(** include/osmocom/vty/vty.h:23-24 ERRNO_IO_RETRY (EWOULDBLOCK is EAGAIN) *)
Definition ERRNO_IO_RETRY (en : Z) : bool := (en =? EAGAIN) || (en =? EINTR).

(** src/vty/buffer.c:71-90 buffer_new; [pgsz]: the page size *)
Definition buffer_new (size pgsz : Z) : vbuf :=
  Vbuf [] (if negb (size =? 0) then size else (Z.quot (4096 - 1) pgsz + 1) * pgsz).

(** The octets data->sp .. data->cp of a chunk; the copying of buffer.c:113 and the vector of buffer.c:401-402 *)
Definition chunk_out (d : chunk) : res (list Z) :=
  if (0 <=? k_sp d) && (k_sp d <=? k_cp d) && (k_cp d <=? zlen (k_data d)) then Ok (zslice (k_data d) (k_sp d) (k_cp d - k_sp d)) else UB.

(** src/vty/buffer.c:100-118 buffer_getstr, with the final NUL *)
Fixpoint getstr_loop (cs : list chunk) : res (list Z) :=
  match cs with [] => Ok [0] | d :: r => do x <- chunk_out d ;; do y <- getstr_loop r ;; Ok (x ++ y) end.
Definition buffer_getstr (b : vbuf) : res (list Z) := getstr_loop (v_chunks b).

(** src/vty/buffer.c:121-124 buffer_empty *)
Definition buffer_empty (b : vbuf) : bool := match v_chunks b with [] => true | _ => false end.

(** src/vty/buffer.c:127-137 buffer_reset *)
Definition buffer_reset (b : vbuf) : vbuf := Vbuf [] (v_size b).

(** src/vty/buffer.c:140-159 buffer_add *)
Definition buffer_add (cs : list chunk) (size : Z) : list chunk := cs ++ [Chunk 0 0 (repeat 0 (Z.to_nat size))].

(** src/vty/buffer.c:162-183 buffer_put; one round of the loop per unit of fuel *)
Fixpoint put_loop (fuel : nat) (size : Z) (cs : list chunk) (p : list Z) : res (list chunk) :=
  match p with
  | [] => Ok cs
  | _ =>
    match fuel with
    | O => Err 0
    | S f =>
      let cs1 := match rev cs with
                 | [] => buffer_add cs size
                 | d :: _ => if k_cp d =? size then buffer_add cs size else cs
                 end in
      match rev cs1 with
      | [] => UB
      | d :: r =>
        let n := if zlen p <=? size - k_cp d then zlen p else size - k_cp d in
        do dat <- memcpy (k_data d) (k_cp d) p 0 n ;;
        put_loop f size (rev r ++ [Chunk (k_sp d) (k_cp d + n) dat]) (skipn (Z.to_nat n) p)
      end
    end
  end.
Definition buffer_put (b : vbuf) (p : list Z) : res vbuf :=
  do cs <- put_loop (length p) (v_size b) (v_chunks b) p ;; Ok (Vbuf cs (v_size b)).
(** src/vty/buffer.c:186-189 buffer_putc *)
Definition buffer_putc (b : vbuf) (c : Z) : res vbuf := buffer_put b [u8 c].
(** strlen and the octets in front of the NUL *)
Fixpoint c_str (l : list Z) : res (list Z) :=
  match l with [] => UB | x :: r => if x =? 0 then Ok [] else do y <- c_str r ;; Ok (x :: y) end.
(** src/vty/buffer.c:192-195 buffer_putstr *)
Definition buffer_putstr (b : vbuf) (c : list Z) : res vbuf := do s <- c_str c ;; buffer_put b s.

(** What the kernel answers to write/writev: so many octets taken (never more than it was offered), or an error. *)
Inductive kern := Wrote (n : Z) | Fail (en : Z).
Definition took (n : Z) (offered : list Z) : Z := Z.max 0 (Z.min n (zlen offered)).

(** src/vty/buffer.c:379-436 buffer_flush_available: gathering the vector, 399-403; MAX_CHUNKS 16, MAX_FLUSH 131072 *)
Fixpoint gather (cs : list chunk) (iovcnt nbyte : Z) : res (list Z) :=
  match cs with
  | [] => Ok []
  | d :: r => if (iovcnt <? 16) && (nbyte <? 131072) then
                do x <- chunk_out d ;;
                do y <- gather r (iovcnt + 1) (nbyte + (k_cp d - k_sp d)) ;; Ok (x ++ y)
              else Ok []
  end.
(** buffer.c:416-432: removing what was written; true if the loop returned BUFFER_PENDING itself *)
Fixpoint consume (cs : list chunk) (written : Z) : list chunk * bool :=
  match cs with
  | [] => ([], false)
  | d :: r => if written <=? 0 then (cs, false) else
              if written <? k_cp d - k_sp d then (Chunk (k_sp d + written) (k_cp d) (k_data d) :: r, true)
              else consume r (written - (k_cp d - k_sp d))
  end.
(** The whole of it, with errno before; result: status, buffer, errno, octets the kernel took. *)
Definition flush_available (b : vbuf) (errno : Z) (k : kern) : res (status * vbuf * Z * list Z) :=
  do out <- gather (v_chunks b) 0 0 ;;
  if zlen out =? 0 then Ok (BUFFER_EMPTY, b, errno, []) else
  match k with
  | Fail en => Ok (if ERRNO_IO_RETRY en then BUFFER_PENDING else BUFFER_ERROR, b, en, [])
  | Wrote n0 =>
      let n := took n0 out in
      let '(cs, pend) := consume (v_chunks b) n in
      let b' := Vbuf cs (v_size b) in
      Ok (if pend then BUFFER_PENDING else match cs with [] => BUFFER_EMPTY | _ => BUFFER_PENDING end,
          b', errno, firstn (Z.to_nat n) out)
  end.

(** src/vty/buffer.c:199-218 buffer_flush_all, as far as the kernel has answered (no status: it waits for an answer) *)
Fixpoint flush_loop (b : vbuf) (errno : Z) (ks : list kern) (head : nat) (head_sp : Z) : res (option status * vbuf * Z * list Z) :=
  match ks with
  | [] => Ok (None, b, errno, [])
  | k :: ks' =>
    do r <- flush_available b errno k ;;
    let '(ret, b1, en1, w) := r in
    match ret with
    | BUFFER_PENDING =>
        match v_chunks b1 with
        | [] => UB
        | d :: _ =>
          if (length (v_chunks b1) =? head)%nat && (head_sp =? k_sp d) && negb (en1 =? EINTR) then Ok (Some BUFFER_PENDING, b1, en1, w)
          else do r2 <- flush_loop b1 en1 ks' (length (v_chunks b1)) (k_sp d) ;;
               let '(ret2, b2, en2, w2) := r2 in Ok (ret2, b2, en2, w ++ w2)
        end
    | _ => Ok (Some ret, b1, en1, w)
    end
  end.
Definition flush_all (b : vbuf) (errno : Z) (ks : list kern) : res (option status * vbuf * Z * list Z) :=
  match v_chunks b with
  | [] => Ok (Some BUFFER_EMPTY, b, errno, [])
  | d :: _ => flush_loop b errno ks (length (v_chunks b)) (k_sp d)
  end.

(** src/vty/buffer.c:438-467 buffer_write *)
Definition buffer_write (b : vbuf) (p : list Z) (errno : Z) (k : kern) : res (status * vbuf * Z * list Z) :=
  match v_chunks b, k with
  | [], Fail en => if ERRNO_IO_RETRY en then
                     do b1 <- buffer_put b p ;; Ok (if buffer_empty b1 then BUFFER_EMPTY else BUFFER_PENDING, b1, en, [])
                   else Ok (BUFFER_ERROR, b, en, [])
  | [], Wrote n0 =>
                   let n := took n0 p in
                   do b1 <- (if n <? zlen p then buffer_put b (skipn (Z.to_nat n) p) else Ok b) ;;
                   Ok (if buffer_empty b1 then BUFFER_EMPTY else BUFFER_PENDING, b1, errno, firstn (Z.to_nat n) p)
  | _, _ => do b1 <- buffer_put b p ;; Ok (if buffer_empty b1 then BUFFER_EMPTY else BUFFER_PENDING, b1, errno, [])
  end.
