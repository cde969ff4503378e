(* M_hex.v - src/core/utils.c: BCD and hexadecimal conversion. Strings are character lists without the terminating NUL
   (a string of the model contains no 0); destination buffers are lists of cells. *)
From Verif Require Import Base.

(* utils.c:118-124 osmo_bcd2char; the sum is converted to (signed) char *)
Definition bcd2char (bcd : Z) : Z := if bcd <? 10 then s8 (48 + bcd) else s8 (65 + (bcd - 10)).
(* utils.c:130-140 osmo_char2bcd *)
Definition char2bcd (c : Z) : Z :=
  if (48 <=? c) && (c <=? 57) then u8 (c - 48) else
  if (65 <=? c) && (c <=? 70) then u8 (10 + (c - 65)) else
  if (97 <=? c) && (c <=? 102) then u8 (10 + (c - 97)) else 0.

(* utils.c:167-177: loop of osmo_bcd2str; d is the write position, n bounds the iterations by dst_size - 1 *)
Fixpoint bcd2str_loop (dst bcd : list Z) (d i end_nibble : Z) (allow_hex : bool) (rc : Z) (n : nat) : res (list Z * Z * Z) :=
  if negb (i <? end_nibble) then Ok (dst, d, rc) else
  match n with
  | O => Ok (dst, d, rc)                     (* dst == dst_end *)
  | S n =>
      do b <- rd bcd (Z.shiftr i 1) ;;
      let nib := Z.land (if Z.land i 1 =? 0 then b else Z.shiftr b 4) 15 in
      let rc := if negb allow_hex && (9 <? nib) then -22 else rc in
      do dst <- wr dst d (bcd2char nib) ;;
      bcd2str_loop dst bcd (d + 1) (i + 1) end_nibble allow_hex rc n
  end.
(* utils.c:156-183 osmo_bcd2str; dst: the dst_size cells of the destination; returns (buffer, return value).
   end_nibble - start_nibble does not overflow as start_nibble >= 0 and only positive differences matter (checked) *)
Definition bcd2str (dst : list Z) (bcd : list Z) (start_nibble end_nibble : Z) (allow_hex : bool) : res (list Z * Z) :=
  if (zlen dst <? 1) || (start_nibble <? 0) then Ok (dst, -12) else
  do ' (dst, d, rc) <- bcd2str_loop dst bcd 0 start_nibble end_nibble allow_hex 0 (Z.to_nat (zlen dst - 1)) ;;
  do dst <- wr dst d 0 ;;
  if rc <? 0 then Ok (dst, rc) else
  if end_nibble - start_nibble <? -2147483648 then UB else Ok (dst, Z.max 0 (end_nibble - start_nibble)).

(* utils.c:218-238: loop of osmo_str2bcd *)
Fixpoint str2bcd_loop (dst digits : list Z) (i : Z) (allow_hex : bool) (n : nat) : res (list Z) :=
  match n with
  | O => Ok dst
  | S n =>
      let octet := Z.shiftr i 1 in
      do ' (nib, digits) <-
        match digits with
        | c :: r =>
            if (48 <=? c) && (c <=? 57) then Ok (u8 (c - 48), r) else
            if allow_hex && (65 <=? c) && (c <=? 70) then Ok (u8 (10 + (c - 65)), r) else
            if allow_hex && (97 <=? c) && (c <=? 102) then Ok (u8 (10 + (c - 97)), r) else Err (-22)
        | [] => Ok (15, [])
        end ;;
      let nib := Z.land nib 15 in
      do o <- rd dst octet ;;
      do dst <- wr dst octet (if Z.land i 1 =? 0 then Z.lor (Z.land o 240) nib else u8 (Z.lor (Z.shiftl nib 4) (Z.land o 15))) ;;
      str2bcd_loop dst digits (i + 1) allow_hex n
  end.
(* utils.c:201-242 osmo_str2bcd: returns (buffer, octets used); buffer contents on -EINVAL are not reported by the model.
   strlen(digits) + start_nibble is converted to int *)
Definition str2bcd (dst digits : list Z) (start_nibble end_nibble : Z) (allow_hex : bool) : res (list Z * Z) :=
  if (zlen dst =? 0) || (start_nibble <? 0) then Err (-12) else
  let e := if end_nibble <? 0 then let e := s32 (start_nibble + zlen digits) in if Z.land e 1 =? 0 then e else e + 1 else end_nibble in
  if zlen dst <? u32 (Z.quot e 2) then Err (-12) else
  do dst <- str2bcd_loop dst digits start_nibble allow_hex (Z.to_nat (e - start_nibble)) ;;
  Ok (dst, Z.quot e 2).

(* utils.c:260-280: loop of osmo_hexparse; np: nibblepos (unsigned int) *)
Fixpoint hexparse_loop (s b : list Z) (max_len np : Z) : res (list Z * Z) :=
  match s with
  | [] => Ok (b, np)
  | c :: r =>
      if (c =? 32) || (c =? 9) || (c =? 10) || (c =? 13) then hexparse_loop r b max_len np else
      if u32 (Z.shiftl max_len 1) <=? np then Err (-1) else
      do v <- (if (48 <=? c) && (c <=? 57) then Ok (c - 48) else
               if (97 <=? c) && (c <=? 102) then Ok (10 + (c - 97)) else
               if (65 <=? c) && (c <=? 70) then Ok (10 + (c - 65)) else Err (-1)) ;;
      do o <- rd b (Z.shiftr np 1) ;;
      do b <- wr b (Z.shiftr np 1) (u8 (Z.lor o (Z.shiftl v (if Z.land np 1 =? 0 then 4 else 0)))) ;;
      hexparse_loop r b max_len (u32 (np + 1))
  end.
(* utils.c:250-288 osmo_hexparse: b has at least max_len cells, the first max_len are cleared; returns (b, count) *)
Definition hexparse (s b : list Z) (max_len : Z) : res (list Z * Z) :=
  if zlen b <? max_len then UB else
  do ' (b, np) <- hexparse_loop s (repeat 0 (Z.to_nat max_len) ++ skipn (Z.to_nat max_len) b) max_len 0 ;;
  if negb (Z.land np 1 =? 0) then Err (-1) else Ok (b, Z.shiftr np 1).

(* utils.c:291 hex_chars *)
Definition hex_chars := [48;49;50;51;52;53;54;55;56;57;97;98;99;100;101;102].
(* utils.c:335-338: copying the delimiter *)
Fixpoint delim_copy (out delim : list Z) (cur len_remain : Z) : res (list Z * Z) :=
  match delim with
  | [] => Ok (out, cur)
  | c :: r => if 1 <? len_remain then do out <- wr out cur c ;; delim_copy out r (cur + 1) (len_remain - 1) else Ok (out, cur)
  end.
(* utils.c:322-339; i counts up to len *)
Fixpoint hexdump_loop (out buf delim : list Z) (cur i len : Z) (after_last : bool) (n : nat) : res (list Z * Z) :=
  match n with
  | O => Ok (out, cur)
  | S n =>
      let len_remain := s32 (u64 (zlen out - cur - 1)) in
      if (len_remain <? s32 (2 + zlen delim)) && negb (negb after_last && (i =? len - 1) && (2 <=? len_remain)) then Ok (out, cur) else
      do b <- rd buf i ;;
      do h <- rd hex_chars (Z.shiftr b 4) ;;
      do out <- wr out cur h ;;
      do l <- rd hex_chars (Z.land b 15) ;;
      do out <- wr out (cur + 1) l ;;
      if (i =? len - 1) && negb after_last then Ok (out, cur + 2) else
      do ' (out, cur) <- delim_copy out delim (cur + 2) len_remain ;;
      hexdump_loop out buf delim cur (i + 1) len after_last n
  end.
(* utils.c:309-342 osmo_hexdump_buf, out: the out_buf_size cells; returns (out, strlen) *)
Definition hexdump_buf (out buf : list Z) (len : Z) (delim : list Z) (after_last : bool) : res (list Z * Z) :=
  if zlen out =? 0 then Ok (out, 0) else
  do ' (out, cur) <- hexdump_loop out buf delim 0 0 len after_last (Z.to_nat len) ;;
  do out <- wr out cur 0 ;;
  Ok (out, cur).

(* utils.c:351-379 osmo_ubit_dump_buf (buf_len = 0 wraps the limit: out of bounds) *)
Definition ubit_char (b : Z) : Z := if b =? 0 then 48 else if b =? 255 then 63 else if b =? 1 then 49 else 69.
Definition ubit_dump_buf (buf bits : list Z) (len : Z) : res (list Z) :=
  if zlen buf =? 0 then UB else
  let len := if zlen buf - 1 <? len then zlen buf - 1 else len in
  if zlen bits <? len then UB else
  Ok (map ubit_char (firstn (Z.to_nat len) bits) ++ repeat 0 (Z.to_nat (zlen buf - len))).
