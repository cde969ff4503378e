(* M_bitvec.v - model of src/core/bitvec.c.  data_len is the length of the data list (bitvec_alloc
   keeps data_len equal to the allocated size).  unsigned int arithmetic wraps (u32).
   Functions return the negative errno values of the C code as Z. *)
From Verif Require Import Base.

Record bitvec := Bv { cur_bit : Z; bdata : list Z }.
Definition data_len (bv : bitvec) : Z := zlen (bdata bv).
(* enum bit_value, include/osmocom/core/bitvec.h:33-39 *)
Definition ZERO := 0. Definition ONE := 1. Definition BL := 2. Definition BH := 3.

(* bitvec.c:56-70 bitval2mask *)
Definition bitval2mask (bit bitnum : Z) : Z :=
  if bit =? ZERO then u8 (Z.shiftl 0 bitnum)
  else if bit =? ONE then u8 (Z.shiftl 1 bitnum)
  else if bit =? BL then u8 (Z.land (Z.lxor 0x2b (Z.shiftl 0 bitnum)) (Z.shiftl 1 bitnum))
  else if bit =? BH then u8 (Z.land (Z.lxor 0x2b (Z.shiftl 1 bitnum)) (Z.shiftl 1 bitnum))
  else 0.

(* bitvec.c:77-92 bitvec_get_bit_pos; the array read is in bounds by the preceding check *)
Definition bitvec_get_bit_pos (bv : bitvec) (bitnr : Z) : Z :=
  let bytenum := bitnr / 8 in
  let bitnum := 7 - bitnr mod 8 in
  if data_len bv <=? bytenum then - EINVAL else
  if negb (Z.land (at0 (bdata bv) bytenum) (bitval2mask ONE bitnum) =? 0) then ONE else ZERO.

(* bitvec.c:99-115 bitvec_get_bit_pos_high *)
Definition bitvec_get_bit_pos_high (bv : bitvec) (bitnr : Z) : Z :=
  let bytenum := bitnr / 8 in
  let bitnum := 7 - bitnr mod 8 in
  if data_len bv <=? bytenum then - EINVAL else
  if Z.land (at0 (bdata bv) bytenum) (Z.shiftl 1 bitnum) =? bitval2mask BH bitnum then BH else BL.

(* bitvec.c:122-135 bitvec_get_nth_set_bit; fuel = data_len*8 iterations *)
Fixpoint nth_set_loop (fuel : nat) (bv : bitvec) (i k n : Z) : Z :=
  match fuel with
  | O => 0
  | S f => if bitvec_get_bit_pos bv i =? ONE then
             let k := u32 (k + 1) in if k =? n then i else nth_set_loop f bv (i + 1) k n
           else nth_set_loop f bv (i + 1) k n
  end.
Definition bitvec_get_nth_set_bit (bv : bitvec) (n : Z) : Z :=
  nth_set_loop (Z.to_nat (u32 (data_len bv * 8))) bv 0 0 n.

(* bitvec.c:143-162 bitvec_set_bit_pos: result code and new vector *)
Definition bitvec_set_bit_pos (bv : bitvec) (bitnr bit : Z) : Z * bitvec :=
  let bytenum := bitnr / 8 in
  let bitnum := 7 - bitnr mod 8 in
  if data_len bv <=? bytenum then (- EINVAL, bv) else
  let old := at0 (bdata bv) bytenum in
  let cleared := u8 (Z.land old (Z.lnot (bitval2mask ONE bitnum))) in
  let v := u8 (Z.lor cleared (bitval2mask bit bitnum)) in
  (0, Bv (cur_bit bv) (upd (bdata bv) (Z.to_nat bytenum) v)).

(* bitvec.c:169-178 bitvec_set_bit *)
Definition bitvec_set_bit (bv : bitvec) (bit : Z) : Z * bitvec :=
  let '(rc, bv') := bitvec_set_bit_pos bv (cur_bit bv) bit in
  if rc =? 0 then (rc, Bv (u32 (cur_bit bv' + 1)) (bdata bv')) else (rc, bv').

(* bitvec.c:182-191 bitvec_get_bit_high *)
Definition bitvec_get_bit_high (bv : bitvec) : Z * bitvec :=
  let rc := bitvec_get_bit_pos_high bv (cur_bit bv) in
  if 0 <=? rc then (rc, Bv (u32 (cur_bit bv + 1)) (bdata bv)) else (rc, bv).

(* bitvec.c:198-210 bitvec_set_bits *)
Fixpoint bitvec_set_bits (bv : bitvec) (bits : list Z) : Z * bitvec :=
  match bits with
  | [] => (0, bv)
  | b :: t => let '(rc, bv') := bitvec_set_bit bv b in
              if negb (rc =? 0) then (rc, bv') else bitvec_set_bits bv' t
  end.

(* bitvec.c:218-238 bitvec_set_u64; n = num_bits - i iterations left, the shift is n - 1 *)
Fixpoint set_u64_loop (n : nat) (bv : bitvec) (v : Z) (use_lh : bool) : Z * bitvec :=
  match n with
  | O => (0, bv)
  | S m =>
    let bit := if negb (Z.land v (Z.shiftl 1 (Z.of_nat m)) =? 0)
               then (if use_lh then BH else 1) else (if use_lh then BL else 0) in
    let '(rc, bv') := bitvec_set_bit bv bit in
    if negb (rc =? 0) then (rc, bv') else set_u64_loop m bv' v use_lh
  end.
Definition bitvec_set_u64 (bv : bitvec) (v num_bits : Z) (use_lh : bool) : Z * bitvec :=
  if 64 <? num_bits then (- E2BIG, bv) else set_u64_loop (Z.to_nat num_bits) bv v use_lh.

(* bitvec.c:242-245 bitvec_set_uint: num_bits is converted to uint8_t *)
Definition bitvec_set_uint (bv : bitvec) (ui num_bits : Z) : Z * bitvec :=
  bitvec_set_u64 bv ui (u8 num_bits) false.

(* bitvec.c:249-258 bitvec_get_int16_msb *)
Definition bitvec_get_int16_msb (bv : bitvec) (num_bits : Z) : res Z :=
  if (15 <? num_bits) || (cur_bit bv <? num_bits) then Ok (- EINVAL) else
  if num_bits <? 9 then do b <- rd (bdata bv) 0 ;; Ok (Z.shiftr b (8 - num_bits))
  else do a <- rd (bdata bv) 0 ;; do b <- rd (bdata bv) 1 ;;
       Ok (Z.shiftr (Z.lor (Z.shiftl a 8) b) (16 - num_bits)).

(* bitvec.c:262-277 bitvec_get_uint; shifting a 32-bit unsigned by 32 or more is UB.
   The unsigned result is converted to int. *)
Fixpoint get_uint_loop (n : nat) (bv : bitvec) (ui : Z) : res (Z * bitvec) :=
  match n with
  | O => Ok (s32 ui, bv)
  | S m =>
    let bit := bitvec_get_bit_pos bv (cur_bit bv) in
    if bit <? 0 then Ok (bit, bv) else
    if negb (bit =? 0) && (32 <=? Z.of_nat m) then UB else
    let ui := if negb (bit =? 0) then Z.lor ui (Z.shiftl 1 (Z.of_nat m)) else ui in
    get_uint_loop m (Bv (u32 (cur_bit bv + 1)) (bdata bv)) ui
  end.
Definition bitvec_get_uint (bv : bitvec) (num_bits : Z) : res (Z * bitvec) :=
  get_uint_loop (Z.to_nat num_bits) bv 0.

(* bitvec.c:282-290 bitvec_fill; stop wraps, so the number of iterations is stop - cur_bit *)
Fixpoint fill_loop (n : nat) (bv : bitvec) (fill : Z) : Z * bitvec :=
  match n with
  | O => (0, bv)
  | S m => let '(rc, bv') := bitvec_set_bit bv fill in
           if rc <? 0 then (- EINVAL, bv') else fill_loop m bv' fill
  end.
Definition bitvec_fill (bv : bitvec) (num_bits fill : Z) : Z * bitvec :=
  fill_loop (Z.to_nat (u32 (cur_bit bv + num_bits) - cur_bit bv)) bv fill.

(* bitvec.c:294-301 bitvec_spare_padding *)
Definition bitvec_spare_padding (bv : bitvec) (up_to_bit : Z) : Z * bitvec :=
  let n := s32 (u32 (up_to_bit - cur_bit bv + 1)) in
  if n <? 1 then (0, bv) else bitvec_fill bv n BL.

(* bitvec.c:305-316 bitvec_find_bit_pos *)
Fixpoint find_loop (fuel : nat) (bv : bitvec) (i val : Z) : Z :=
  match fuel with
  | O => -1
  | S f => if bitvec_get_bit_pos bv i =? val then i else find_loop f bv (i + 1) val
  end.
Definition bitvec_find_bit_pos (bv : bitvec) (n val : Z) : Z :=
  find_loop (Z.to_nat (u32 (data_len bv * 8) - n)) bv n val.

(* bitvec.c:325-352 bitvec_get_bytes; returns rc, vector, destination buffer *)
Definition bitvec_get_bytes (bv : bitvec) (out : list Z) (count : Z) : res (Z * bitvec * list Z) :=
  let byte_offs := cur_bit bv / 8 in
  let bit_offs := cur_bit bv mod 8 in
  if data_len bv <? u32 (byte_offs + count + (if bit_offs =? 0 then 0 else 1)) then Ok (- EINVAL, bv, out) else
  do out' <-
    (if bit_offs =? 0 then memcpy out 0 (bdata bv) byte_offs count
     else
       do last_c <- rd (bdata bv) byte_offs ;;
       do '(o, _) <- zfor (Z.to_nat (s32 count)) 0 (fun i '(o, last_c) =>
          do c <- rd (bdata bv) (byte_offs + 1 + i) ;;
          do o' <- wr o i (u8 (Z.lor (Z.shiftl last_c bit_offs) (Z.shiftr c (8 - bit_offs)))) ;;
          Ok (o', c)) (out, last_c) ;;
       Ok o) ;;
  Ok (0, Bv (u32 (cur_bit bv + count * 8)) (bdata bv), out').

(* bitvec.c:361-392 bitvec_set_bytes *)
Definition bitvec_set_bytes (bv : bitvec) (src : list Z) (count : Z) : res (Z * bitvec) :=
  let byte_offs := cur_bit bv / 8 in
  let bit_offs := cur_bit bv mod 8 in
  if data_len bv <? u32 (byte_offs + count + (if bit_offs =? 0 then 0 else 1)) then Ok (- EINVAL, bv) else
  do data' <-
    (if bit_offs =? 0 then memcpy (bdata bv) byte_offs src 0 count
     else if 0 <? count then
       do d0 <- rd (bdata bv) byte_offs ;;
       do '(d, last_c) <- zfor (Z.to_nat (s32 count)) 0 (fun i '(d, last_c) =>
          do c <- rd src i ;;
          do d' <- wr d (byte_offs + i) (u8 (Z.lor (Z.shiftl last_c (8 - bit_offs)) (Z.shiftr c bit_offs))) ;;
          Ok (d', c)) (bdata bv, Z.shiftr d0 (8 - bit_offs)) ;;
       let pos := byte_offs + Z.max 0 (s32 count) in
       do dl <- rd d pos ;;
       wr d pos (u8 (Z.lor (Z.land dl (Z.shiftl 1 (8 - bit_offs) - 1)) (Z.shiftl last_c (8 - bit_offs))))
     else Ok (bdata bv)) ;;
  Ok (0, Bv (u32 (cur_bit bv + count * 8)) data').

(* bitvec.c:398-413 bitvec_alloc (successful case) *)
Definition bitvec_alloc (size : Z) : bitvec := Bv 0 (repeat 0 (Z.to_nat size)).

(* bitvec.c:476-500 bitvec_read_field; result = (errno, value, read_index, bv) *)
Definition bitvec_read_field (bv : bitvec) (read_index len : Z) : res (Z * Z * Z * bitvec) :=
  if negb (len =? 0) && (data_len bv <=? u32 (read_index + len - 1) / 8)
  then Ok (EOVERFLOW, 0, read_index, bv) else
  do '(ui, cur) <- zfor (Z.to_nat len) 0 (fun i '(ui, cur) =>
     do b <- rd (bdata bv) (cur / 8) ;;
     let set := negb (Z.land b (Z.shiftl 1 (7 - cur mod 8)) =? 0) in
     if set && (64 <=? len - i - 1) then UB else
     Ok (if set then Z.lor ui (Z.shiftl 1 (len - i - 1)) else ui, u32 (cur + 1))) (0, read_index) ;;
  Ok (0, ui, u32 (read_index + len), Bv cur (bdata bv)).

(* bitvec.c:508-521 bitvec_write_field; len is converted to uint8_t by bitvec_set_u64;
   result = (rc, write_index, bv) *)
Definition bitvec_write_field (bv : bitvec) (write_index val len : Z) : Z * Z * bitvec :=
  let '(rc, bv') := bitvec_set_u64 (Bv write_index (bdata bv)) val (u8 len) false in
  if negb (rc =? 0) then (rc, write_index, bv') else (0, u32 (write_index + len), bv').

(* bitvec.c:553-573 leading_bits *)
Definition leading_bits (x : Z) (b : bool) : Z :=
  if b then
    if x <? 0x80 then 0 else if x <? 0xC0 then 1 else if x <? 0xE0 then 2 else if x <? 0xF0 then 3
    else if x <? 0xF8 then 4 else if x <? 0xFC then 5 else if x <? 0xFE then 6 else 7
  else
    if 0x7F <? x then 0 else if 0x3F <? x then 1 else if 0x1F <? x then 2 else if 0xF <? x then 3
    else if 7 <? x then 4 else if 3 <? x then 5 else if 1 <? x then 6 else 7.

(* bitvec.c:575-579 bitvec_zero *)
Definition bitvec_zero (bv : bitvec) : bitvec := Bv 0 (map (fun _ => 0) (bdata bv)).

(* bitvec.c:586-595 bitvec_rl *)
Fixpoint rl_loop (fuel : nat) (bv : bitvec) (i : Z) (b : bool) : res Z :=
  match fuel with
  | O => Ok (cur_bit bv)
  | S f => do x <- rd (bdata bv) i ;;
           if negb ((if b then 0xFF else 0) =? x) then Ok (i * 8 + leading_bits x b)
           else rl_loop f bv (i + 1) b
  end.
Definition bitvec_rl (bv : bitvec) (b : bool) : res Z :=
  rl_loop (Z.to_nat (if negb (cur_bit bv mod 8 =? 0) then cur_bit bv / 8 + 1 else cur_bit bv / 8)) bv 0 b.

(* bitvec.c:605-640 bitvec_rl_curbit.  First loop: j = 8 - readIndex%8 single-bit reads. *)
Fixpoint rlc_bits (j : nat) (bv : bitvec) (idx : Z) (b : bool) (max_bits temp_res : Z)
  : res (bool * bitvec * Z * Z) (* returned early?, bv, readIndex, temp_res *) :=
  match j with
  | O => Ok (false, bv, idx, temp_res)
  | S j' =>
    if idx <? max_bits then
      do '(_, v, idx', bv') <- bitvec_read_field bv idx 1 ;;
      if v =? b2z b then rlc_bits j' bv' idx' b max_bits (temp_res + 1)
      else Ok (true, Bv (u32 (cur_bit bv' - 1)) (bdata bv'), idx', temp_res)
    else Ok (true, Bv (u32 (cur_bit bv - 1)) (bdata bv), idx, temp_res)
  end.
Fixpoint rlc_bytes (n : nat) (bv : bitvec) (i count idx : Z) (b : bool) (max_bits temp_res : Z) : res (Z * bitvec) :=
  match n with
  | O =>
    let c := u32 (temp_res + count * 8 + idx) in
    let c := if max_bits <? c then max_bits else c in
    Ok (u32 (c - idx + temp_res), Bv c (bdata bv))
  | S n' =>
    do x <- rd (bdata bv) i ;;
    if negb ((if b then 0xFF else 0) =? x) then
      Ok (u32 (count * 8 + leading_bits x b + temp_res), Bv (u32 (count * 8 + leading_bits x b + idx)) (bdata bv))
    else rlc_bytes n' bv (i + 1) (count + 1) idx b max_bits temp_res
  end.
Definition bitvec_rl_curbit (bv : bitvec) (b : bool) (max_bits : Z) : res (Z * bitvec) :=
  let idx := cur_bit bv in
  do '(early, bv1, idx1, t) <-
    (if negb (idx mod 8 =? 0) then rlc_bits (Z.to_nat (8 - idx mod 8)) bv idx b max_bits 0
     else Ok (false, bv, idx, 0)) ;;
  if early : bool then Ok (t, bv1) else
  let lim := if negb (max_bits mod 8 =? 0) then max_bits / 8 + 1 else max_bits / 8 in
  rlc_bytes (Z.to_nat (lim - idx1 / 8)) bv1 (idx1 / 8) 0 idx1 b max_bits t.

(* bitvec.c:643-664 bitvec_shiftl; the loop bound data_len - 2 is unsigned *)
Definition bitvec_shiftl (bv : bitvec) (n : Z) : res bitvec :=
  if n =? 0 then Ok bv else
  if cur_bit bv <=? n then Ok (bitvec_zero bv) else
  do d <- memcpy (bdata bv) 0 (bdata bv) (n / 8) (data_len bv - n / 8) ;;
  do d <- zfor (Z.to_nat (u32 (data_len bv - 2))) 0 (fun i d =>
     do a <- rd d i ;; do b <- rd d (i + 1) ;;
     let t := Z.lor (Z.shiftl a 8) b in
     let t' := u16 (Z.shiftl t (n mod 8)) in
     wr d i (Z.shiftr t' 8)) d ;;
  do l <- rd d (data_len bv - 1) ;;
  do d <- wr d (data_len bv - 1) (u8 (Z.shiftl l (n mod 8))) ;;
  Ok (Bv (u32 (cur_bit bv - n)) d).

(* bitvec.c:685-704 bitvec_add_array; the results of set_bit/set_uint are ignored *)
Fixpoint add_array_loop (bv : bitvec) (array : list Z) (num_bits : Z) : bitvec :=
  match array with
  | [] => bv
  | a :: t => add_array_loop (snd (bitvec_set_uint (snd (bitvec_set_bit bv 1)) a num_bits)) t num_bits
  end.
Definition bitvec_add_array (bv : bitvec) (array : list Z) (dry_run : bool) (num_bits : Z) : Z * bitvec :=
  if dry_run then (u32 (1 + zlen array * (1 + num_bits)), bv)
  else (0, snd (bitvec_set_bit (add_array_loop bv array num_bits) 0)).
