(** Model of src/gsm/gsm48_arfcn_range_encode.c and of gsm48_decode_freq_list (src/gsm/gsm48_ie.c). *)
From Coq Require Import ZArith List Lia Bool.
From Verif Require Import Base.
Import ListNotations.
Open Scope Z_scope.

(** gsm48_arfcn_range_encode.c:30-40 greatest_power_of_2_lesser_or_equal_to: do p *= 2 while
    p <= index; return p / 2.  int arithmetic unbounded (indices are below 64); fuel 31. *)
Fixpoint gp2_loop (fuel : nat) (p index : Z) : Z :=
  match fuel with
  | O => p
  | S fu => let p' := p * 2 in if p' <=? index then gp2_loop fu p' index else Z.quot p' 2
  end.
Definition gp2 (index : Z) : Z := gp2_loop 31 1 index.

(** gsm48_arfcn_range_encode.c:42-48 mod: the loop "while (res < 0) res += range" runs at most
    once because |data % range| < range. *)
Definition cmod (data range : Z) : Z :=
  let r := Z.rem data range in if r <? 0 then r + range else r.

(** gsm48_arfcn_range_encode.c:55-73 osmo_gsm48_range_enc_find_index: inner loop over j. *)
Definition fi_count (range fi : Z) (freqs : list Z) : Z :=
  fold_left (fun n fj => if cmod (fj - fi) range <=? Z.quot (range - 1) 2 then n + 1 else n) freqs 0.
(** the outer loop from index [i]; [rest] are the elements from i on. *)
Fixpoint find_from (range : Z) (freqs rest : list Z) (i : Z) : Z :=
  match rest with
  | [] => -1
  | fi :: t => if fi_count range fi freqs - 1 =? Z.quot (zlen freqs - 1) 2 then i
               else find_from range freqs t (i + 1)
  end.
Definition find_index (range : Z) (freqs : list Z) : Z := find_from range freqs freqs 0.

(** gsm48_arfcn_range_encode.c:104-109: the elements that go to one of the two variable length
    arrays of [cap] elements. *)
Fixpoint part (range origin cap : Z) (l acc : list Z) : res (list Z) :=
  match l with
  | [] => Ok acc
  | a :: t => if cmod (a - origin) range <? Z.quot range 2
              then if zlen acc <? cap then part range origin cap t (acc ++ [cmod (a - origin) range]) else UB
              else part range origin cap t acc
  end.

(** gsm48_arfcn_range_encode.c:76-124 _range_enc_arfcns and :133-147 osmo_gsm48_range_enc_arfcns;
    returns (out, return value).  The return values of the recursive calls are ignored, as in the
    code.  [fuel] bounds the recursion depth; running out of it is UB (proved not to happen). *)
Fixpoint range_enc (fuel : nat) (range : Z) (arfcns out : list Z) (index : Z) : res (list Z * Z) :=
  match fuel with
  | O => UB
  | S fu =>
    let size := zlen arfcns in
    if size <=? 0 then Ok (out, 0)
    else if size =? 1 then
      do a <- rd arfcns 0 ;; do out' <- wr out index (1 + a) ;; Ok (out', 0)
    else
      let sp := find_index range arfcns in
      if sp <? 0 then Ok (out, - EINVAL)
      else
        do p <- rd arfcns sp ;;
        do out1 <- wr out index (1 + p) ;;
        let l_origin := cmod (p + Z.quot (range - 1) 2 + 1) range in
        let r_origin := cmod (p + 1) range in
        do left <- part range l_origin (Z.quot size 2) arfcns [] ;;
        do right <- part range r_origin (Z.quot size 2) arfcns [] ;;
        do ' (out2, _) <-
          (if negb (zlen left =? 0) then range_enc fu (Z.quot range 2) left out1 (index + gp2 (index + 1))
           else Ok (out1, 0)) ;;
        do ' (out3, _) <-
          (if negb (zlen right =? 0)
           then range_enc fu (Z.quot (range - 1) 2) right out2 (index + 2 * gp2 (index + 1))
           else Ok (out2, 0)) ;;
        Ok (out3, 0)
  end.
Definition range_enc_arfcns (range : Z) (arfcns out : list Z) (index : Z) : res (list Z * Z) :=
  range_enc (S (length arfcns)) range arfcns out index.

(** gsm48_arfcn_range_encode.h:7-13 *)
Definition RANGE_INVALID := -1.
Definition RANGE_128 := 127.
Definition RANGE_256 := 255.
Definition RANGE_512 := 511.
Definition RANGE_1024 := 1023.

(** gsm48_arfcn_range_encode.c:165-191 osmo_gsm48_range_enc_determine_range: (range, f0);
    [f0_old] is what *f0 held (it is left alone for size 0). *)
Definition determine_range (arfcns : list Z) (f0_old : Z) : res (Z * Z) :=
  let size := zlen arfcns in
  if size =? 0 then Ok (RANGE_128, f0_old)
  else
    do last <- rd arfcns (size - 1) ;;
    do first <- rd arfcns 0 ;;
    let max := last - first in
    if (max <? 128) && (size <=? 29) then Ok (RANGE_128, first)
    else if (max <? 256) && (size <=? 22) then Ok (RANGE_256, first)
    else if (max <? 512) && (size <=? 18) then Ok (RANGE_512, first)
    else if (max <? 1024) && (size <=? 17) then Ok (RANGE_1024, 0)
    else Ok (RANGE_INVALID, first).

(** gsm48_arfcn_range_encode.c:305-325 osmo_gsm48_range_enc_filter_arfcns: works in place from
    the front, so entry i is read before it can be overwritten; returns (array, j, f0_included). *)
Definition filter_arfcns (arfcns : list Z) (f0 : Z) : res (list Z * Z * Z) :=
  zfor (length arfcns) 0 (fun i s =>
    let '(arr, j, inc) := s in
    do a <- rd arr i ;;
    if a =? f0 then Ok (arr, j, 1)
    else do arr' <- wr arr j (cmod (a - (f0 + 1)) 1024) ;; Ok (arr', j + 1, inc))
  (arfcns, 0, 0).

(** gsm48_arfcn_range_encode.c:193-198 write_orig_arfcn *)
Definition write_orig_arfcn (cl : list Z) (f0 : Z) : res (list Z) :=
  do c0 <- rd cl 0 ;;
  do cl <- wr cl 0 (u8 (Z.lor c0 (Z.land (Z.shiftr f0 9) 1))) ;;
  do cl <- wr cl 1 (u8 (Z.shiftr f0 1)) ;;
  wr cl 2 (u8 (Z.shiftl (Z.land f0 1) 7)).

(** gsm48_arfcn_range_encode.c:213-257: the while loop of write_all_wn for one w[k-1];
    octet = base + octet_offs; returns (chan_list, octet, bit_offs). *)
Fixpoint put_wn (fuel : nat) (cl : list Z) (octet bit_offs wk_left w : Z) : res (list Z * Z * Z) :=
  match fuel with
  | O => UB
  | S fu =>
    if wk_left <=? 0 then Ok (cl, octet, bit_offs)
    else
      let cur_bits := if 8 - bit_offs >? wk_left then wk_left else 8 - bit_offs in
      let cur_mask := Z.shiftl 1 cur_bits - 1 in
      let wk_left := wk_left - cur_bits in
      let bit_offs := bit_offs + cur_bits in
      let wk_slice := Z.land (Z.shiftr w wk_left) cur_mask in
      do c <- rd cl octet ;;
      do cl <- wr cl octet (u8 (Z.lor (u8 (Z.land c (Z.lnot (Z.shiftl cur_mask (8 - bit_offs)))))
                                     (Z.shiftl wk_slice (8 - bit_offs)))) ;;
      if bit_offs =? 8 then put_wn fu cl (octet + 1) 0 wk_left w
      else put_wn fu cl octet bit_offs wk_left w
  end.
(** gsm48_arfcn_range_encode.c:200-268 write_all_wn; [base] is the octet the chan_list pointer
    points to; state (chan_list, octet, bit_offs, wk_len, level, lvl_left). *)
Definition write_all_wn (cl : list Z) (base bit_offs : Z) (w : list Z) (w_size w1_len : Z) : res (list Z) :=
  do ' (cl', _, _, _, _, _) <-
    zfor (Z.to_nat w_size) 1 (fun k s =>
      let '(cl, octet, bo, wk_len, level, lvl_left) := s in
      do wk <- rd w (k - 1) ;;
      do ' (cl', octet', bo') <- put_wn (S (Z.to_nat wk_len)) cl octet bo wk_len wk ;;
      if lvl_left - 1 =? 0
      then Ok (cl', octet', bo', wk_len - 1, level + 1, Z.shiftl 1 (level + 1))
      else Ok (cl', octet', bo', wk_len, level, lvl_left - 1))
    (cl, base, bit_offs, w1_len, 0, 1) ;;
  Ok cl'.

(** gsm48_arfcn_range_encode.c:270-303 osmo_gsm48_range_enc_128/256/512/1024 (all return 0) *)
Definition enc_128 (cl : list Z) (f0 : Z) (w : list Z) : res (list Z) :=
  do cl <- wr cl 0 140 ;; do cl <- write_orig_arfcn cl f0 ;; write_all_wn cl 2 1 w 28 7.
Definition enc_256 (cl : list Z) (f0 : Z) (w : list Z) : res (list Z) :=
  do cl <- wr cl 0 138 ;; do cl <- write_orig_arfcn cl f0 ;; write_all_wn cl 2 1 w 21 8.
Definition enc_512 (cl : list Z) (f0 : Z) (w : list Z) : res (list Z) :=
  do cl <- wr cl 0 136 ;; do cl <- write_orig_arfcn cl f0 ;; write_all_wn cl 2 1 w 17 9.
Definition enc_1024 (cl : list Z) (f0 f0_included : Z) (w : list Z) : res (list Z) :=
  do cl <- wr cl 0 (u8 (Z.lor 128 (Z.shiftl f0_included 2))) ;; write_all_wn cl 0 6 w 16 10.

(** The calling sequence the functions are made for (tests/gsm0408/gsm0408_test.c:1632-1661,
    gsm48_rest_octets.c:347-376): determine the range, filter, encode the tree into a zeroed
    w[29], write the octets.  None: determine_range gave RANGE_INVALID or the encoder an error. *)
Definition encode_list (arfcns : list Z) (f0_old : Z) (cl : list Z) : res (option (list Z)) :=
  do ' (range, f0) <- determine_range arfcns f0_old ;;
  if range =? RANGE_INVALID then Ok None
  else
    do ' (arr, n, inc) <- filter_arfcns arfcns f0 ;;
    do ' (w, rc) <- range_enc_arfcns range (firstn (Z.to_nat n) arr) (repeat 0 29) 0 ;;
    if rc <? 0 then Ok None
    else
      do cl' <- (if range =? RANGE_128 then enc_128 cl f0 w
                 else if range =? RANGE_256 then enc_256 cl f0 w
                 else if range =? RANGE_512 then enc_512 cl f0 w
                 else enc_1024 cl f0 inc w) ;;
      Ok (Some cl').

(** gsm48_ie.c:885-895 smod; int32_t arithmetic unbounded (arguments are below 2^13). *)
Definition smod (n m : Z) : Z := let r := Z.rem n m in if r <=? 0 then r + m else r.

(** gsm_04_08.h:249-282 (bit-fields of struct gsm48_range_1024) with the assignments
    gsm48_ie.c:942-1013: (k, least len, [(octet, lowest bit, bits, shift)]). *)
Definition fields_1024 : list (Z * Z * list (Z * Z * Z * Z)) :=
  [(1, 0, [(0, 0, 2, 8); (1, 0, 8, 0)]);
   (2, 4, [(2, 0, 8, 1); (3, 7, 1, 0)]);
   (3, 5, [(3, 0, 7, 2); (4, 6, 2, 0)]);
   (4, 6, [(4, 0, 6, 2); (5, 6, 2, 0)]);
   (5, 7, [(5, 0, 6, 2); (6, 6, 2, 0)]);
   (6, 8, [(6, 0, 6, 2); (7, 6, 2, 0)]);
   (7, 9, [(7, 0, 6, 2); (8, 6, 2, 0)]);
   (8, 10, [(8, 0, 6, 1); (9, 7, 1, 0)]);
   (9, 10, [(9, 0, 7, 0)]);
   (10, 11, [(10, 1, 7, 0)]);
   (11, 12, [(10, 0, 1, 6); (11, 2, 6, 0)]);
   (12, 13, [(11, 0, 2, 5); (12, 3, 5, 0)]);
   (13, 14, [(12, 0, 3, 4); (13, 4, 4, 0)]);
   (14, 15, [(13, 0, 4, 3); (14, 5, 3, 0)]);
   (15, 16, [(14, 0, 5, 2); (15, 6, 2, 0)]);
   (16, 16, [(15, 0, 6, 0)])].
(** gsm48_ie.c:942-1013: the expression under "if (w[k])": (k, [(i, o, m); ...]) stands
    for smod(w[i] - o + smod(... + w[k], ...), m), outermost first. *)
Definition forms_1024 : list (Z * list (Z * Z * Z)) :=
  [(1, []);
   (2, [(1, 512, 1023)]);
   (3, [(1, 0, 1023)]);
   (4, [(1, 512, 1023); (2, 256, 511)]);
   (5, [(1, 0, 1023); (3, 256, 511)]);
   (6, [(1, 512, 1023); (2, 0, 511)]);
   (7, [(1, 0, 1023); (3, 0, 511)]);
   (8, [(1, 512, 1023); (2, 256, 511); (4, 128, 255)]);
   (9, [(1, 0, 1023); (3, 256, 511); (5, 128, 255)]);
   (10, [(1, 512, 1023); (2, 0, 511); (6, 128, 255)]);
   (11, [(1, 0, 1023); (3, 0, 511); (7, 128, 255)]);
   (12, [(1, 512, 1023); (2, 256, 511); (4, 0, 255)]);
   (13, [(1, 0, 1023); (3, 256, 511); (5, 0, 255)]);
   (14, [(1, 512, 1023); (2, 0, 511); (6, 0, 255)]);
   (15, [(1, 0, 1023); (3, 0, 511); (7, 0, 255)]);
   (16, [(1, 512, 1023); (2, 256, 511); (4, 128, 255); (8, 64, 127)])].
(** gsm_04_08.h:304-337 (bit-fields of struct gsm48_range_512) with the assignments
    gsm48_ie.c:1019-1094: (k, least len, [(octet, lowest bit, bits, shift)]). *)
Definition fields_512 : list (Z * Z * list (Z * Z * Z * Z)) :=
  [(0, 0, [(0, 0, 1, 9); (1, 0, 8, 1); (2, 7, 1, 0)]);
   (1, 0, [(2, 0, 7, 2); (3, 6, 2, 0)]);
   (2, 5, [(3, 0, 6, 2); (4, 6, 2, 0)]);
   (3, 6, [(4, 0, 6, 2); (5, 6, 2, 0)]);
   (4, 7, [(5, 0, 6, 1); (6, 7, 1, 0)]);
   (5, 7, [(6, 0, 7, 0)]);
   (6, 8, [(7, 1, 7, 0)]);
   (7, 9, [(7, 0, 1, 6); (8, 2, 6, 0)]);
   (8, 10, [(8, 0, 2, 4); (9, 4, 4, 0)]);
   (9, 11, [(9, 0, 4, 2); (10, 6, 2, 0)]);
   (10, 11, [(10, 0, 6, 0)]);
   (11, 12, [(11, 2, 6, 0)]);
   (12, 13, [(11, 0, 2, 4); (12, 4, 4, 0)]);
   (13, 14, [(12, 0, 4, 2); (13, 6, 2, 0)]);
   (14, 14, [(13, 0, 6, 0)]);
   (15, 15, [(14, 2, 6, 0)]);
   (16, 16, [(14, 0, 2, 3); (15, 5, 3, 0)]);
   (17, 16, [(15, 0, 5, 0)])].
(** gsm48_ie.c:1019-1094: the expression under "if (w[k])": (k, [(i, o, m); ...]) stands
    for smod(w[i] - o + smod(... + w[k], ...), m), outermost first. *)
Definition forms_512 : list (Z * list (Z * Z * Z)) :=
  [(1, []);
   (2, [(1, 256, 511)]);
   (3, [(1, 0, 511)]);
   (4, [(1, 256, 511); (2, 128, 255)]);
   (5, [(1, 0, 511); (3, 128, 255)]);
   (6, [(1, 256, 511); (2, 0, 255)]);
   (7, [(1, 0, 511); (3, 0, 255)]);
   (8, [(1, 256, 511); (2, 128, 255); (4, 64, 127)]);
   (9, [(1, 0, 511); (3, 128, 255); (5, 64, 127)]);
   (10, [(1, 256, 511); (2, 0, 255); (6, 64, 127)]);
   (11, [(1, 0, 511); (3, 0, 255); (7, 64, 127)]);
   (12, [(1, 256, 511); (2, 128, 255); (4, 0, 127)]);
   (13, [(1, 0, 511); (3, 128, 255); (5, 0, 127)]);
   (14, [(1, 256, 511); (2, 0, 255); (6, 0, 127)]);
   (15, [(1, 0, 511); (3, 0, 255); (7, 0, 127)]);
   (16, [(1, 256, 511); (2, 128, 255); (4, 64, 127); (8, 32, 63)]);
   (17, [(1, 0, 511); (3, 128, 255); (5, 64, 127); (9, 32, 63)])].
(** gsm_04_08.h:359-398 (bit-fields of struct gsm48_range_256) with the assignments
    gsm48_ie.c:1100-1191: (k, least len, [(octet, lowest bit, bits, shift)]). *)
Definition fields_256 : list (Z * Z * list (Z * Z * Z * Z)) :=
  [(0, 0, [(0, 0, 1, 9); (1, 0, 8, 1); (2, 7, 1, 0)]);
   (1, 0, [(2, 0, 7, 1); (3, 7, 1, 0)]);
   (2, 4, [(3, 0, 7, 0)]);
   (3, 5, [(4, 1, 7, 0)]);
   (4, 6, [(4, 0, 1, 5); (5, 3, 5, 0)]);
   (5, 7, [(5, 0, 3, 3); (6, 5, 3, 0)]);
   (6, 8, [(6, 0, 5, 1); (7, 7, 1, 0)]);
   (7, 8, [(7, 1, 6, 0)]);
   (8, 9, [(7, 0, 1, 4); (8, 4, 4, 0)]);
   (9, 10, [(8, 0, 4, 1); (9, 7, 1, 0)]);
   (10, 10, [(9, 2, 5, 0)]);
   (11, 11, [(9, 0, 2, 3); (10, 5, 3, 0)]);
   (12, 11, [(10, 0, 5, 0)]);
   (13, 12, [(11, 3, 5, 0)]);
   (14, 13, [(11, 0, 3, 2); (12, 6, 2, 0)]);
   (15, 13, [(12, 1, 5, 0)]);
   (16, 14, [(12, 0, 1, 3); (13, 5, 3, 0)]);
   (17, 14, [(13, 1, 4, 0)]);
   (18, 15, [(13, 0, 1, 3); (14, 5, 3, 0)]);
   (19, 15, [(14, 1, 4, 0)]);
   (20, 16, [(14, 0, 1, 3); (15, 5, 3, 0)]);
   (21, 16, [(15, 1, 4, 0)])].
(** gsm48_ie.c:1100-1191: the expression under "if (w[k])": (k, [(i, o, m); ...]) stands
    for smod(w[i] - o + smod(... + w[k], ...), m), outermost first. *)
Definition forms_256 : list (Z * list (Z * Z * Z)) :=
  [(1, []);
   (2, [(1, 128, 255)]);
   (3, [(1, 0, 255)]);
   (4, [(1, 128, 255); (2, 64, 127)]);
   (5, [(1, 0, 255); (3, 64, 127)]);
   (6, [(1, 128, 255); (2, 0, 127)]);
   (7, [(1, 0, 255); (3, 0, 127)]);
   (8, [(1, 128, 255); (2, 64, 127); (4, 32, 63)]);
   (9, [(1, 0, 255); (3, 64, 127); (5, 32, 63)]);
   (10, [(1, 128, 255); (2, 0, 127); (6, 32, 63)]);
   (11, [(1, 0, 255); (3, 0, 127); (7, 32, 63)]);
   (12, [(1, 128, 255); (2, 64, 127); (4, 0, 63)]);
   (13, [(1, 0, 255); (3, 64, 127); (5, 0, 63)]);
   (14, [(1, 128, 255); (2, 0, 127); (6, 0, 63)]);
   (15, [(1, 0, 255); (3, 0, 127); (7, 0, 63)]);
   (16, [(1, 128, 255); (2, 64, 127); (4, 32, 63); (8, 16, 31)]);
   (17, [(1, 0, 255); (3, 64, 127); (5, 32, 63); (9, 16, 31)]);
   (18, [(1, 128, 255); (2, 0, 127); (6, 32, 63); (10, 16, 31)]);
   (19, [(1, 0, 255); (3, 0, 127); (7, 32, 63); (11, 16, 31)]);
   (20, [(1, 128, 255); (2, 64, 127); (4, 0, 63); (12, 16, 31)]);
   (21, [(1, 0, 255); (3, 64, 127); (5, 0, 63); (13, 16, 31)])].
(** gsm_04_08.h:420-461 (bit-fields of struct gsm48_range_128) with the assignments
    gsm48_ie.c:1197-1316: (k, least len, [(octet, lowest bit, bits, shift)]). *)
Definition fields_128 : list (Z * Z * list (Z * Z * Z * Z)) :=
  [(0, 0, [(0, 0, 1, 9); (1, 0, 8, 1); (2, 7, 1, 0)]);
   (1, 0, [(2, 0, 7, 0)]);
   (2, 4, [(3, 2, 6, 0)]);
   (3, 5, [(3, 0, 2, 4); (4, 4, 4, 0)]);
   (4, 6, [(4, 0, 4, 1); (5, 7, 1, 0)]);
   (5, 6, [(5, 2, 5, 0)]);
   (6, 7, [(5, 0, 2, 3); (6, 5, 3, 0)]);
   (7, 7, [(6, 0, 5, 0)]);
   (8, 8, [(7, 4, 4, 0)]);
   (9, 8, [(7, 0, 4, 0)]);
   (10, 9, [(8, 4, 4, 0)]);
   (11, 9, [(8, 0, 4, 0)]);
   (12, 10, [(9, 4, 4, 0)]);
   (13, 10, [(9, 0, 4, 0)]);
   (14, 11, [(10, 4, 4, 0)]);
   (15, 11, [(10, 0, 4, 0)]);
   (16, 12, [(11, 5, 3, 0)]);
   (17, 12, [(11, 2, 3, 0)]);
   (18, 13, [(11, 0, 2, 1); (12, 7, 1, 0)]);
   (19, 13, [(12, 4, 3, 0)]);
   (20, 13, [(12, 1, 3, 0)]);
   (21, 14, [(12, 0, 1, 2); (13, 6, 2, 0)]);
   (22, 14, [(13, 3, 3, 0)]);
   (23, 14, [(13, 0, 3, 0)]);
   (24, 15, [(14, 5, 3, 0)]);
   (25, 15, [(14, 2, 3, 0)]);
   (26, 16, [(14, 0, 2, 1); (15, 7, 1, 0)]);
   (27, 16, [(15, 4, 3, 0)]);
   (28, 16, [(15, 1, 3, 0)])].
(** gsm48_ie.c:1197-1316: the expression under "if (w[k])": (k, [(i, o, m); ...]) stands
    for smod(w[i] - o + smod(... + w[k], ...), m), outermost first. *)
Definition forms_128 : list (Z * list (Z * Z * Z)) :=
  [(1, []);
   (2, [(1, 64, 127)]);
   (3, [(1, 0, 127)]);
   (4, [(1, 64, 127); (2, 32, 63)]);
   (5, [(1, 0, 127); (3, 32, 63)]);
   (6, [(1, 64, 127); (2, 0, 63)]);
   (7, [(1, 0, 127); (3, 0, 63)]);
   (8, [(1, 64, 127); (2, 32, 63); (4, 16, 31)]);
   (9, [(1, 0, 127); (3, 32, 63); (5, 16, 31)]);
   (10, [(1, 64, 127); (2, 0, 63); (6, 16, 31)]);
   (11, [(1, 0, 127); (3, 0, 63); (7, 16, 31)]);
   (12, [(1, 64, 127); (2, 32, 63); (4, 0, 31)]);
   (13, [(1, 0, 127); (3, 32, 63); (5, 0, 31)]);
   (14, [(1, 64, 127); (2, 0, 63); (6, 0, 31)]);
   (15, [(1, 0, 127); (3, 0, 63); (7, 0, 31)]);
   (16, [(1, 64, 127); (2, 32, 63); (4, 16, 31); (8, 8, 15)]);
   (17, [(1, 0, 127); (3, 32, 63); (5, 16, 31); (9, 8, 15)]);
   (18, [(1, 64, 127); (2, 0, 63); (6, 16, 31); (10, 8, 15)]);
   (19, [(1, 0, 127); (3, 0, 63); (7, 16, 31); (11, 8, 15)]);
   (20, [(1, 64, 127); (2, 32, 63); (4, 0, 31); (12, 8, 15)]);
   (21, [(1, 0, 127); (3, 32, 63); (5, 0, 31); (13, 8, 15)]);
   (22, [(1, 64, 127); (2, 0, 63); (6, 0, 31); (14, 8, 15)]);
   (23, [(1, 0, 127); (3, 0, 63); (7, 0, 31); (15, 8, 15)]);
   (24, [(1, 64, 127); (2, 32, 63); (4, 16, 31); (8, 0, 15)]);
   (25, [(1, 0, 127); (3, 32, 63); (5, 16, 31); (9, 0, 15)]);
   (26, [(1, 64, 127); (2, 0, 63); (6, 16, 31); (10, 0, 15)]);
   (27, [(1, 0, 127); (3, 0, 63); (7, 16, 31); (11, 0, 15)]);
   (28, [(1, 64, 127); (2, 32, 63); (4, 0, 31); (12, 0, 15)])].

(** the value assembled from bit-field members: OR of (member << shift) *)
Fixpoint rd_fld (cd : list Z) (ps : list (Z * Z * Z * Z)) (acc : Z) : res Z :=
  match ps with
  | [] => Ok acc
  | (o, lsb, nb, sh) :: t =>
    do c <- rd cd o ;;
    rd_fld cd t (Z.lor acc (Z.shiftl (Z.land (Z.shiftr c lsb) (2 ^ nb - 1)) sh))
  end.
(** the assignments to w[], each under its "if (len >= n)" *)
Fixpoint load_w (cd : list Z) (len : Z) (tab : list (Z * Z * list (Z * Z * Z * Z))) (w : list Z) : res (list Z) :=
  match tab with
  | [] => Ok w
  | (k, ml, ps) :: t =>
    if len <? ml then load_w cd len t w
    else do v <- rd_fld cd ps 0 ;; do w' <- wr w k (u16 v) ;; load_w cd len t w'
  end.
(** f[i].mask |= frqt *)
Definition mark (f : list Z) (i frqt : Z) : res (list Z) :=
  do m <- rd f i ;; wr f i (u8 (Z.lor m frqt)).
(** smod(w[i] - o + ..., m), outermost first *)
Fixpoint eval_form (w : list Z) (path : list (Z * Z * Z)) (k : Z) : res Z :=
  match path with
  | [] => rd w k
  | (i, o, m) :: t => do v <- eval_form w t k ;; do wi <- rd w i ;; Ok (smod (wi - o + v) m)
  end.
(** the "if (w[k]) f[...]" lines; [pos] maps the value of the expression to the index of f *)
Fixpoint mark_forms (pos : Z -> Z) (w : list Z) (forms : list (Z * list (Z * Z * Z))) (f : list Z) (frqt : Z) : res (list Z) :=
  match forms with
  | [] => Ok f
  | (k, path) :: t =>
    do wk <- rd w k ;;
    if wk =? 0 then mark_forms pos w t f frqt
    else do v <- eval_form w path k ;; do f' <- mark f (pos v) frqt ;; mark_forms pos w t f' frqt
  end.
(** gsm48_ie.c:1016-1094, 1097-1191, 1194-1330: the formats with an origin ARFCN in w[0] *)
Definition dec_orig (fields : list (Z * Z * list (Z * Z * Z * Z))) (forms : list (Z * list (Z * Z * Z)))
  (wsize : nat) (f cd : list Z) (len frqt : Z) : res (list Z) :=
  do w <- load_w cd len fields (repeat 0 wsize) ;;
  do w0 <- rd w 0 ;;
  do f <- mark f w0 frqt ;;
  mark_forms (fun v => Z.rem (w0 + v) 1024) w forms f frqt.

(** gsm48_ie.c:903-1336 gsm48_decode_freq_list: (f, return value); f is the caller's array of
    1024 elements (the mask members), cd its octets; reading past the end of cd is UB. *)
Definition decode_freq_list (f cd : list Z) (len mask frqt : Z) : res (list Z * Z) :=
  if negb (zlen f =? 1024) then UB
  else
  let f := map (fun m => Z.land m (Z.lnot frqt)) f in
  do c0 <- rd cd 0 ;;
  if Z.land (Z.land c0 192) mask =? 0 then
    if len <? 16 then Ok (f, - EINVAL)
    else
      do f' <- zfor 124 1 (fun i f =>
        do c <- rd cd (15 - Z.shiftr (i - 1) 3) ;;
        if negb (Z.land c (Z.shiftl 1 (Z.land (i - 1) 7)) =? 0) then mark f i frqt else Ok f) f ;;
      Ok (f', 0)
  else if Z.land (Z.land c0 200) mask =? 128 then
    if len <? 2 then Ok (f, - EINVAL)
    else
      do f1 <- (if negb (Z.land (Z.shiftr c0 2) 1 =? 0) then mark f 0 frqt else Ok f) ;;
      do w <- load_w cd len fields_1024 (repeat 0 17) ;;
      do f2 <- mark_forms (fun v => v) w forms_1024 f1 frqt ;;
      Ok (f2, 0)
  else if Z.land (Z.land c0 206) mask =? 136 then
    if len <? 4 then Ok (f, - EINVAL)
    else do f' <- dec_orig fields_512 forms_512 18 f cd len frqt ;; Ok (f', 0)
  else if Z.land (Z.land c0 206) mask =? 138 then
    if len <? 4 then Ok (f, - EINVAL)
    else do f' <- dec_orig fields_256 forms_256 22 f cd len frqt ;; Ok (f', 0)
  else if Z.land (Z.land c0 206) mask =? 140 then
    if len <? 3 then Ok (f, - EINVAL)
    else do f' <- dec_orig fields_128 forms_128 29 f cd len frqt ;; Ok (f', 0)
  else if Z.land (Z.land c0 206) mask =? 142 then
    if len <? 3 then Ok (f, - EINVAL)
    else
      do orig <- rd_fld cd [(0, 0, 1, 9); (1, 0, 8, 1); (2, 7, 1, 0)] 0 ;;
      let orig := u16 orig in
      do f1 <- mark f orig frqt ;;
      (* for (i = 1; 2 + (i >> 3) < len; i++) *)
      do f2 <- zfor (Z.to_nat (8 * (len - 2) - 1)) 1 (fun i f =>
        do c <- rd cd (2 + Z.shiftr i 3) ;;
        if negb (Z.land c (Z.shiftr 128 (Z.land i 7)) =? 0) then mark f (Z.rem (orig + i) 1024) frqt
        else Ok f) f1 ;;
      Ok (f2, 0)
  else Ok (f, 0).
