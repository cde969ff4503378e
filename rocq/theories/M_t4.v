(** Model of src/core/bitcomp.c. *)
From Coq Require Import ZArith List Lia Bool.
From Verif Require Import Base M_bitvec.
Import ListNotations.
Open Scope Z_scope.

(** bitcomp.c:39-172 t4_term *)
Definition t4_term (b : bool) : list Z :=
  if b then
    [53; 7; 7; 8; 11; 12; 14; 15; 19; 20; 7; 8; 8; 3; 52; 53; 42; 43; 39; 12; 8; 23; 3; 4; 40; 43;
    19; 36; 24; 2; 3; 26; 27; 18; 19; 20; 21; 22; 23; 40; 41; 42; 43; 44; 45; 4; 5; 10; 11; 82; 83;
    84; 85; 36; 37; 88; 89; 90; 91; 74; 75; 50; 51; 52]
  else
    [55; 2; 3; 2; 3; 3; 2; 3; 5; 4; 4; 5; 7; 4; 7; 24; 23; 24; 8; 103; 104; 108; 55; 40; 23; 24; 202;
    203; 204; 205; 104; 105; 106; 107; 210; 211; 212; 213; 214; 215; 108; 109; 218; 219; 84; 85; 86;
    87; 100; 101; 82; 83; 36; 55; 56; 39; 40; 88; 89; 43; 44; 90; 102; 103].
(** bitcomp.c:174-177 t4_term_length *)
Definition t4_term_length (b : bool) : list Z :=
  if b then
    [8; 6; 4; 4; 4; 4; 4; 4; 5; 5; 5; 5; 6; 6; 6; 6; 6; 6; 7; 7; 7; 7; 7; 7; 7; 7; 7; 7; 7; 8; 8; 8;
    8; 8; 8; 8; 8; 8; 8; 8; 8; 8; 8; 8; 8; 8; 8; 8; 8; 8; 8; 8; 8; 8; 8; 8; 8; 8; 8; 8; 8; 8; 8; 8]
  else
    [10; 2; 2; 3; 3; 4; 4; 5; 6; 6; 7; 7; 7; 8; 8; 9; 10; 10; 10; 11; 11; 11; 11; 11; 11; 11; 12; 12;
    12; 12; 12; 12; 12; 12; 12; 12; 12; 12; 12; 12; 12; 12; 12; 12; 12; 12; 12; 12; 12; 12; 12; 12;
    12; 12; 12; 12; 12; 12; 12; 12; 12; 12; 12; 12].
(** bitcomp.c:179-182 t4_make_up_length *)
Definition t4_make_up_length (b : bool) : list Z :=
  if b then [5; 5; 6; 7; 8; 8; 8; 8; 8; 8; 9; 9; 9; 9; 9]
  else [10; 12; 12; 12; 12; 12; 12; 13; 13; 13; 13; 13; 13; 13; 13].
(** bitcomp.c:184-219 t4_make_up *)
Definition t4_make_up (b : bool) : list Z :=
  if b then
    [27; 18; 23; 55; 54; 55; 100; 101; 104; 103; 204; 205; 210; 211; 212]
  else
    [15; 200; 201; 91; 51; 52; 53; 108; 109; 74; 75; 76; 77; 114; 115].

(** bitcomp.c:226-305 t4_rle.  The fifteen cases "len >= 64 * m", tried from 15 down, are the one
    for m = min(15, len / 64); a table index outside the row is UB. *)
Definition t4_rle (bv : bitvec) (len : Z) (b : bool) : res bitvec :=
  let m := Z.min 15 (len / 64) in
  do bv1 <- (if 1 <=? m
             then do c <- rd (t4_make_up b) (m - 1) ;; do n <- rd (t4_make_up_length b) (m - 1) ;;
                  Ok (snd (bitvec_set_uint bv c n))
             else Ok bv) ;;
  do c <- rd (t4_term b) (len - 64 * m) ;;
  do n <- rd (t4_term_length b) (len - 64 * m) ;;
  Ok (snd (bitvec_set_uint bv1 c n)).

(** bitcomp.c:328-343: the while loop; fuel is the number of bits left (running out is UB). *)
Fixpoint t4_loop (fuel : nat) (vec comp : bitvec) (rl0 rl1 : Z) : res bitvec :=
  match fuel with
  | O => UB
  | S fu =>
    if cur_bit vec <=? 0 then Ok comp
    else
      do ' (vec, comp) <-
        (if rl1 <? rl0
         then do vec <- bitvec_shiftl vec rl0 ;; do comp <- t4_rle comp rl0 false ;; Ok (vec, comp)
         else do vec <- bitvec_shiftl vec rl1 ;; do comp <- t4_rle comp rl1 true ;; Ok (vec, comp)) ;;
      do rl0 <- bitvec_rl vec false ;;
      do rl1 <- bitvec_rl vec true ;;
      t4_loop fu vec comp rl0 rl1
  end.

(** bitcomp.c:313-351 osmo_t4_encode: (return value, bv). *)
Definition osmo_t4_encode (bv : bitvec) : res (Z * bitvec) :=
  do rl0 <- bitvec_rl bv false ;;
  do rl1 <- bitvec_rl bv true ;;
  let r := if rl1 <? rl0 then 0 else 1 in
  let comp := Bv 0 (repeat 0 (2 * length (bdata bv))) in
  do comp <- t4_loop (S (Z.to_nat (cur_bit bv))) (Bv (cur_bit bv) (bdata bv)) comp rl0 rl1 ;;
  if cur_bit comp <? cur_bit bv
  then Ok (r, Bv (cur_bit comp) (firstn (length (bdata bv)) (bdata comp)))
  else Ok (-1, bv).
