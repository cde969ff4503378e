(** Model of src/isdn/v110.c and src/gsm/gsm44021.c: V.110 frames, the modified frames of TS 44.021 and the
    synchronous rate adaptation RA1.  Bits are kept as the octets (ubit_t) the C code moves. *)
From Verif Require Import Base.

(** include/osmocom/isdn/v110.h:6-17 struct osmo_v110_decoded_frame *)
Record v110fr := Vfr { v_d : list Z; v_e : list Z; v_s : list Z; v_x : list Z }.

(** v110.h:6-9,13-16 the array sizes; ubit_t is uint8_t. *)
Definition v110_typed (fr : v110fr) : Prop :=
  length (v_d fr) = 48%nat /\ length (v_e fr) = 7%nat /\ length (v_s fr) = 9%nat /\ length (v_x fr) = 2%nat /\
  bytes (v_d fr) /\ bytes (v_e fr) /\ bytes (v_s fr) /\ bytes (v_x fr).

(** memset of libc; the value is an octet. *)
Definition memset (b : list Z) (off v n : Z) : res (list Z) := memcpy b off (repeat v (Z.to_nat n)) 0 n.

(** src/isdn/v110.c:45-77 osmo_v110_decode_frame *)
Definition v110_decode_frame (fr : v110fr) (b : list Z) (n_bits : Z) : res (Z * v110fr) :=
  if n_bits <? 80 then Ok (- EINVAL, fr) else
  let d := v_d fr in let e := v_e fr in let s := v_s fr in let x := v_x fr in
  do v <- rd b (2 * 8 + 7) ;; do x <- wr x (0) v ;;
  do v <- rd b (7 * 8 + 7) ;; do x <- wr x (1) v ;;
  do v <- rd b (1 * 8 + 7) ;; do s <- wr s (0) v ;;
  do v <- rd b (3 * 8 + 7) ;; do s <- wr s (2) v ;;
  do v <- rd b (4 * 8 + 7) ;; do s <- wr s (3) v ;;
  do v <- rd b (6 * 8 + 7) ;; do s <- wr s (5) v ;;
  do v <- rd b (8 * 8 + 7) ;; do s <- wr s (7) v ;;
  do v <- rd b (9 * 8 + 7) ;; do s <- wr s (8) v ;;
  do e <- memcpy e (0) b (5 * 8 + 1) 7 ;;
  do d <- memcpy d (0 * 6) b (1 * 8 + 1) 6 ;;
  do d <- memcpy d (1 * 6) b (2 * 8 + 1) 6 ;;
  do d <- memcpy d (2 * 6) b (3 * 8 + 1) 6 ;;
  do d <- memcpy d (3 * 6) b (4 * 8 + 1) 6 ;;
  do d <- memcpy d (4 * 6) b (6 * 8 + 1) 6 ;;
  do d <- memcpy d (5 * 6) b (7 * 8 + 1) 6 ;;
  do d <- memcpy d (6 * 6) b (8 * 8 + 1) 6 ;;
  do d <- memcpy d (7 * 6) b (9 * 8 + 1) 6 ;;
  Ok (0, Vfr d e s x).

(** src/isdn/v110.c:84-121 osmo_v110_encode_frame *)
Definition v110_encode_frame (b : list Z) (n_bits : Z) (fr : v110fr) : res (Z * list Z) :=
  if n_bits <? 80 then Ok (- ENOSPC, b) else
  let d := v_d fr in let e := v_e fr in let s := v_s fr in let x := v_x fr in
  do b <- memset b 0 0 8 ;;
  do b <- zfor 9 1 (fun i b => wr b (i * 8) 1) b ;;
  do v <- rd x (0) ;; do b <- wr b (2 * 8 + 7) v ;;
  do v <- rd x (1) ;; do b <- wr b (7 * 8 + 7) v ;;
  do v <- rd s (0) ;; do b <- wr b (1 * 8 + 7) v ;;
  do v <- rd s (2) ;; do b <- wr b (3 * 8 + 7) v ;;
  do v <- rd s (3) ;; do b <- wr b (4 * 8 + 7) v ;;
  do v <- rd s (5) ;; do b <- wr b (6 * 8 + 7) v ;;
  do v <- rd s (7) ;; do b <- wr b (8 * 8 + 7) v ;;
  do v <- rd s (8) ;; do b <- wr b (9 * 8 + 7) v ;;
  do b <- memcpy b (5 * 8 + 1) e (0) 7 ;;
  do b <- memcpy b (1 * 8 + 1) d (0 * 6) 6 ;;
  do b <- memcpy b (2 * 8 + 1) d (1 * 6) 6 ;;
  do b <- memcpy b (3 * 8 + 1) d (2 * 6) 6 ;;
  do b <- memcpy b (4 * 8 + 1) d (3 * 6) 6 ;;
  do b <- memcpy b (6 * 8 + 1) d (4 * 6) 6 ;;
  do b <- memcpy b (7 * 8 + 1) d (5 * 6) 6 ;;
  do b <- memcpy b (8 * 8 + 1) d (6 * 6) 6 ;;
  do b <- memcpy b (9 * 8 + 1) d (7 * 6) 6 ;;
  Ok (10 * 8, b).

(** src/isdn/v110.c:127-137 osmo_v110_ubit_dump; the output is modelled as a list of lines, [None] for the complaint
    about short input and [Some bits] for a line of eight numbers. *)
Definition v110_ubit_dump (fr : list Z) (in_len : Z) : res (list (option (list Z))) :=
  let out := if in_len <? 80 then [None] else [] in
  zfor 10 0 (fun octet out =>
    do row <- zfor 8 0 (fun k row => do v <- rd fr (octet * 8 + k) ;; Ok (row ++ [v])) [] ;;
    Ok (out ++ [Some row])) out.

(** src/isdn/v110.c:144 F *)
Definition FILL := 1.
(** include/osmocom/isdn/v110.h:25-39 enum osmo_v100_sync_ra1_rate *)
Definition RA1_600 := 0. Definition RA1_1200 := 1. Definition RA1_2400 := 2. Definition RA1_4800 := 3. Definition RA1_7200 := 4. Definition RA1_9600 := 5. Definition RA1_12000 := 6. Definition RA1_14400 := 7. Definition RA1_19200 := 8. Definition RA1_24000 := 9. Definition RA1_28800 := 10. Definition RA1_38400 := 11. 
Definition NUM_RA1 := 12.

(** src/isdn/v110.c:147-160 osmo_v110_e1e2e3 *)
Definition e1e2e3_table : list (list Z) :=
  [ [1; 0; 0]; [0; 1; 0]; [1; 1; 0]; [0; 1; 1]; [1; 0; 1]; [0; 1; 1]; [0; 0; 1]; [1; 0; 1]; [0; 1; 1]; [0; 0; 1]; [1; 0; 1]; [0; 1; 1] ].
(** include/osmocom/isdn/v110.h:44-45 osmo_v110_e1e2e3_set *)
Definition e1e2e3_set (e : list Z) (rate : Z) : res (list Z) :=
  do c <- rd e1e2e3_table rate ;; memcpy e 0 c 0 3.
(** include/osmocom/isdn/v110.h:46-47 osmo_v110_e1e2e3_cmp; [true] when memcmp is not 0 *)
Definition e1e2e3_cmp (e : list Z) (rate : Z) : res bool :=
  do c <- rd e1e2e3_table rate ;;
  do a0 <- rd e 0 ;; do a1 <- rd e 1 ;; do a2 <- rd e 2 ;;
  do c0 <- rd c 0 ;; do c1 <- rd c 1 ;; do c2 <- rd c 2 ;;
  Ok (negb ((a0 =? c0) && (a1 =? c1) && (a2 =? c2))).

(** src/isdn/v110.c:167-178 v110_adapt_600_to_IR8000 *)
Definition v110_adapt_600_to_IR8000 (fr : v110fr) (d_in : list Z) (in_len : Z) : res (Z * v110fr) :=
  if negb (in_len =? 6) then Ok (- EINVAL, fr) else
  let d := v_d fr in let e := v_e fr in let s := v_s fr in let x := v_x fr in
  do e <- e1e2e3_set e RA1_600 ;;
  do d <- zfor 6 0 (fun i d => do v <- rd d_in i ;; memset d (i * 8) v 8) d ;;
  Ok (0, Vfr d e s x).

(** src/isdn/v110.c:180-194 v110_adapt_IR8000_to_600 *)
Definition v110_adapt_IR8000_to_600 (d_out : list Z) (out_len : Z) (fr : v110fr) : res (Z * list Z) :=
  if out_len <? 6 then Ok (- ENOSPC, d_out) else
  do ne <- e1e2e3_cmp (v_e fr) RA1_600 ;;
  if ne then Ok (- EINVAL, d_out) else
  let d := v_d fr in
  do o <- zfor 6 0 (fun i o => do v <- rd d (i * 8) ;; wr o i v) d_out ;;
  Ok (6, o).

(** src/isdn/v110.c:201-212 v110_adapt_1200_to_IR8000 *)
Definition v110_adapt_1200_to_IR8000 (fr : v110fr) (d_in : list Z) (in_len : Z) : res (Z * v110fr) :=
  if negb (in_len =? 12) then Ok (- EINVAL, fr) else
  let d := v_d fr in let e := v_e fr in let s := v_s fr in let x := v_x fr in
  do e <- e1e2e3_set e RA1_1200 ;;
  do d <- zfor 12 0 (fun i d => do v <- rd d_in i ;; memset d (i * 4) v 4) d ;;
  Ok (0, Vfr d e s x).

(** src/isdn/v110.c:214-228 v110_adapt_IR8000_to_1200 *)
Definition v110_adapt_IR8000_to_1200 (d_out : list Z) (out_len : Z) (fr : v110fr) : res (Z * list Z) :=
  if out_len <? 12 then Ok (- ENOSPC, d_out) else
  do ne <- e1e2e3_cmp (v_e fr) RA1_1200 ;;
  if ne then Ok (- EINVAL, d_out) else
  let d := v_d fr in
  do o <- zfor 12 0 (fun i o => do v <- rd d (i * 4) ;; wr o i v) d_out ;;
  Ok (12, o).

(** src/isdn/v110.c:235-248 v110_adapt_2400_to_IR8000 *)
Definition v110_adapt_2400_to_IR8000 (fr : v110fr) (d_in : list Z) (in_len : Z) : res (Z * v110fr) :=
  if negb (in_len =? 24) then Ok (- EINVAL, fr) else
  let d := v_d fr in let e := v_e fr in let s := v_s fr in let x := v_x fr in
  do e <- e1e2e3_set e RA1_2400 ;;
  do d <- zfor 24 0 (fun i d =>
    do v <- rd d_in i ;; do d <- wr d (i * 2 + 0) v ;;
    do v <- rd d_in i ;; wr d (i * 2 + 1) v) d ;;
  Ok (0, Vfr d e s x).

(** src/isdn/v110.c:250-265 v110_adapt_IR8000_to_2400 *)
Definition v110_adapt_IR8000_to_2400 (d_out : list Z) (out_len : Z) (fr : v110fr) : res (Z * list Z) :=
  if out_len <? 24 then Ok (- ENOSPC, d_out) else
  do ne <- e1e2e3_cmp (v_e fr) RA1_2400 ;;
  if ne then Ok (- EINVAL, d_out) else
  let d := v_d fr in
  do o <- zfor 24 0 (fun i o => do v <- rd d (i * 2) ;; wr o i v) d_out ;;
  Ok (24, o).

(** src/isdn/v110.c:272-299 v110_adapt_Nx3600_to_IR *)
Definition v110_adapt_Nx3600_to_IR (fr : v110fr) (d_in : list Z) (in_len : Z) : res (Z * v110fr) :=
  if negb (in_len =? 36) then Ok (- EINVAL, fr) else
  let d := v_d fr in let e := v_e fr in let s := v_s fr in let x := v_x fr in
  let d_idx := 0 in
  do e <- e1e2e3_set e RA1_7200 ;;
  do d <- memcpy d (d_idx) d_in (0) 10 ;; let d_idx := d_idx + 10 in
  do d <- memset d (d_idx) FILL 2 ;; let d_idx := d_idx + 2 in
  do d <- memcpy d (d_idx) d_in (10) 2 ;; let d_idx := d_idx + 2 in
  do d <- memset d (d_idx) FILL 2 ;; let d_idx := d_idx + 2 in
  do d <- memcpy d (d_idx) d_in (12) 2 ;; let d_idx := d_idx + 2 in
  do d <- memset d (d_idx) FILL 2 ;; let d_idx := d_idx + 2 in
  do d <- memcpy d (d_idx) d_in (14) 14 ;; let d_idx := d_idx + 14 in
  do d <- memset d (d_idx) FILL 2 ;; let d_idx := d_idx + 2 in
  do d <- memcpy d (d_idx) d_in (28) 2 ;; let d_idx := d_idx + 2 in
  do d <- memset d (d_idx) FILL 2 ;; let d_idx := d_idx + 2 in
  do d <- memcpy d (d_idx) d_in (30) 2 ;; let d_idx := d_idx + 2 in
  do d <- memset d (d_idx) FILL 2 ;; let d_idx := d_idx + 2 in
  do d <- memcpy d (d_idx) d_in (32) 4 ;; let d_idx := d_idx + 4 in
  if negb (d_idx =? 48) then Abort else
  Ok (0, Vfr d e s x).

(** src/isdn/v110.c:301-329 v110_adapt_IR_to_Nx3600 *)
Definition v110_adapt_IR_to_Nx3600 (d_out : list Z) (out_len : Z) (fr : v110fr) : res (Z * list Z) :=
  if out_len <? 36 then Ok (- ENOSPC, d_out) else
  do ne <- e1e2e3_cmp (v_e fr) RA1_7200 ;;
  if ne then Ok (- EINVAL, d_out) else
  let d := v_d fr in
  let d_idx := 0 in
  do d_out <- memcpy d_out (0) d (d_idx) 10 ;; let d_idx := d_idx + 10 in let d_idx := d_idx + 2 in
  do d_out <- memcpy d_out (10) d (d_idx) 2 ;; let d_idx := d_idx + 2 in let d_idx := d_idx + 2 in
  do d_out <- memcpy d_out (12) d (d_idx) 2 ;; let d_idx := d_idx + 2 in let d_idx := d_idx + 2 in
  do d_out <- memcpy d_out (14) d (d_idx) 14 ;; let d_idx := d_idx + 14 in let d_idx := d_idx + 2 in
  do d_out <- memcpy d_out (28) d (d_idx) 2 ;; let d_idx := d_idx + 2 in let d_idx := d_idx + 2 in
  do d_out <- memcpy d_out (30) d (d_idx) 2 ;; let d_idx := d_idx + 2 in let d_idx := d_idx + 2 in
  do d_out <- memcpy d_out (32) d (d_idx) 4 ;; let d_idx := d_idx + 4 in
  if negb (d_idx =? 48) then Abort else
  Ok (36, d_out).

(** src/isdn/v110.c:337-348 v110_adapt_Nx4800_to_IR *)
Definition v110_adapt_Nx4800_to_IR (fr : v110fr) (d_in : list Z) (in_len : Z) : res (Z * v110fr) :=
  if negb (in_len =? 48) then Ok (- EINVAL, fr) else
  let d := v_d fr in let e := v_e fr in let s := v_s fr in let x := v_x fr in
  do e <- e1e2e3_set e RA1_4800 ;;
  do d <- memcpy d (0) d_in (0) 48 ;;
  Ok (0, Vfr d e s x).

(** src/isdn/v110.c:350-362 v110_adapt_IR_to_Nx4800 *)
Definition v110_adapt_IR_to_Nx4800 (d_out : list Z) (out_len : Z) (fr : v110fr) : res (Z * list Z) :=
  if out_len <? 48 then Ok (- ENOSPC, d_out) else
  do ne <- e1e2e3_cmp (v_e fr) RA1_4800 ;;
  if ne then Ok (- EINVAL, d_out) else
  let d := v_d fr in
  do d_out <- memcpy d_out (0) d (0) 48 ;;
  Ok (48, d_out).

(** src/isdn/v110.c:369-399 v110_adapt_Nx12000_to_IR *)
Definition v110_adapt_Nx12000_to_IR (fr : v110fr) (d_in : list Z) (in_len : Z) : res (Z * v110fr) :=
  if negb (in_len =? 30) then Ok (- EINVAL, fr) else
  let d := v_d fr in let e := v_e fr in let s := v_s fr in let x := v_x fr in
  let d_idx := 0 in
  do e <- e1e2e3_set e RA1_12000 ;;
  do d <- memcpy d (d_idx) d_in (0) 10 ;; let d_idx := d_idx + 10 in
  do d <- memset d (d_idx) FILL 2 ;; let d_idx := d_idx + 2 in
  do d <- memcpy d (d_idx) d_in (10) 2 ;; let d_idx := d_idx + 2 in
  do d <- memset d (d_idx) FILL 2 ;; let d_idx := d_idx + 2 in
  do d <- memcpy d (d_idx) d_in (12) 2 ;; let d_idx := d_idx + 2 in
  do d <- memset d (d_idx) FILL 2 ;; let d_idx := d_idx + 2 in
  do v <- rd d_in (14) ;; do d <- wr d (d_idx) v ;; let d_idx := d_idx + 1 in
  do d <- memset d (d_idx) FILL 3 ;; let d_idx := d_idx + 3 in
  do d <- memcpy d (d_idx) d_in (15) 10 ;; let d_idx := d_idx + 10 in
  do d <- memset d (d_idx) FILL 2 ;; let d_idx := d_idx + 2 in
  do d <- memcpy d (d_idx) d_in (25) 2 ;; let d_idx := d_idx + 2 in
  do d <- memset d (d_idx) FILL 2 ;; let d_idx := d_idx + 2 in
  do d <- memcpy d (d_idx) d_in (27) 2 ;; let d_idx := d_idx + 2 in
  do d <- memset d (d_idx) FILL 2 ;; let d_idx := d_idx + 2 in
  do v <- rd d_in (29) ;; do d <- wr d (d_idx) v ;; let d_idx := d_idx + 1 in
  do d <- memset d (d_idx) FILL 3 ;; let d_idx := d_idx + 3 in
  if negb (d_idx =? 48) then Abort else
  Ok (0, Vfr d e s x).

(** src/isdn/v110.c:401-432 v110_adapt_IR_to_Nx12000 *)
Definition v110_adapt_IR_to_Nx12000 (d_out : list Z) (out_len : Z) (fr : v110fr) : res (Z * list Z) :=
  if out_len <? 30 then Ok (- ENOSPC, d_out) else
  do ne <- e1e2e3_cmp (v_e fr) RA1_12000 ;;
  if ne then Ok (- EINVAL, d_out) else
  let d := v_d fr in
  let d_idx := 0 in
  do d_out <- memcpy d_out (0) d (d_idx) 10 ;; let d_idx := d_idx + 10 in let d_idx := d_idx + 2 in
  do d_out <- memcpy d_out (10) d (d_idx) 2 ;; let d_idx := d_idx + 2 in let d_idx := d_idx + 2 in
  do d_out <- memcpy d_out (12) d (d_idx) 2 ;; let d_idx := d_idx + 2 in let d_idx := d_idx + 2 in
  do v <- rd d (d_idx) ;; do d_out <- wr d_out (14) v ;; let d_idx := d_idx + 1 in let d_idx := d_idx + 3 in
  do d_out <- memcpy d_out (15) d (d_idx) 10 ;; let d_idx := d_idx + 10 in let d_idx := d_idx + 2 in
  do d_out <- memcpy d_out (25) d (d_idx) 2 ;; let d_idx := d_idx + 2 in let d_idx := d_idx + 2 in
  do d_out <- memcpy d_out (27) d (d_idx) 2 ;; let d_idx := d_idx + 2 in let d_idx := d_idx + 2 in
  do v <- rd d (d_idx) ;; do d_out <- wr d_out (29) v ;; let d_idx := d_idx + 1 in let d_idx := d_idx + 3 in
  if negb (d_idx =? 48) then Abort else
  Ok (30, d_out).

(** src/isdn/v110.c:436-444 struct osmo_v110_sync_ra1 *)
Record ra1_def := Ra1 { ra_data_rate : Z; ra_ir : Z; ra_chunk : Z;
  ra_to_ir : v110fr -> list Z -> Z -> res (Z * v110fr); ra_from_ir : list Z -> Z -> v110fr -> res (Z * list Z) }.
(** src/isdn/v110.c:447-532 osmo_v110_sync_ra1_def *)
Definition sync_ra1_def : list ra1_def := [
  Ra1 600 8000 6 v110_adapt_600_to_IR8000 v110_adapt_IR8000_to_600;
  Ra1 1200 8000 12 v110_adapt_1200_to_IR8000 v110_adapt_IR8000_to_1200;
  Ra1 2400 8000 24 v110_adapt_2400_to_IR8000 v110_adapt_IR8000_to_2400;
  Ra1 4800 8000 48 v110_adapt_Nx4800_to_IR v110_adapt_IR_to_Nx4800;
  Ra1 7200 16000 36 v110_adapt_Nx3600_to_IR v110_adapt_IR_to_Nx3600;
  Ra1 9600 16000 48 v110_adapt_Nx4800_to_IR v110_adapt_IR_to_Nx4800;
  Ra1 12000 32000 30 v110_adapt_Nx12000_to_IR v110_adapt_IR_to_Nx12000;
  Ra1 14400 32000 36 v110_adapt_Nx3600_to_IR v110_adapt_IR_to_Nx3600;
  Ra1 19200 32000 48 v110_adapt_Nx4800_to_IR v110_adapt_IR_to_Nx4800;
  Ra1 24000 64000 30 v110_adapt_Nx12000_to_IR v110_adapt_IR_to_Nx12000;
  Ra1 28800 64000 36 v110_adapt_Nx3600_to_IR v110_adapt_IR_to_Nx3600;
  Ra1 38400 64000 48 v110_adapt_Nx4800_to_IR v110_adapt_IR_to_Nx4800 ].

(** src/isdn/v110.c:536-542 osmo_v110_sync_ra1_get_user_data_chunk_bitlen *)
Definition sync_ra1_get_user_data_chunk_bitlen (rate : Z) : res Z :=
  if (rate <? 0) || (NUM_RA1 <=? rate) then Ok (- EINVAL) else
  do f <- rd sync_ra1_def rate ;; Ok (ra_chunk f).
(** src/isdn/v110.c:545-551 osmo_v110_sync_ra1_get_user_data_rate *)
Definition sync_ra1_get_user_data_rate (rate : Z) : res Z :=
  if (rate <? 0) || (NUM_RA1 <=? rate) then Ok (- EINVAL) else
  do f <- rd sync_ra1_def rate ;; Ok (ra_data_rate f).
(** src/isdn/v110.c:554-560 osmo_v110_sync_ra1_get_intermediate_rate *)
Definition sync_ra1_get_intermediate_rate (rate : Z) : res Z :=
  if (rate <? 0) || (NUM_RA1 <=? rate) then Ok (- EINVAL) else
  do f <- rd sync_ra1_def rate ;; Ok (ra_ir f).

(** src/isdn/v110.c:568-575 osmo_v110_sync_ra1_user_to_ir *)
Definition sync_ra1_user_to_ir (rate : Z) (fr : v110fr) (d_in : list Z) (in_len : Z) : res (Z * v110fr) :=
  if (rate <? 0) || (NUM_RA1 <=? rate) then Ok (- EINVAL, fr) else
  do f <- rd sync_ra1_def rate ;; ra_to_ir f fr d_in in_len.
(** src/isdn/v110.c:583-590 osmo_v110_sync_ra1_ir_to_user *)
Definition sync_ra1_ir_to_user (rate : Z) (d_out : list Z) (out_len : Z) (fr : v110fr) : res (Z * list Z) :=
  if (rate <? 0) || (NUM_RA1 <=? rate) then Ok (- EINVAL, d_out) else
  do f <- rd sync_ra1_def rate ;; ra_from_ir f d_out out_len fr.

(** src/gsm/gsm44021.c:27-75 osmo_csd_12k_6k_decode_frame *)
Definition csd_12k_6k_decode_frame (fr : v110fr) (b : list Z) (n_bits : Z) : res (Z * v110fr) :=
  if n_bits <? 60 then Ok (- EINVAL, fr) else
  let d := v_d fr in let e := v_e fr in let s := v_s fr in let x := v_x fr in
  do v <- rd b (1 * 7 + 6) ;; do x <- wr x (0) v ;;
  do v <- rd b (6 * 7 + 3) ;; do x <- wr x (1) v ;;
  do v <- rd b (0 * 7 + 6) ;; do s <- wr s (0) v ;;
  do v <- rd b (2 * 7 + 6) ;; do s <- wr s (2) v ;;
  do v <- rd b (3 * 7 + 6) ;; do s <- wr s (3) v ;;
  do v <- rd b (5 * 7 + 3) ;; do s <- wr s (5) v ;;
  do v <- rd b (7 * 7 + 3) ;; do s <- wr s (7) v ;;
  do v <- rd b (8 * 7 + 3) ;; do s <- wr s (8) v ;;
  do e <- memcpy e (3) b (4 * 7 + 0) 4 ;;
  do d <- memcpy d (0 * 6 + 0) b (0 * 7 + 0) 6 ;;
  do d <- memcpy d (1 * 6 + 0) b (1 * 7 + 0) 6 ;;
  do d <- memcpy d (2 * 6 + 0) b (2 * 7 + 0) 6 ;;
  do d <- memcpy d (3 * 6 + 0) b (3 * 7 + 0) 6 ;;
  do d <- memcpy d (4 * 6 + 0) b (4 * 7 + 4) 3 ;;
  do d <- memcpy d (4 * 6 + 3) b (5 * 7 + 0) 3 ;;
  do d <- memcpy d (5 * 6 + 0) b (5 * 7 + 4) 3 ;;
  do d <- memcpy d (5 * 6 + 3) b (6 * 7 + 0) 3 ;;
  do d <- memcpy d (6 * 6 + 0) b (6 * 7 + 4) 3 ;;
  do d <- memcpy d (6 * 6 + 3) b (7 * 7 + 0) 3 ;;
  do d <- memcpy d (7 * 6 + 0) b (7 * 7 + 4) 3 ;;
  do d <- memcpy d (7 * 6 + 3) b (8 * 7 + 0) 3 ;;
  Ok (0, Vfr d e s x).

(** src/gsm/gsm44021.c:77-114 osmo_csd_12k_6k_encode_frame *)
Definition csd_12k_6k_encode_frame (b : list Z) (n_bits : Z) (fr : v110fr) : res (Z * list Z) :=
  if n_bits <? 60 then Ok (- EINVAL, b) else
  let d := v_d fr in let e := v_e fr in let s := v_s fr in let x := v_x fr in
  do v <- rd x (0) ;; do b <- wr b (1 * 7 + 6) v ;;
  do v <- rd x (1) ;; do b <- wr b (6 * 7 + 3) v ;;
  do v <- rd s (0) ;; do b <- wr b (0 * 7 + 6) v ;;
  do v <- rd s (2) ;; do b <- wr b (2 * 7 + 6) v ;;
  do v <- rd s (3) ;; do b <- wr b (3 * 7 + 6) v ;;
  do v <- rd s (5) ;; do b <- wr b (5 * 7 + 3) v ;;
  do v <- rd s (7) ;; do b <- wr b (7 * 7 + 3) v ;;
  do v <- rd s (8) ;; do b <- wr b (8 * 7 + 3) v ;;
  do b <- memcpy b (4 * 7 + 0) e (3) 4 ;;
  do b <- memcpy b (0 * 7 + 0) d (0 * 6 + 0) 6 ;;
  do b <- memcpy b (1 * 7 + 0) d (1 * 6 + 0) 6 ;;
  do b <- memcpy b (2 * 7 + 0) d (2 * 6 + 0) 6 ;;
  do b <- memcpy b (3 * 7 + 0) d (3 * 6 + 0) 6 ;;
  do b <- memcpy b (4 * 7 + 4) d (4 * 6 + 0) 3 ;;
  do b <- memcpy b (5 * 7 + 0) d (4 * 6 + 3) 3 ;;
  do b <- memcpy b (5 * 7 + 4) d (5 * 6 + 0) 3 ;;
  do b <- memcpy b (6 * 7 + 0) d (5 * 6 + 3) 3 ;;
  do b <- memcpy b (6 * 7 + 4) d (6 * 6 + 0) 3 ;;
  do b <- memcpy b (7 * 7 + 0) d (6 * 6 + 3) 3 ;;
  do b <- memcpy b (7 * 7 + 4) d (7 * 6 + 0) 3 ;;
  do b <- memcpy b (8 * 7 + 0) d (7 * 6 + 3) 3 ;;
  Ok (60, b).

(** src/gsm/gsm44021.c:119-208 osmo_csd_3k6_decode_frame *)
Definition csd_3k6_decode_frame (fr : v110fr) (b : list Z) (n_bits : Z) : res (Z * v110fr) :=
  if n_bits <? 36 then Ok (- EINVAL, fr) else
  let d := v_d fr in let e := v_e fr in let s := v_s fr in let x := v_x fr in
  do v <- rd b (0 * 8 + 7) ;; do x <- wr x (0) v ;;
  do v <- rd b (3 * 8 + 3) ;; do x <- wr x (1) v ;;
  do v <- rd b (0 * 8 + 3) ;; do s <- wr s (0) v ;;
  do v <- rd b (1 * 8 + 3) ;; do s <- wr s (2) v ;;
  do v <- rd b (1 * 8 + 7) ;; do s <- wr s (3) v ;;
  do v <- rd b (2 * 8 + 7) ;; do s <- wr s (5) v ;;
  do v <- rd b (3 * 8 + 7) ;; do s <- wr s (7) v ;;
  do v <- rd b (4 * 8 + 3) ;; do s <- wr s (8) v ;;
  do e <- memcpy e (3) b (2 * 8 + 0) 4 ;; let d_idx := 0 in
  do v <- rd b (0 * 8 + 0) ;; do d <- wr d (d_idx) v ;; let d_idx := d_idx + 1 in
  do v <- rd b (0 * 8 + 0) ;; do d <- wr d (d_idx) v ;; let d_idx := d_idx + 1 in
  do v <- rd b (0 * 8 + 1) ;; do d <- wr d (d_idx) v ;; let d_idx := d_idx + 1 in
  do v <- rd b (0 * 8 + 1) ;; do d <- wr d (d_idx) v ;; let d_idx := d_idx + 1 in
  do v <- rd b (0 * 8 + 2) ;; do d <- wr d (d_idx) v ;; let d_idx := d_idx + 1 in
  do v <- rd b (0 * 8 + 2) ;; do d <- wr d (d_idx) v ;; let d_idx := d_idx + 1 in
  do v <- rd b (0 * 8 + 4) ;; do d <- wr d (d_idx) v ;; let d_idx := d_idx + 1 in
  do v <- rd b (0 * 8 + 4) ;; do d <- wr d (d_idx) v ;; let d_idx := d_idx + 1 in
  do v <- rd b (0 * 8 + 5) ;; do d <- wr d (d_idx) v ;; let d_idx := d_idx + 1 in
  do v <- rd b (0 * 8 + 5) ;; do d <- wr d (d_idx) v ;; let d_idx := d_idx + 1 in
  do v <- rd b (0 * 8 + 6) ;; do d <- wr d (d_idx) v ;; let d_idx := d_idx + 1 in
  do v <- rd b (0 * 8 + 6) ;; do d <- wr d (d_idx) v ;; let d_idx := d_idx + 1 in
  do v <- rd b (1 * 8 + 0) ;; do d <- wr d (d_idx) v ;; let d_idx := d_idx + 1 in
  do v <- rd b (1 * 8 + 0) ;; do d <- wr d (d_idx) v ;; let d_idx := d_idx + 1 in
  do v <- rd b (1 * 8 + 1) ;; do d <- wr d (d_idx) v ;; let d_idx := d_idx + 1 in
  do v <- rd b (1 * 8 + 1) ;; do d <- wr d (d_idx) v ;; let d_idx := d_idx + 1 in
  do v <- rd b (1 * 8 + 2) ;; do d <- wr d (d_idx) v ;; let d_idx := d_idx + 1 in
  do v <- rd b (1 * 8 + 2) ;; do d <- wr d (d_idx) v ;; let d_idx := d_idx + 1 in
  do v <- rd b (1 * 8 + 4) ;; do d <- wr d (d_idx) v ;; let d_idx := d_idx + 1 in
  do v <- rd b (1 * 8 + 4) ;; do d <- wr d (d_idx) v ;; let d_idx := d_idx + 1 in
  do v <- rd b (1 * 8 + 5) ;; do d <- wr d (d_idx) v ;; let d_idx := d_idx + 1 in
  do v <- rd b (1 * 8 + 5) ;; do d <- wr d (d_idx) v ;; let d_idx := d_idx + 1 in
  do v <- rd b (1 * 8 + 6) ;; do d <- wr d (d_idx) v ;; let d_idx := d_idx + 1 in
  do v <- rd b (1 * 8 + 6) ;; do d <- wr d (d_idx) v ;; let d_idx := d_idx + 1 in
  do v <- rd b (2 * 8 + 4) ;; do d <- wr d (d_idx) v ;; let d_idx := d_idx + 1 in
  do v <- rd b (2 * 8 + 4) ;; do d <- wr d (d_idx) v ;; let d_idx := d_idx + 1 in
  do v <- rd b (2 * 8 + 5) ;; do d <- wr d (d_idx) v ;; let d_idx := d_idx + 1 in
  do v <- rd b (2 * 8 + 5) ;; do d <- wr d (d_idx) v ;; let d_idx := d_idx + 1 in
  do v <- rd b (2 * 8 + 6) ;; do d <- wr d (d_idx) v ;; let d_idx := d_idx + 1 in
  do v <- rd b (2 * 8 + 6) ;; do d <- wr d (d_idx) v ;; let d_idx := d_idx + 1 in
  do v <- rd b (3 * 8 + 0) ;; do d <- wr d (d_idx) v ;; let d_idx := d_idx + 1 in
  do v <- rd b (3 * 8 + 0) ;; do d <- wr d (d_idx) v ;; let d_idx := d_idx + 1 in
  do v <- rd b (3 * 8 + 1) ;; do d <- wr d (d_idx) v ;; let d_idx := d_idx + 1 in
  do v <- rd b (3 * 8 + 1) ;; do d <- wr d (d_idx) v ;; let d_idx := d_idx + 1 in
  do v <- rd b (3 * 8 + 2) ;; do d <- wr d (d_idx) v ;; let d_idx := d_idx + 1 in
  do v <- rd b (3 * 8 + 2) ;; do d <- wr d (d_idx) v ;; let d_idx := d_idx + 1 in
  do v <- rd b (3 * 8 + 4) ;; do d <- wr d (d_idx) v ;; let d_idx := d_idx + 1 in
  do v <- rd b (3 * 8 + 4) ;; do d <- wr d (d_idx) v ;; let d_idx := d_idx + 1 in
  do v <- rd b (3 * 8 + 5) ;; do d <- wr d (d_idx) v ;; let d_idx := d_idx + 1 in
  do v <- rd b (3 * 8 + 5) ;; do d <- wr d (d_idx) v ;; let d_idx := d_idx + 1 in
  do v <- rd b (3 * 8 + 6) ;; do d <- wr d (d_idx) v ;; let d_idx := d_idx + 1 in
  do v <- rd b (3 * 8 + 6) ;; do d <- wr d (d_idx) v ;; let d_idx := d_idx + 1 in
  do v <- rd b (4 * 8 + 0) ;; do d <- wr d (d_idx) v ;; let d_idx := d_idx + 1 in
  do v <- rd b (4 * 8 + 0) ;; do d <- wr d (d_idx) v ;; let d_idx := d_idx + 1 in
  do v <- rd b (4 * 8 + 1) ;; do d <- wr d (d_idx) v ;; let d_idx := d_idx + 1 in
  do v <- rd b (4 * 8 + 1) ;; do d <- wr d (d_idx) v ;; let d_idx := d_idx + 1 in
  do v <- rd b (4 * 8 + 2) ;; do d <- wr d (d_idx) v ;; let d_idx := d_idx + 1 in
  do v <- rd b (4 * 8 + 2) ;; do d <- wr d (d_idx) v ;; let d_idx := d_idx + 1 in
  if negb (d_idx =? 48) then Abort else
  Ok (0, Vfr d e s x).

(** src/gsm/gsm44021.c:210-266 osmo_csd_3k6_encode_frame *)
Definition csd_3k6_encode_frame (b : list Z) (n_bits : Z) (fr : v110fr) : res (Z * list Z) :=
  if n_bits <? 36 then Ok (- EINVAL, b) else
  let d := v_d fr in let e := v_e fr in let s := v_s fr in let x := v_x fr in
  do v <- rd x (0) ;; do b <- wr b (0 * 8 + 7) v ;;
  do v <- rd x (1) ;; do b <- wr b (3 * 8 + 3) v ;;
  do v <- rd s (0) ;; do b <- wr b (0 * 8 + 3) v ;;
  do v <- rd s (2) ;; do b <- wr b (1 * 8 + 3) v ;;
  do v <- rd s (3) ;; do b <- wr b (1 * 8 + 7) v ;;
  do v <- rd s (5) ;; do b <- wr b (2 * 8 + 7) v ;;
  do v <- rd s (7) ;; do b <- wr b (3 * 8 + 7) v ;;
  do v <- rd s (8) ;; do b <- wr b (4 * 8 + 3) v ;;
  do b <- memcpy b (2 * 8 + 0) e (3) 4 ;; let d_idx := 0 in
  do v <- rd d (d_idx) ;; do b <- wr b (0 * 8 + 0) v ;; let d_idx := d_idx + 2 in
  do v <- rd d (d_idx) ;; do b <- wr b (0 * 8 + 1) v ;; let d_idx := d_idx + 2 in
  do v <- rd d (d_idx) ;; do b <- wr b (0 * 8 + 2) v ;; let d_idx := d_idx + 2 in
  do v <- rd d (d_idx) ;; do b <- wr b (0 * 8 + 4) v ;; let d_idx := d_idx + 2 in
  do v <- rd d (d_idx) ;; do b <- wr b (0 * 8 + 5) v ;; let d_idx := d_idx + 2 in
  do v <- rd d (d_idx) ;; do b <- wr b (0 * 8 + 6) v ;; let d_idx := d_idx + 2 in
  do v <- rd d (d_idx) ;; do b <- wr b (1 * 8 + 0) v ;; let d_idx := d_idx + 2 in
  do v <- rd d (d_idx) ;; do b <- wr b (1 * 8 + 1) v ;; let d_idx := d_idx + 2 in
  do v <- rd d (d_idx) ;; do b <- wr b (1 * 8 + 2) v ;; let d_idx := d_idx + 2 in
  do v <- rd d (d_idx) ;; do b <- wr b (1 * 8 + 4) v ;; let d_idx := d_idx + 2 in
  do v <- rd d (d_idx) ;; do b <- wr b (1 * 8 + 5) v ;; let d_idx := d_idx + 2 in
  do v <- rd d (d_idx) ;; do b <- wr b (1 * 8 + 6) v ;; let d_idx := d_idx + 2 in
  do v <- rd d (d_idx) ;; do b <- wr b (2 * 8 + 4) v ;; let d_idx := d_idx + 2 in
  do v <- rd d (d_idx) ;; do b <- wr b (2 * 8 + 5) v ;; let d_idx := d_idx + 2 in
  do v <- rd d (d_idx) ;; do b <- wr b (2 * 8 + 6) v ;; let d_idx := d_idx + 2 in
  do v <- rd d (d_idx) ;; do b <- wr b (3 * 8 + 0) v ;; let d_idx := d_idx + 2 in
  do v <- rd d (d_idx) ;; do b <- wr b (3 * 8 + 1) v ;; let d_idx := d_idx + 2 in
  do v <- rd d (d_idx) ;; do b <- wr b (3 * 8 + 2) v ;; let d_idx := d_idx + 2 in
  do v <- rd d (d_idx) ;; do b <- wr b (3 * 8 + 4) v ;; let d_idx := d_idx + 2 in
  do v <- rd d (d_idx) ;; do b <- wr b (3 * 8 + 5) v ;; let d_idx := d_idx + 2 in
  do v <- rd d (d_idx) ;; do b <- wr b (3 * 8 + 6) v ;; let d_idx := d_idx + 2 in
  do v <- rd d (d_idx) ;; do b <- wr b (4 * 8 + 0) v ;; let d_idx := d_idx + 2 in
  do v <- rd d (d_idx) ;; do b <- wr b (4 * 8 + 1) v ;; let d_idx := d_idx + 2 in
  do v <- rd d (d_idx) ;; do b <- wr b (4 * 8 + 2) v ;; let d_idx := d_idx + 2 in
  if negb (d_idx =? 48) then Abort else
  Ok (36, b).

(** src/gsm/gsm44021.c:272-303 osmo_csd_ubit_dump; output as for [v110_ubit_dump]. *)
Definition csd_ubit_dump (fr : list Z) (in_len : Z) : res (list (option (list Z))) :=
  let line octet w n out :=
    do row <- zfor n 0 (fun k row => do v <- rd fr (octet * w + k) ;; Ok (row ++ [v])) [] ;; Ok (out ++ [Some row]) in
  if in_len =? 60 then
    zfor 9 0 (fun septet out => if septet <? 8 then line septet 7 7%nat out else line septet 7 4%nat out) []
  else if in_len =? 36 then
    zfor 5 0 (fun octet out => if octet <? 4 then line octet 8 8%nat out else line octet 8 4%nat out) []
  else Ok [None].
