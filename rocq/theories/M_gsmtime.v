(* M_gsmtime.v - model of the GSM frame number arithmetic:
   include/osmocom/gsm/gsm0502.h, src/gsm/gsm0502.c and the frame number part of src/gsm/gsm_utils.c. *)
From Verif Require Import Base.

(* include/osmocom/gsm/gsm0502.h:17-18, include/osmocom/gsm/gsm_utils.h:35 *)
Definition GSM_TDMA_SUPERFRAME : Z := 26 * 51.
Definition GSM_TDMA_HYPERFRAME : Z := 2048 * GSM_TDMA_SUPERFRAME.
Definition GSM_MAX_FN : Z := 26 * 51 * 2048.

(* include/osmocom/gsm/gsm0502.h:21-28; the operands are uint32_t at every use in the library, so the
   sums are computed modulo 2^32 *)
Definition GSM_TDMA_FN_SUM (a b : Z) : Z := u32 (a + b) mod GSM_TDMA_HYPERFRAME.
Definition GSM_TDMA_FN_SUB (a b : Z) : Z := u32 (u32 (a + GSM_TDMA_HYPERFRAME) - b) mod GSM_TDMA_HYPERFRAME.
Definition GSM_TDMA_FN_DIFF (a b : Z) : Z := Z.min (GSM_TDMA_FN_SUB a b) (GSM_TDMA_FN_SUB b a).
(* include/osmocom/gsm/gsm0502.h:31-35: GSM_TDMA_FN_INC, GSM_TDMA_FN_DEC (the new value of the argument) *)
Definition GSM_TDMA_FN_INC (fn : Z) : Z := GSM_TDMA_FN_SUM fn 1.
Definition GSM_TDMA_FN_DEC (fn : Z) : Z := GSM_TDMA_FN_SUB fn 1.

(* include/osmocom/gsm/gsm0502.h:73-84: gsm0502_fncmp *)
Definition fncmp (fn1 fn2 : Z) : Z :=
  let thresh := GSM_TDMA_HYPERFRAME / 2 in
  if fn1 =? fn2 then 0 else
  if ((fn1 <? fn2) && (u32 (fn2 - fn1) <? thresh)) || ((fn1 >? fn2) && (u32 (fn1 - fn2) >? thresh)) then -1 else 1.

(* include/osmocom/core/utils.h:189: OSMO_MOD_FLR on int operands (C's % is Z.rem) *)
Definition OSMO_MOD_FLR (x y : Z) : Z :=
  if ((x >? 0) && (y <? 0)) || ((x <? 0) && (y >? 0)) then Z.rem x y + y else Z.rem x y.
(* include/osmocom/core/utils.h:195: OSMO_MOD_EUC *)
Definition OSMO_MOD_EUC (x y : Z) : Z :=
  if Z.rem x y <? 0 then if y >? 0 then Z.rem x y + y else Z.rem x y - y else Z.rem x y.

(* include/osmocom/gsm/gsm_utils.h: struct gsm_time (fn uint32_t, t1 uint16_t, t2, t3, tc uint8_t) *)
Record gsm_time : Type := GT { gt_fn : Z; gt_t1 : Z; gt_t2 : Z; gt_t3 : Z; gt_tc : Z }.

(* src/gsm/gsm_utils.c:866-873: gsm_fn2gsmtime *)
Definition fn2gsmtime (fn : Z) : gsm_time :=
  GT fn (u16 (fn / (26 * 51))) (u8 (fn mod 26)) (u8 (fn mod 51)) (u8 ((fn / 51) mod 8)).

(* src/gsm/gsm_utils.c:889-904: gsm_gsmtime2fn (all intermediate int values fit) *)
Definition gsmtime2fn (t : gsm_time) : Z :=
  u32 (51 * OSMO_MOD_FLR (gt_t3 t - gt_t2 t) 26 + gt_t3 t + 51 * 26 * gt_t1 t) mod GSM_MAX_FN.

(* include/osmocom/gsm/gsm_utils.h:192-197 *)
Definition GSM_RFN_MODULUS : Z := 42432.
Definition fn2rfn (fn : Z) : Z := u16 (fn mod GSM_RFN_MODULUS).

(* src/gsm/gsm_utils.c:928-965: GSM_RFN_THRESHOLD, gsm_rfn2fn *)
Definition GSM_RFN_THRESHOLD : Z := GSM_RFN_MODULUS / 2.
Definition rfn2fn (rfn curr_fn : Z) : res Z :=
  if negb (rfn <? GSM_RFN_MODULUS) then Abort else
  let curr_rfn := fn2rfn curr_fn in
  let fn_rounded := GSM_TDMA_FN_SUB curr_fn curr_rfn in
  let fn_rounded :=
    if GSM_TDMA_FN_DIFF rfn curr_rfn >? GSM_RFN_THRESHOLD then
      if fn_rounded <? GSM_RFN_MODULUS
      then GSM_TDMA_FN_SUB GSM_MAX_FN (GSM_TDMA_FN_SUB GSM_RFN_MODULUS fn_rounded)
      else GSM_TDMA_FN_SUB fn_rounded GSM_RFN_MODULUS
    else fn_rounded in
  Ok (GSM_TDMA_FN_SUM fn_rounded rfn).

(* src/gsm/gsm0502.c:54-92: the block maps (one row per block) *)
Definition tch_f_traffic_block_map := [[0;1;2;3;4;5;6;7]; [4;5;6;7;8;9;10;11]; [8;9;10;11;0;1;2;3]].
Definition tch_h0_traffic_block_map := [[0;2;4;6]; [4;6;8;10]; [8;10;0;2]].
Definition tch_h1_traffic_block_map := [[1;3;5;7]; [5;7;9;11]; [9;11;1;3]].
Definition tch_f_facch_block_map := [[0;1;2;3;4;5;6;7]; [4;5;6;7;8;9;10;11]; [8;9;10;11;0;1;2;3]].
Definition tch_h0_facch_block_map := [[0;2;4;6;8;10]; [8;10;13;15;17;19]; [17;19;21;23;0;2]].
Definition tch_h1_facch_block_map := [[1;3;5;7;9;11]; [9;11;14;16;18;20]; [18;20;22;24;1;3]].

(* src/gsm/gsm0502.c:102-107: struct fn_remap_table (blockend and distance paired, len = length of the list) *)
Record remap_table : Type := RT { rt_cycle : Z; rt_rows : list (Z * Z) }.

(* src/gsm/gsm0502.c:126-135: fn_remap_table_from_traffic_block_map *)
Definition remap_table_from_block_map (map_ : list (list Z)) (cols repeat_ : Z) : remap_table :=
  RT repeat_ (map (fun row =>
    let first := at0 row 0 in let last := at0 row (cols - 1) in
    (last, if first <=? last then u8 (last - first) else u8 (repeat_ - first + last))) map_).

(* src/gsm/gsm0502.c:138-170: fn_remap_tables_build (run as constructor) *)
Definition fn_remap_tables : list remap_table :=
  [ remap_table_from_block_map tch_f_traffic_block_map 8 13;
    remap_table_from_block_map tch_h0_traffic_block_map 4 13;
    remap_table_from_block_map tch_h1_traffic_block_map 4 13;
    remap_table_from_block_map tch_f_facch_block_map 8 13;
    remap_table_from_block_map tch_h0_facch_block_map 6 26;
    remap_table_from_block_map tch_h1_facch_block_map 6 26 ].

(* src/gsm/gsm0502.c:189-194: the search loop for the block end *)
Fixpoint remap_find (rows : list (Z * Z)) (fn_cycle : Z) : Z :=
  match rows with
  | [] => -1
  | (blockend, distance) :: r => if blockend =? fn_cycle then distance else remap_find r fn_cycle
  end.

(* src/gsm/gsm0502.c:177-202: gsm0502_fn_remap; logging is not modelled *)
Definition fn_remap (fn channel : Z) : res Z :=
  match nth_error fn_remap_tables (Z.to_nat channel) with
  | None => Abort
  | Some table =>
    let sub := remap_find (rt_rows table) (u8 (fn mod rt_cycle table)) in
    if sub =? -1 then Ok fn else Ok (GSM_TDMA_FN_SUB fn sub)
  end.

(* src/gsm/gsm0502.c:205-218: rn_table *)
Definition rn_table : list Z :=
  [ 48;  98;  63;   1;  36;  95;  78; 102;  94;  73;
     0;  64;  25;  81;  76;  59; 124;  23; 104; 100;
   101;  47; 118;  85;  18;  56;  96;  86;  54;   2;
    80;  34; 127;  13;   6;  89;  57; 103;  12;  74;
    55; 111;  75;  38; 109;  71; 112;  29;  11;  88;
    87;  19;   3;  68; 110;  26;  33;  31;   8;  45;
    82;  58;  40; 107;  32;   5; 106;  92;  62;  67;
    77; 108; 122;  37;  60;  66; 121;  42;  51; 126;
   117; 114;   4;  90;  43;  52;  53; 113; 120;  72;
    16;  49;   7;  79; 119;  61;  22;  84;   9;  97;
    91;  15;  21;  24;  46;  39;  93; 105;  65;  70;
   125;  99;  17; 123 ].

(* src/gsm/gsm0502.c:230-262: gsm0502_hop_seq_gen; ma = None is the NULL pointer.
   n is a size_t; division by zero is UB, as is an index outside rn_table or ma. *)
Definition hop_seq_gen (t : gsm_time) (hsn maio n : Z) (ma : option (list Z)) : res Z :=
  if n =? 0 then UB else
  do mai <-
    (if hsn =? 0 then Ok (u32 (u32 (gt_fn t + maio) mod n))
     else
       let pnm := s32 (Z.lor (Z.lor (Z.lor (Z.lor (Z.lor (Z.lor (Z.shiftr n 0) (Z.shiftr n 1))
                      (Z.shiftr n 2)) (Z.shiftr n 3)) (Z.shiftr n 4)) (Z.shiftr n 5)) (Z.shiftr n 6)) in
       do r <- rd rn_table (Z.lxor hsn (Z.land (gt_t1 t) 63) + gt_t3 t) ;;
       let m := gt_t2 t + r in
       let mp := Z.land m pnm in
       let s := if mp <? n then mp else (mp + Z.land (gt_t3 t) pnm) mod n in
       Ok (u32 ((s + maio) mod n))) ;;
  match ma with
  | Some l => rd l mai
  | None => Ok (u16 mai)
  end.

(* src/gsm/gsm0502.c:264-287: ccch_block_table; FCCH -1, SCH -2, BCCH -3, IDLE -4 *)
Definition ccch_block_table : list Z :=
  [ -1; -2; -3; -3; -3; -3; 0; 0; 0; 0;
    -1; -2; 1; 1; 1; 1; 2; 2; 2; 2;
    -1; -2; 3; 3; 3; 3; 4; 4; 4; 4;
    -1; -2; 5; 5; 5; 5; 6; 6; 6; 6;
    -1; -2; 7; 7; 7; 7; 8; 8; 8; 8; -4 ].

(* src/gsm/gsm0502.c:294-297: gsm0502_fn2ccch_block *)
Definition fn2ccch_block (fn : Z) : res Z := rd ccch_block_table (fn mod 51).

(* src/gsm/rsl.c:484-500: rsl_ccch_conf_to_bs_cc_chans *)
Definition ccch_conf_to_bs_cc_chans (conf : Z) : Z :=
  if conf =? 0 then 1 else if conf =? 1 then 1 else if conf =? 2 then 2
  else if conf =? 4 then 3 else if conf =? 6 then 4 else -1.

(* include/osmocom/gsm/gsm0502.h:87-94: gsm0502_get_n_pag_blocks *)
Definition get_n_pag_blocks (ccch_conf bs_ag_blks_res : Z) : Z :=
  if ccch_conf =? 1 then u32 (3 - bs_ag_blks_res) else u32 (9 - bs_ag_blks_res).

(* include/osmocom/gsm/gsm0502.h:96-110: gsm0502_get_ccch_group, gsm0502_get_paging_group
   (bs_cc_chans and n_pag_blocks unsigned int; products modulo 2^32; imsi uint64_t) *)
Definition get_ccch_group (imsi bs_cc_chans n_pag_blocks : Z) : res Z :=
  let d := u32 (bs_cc_chans * n_pag_blocks) in
  if (d =? 0) || (n_pag_blocks =? 0) then UB else Ok (u32 ((imsi mod 1000) mod d / n_pag_blocks)).
(* n_pag_blocks is an int here: the product converts it to unsigned int, the last % to uint64_t *)
Definition get_paging_group (imsi bs_cc_chans n_pag_blocks : Z) : res Z :=
  let d := u32 (bs_cc_chans * n_pag_blocks) in
  if (d =? 0) || (n_pag_blocks =? 0) then UB else Ok (u32 ((imsi mod 1000) mod d mod u64 n_pag_blocks)).

(* src/gsm/gsm48.c:1520-1528: gsm48_number_of_paging_subchannels (unsigned result converted to int) *)
Definition number_of_paging_subchannels (ccch_conf bs_ag_blks_res bs_pa_mfrms : Z) : Z :=
  let n := get_n_pag_blocks ccch_conf bs_ag_blks_res in
  if ccch_conf =? 1 then s32 (Z.max 1 n * (bs_pa_mfrms + 2)) else s32 (n * (bs_pa_mfrms + 2)).

(* src/gsm/gsm0502.c:35-51: gsm0502_calc_paging_group *)
Definition calc_paging_group (ccch_conf bs_ag_blks_res bs_pa_mfrms imsi : Z) : res Z :=
  get_paging_group imsi (u32 (ccch_conf_to_bs_cc_chans ccch_conf))
    (number_of_paging_subchannels ccch_conf bs_ag_blks_res bs_pa_mfrms).
