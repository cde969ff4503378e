(* M_kasumi.v - model of src/gsm/kasumi.c, of osmo_c4 (src/gsm/auth_core.c), of A5/3 and A5/4 and the dispatcher in src/gsm/a5.c
   and of GEA3 / GEA4 (src/gsm/gea.c). *)
From Verif Require Import Base M_bits M_bitgen M_a5.

(* kasumi.c:28-37 *)
Definition k_S7 : list Z := [ 54; 50; 62; 56; 22; 34; 94; 96; 38; 6; 63; 93; 2; 18; 123; 33; 55; 113; 39; 114; 21; 67; 65; 12; 47; 73; 46; 27; 25; 111; 124; 81;
    53; 9; 121; 79; 52; 60; 58; 48; 101; 127; 40; 120; 104; 70; 71; 43; 20; 122; 72; 61; 23; 109; 13; 100; 77; 1; 16; 7; 82; 10; 105; 98;
    117; 116; 76; 11; 89; 106; 0; 125; 118; 99; 86; 69; 30; 57; 126; 87; 112; 51; 17; 5; 95; 14; 90; 84; 91; 8; 35; 103; 32; 97; 28; 66;
    102; 31; 26; 45; 75; 4; 85; 92; 37; 74; 80; 49; 68; 29; 115; 44; 64; 107; 108; 24; 110; 83; 36; 78; 42; 19; 15; 41; 88; 119; 59; 3 ].
(* kasumi.c:38-71 *)
Definition k_S9 : list Z := [ 167; 239; 161; 379; 391; 334; 9; 338; 38; 226; 48; 358; 452; 385; 90; 397; 183; 253; 147; 331; 415; 340; 51; 362; 306; 500; 262; 82; 216; 159; 356; 177;
    175; 241; 489; 37; 206; 17; 0; 333; 44; 254; 378; 58; 143; 220; 81; 400; 95; 3; 315; 245; 54; 235; 218; 405; 472; 264; 172; 494; 371; 290; 399; 76;
    165; 197; 395; 121; 257; 480; 423; 212; 240; 28; 462; 176; 406; 507; 288; 223; 501; 407; 249; 265; 89; 186; 221; 428; 164; 74; 440; 196; 458; 421; 350; 163;
    232; 158; 134; 354; 13; 250; 491; 142; 191; 69; 193; 425; 152; 227; 366; 135; 344; 300; 276; 242; 437; 320; 113; 278; 11; 243; 87; 317; 36; 93; 496; 27;
    487; 446; 482; 41; 68; 156; 457; 131; 326; 403; 339; 20; 39; 115; 442; 124; 475; 384; 508; 53; 112; 170; 479; 151; 126; 169; 73; 268; 279; 321; 168; 364;
    363; 292; 46; 499; 393; 327; 324; 24; 456; 267; 157; 460; 488; 426; 309; 229; 439; 506; 208; 271; 349; 401; 434; 236; 16; 209; 359; 52; 56; 120; 199; 277;
    465; 416; 252; 287; 246; 6; 83; 305; 420; 345; 153; 502; 65; 61; 244; 282; 173; 222; 418; 67; 386; 368; 261; 101; 476; 291; 195; 430; 49; 79; 166; 330;
    280; 383; 373; 128; 382; 408; 155; 495; 367; 388; 274; 107; 459; 417; 62; 454; 132; 225; 203; 316; 234; 14; 301; 91; 503; 286; 424; 211; 347; 307; 140; 374;
    35; 103; 125; 427; 19; 214; 453; 146; 498; 314; 444; 230; 256; 329; 198; 285; 50; 116; 78; 410; 10; 205; 510; 171; 231; 45; 139; 467; 29; 86; 505; 32;
    72; 26; 342; 150; 313; 490; 431; 238; 411; 325; 149; 473; 40; 119; 174; 355; 185; 233; 389; 71; 448; 273; 372; 55; 110; 178; 322; 12; 469; 392; 369; 190;
    1; 109; 375; 137; 181; 88; 75; 308; 260; 484; 98; 272; 370; 275; 412; 111; 336; 318; 4; 504; 492; 259; 304; 77; 337; 435; 21; 357; 303; 332; 483; 18;
    47; 85; 25; 497; 474; 289; 100; 269; 296; 478; 270; 106; 31; 104; 433; 84; 414; 486; 394; 96; 99; 154; 511; 148; 413; 361; 409; 255; 162; 215; 302; 201;
    266; 351; 343; 144; 441; 365; 108; 298; 251; 34; 182; 509; 138; 210; 335; 133; 311; 352; 328; 141; 396; 346; 123; 319; 450; 281; 429; 228; 443; 481; 92; 404;
    485; 422; 248; 297; 23; 213; 130; 466; 22; 217; 283; 70; 294; 360; 419; 127; 312; 377; 7; 468; 194; 2; 117; 295; 463; 258; 224; 447; 247; 187; 80; 398;
    284; 353; 105; 390; 299; 471; 470; 184; 57; 200; 348; 63; 204; 188; 33; 451; 97; 30; 310; 219; 94; 160; 129; 493; 64; 179; 263; 102; 189; 207; 114; 402;
    438; 477; 387; 122; 192; 42; 381; 5; 145; 118; 180; 449; 293; 323; 136; 380; 43; 66; 60; 455; 341; 445; 202; 432; 8; 237; 15; 376; 436; 464; 59; 461 ].

(* include/osmocom/core/bits.h:117-120 osmo_rol16 *)
Definition osmo_rol16 (x k : Z) : Z := u16 (Z.lor (Z.shiftl x k) (Z.shiftr x (16 - k))).

(* kasumi.c:26-88 kasumi_FI; all variables are uint16_t *)
Definition kasumi_FI (I skey : Z) : res Z :=
  let L := u16 (Z.shiftr I 7) in
  let R := u16 (Z.land I 0x7F) in
  do s9 <- rd k_S9 L ;; let L := Z.lxor s9 R in
  do s7 <- rd k_S7 R ;; let R := Z.lxor s7 (Z.land L 0x7F) in
  let L := Z.lxor L (Z.land skey 0x1FF) in
  let R := Z.lxor R (Z.shiftr skey 9) in
  do s9 <- rd k_S9 L ;; let L := Z.lxor s9 R in
  do s7 <- rd k_S7 R ;; let R := Z.lxor s7 (Z.land L 0x7F) in
  Ok (u16 (Z.shiftl R 9 + L)).

(* the eight subkey arrays *)
Record subkeys : Type := Sub { KL1 : list Z; KL2 : list Z; KO1 : list Z; KO2 : list Z; KO3 : list Z; KI1 : list Z; KI2 : list Z; KI3 : list Z }.

(* kasumi.c:90-107 kasumi_FO *)
Definition kasumi_FO (I : Z) (k : subkeys) (i : Z) : res Z :=
  let L := u16 (Z.shiftr I 16) in let R := u16 I in
  do ko1 <- rd (KO1 k) i ;; let L := Z.lxor L ko1 in
  do ki1 <- rd (KI1 k) i ;; do L <- kasumi_FI L ki1 ;;
  let L := Z.lxor L R in
  do ko2 <- rd (KO2 k) i ;; let R := Z.lxor R ko2 in
  do ki2 <- rd (KI2 k) i ;; do R <- kasumi_FI R ki2 ;;
  let R := Z.lxor R L in
  do ko3 <- rd (KO3 k) i ;; let L := Z.lxor L ko3 in
  do ki3 <- rd (KI3 k) i ;; do L <- kasumi_FI L ki3 ;;
  let L := Z.lxor L R in
  Ok (u32 (u32 (Z.shiftl R 16) + L)).

(* kasumi.c:109-120 kasumi_FL *)
Definition kasumi_FL (I : Z) (k : subkeys) (i : Z) : res Z :=
  let L := u16 (Z.shiftr I 16) in let R := u16 I in
  do kl1 <- rd (KL1 k) i ;;
  let R := Z.lxor R (osmo_rol16 (Z.land L kl1) 1) in
  do kl2 <- rd (KL2 k) i ;;
  let L := Z.lxor L (osmo_rol16 (Z.lor R kl2) 1) in
  Ok (u32 (u32 (Z.shiftl L 16) + R)).

(* kasumi.c:122-132 _kasumi: for (i = 0; i < 8; i++) with a second i++ in the body *)
Fixpoint kasumi_loop (is_ : list Z) (k : subkeys) (L R : Z) : res (Z * Z) :=
  match is_ with
  | [] => Ok (L, R)
  | i :: t =>
    do fl <- kasumi_FL L k i ;; do fo <- kasumi_FO fl k i ;; let R := Z.lxor R fo in
    let i := i + 1 in
    do fo <- kasumi_FO R k i ;; do fl <- kasumi_FL fo k i ;; let L := Z.lxor L fl in
    kasumi_loop t k L R
  end.
Definition kasumi (P : Z) (k : subkeys) : res Z :=
  let L := u32 (Z.shiftr P 32) in let R := u32 P in
  do '(L, R) <- kasumi_loop [0; 2; 4; 6] k L R ;;
  Ok (u64 (u64 (Z.shiftl L 32) + R)).

(* kasumi.c:134-158 _kasumi_key_expand *)
Definition k_C : list Z := [0x0123; 0x4567; 0x89AB; 0xCDEF; 0xFEDC; 0xBA98; 0x7654; 0x3210].
Definition load16be (key : list Z) (ofs : Z) : res Z := load_be 2 (skipn (Z.to_nat ofs) key).
Definition kasumi_key_expand (key : list Z) : res subkeys :=
  (* :138-140 *)
  do C <- zfor 8 0 (fun i C => do w <- load16be key (i * 2) ;; do c <- rd C i ;; wr C i (Z.lxor c w)) k_C ;;
  (* :144-157, the arrays grow with i *)
  zfor 8 0 (fun i k =>
    do a <- load16be key (i * 2) ;;
    do b <- rd C (Z.land (i + 2) 7) ;;
    do c <- load16be key (Z.land (2 * (i + 1)) 0xE) ;;
    do d <- load16be key (Z.land (2 * (i + 5)) 0xE) ;;
    do e <- load16be key (Z.land (2 * (i + 6)) 0xE) ;;
    do f <- rd C (Z.land (i + 4) 7) ;;
    do g <- rd C (Z.land (i + 3) 7) ;;
    do h <- rd C (Z.land (i + 7) 7) ;;
    Ok (Sub (KL1 k ++ [osmo_rol16 a 1]) (KL2 k ++ [b]) (KO1 k ++ [osmo_rol16 c 5]) (KO2 k ++ [osmo_rol16 d 8])
            (KO3 k ++ [osmo_rol16 e 13]) (KI1 k ++ [f]) (KI2 k ++ [g]) (KI3 k ++ [h])))
    (Sub [] [] [] [] [] [] [] []).

(* kasumi.c:159-193 _kasumi_kgcore; co: the memory at co, the result: that memory afterwards.  CA, cb, cd : uint8_t; cc : uint32_t; cl : uint16_t *)
Definition store_at (co : list Z) (ofs x n : Z) : res (list Z) :=
  let o := Z.to_nat ofs in
  if zlen co <? ofs then UB else do t <- store_be_ext 8 x (skipn o co) n ;; Ok (firstn o co ++ t).
Definition kgcore_A (CA cb cc cd : Z) : Z :=
  let A := Z.shiftl cc 32 in
  let A := Z.lor A (Z.shiftl CA 16) in
  Z.lor A (u64 (Z.shiftl (Z.lor (Z.shiftl cb 3) (Z.shiftl cd 2)) 24)).
Definition kasumi_kgcore (CA cb cc cd : Z) (ck co : list Z) (cl : Z) : res (list Z) :=
  do km <- zfor 16 0 (fun i l => do b <- rd ck i ;; Ok (l ++ [Z.lxor b 0x55])) [] ;;
  do k <- kasumi_key_expand km ;;
  do A <- kasumi (kgcore_A CA cb cc cd) k ;;
  do k <- kasumi_key_expand ck ;;
  do '(BLK, co) <- zfor (Z.to_nat (cl / 64)) 0 (fun i s =>
     let '(BLK, co) := s in
     do BLK <- kasumi (Z.lxor (Z.lxor A i) BLK) k ;;
     do co <- store_at co (i * 8) BLK 8 ;; Ok (BLK, co)) (0, co) ;;
  let bytes_remain := u8 ((cl / 8) mod 8 + (if negb (cl mod 8 =? 0) then 1 else 0)) in
  if bytes_remain =? 0 then Ok co else
  do BLK <- kasumi (Z.lxor (Z.lxor A (cl / 64)) BLK) k ;;
  store_at co (cl / 64 * 8) (Z.shiftr BLK ((8 - bytes_remain) * 8)) bytes_remain.

(* auth_core.c:139-143 osmo_c4: kc is 8 octets *)
Definition osmo_c4 (kc : list Z) : res (list Z) := if (length kc <? 8)%nat then UB else Ok (firstn 8 kc ++ firstn 8 kc).

(* a5.c:59-74 _a5_4.  g_ul, g_dl: the indeterminate contents of gamma[32] before each kgcore call; want_dl / want_ul and the
   114 written ubits as in M_a5.  fn_correct is true in every call from osmo_a5. *)
Definition a5_4_uplink (gamma : list Z) : res (list Z) :=
  zfor 15 0 (fun i l => do a <- rd gamma (i + 14) ;; do b <- rd gamma (i + 15) ;; Ok (l ++ [u8 (Z.shiftl a 2 + Z.shiftr b 6)])) [].
Definition a5_4 (g_ul g_dl : list Z) (ck : list Z) (fn : Z) (want_dl want_ul : bool) : res (option (list Z) * option (list Z)) :=
  do fn_count <- osmo_a5_fn_count fn ;;
  do ul <- (if want_ul then
              do gamma <- kasumi_kgcore 0xF 0 fn_count 0 ck g_ul 228 ;;
              do uplink <- a5_4_uplink gamma ;;
              do '(o, _) <- osmo_pbit2ubit (repeat 0 114) uplink 114 ;; Ok (Some o)
            else Ok None) ;;
  do dl <- (if want_dl then
              do gamma <- kasumi_kgcore 0xF 0 fn_count 0 ck g_dl 114 ;;
              do '(o, _) <- osmo_pbit2ubit (repeat 0 114) gamma 114 ;; Ok (Some o)
            else Ok None) ;;
  Ok (dl, ul).
(* a5.c:88-95 _a5_3 *)
Definition a5_3 (g_ul g_dl : list Z) (key : list Z) (fn : Z) (want_dl want_ul : bool) : res (option (list Z) * option (list Z)) :=
  do ck <- osmo_c4 key ;; a5_4 g_ul g_dl ck fn want_dl want_ul.

(* a5.c:405-440 osmo_a5: Err (-ENOTSUP) for the default case *)
Definition ENOTSUP := 95.
Definition osmo_a5 (g_ul g_dl : list Z) (n : Z) (key : list Z) (fn : Z) (want_dl want_ul : bool) : res (option (list Z) * option (list Z)) :=
  if n =? 0 then Ok (if want_dl then Some (repeat 0 114) else None, if want_ul then Some (repeat 0 114) else None)
  else if n =? 1 then a5_1 key fn want_dl want_ul
  else if n =? 2 then a5_2 key fn want_dl want_ul
  else if n =? 3 then a5_3 g_ul g_dl key fn want_dl want_ul
  else if n =? 4 then a5_4 g_ul g_dl key fn want_dl want_ul
  else Err (- ENOTSUP).

(* gea.c:40-46 gea4; len is uint16_t, len * 8 becomes the uint16_t cl; gea.c:55-61 gea3 *)
Definition gea4 (out : list Z) (len : Z) (kc : list Z) (iv direction : Z) : res (list Z) :=
  kasumi_kgcore 0xFF 0 iv direction kc out (u16 (len * 8)).
Definition gea3 (out : list Z) (len : Z) (kc : list Z) (iv direction : Z) : res (list Z) :=
  do ck <- osmo_c4 kc ;; gea4 out len ck iv direction.
