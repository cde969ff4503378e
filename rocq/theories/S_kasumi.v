(* S_kasumi.v - the KASUMI block cipher (TS 35.202) and the key stream core of A5/3, A5/4, GEA3, GEA4 (TS 55.216, TS 55.226),
   following the notation of the documents *)
From Verif Require Import Base.

Definition S7 : list Z := [ 54; 50; 62; 56; 22; 34; 94; 96; 38; 6; 63; 93; 2; 18; 123; 33; 55; 113; 39; 114; 21; 67; 65; 12; 47; 73; 46; 27; 25; 111; 124; 81;
    53; 9; 121; 79; 52; 60; 58; 48; 101; 127; 40; 120; 104; 70; 71; 43; 20; 122; 72; 61; 23; 109; 13; 100; 77; 1; 16; 7; 82; 10; 105; 98;
    117; 116; 76; 11; 89; 106; 0; 125; 118; 99; 86; 69; 30; 57; 126; 87; 112; 51; 17; 5; 95; 14; 90; 84; 91; 8; 35; 103; 32; 97; 28; 66;
    102; 31; 26; 45; 75; 4; 85; 92; 37; 74; 80; 49; 68; 29; 115; 44; 64; 107; 108; 24; 110; 83; 36; 78; 42; 19; 15; 41; 88; 119; 59; 3 ].
Definition S9 : list Z := [ 167; 239; 161; 379; 391; 334; 9; 338; 38; 226; 48; 358; 452; 385; 90; 397; 183; 253; 147; 331; 415; 340; 51; 362; 306; 500; 262; 82; 216; 159; 356; 177;
    175; 241; 489; 37; 206; 17; 0; 333; 44; 254; 378; 58; 143; 220; 81; 400; 95; 3; 315; 245; 54; 235; 218; 405; 472; 264; 172; 494; 371; 290; 399; 76;
    165; 197; 395; 121; 257; 480; 423; 212; 240; 28; 462; 176; 406; 507; 288; 223; 501; 407; 249; 265; 89; 186; 221; 428; 164; 74; 440; 196; 458; 421; 350; 163;
    232; 158; 134; 354; 13; 250; 491; 142; 191; 69; 193; 425; 152; 227; 366; 135; 344; 300; 276; 242; 437; 320; 113; 278; 11; 243; 87; 317; 36; 93; 496; 27;
    487; 446; 482; 41; 68; 156; 457; 131; 326; 403; 339; 20; 39; 115; 442; 124; 475; 384; 508; 53; 112; 170; 479; 151; 126; 169; 73; 268; 279; 321; 168; 364;
    363; 292; 46; 499; 393; 327; 324; 24; 456; 267; 157; 460; 488; 426; 309; 229; 439; 506; 208; 271; 349; 401; 434; 236; 16; 209; 359; 52; 56; 120; 199; 277;
    465; 416; 252; 287; 246; 6; 83; 305; 420; 345; 153; 502; 65; 61; 244; 282; 173; 222; 418; 67; 386; 368; 261; 101; 476; 291; 195; 430; 49; 79; 166; 330;
    280; 383; 373; 128; 382; 408; 155; 495; 367; 388; 274; 107; 459; 417; 62; 454; 132; 225; 203; 316; 234; 14; 301; 91; 503; 286; 424; 211; 347; 307; 140; 374;
    35; 103; 125; 427; 19; 214; 453; 146; 498; 314; 444; 230; 256; 329; 198; 285; 50; 116; 78; 410; 10; 205; 510; 171; 231; 45; 139; 467; 29; 86; 505; 32;
    72; 26; 342; 150; 313; 490; 431; 238; 411; 325; 149; 473; 40; 119; 174; 355; 185; 233; 389; 71; 448; 273; 372; 55; 110; 178; 322; 12; 469; 392; 369; 190;
    1; 109; 375; 137; 181; 88; 75; 308; 260; 484; 98; 272; 370; 275; 412; 111; 336; 318; 4; 504; 492; 259; 304; 77; 337; 435; 21; 357; 303; 332; 483; 18;
    47; 85; 25; 497; 474; 289; 100; 269; 296; 478; 270; 106; 31; 104; 433; 84; 414; 486; 394; 96; 99; 154; 511; 148; 413; 361; 409; 255; 162; 215; 302; 201;
    266; 351; 343; 144; 441; 365; 108; 298; 251; 34; 182; 509; 138; 210; 335; 133; 311; 352; 328; 141; 396; 346; 123; 319; 450; 281; 429; 228; 443; 481; 92; 404;
    485; 422; 248; 297; 23; 213; 130; 466; 22; 217; 283; 70; 294; 360; 419; 127; 312; 377; 7; 468; 194; 2; 117; 295; 463; 258; 224; 447; 247; 187; 80; 398;
    284; 353; 105; 390; 299; 471; 470; 184; 57; 200; 348; 63; 204; 188; 33; 451; 97; 30; 310; 219; 94; 160; 129; 493; 64; 179; 263; 102; 189; 207; 114; 402;
    438; 477; 387; 122; 192; 42; 381; 5; 145; 118; 180; 449; 293; 323; 136; 380; 43; 66; 60; 455; 341; 445; 202; 432; 8; 237; 15; 376; 436; 464; 59; 461 ].
Definition xor := Z.lxor.
Definition rotl16 (x k : Z) : Z := (x * 2 ^ k) mod 65536 + x / 2 ^ (16 - k).

(* 4.5: I = L0 (9 bits) || R0 (7 bits), KI = KI1 (7 bits) || KI2 (9 bits) *)
Definition FI (I KI : Z) : Z :=
  let L0 := I / 128 in let R0 := I mod 128 in
  let L1 := R0 in let R1 := xor (at0 S9 L0) R0 in
  let L2 := xor R1 (KI mod 512) in let R2 := xor (xor (at0 S7 L1) (R1 mod 128)) (KI / 512) in
  let L3 := R2 in let R3 := xor (at0 S9 L2) R2 in
  let L4 := xor (at0 S7 L3) (R3 mod 128) in let R4 := R3 in
  512 * L4 + R4.

Record round_key := RK { rKL1 : Z; rKL2 : Z; rKO1 : Z; rKO2 : Z; rKO3 : Z; rKI1 : Z; rKI2 : Z; rKI3 : Z }.
(* 4.3 *)
Definition FL (I : Z) (k : round_key) : Z :=
  let L := I / 65536 in let R := I mod 65536 in
  let R' := xor R (rotl16 (Z.land L (rKL1 k)) 1) in
  let L' := xor L (rotl16 (Z.lor R' (rKL2 k)) 1) in 65536 * L' + R'.
(* 4.4: three rounds R_j = FI(L_(j-1) xor KO_j, KI_j) xor R_(j-1), L_j = R_(j-1) *)
Definition FO (I : Z) (k : round_key) : Z :=
  let L0 := I / 65536 in let R0 := I mod 65536 in
  let R1 := xor (FI (xor L0 (rKO1 k)) (rKI1 k)) R0 in let L1 := R0 in
  let R2 := xor (FI (xor L1 (rKO2 k)) (rKI2 k)) R1 in let L2 := R1 in
  let R3 := xor (FI (xor L2 (rKO3 k)) (rKI3 k)) R2 in let L3 := R2 in 65536 * L3 + R3.
(* 4.2: rounds counted from 1 *)
Definition f_round (i : nat) (k : round_key) (I : Z) : Z := if Nat.odd i then FO (FL I k) k else FL (FO I k) k.
(* 4.1: L_i = R_(i-1) xor f_i(L_(i-1)), R_i = L_(i-1) *)
Fixpoint feistel (i : nat) (ks : list round_key) (L R : Z) : Z * Z :=
  match ks with [] => (L, R) | k :: t => feistel (S i) t (xor R (f_round i k L)) L end.
Definition KASUMI (ks : list round_key) (block : Z) : Z := let '(L, R) := feistel 1 ks (block / 2 ^ 32) (block mod 2 ^ 32) in L * 2 ^ 32 + R.

(* 4.6: key schedule; K1 .. K8 are the 16-bit words of the key, K'_j = K_j xor C_j *)
Definition Cj : list Z := [0x0123; 0x4567; 0x89AB; 0xCDEF; 0xFEDC; 0xBA98; 0x7654; 0x3210].
Definition Kw (key : list Z) (j : nat) : Z := let j := ((j - 1) mod 8)%nat in at0 key (Z.of_nat (2 * j)) * 256 + at0 key (Z.of_nat (2 * j + 1)).
Definition Kw' (key : list Z) (j : nat) : Z := xor (Kw key j) (nth ((j - 1) mod 8) Cj 0).
Definition round_keys (key : list Z) : list round_key :=
  map (fun i => RK (rotl16 (Kw key i) 1) (Kw' key (i + 2)) (rotl16 (Kw key (i + 1)) 5) (rotl16 (Kw key (i + 5)) 8) (rotl16 (Kw key (i + 6)) 13)
                   (Kw' key (i + 4)) (Kw' key (i + 3)) (Kw' key (i + 7))) (seq 1 8).

(* the key stream core: register A, modified key, output feedback with a block counter; octets *)
Definition A0 (ca cb cc cd : Z) : Z := cc * 2 ^ 32 + (cb * 8 + cd * 4) * 2 ^ 24 + ca * 2 ^ 16.
Definition Areg (ca cb cc cd : Z) (key : list Z) : Z := KASUMI (round_keys (map (fun b => xor b 0x55) key)) (A0 ca cb cc cd).
Fixpoint ksb (key : list Z) (A : Z) (n : nat) : Z :=
  match n with O => 0 | S m => KASUMI (round_keys key) (xor (xor A (Z.of_nat m)) (ksb key A m)) end.
Definition octet_of (block : Z) (j : Z) : Z := block / 2 ^ (8 * (7 - j)) mod 256.
(* octet i of the stream *)
Definition ks_octet (ca cb cc cd : Z) (key : list Z) (i : Z) : Z :=
  octet_of (ksb key (Areg ca cb cc cd key) (S (Z.to_nat (i / 8)))) (i mod 8).
(* bit i of the stream, the most significant bit of an octet first *)
Definition ks_bit (ca cb cc cd : Z) (key : list Z) (i : Z) : Z :=
  ks_octet ca cb cc cd key (i / 8) / 2 ^ (7 - i mod 8) mod 2.
(* the frame count of A5: T1 (11 bits), T3 (6 bits), T2 (5 bits) *)
Definition COUNT (fn : Z) : Z := fn / 1326 * 2048 + fn mod 51 * 32 + fn mod 26.
(* bits n .. n + 113 of the A5/4 key stream *)
Definition a54_bits (ck : list Z) (fn n : Z) : list Z := map (fun i => ks_bit 0xF 0 (COUNT fn) 0 ck (n + i)) (zseq 0 114).
