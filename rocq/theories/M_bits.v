(* M_bits.v - model of src/core/bits.c.  Buffers are lists of bytes; ubit_t and pbit_t are uint8_t,
   sbit_t is int8_t.  unsigned int arithmetic wraps at 2^32 (u32). *)
From Verif Require Import Base.

(* bits.c:41-62 osmo_ubit2pbit; state = (out buffer, outptr - out, curbyte).
   in[i] << bitnum is an int computation, stored back into a uint8_t (u8). *)
Definition ubit2pbit_step (inp : list Z) (i : Z) (s : list Z * Z * Z) : res (list Z * Z * Z) :=
  let '(out, pos, cur) := s in
  let bitnum := 7 - i mod 8 in
  do b <- rd inp i ;;
  let cur := u8 (Z.lor cur (Z.shiftl b bitnum)) in
  if i mod 8 =? 7 then do out' <- wr out pos cur ;; Ok (out', pos + 1, 0)
  else Ok (out, pos, cur).
Definition osmo_ubit2pbit (out inp : list Z) (num_bits : Z) : res (list Z * Z) :=
  do '(o, pos, cur) <- zfor (Z.to_nat num_bits) 0 (ubit2pbit_step inp) (out, 0, 0) ;;
  if negb (num_bits mod 8 =? 0) then do o' <- wr o pos cur ;; Ok (o', pos + 1)
  else Ok (o, pos).

(* bits.c:69-89 osmo_nibble_shift_right *)
Definition osmo_nibble_shift_right (out inp : list Z) (num_nibbles : Z) : res (list Z) :=
  let n := num_nibbles / 2 in
  if n =? 0 then Ok out else
  do b0 <- rd inp 0 ;;
  do out <- wr out 0 (Z.shiftr b0 4) ;;
  do out <- zfor (Z.to_nat (n - 1)) 1 (fun i out =>
      do a <- rd inp (i - 1) ;; do b <- rd inp i ;;
      wr out i (u8 (Z.lor (Z.shiftl (Z.land a 15) 4) (Z.shiftr b 4)))) out ;;
  if Z.testbit num_nibbles 0 then
    do a <- rd inp (n - 1) ;; do b <- rd inp n ;;
    wr out n (u8 (Z.lor (Z.shiftl (Z.land a 15) 4) (Z.shiftr b 4)))
  else
    do a <- rd inp (n - 1) ;; wr out n (u8 (Z.shiftl (Z.land a 15) 4)).

(* bits.c:96-110 osmo_nibble_shift_left_unal *)
Definition osmo_nibble_shift_left_unal (out inp : list Z) (num_nibbles : Z) : res (list Z) :=
  let n := num_nibbles / 2 in
  if n =? 0 then Ok out else
  do out <- zfor (Z.to_nat n) 0 (fun i out =>
      do a <- rd inp i ;; do b <- rd inp (i + 1) ;;
      wr out i (u8 (Z.lor (Z.shiftl (Z.land a 15) 4) (Z.shiftr b 4)))) out ;;
  if Z.testbit num_nibbles 0 then
    do a <- rd inp n ;; wr out n (u8 (Z.shiftl (Z.land a 15) 4))
  else Ok out.

(* bits.c:117-122 osmo_ubit2sbit *)
Definition osmo_ubit2sbit (out inp : list Z) (num_bits : Z) : res (list Z) :=
  zfor (Z.to_nat num_bits) 0 (fun i out =>
    do b <- rd inp i ;; wr out i (if negb (b =? 0) then -127 else 127)) out.

(* bits.c:129-134 osmo_sbit2ubit *)
Definition osmo_sbit2ubit (out inp : list Z) (num_bits : Z) : res (list Z) :=
  zfor (Z.to_nat num_bits) 0 (fun i out =>
    do b <- rd inp i ;; wr out i (if b <? 0 then 1 else 0)) out.

(* bits.c:142-176 osmo_pbit2ubit; state = (out buffer, cur - out, break taken).
   The eight unrolled statements are the inner loop over the shift 7 - k. *)
Definition pbit2ubit_bit (num_bits byte k : Z) (s : list Z * Z * bool) : res (list Z * Z * bool) :=
  let '(out, cur, brk) := s in
  if brk then Ok s else
  do out' <- wr out cur (Z.land (Z.shiftr byte (7 - k)) 1) ;;
  Ok (out', cur + 1, num_bits <=? cur + 1).
Definition pbit2ubit_byte (inp : list Z) (num_bits i : Z) (s : list Z * Z * bool) : res (list Z * Z * bool) :=
  let '(out, cur, brk) := s in
  if brk then Ok s else
  do byte <- rd inp i ;;
  zfor 8 0 (pbit2ubit_bit num_bits byte) s.
Definition osmo_pbit2ubit (out inp : list Z) (num_bits : Z) : res (list Z * Z) :=
  do '(o, cur, _) <- zfor (Z.to_nat (num_bits / 8 + 1)) 0 (pbit2ubit_byte inp num_bits) (out, 0, false) ;;
  Ok (o, cur).

(* bits.c:187-201 osmo_ubit2pbit_ext; 1 << bn is an int, the byte is stored back as uint8_t *)
Definition osmo_ubit2pbit_ext (out : list Z) (out_ofs : Z) (inp : list Z) (in_ofs num_bits : Z) (lsb_mode : bool)
  : res (list Z * Z) :=
  do o <- zfor (Z.to_nat num_bits) 0 (fun i out =>
      let op := u32 (out_ofs + i) in
      let bn := if lsb_mode then Z.land op 7 else 7 - Z.land op 7 in
      do b <- rd inp (u32 (in_ofs + i)) ;;
      do old <- rd out (Z.shiftr op 3) ;;
      wr out (Z.shiftr op 3)
         (u8 (if negb (b =? 0) then Z.lor old (Z.shiftl 1 bn)
              else Z.land old (Z.lnot (Z.shiftl 1 bn))))) out ;;
  Ok (o, s32 (Z.shiftr (u32 (out_ofs + num_bits - 1)) 3 + 1)).

(* bits.c:212-223 osmo_pbit2ubit_ext *)
Definition osmo_pbit2ubit_ext (out : list Z) (out_ofs : Z) (inp : list Z) (in_ofs num_bits : Z) (lsb_mode : bool)
  : res (list Z * Z) :=
  do o <- zfor (Z.to_nat num_bits) 0 (fun i out =>
      let ip := u32 (in_ofs + i) in
      let bn := if lsb_mode then Z.land ip 7 else 7 - Z.land ip 7 in
      do b <- rd inp (Z.shiftr ip 3) ;;
      wr out (u32 (out_ofs + i)) (if negb (Z.land b (Z.shiftl 1 bn) =? 0) then 1 else 0)) out ;;
  Ok (o, s32 (u32 (out_ofs + num_bits))).

(* bits.c:235-252 flip_table *)
Definition flip_table : list Z :=
  [0; 128; 64; 192; 32; 160; 96; 224; 16; 144; 80; 208; 48; 176; 112; 240;
   8; 136; 72; 200; 40; 168; 104; 232; 24; 152; 88; 216; 56; 184; 120; 248;
   4; 132; 68; 196; 36; 164; 100; 228; 20; 148; 84; 212; 52; 180; 116; 244;
   12; 140; 76; 204; 44; 172; 108; 236; 28; 156; 92; 220; 60; 188; 124; 252;
   2; 130; 66; 194; 34; 162; 98; 226; 18; 146; 82; 210; 50; 178; 114; 242;
   10; 138; 74; 202; 42; 170; 106; 234; 26; 154; 90; 218; 58; 186; 122; 250;
   6; 134; 70; 198; 38; 166; 102; 230; 22; 150; 86; 214; 54; 182; 118; 246;
   14; 142; 78; 206; 46; 174; 110; 238; 30; 158; 94; 222; 62; 190; 126; 254;
   1; 129; 65; 193; 33; 161; 97; 225; 17; 145; 81; 209; 49; 177; 113; 241;
   9; 137; 73; 201; 41; 169; 105; 233; 25; 153; 89; 217; 57; 185; 121; 249;
   5; 133; 69; 197; 37; 165; 101; 229; 21; 149; 85; 213; 53; 181; 117; 245;
   13; 141; 77; 205; 45; 173; 109; 237; 29; 157; 93; 221; 61; 189; 125; 253;
   3; 131; 67; 195; 35; 163; 99; 227; 19; 147; 83; 211; 51; 179; 115; 243;
   11; 139; 75; 203; 43; 171; 107; 235; 27; 155; 91; 219; 59; 187; 123; 251;
   7; 135; 71; 199; 39; 167; 103; 231; 23; 151; 87; 215; 55; 183; 119; 247;
   15; 143; 79; 207; 47; 175; 111; 239; 31; 159; 95; 223; 63; 191; 127; 255].

(* bits.c:264-273 osmo_bit_reversal; shifts of uint32_t wrap *)
Definition br_step (x m1 m2 s : Z) : Z :=
  Z.lor (u32 (Z.shiftl (Z.land x m1) s)) (Z.shiftr (Z.land x m2) s).
Definition br1 x := br_step x 0x55555555 0xAAAAAAAA 1.
Definition br2 x := br_step x 0x33333333 0xCCCCCCCC 2.
Definition br4 x := br_step x 0x0F0F0F0F 0xF0F0F0F0 4.
Definition br8 x := br_step x 0x00FF00FF 0xFF00FF00 8.
Definition br16 x := br_step x 0x0000FFFF 0xFFFF0000 16.
Definition osmo_bit_reversal (x k : Z) : Z :=
  let x := if negb (Z.land k 1 =? 0) then br1 x else x in
  let x := if negb (Z.land k 2 =? 0) then br2 x else x in
  let x := if negb (Z.land k 4 =? 0) then br4 x else x in
  let x := if negb (Z.land k 8 =? 0) then br8 x else x in
  if negb (Z.land k 16 =? 0) then br16 x else x.

(* bits.c:281-288 osmo_revbytebits_32 *)
Definition osmo_revbytebits_32 (x : Z) : Z := br4 (br2 (br1 x)).

(* bits.c:294-297 osmo_revbytebits_8 *)
Definition osmo_revbytebits_8 (x : Z) : Z := at0 flip_table x.

(* bits.c:305-311 osmo_revbytebits_buf *)
Definition osmo_revbytebits_buf (buf : list Z) (len : Z) : res (list Z) :=
  zfor (Z.to_nat len) 0 (fun i buf => do b <- rd buf i ;; do v <- rd flip_table b ;; wr buf i v) buf.
