(* S_gsmtime.v - specification of GSM frame numbers, independent of the model (3GPP TS 45.002). *)
From Verif Require Import Base.

(* the hyperframe: frame numbers are 0 .. 2715647 *)
Definition HYPER : Z := 2715648.
Definition is_fn (f : Z) : Prop := 0 <= f < HYPER.

(* d frames after a, cyclically *)
Definition after (a d : Z) : Z := (a + d) mod HYPER.
(* how many frames one has to wait after a until b comes (0 <= ahead < HYPER) *)
Definition ahead (a b : Z) : Z := (b - a) mod HYPER.

(* TS 45.002 clause 7, table 1: for each channel the repeat length and the (first, last) frame of its blocks.
   Channels: 0 TCH/F, 1 TCH/H0, 2 TCH/H1, 3 FACCH/F, 4 FACCH/H0, 5 FACCH/H1 *)
Definition channel_blocks (ch : Z) : Z * list (Z * Z) :=
  if ch =? 0 then (13, [(0, 7); (4, 11); (8, 3)])
  else if ch =? 1 then (13, [(0, 6); (4, 10); (8, 2)])
  else if ch =? 2 then (13, [(1, 7); (5, 11); (9, 3)])
  else if ch =? 3 then (13, [(0, 7); (4, 11); (8, 3)])
  else if ch =? 4 then (26, [(0, 10); (8, 19); (17, 2)])
  else (26, [(1, 11); (9, 20); (18, 3)]).

(* TS 45.002 section 6.2.3: RNTABLE and the hopping sequence. NBIN is the number of bits of N *)
Definition RNTABLE : list Z :=
  [48; 98; 63; 1; 36; 95; 78; 102; 94; 73; 0; 64; 25; 81; 76; 59; 124; 23; 104; 100; 101; 47; 118; 85; 18;
   56; 96; 86; 54; 2; 80; 34; 127; 13; 6; 89; 57; 103; 12; 74; 55; 111; 75; 38; 109; 71; 112; 29; 11; 88;
   87; 19; 3; 68; 110; 26; 33; 31; 8; 45; 82; 58; 40; 107; 32; 5; 106; 92; 62; 67; 77; 108; 122; 37; 60;
   66; 121; 42; 51; 126; 117; 114; 4; 90; 43; 52; 53; 113; 120; 72; 16; 49; 7; 79; 119; 61; 22; 84; 9; 97;
   91; 15; 21; 24; 46; 39; 93; 105; 65; 70; 125; 99; 17; 123].
Definition hop_S (T1 T2 T3 HSN N : Z) : Z :=
  let NBIN := Z.log2 N + 1 in
  let M := T2 + nth (Z.to_nat (Z.lxor HSN (T1 mod 64) + T3)) RNTABLE 0 in
  let M' := M mod 2 ^ NBIN in
  let T' := T3 mod 2 ^ NBIN in
  if M' <? N then M' else (M' + T') mod N.
Definition hop_MAI (FN HSN MAIO N : Z) : Z :=
  if HSN =? 0 then (FN + MAIO) mod N
  else (hop_S (FN / 1326) (FN mod 26) (FN mod 51) HSN N + MAIO) mod N.

(* TS 45.002 clause 7 table 3: block Bk of the 51-multiframe occupies 4 consecutive frames starting here *)
Definition ccch_block_start (k : Z) : Z := 6 + 4 * k + 2 * ((k + 1) / 2).
