(* S_arfcn.v - specification: GSM channel numbering (3GPP TS 45.005 section 2), TLLI ranges (TS 23.003 section 2.6),
   independent of the model.  Frequencies in units of 100 kHz. *)
From Verif Require Import Base.

Inductive gband := B450 | B480 | B750 | B810 | B850 | B900 | B1800 | B1900.

(* channel n, pcs selects the PCS 1900 numbering: (band, uplink frequency, duplex distance) *)
Definition channel (pcs : bool) (n : Z) : option (gband * Z * Z) :=
  if pcs then if (512 <=? n) && (n <=? 810) then Some (B1900, 18502 + 2 * (n - 512), 800) else None
  else if (0 <=? n) && (n <=? 124) then Some (B900, 8900 + 2 * n, 450)
  else if (955 <=? n) && (n <=? 1023) then Some (B900, 8900 + 2 * (n - 1024), 450)
  else if (128 <=? n) && (n <=? 251) then Some (B850, 8242 + 2 * (n - 128), 450)
  else if (512 <=? n) && (n <=? 885) then Some (B1800, 17102 + 2 * (n - 512), 950)
  else if (259 <=? n) && (n <=? 293) then Some (B450, 4506 + 2 * (n - 259), 100)
  else if (306 <=? n) && (n <=? 340) then Some (B480, 4790 + 2 * (n - 306), 100)
  else if (350 <=? n) && (n <=? 425) then Some (B810, 8060 + 2 * (n - 350), 450)
  else if (438 <=? n) && (n <=? 511) then Some (B750, 7472 + 2 * (n - 438), 300)
  else None.

(* the 16-bit Osmocom ARFCN: channel number in the low 12 bits; exactly the flag 0x8000 selects PCS, no flag the rest *)
Definition arfcn_channel (a : Z) : option (gband * Z * Z) :=
  if a / 4096 =? 0 then channel false (a mod 4096)
  else if a / 4096 =? 8 then channel true (a mod 4096) else None.

Definition freq (up : bool) (c : gband * Z * Z) : Z :=
  let '(_, ul, dist) := c in if up then ul else ul + dist.

Definition band_code (b : gband) : Z :=
  match b with B850 => 1 | B900 => 2 | B1800 => 4 | B1900 => 8 | B450 => 16 | B480 => 32 | B750 => 64 | B810 => 128 end.

Inductive tlli_kind := TLocal | TForeign | TRandom | TAux | TReserved | TGRnti | TRandGRnti.
Definition tlli_kind_of (t : Z) : tlli_kind :=
  if 3221225472 <=? t then TLocal            (* C0000000 - FFFFFFFF *)
  else if 2147483648 <=? t then TForeign     (* 80000000 - BFFFFFFF *)
  else if 2013265920 <=? t then TRandom      (* 78000000 - 7FFFFFFF *)
  else if 1879048192 <=? t then TAux         (* 70000000 - 77FFFFFF *)
  else if 536870912 <=? t then TReserved     (* 20000000 - 6FFFFFFF *)
  else if 268435456 <=? t then TRandGRnti    (* 10000000 - 1FFFFFFF *)
  else TGRnti.                               (* 00000000 - 0FFFFFFF *)

(* nominal output power range of a mobile station in dBm *)
Definition ms_power_range (b : gband) : Z * Z :=
  match b with B1800 => (0, 36) | B1900 => (0, 33) | _ => (5, 39) end.
Definition clamp (lo hi x : Z) : Z := Z.max lo (Z.min hi x).
