(* M_crc.v - model of src/core/crcXXgen.c.tpl, instantiated for XX = w in {8,16,32,64} *)
From Verif Require Import Base.

(* include/osmocom/core/crcXXgen.h.tpl struct osmo_crcXXgen_code *)
Record crc_code := Crc { cbits : Z; cpoly : Z; cinit : Z; crem : Z }.

(* whether (uintXX_t)1 << k is defined: 8 and 16 bit types are promoted to int *)
Definition shl_ok (w k : Z) : bool := (0 <=? k) && (k <? (if w <=? 16 then 31 else w)).
Definition trunc (w x : Z) : Z := x mod 2 ^ w.

(* crcXXgen.c.tpl:50-61, one iteration of the loop *)
Definition crc_step (w : Z) (code : crc_code) (crc inb : Z) : res Z :=
  let n := cbits code - 1 in
  if negb (shl_ok w n && shl_ok w (cbits code)) then UB else
  let bit := Z.land inb 1 in
  let crc := trunc w (Z.lxor crc (Z.shiftl bit n)) in
  let crc := if negb (Z.land crc (trunc w (Z.shiftl 1 n)) =? 0)
             then Z.lxor (trunc w (Z.shiftl crc 1)) (cpoly code)
             else trunc w (Z.shiftl crc 1) in
  Ok (Z.land crc (Z.shiftl 1 (cbits code) - 1)).

(* crcXXgen.c.tpl:39-66 osmo_crcXXgen_compute_bits *)
Definition crc_compute (w : Z) (code : crc_code) (inp : list Z) (len : Z) : res Z :=
  do crc <- zfor (Z.to_nat len) 0 (fun i crc => do b <- rd inp i ;; crc_step w code crc b) (cinit code) ;;
  Ok (Z.lxor crc (crem code)).

(* crcXXgen.c.tpl:78-93 osmo_crcXXgen_check_bits *)
Fixpoint crc_check_loop (n : nat) (i : Z) (code : crc_code) (crc : Z) (crc_bits : list Z) : res Z :=
  match n with
  | O => Ok 0
  | S m => do b <- rd crc_bits i ;;
           if negb (Z.lxor b (Z.land (Z.shiftr crc (cbits code - i - 1)) 1) =? 0) then Ok 1
           else crc_check_loop m (i + 1) code crc crc_bits
  end.
Definition crc_check (w : Z) (code : crc_code) (inp : list Z) (len : Z) (crc_bits : list Z) : res Z :=
  do crc <- crc_compute w code inp len ;;
  crc_check_loop (Z.to_nat (cbits code)) 0 code crc crc_bits.

(* crcXXgen.c.tpl:104-116 osmo_crcXXgen_set_bits; returns the crc_bits array *)
Definition crc_set (w : Z) (code : crc_code) (inp : list Z) (len : Z) (crc_bits : list Z) : res (list Z) :=
  do crc <- crc_compute w code inp len ;;
  zfor (Z.to_nat (cbits code)) 0 (fun i o => wr o i (Z.land (Z.shiftr crc (cbits code - i - 1)) 1)) crc_bits.

(* src/coding/gsm0503_parity.c:40-143 *)
Definition gsm0503_fire_crc40 := Crc 40 0x0004820009 0 0xffffffffff.
Definition gsm0503_cs234_crc16 := Crc 16 0x1021 0 0xffff.
Definition gsm0503_mcs_crc8_hdr := Crc 8 0x49 0 0xff.
Definition gsm0503_mcs_crc12 := Crc 12 0x0d31 0 0x0fff.
Definition gsm0503_rach_crc6 := Crc 6 0x2f 0 0x3f.
Definition gsm0503_sch_crc10 := Crc 10 0x175 0 0x3ff.
Definition gsm0503_tch_fr_crc3 := Crc 3 0x3 0 0x7.
Definition gsm0503_tch_efr_crc8 := Crc 8 0x1d 0 0.
Definition gsm0503_amr_crc6 := Crc 6 0x2f 0 0x3f.
Definition gsm0503_amr_crc14 := Crc 14 0x202d 0 0x3fff.
