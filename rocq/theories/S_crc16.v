(** 16 bit CRCs, bit by bit, least significant bit first (shift register form). *)
From Coq Require Import ZArith List Lia Bool.
From Verif Require Import Base.
Import ListNotations.
Open Scope Z_scope.

(** One bit into the register of the (reversed) polynomial [poly]. *)
Definition crc_bit (poly : Z) (reg b : Z) : Z :=
  Z.lxor (Z.shiftr reg 1) (if xorb (Z.odd reg) (b =? 1) then poly else 0).
(** The bits of an octet, least significant first. *)
Definition octet_bits (o : Z) : list Z := map (fun k => b2z (Z.testbit o k)) [0; 1; 2; 3; 4; 5; 6; 7].
Definition crc_octets (poly : Z) (reg : Z) (l : list Z) : Z := fold_left (crc_bit poly) (flat_map octet_bits l) reg.

Definition POLY_8005_REV := 40961.   (* 0xA001: x^16 + x^15 + x^2 + 1 *)
Definition POLY_CCITT_REV := 33800.  (* 0x8408: x^16 + x^12 + x^5 + 1 *)

(** HDLC frame check sequence: the complement of the CCITT CRC started with ones, low octet first. *)
Definition fcs (l : list Z) : list Z :=
  let r := Z.lxor (crc_octets POLY_CCITT_REV 65535 l) 65535 in [r mod 256; r / 256].
