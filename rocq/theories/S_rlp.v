(** RLP frames as 3GPP TS 24.022 draws them: a string of bits in order of transmission. *)
From Verif Require Import Base S_crc.

(** The [n] low bits of a number, least significant first. *)
Definition lsb_bits (n : nat) (x : Z) : list Z := map (fun k => b2z (Z.testbit x k)) (zseq 0 n).
(** The bits of octets in order of transmission. *)
Definition tx_bits (l : list Z) : list Z := flat_map (lsb_bits 8) l.
(** TS 24.022 5.2.1: C/R, S1 S2, N(S), P/F, N(R) (or M1..M5 and a spare bit). *)
Definition rlp_header (cr s ns pf nr : Z) : list Z := [cr] ++ lsb_bits 2 s ++ lsb_bits 6 ns ++ [pf] ++ lsb_bits 6 nr.

(** TS 24.022 4.4: x^24+x^23+x^21+x^20+x^19+x^17+x^16+x^15+x^13+x^8+x^7+x^5+x^4+x^2+1 *)
Definition RLP_G : Z := fold_left (fun a e => a + 2 ^ e) [24; 23; 21; 20; 19; 17; 16; 15; 13; 8; 7; 5; 4; 2; 0] 0.
(** The frame check sequence of the bits [m]: the complement of the remainder of [m] x^24 plus 24 ones
    ahead of [m] (the preset register); [c] are its 24 bits, coefficient of x^23 first. *)
Definition rlp_fcs_of (m c : list Z) : Prop :=
  bits c /\ length c = 24%nat /\
  gfrem (Z.lxor (Z.shiftl (poly_of m) 24) (Z.shiftl (Z.ones 24) (zlen m))) RLP_G 24 (Z.lxor (poly_of c) (Z.ones 24)).
