(** Half rate SID frames: what the standards say. The bits of a frame of 14 octets are [pbit false f 0] to [pbit false f 111] (S_bits.v). *)
From Verif Require Import Base S_bits M_hrsid.

Definition frame (f : list Z) : Prop := length f = 14%nat /\ bytes f.
(** TS 101 318 5.2.2: the SID code word, 79 bits that are all 1, takes the bits 33 to 111 (r34..r112) *)
Definition sid_frame (f : list Z) : Prop := frame f /\ forall i, 33 <= i < 112 -> pbit false f i = true.

(** GSM 05.03 table 3b: the bit of the channel with number j carries the bit voiced_bitorder[j] of a frame whose mode is not 0, as that of SID frames;
    these are the bits of the channel that carry the code word *)
Definition codeword : list Z := filter (fun j => 33 <=? at0 gsm620_voiced_bitorder j) (zseq 0 112).
(** the first 95 bits of the channel are class 1, protected by the code *)
Definition protected : list Z := filter (fun j => j <? 95) codeword.

(** how many of the bits [js] of the channel were received differently *)
Definition wrong (sent received : list Z) (js : list Z) : Z := zlen (filter (fun j => negb (at0 sent j =? at0 received j)) js).

(** what ETSI recommends to make of a frame, from the number of wrong bits in the code word, and in its protected part *)
Definition verdict (mode_lost bci : bool) (e1 e : Z) : Z :=
  if e1 <=? 2 then if mode_lost then INVALID else VALID
  else if e <=? (if bci then 15 else 10) then INVALID else SPEECH.
Definition upgrade (bci : bool) (e : Z) : bool := bci && (16 <=? e) && (e <=? 25).
