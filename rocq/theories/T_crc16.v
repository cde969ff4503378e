(** C54: table driven 16 bit CRCs. *)
From Coq Require Import ZArith List Lia Bool.
From Verif Require Import Base Lib S_crc16 M_crc16 P_crc P_crc16.
Import ListNotations.
Open Scope Z_scope.

(** For every buffer and start value the functions give the register after feeding all bits. *)
Theorem C54_crc16 : forall r l len, bytes l -> 0 <= r < 65536 -> (len <= length l)%nat ->
  osmo_crc16 r l len = Ok (crc_octets POLY_8005_REV r (firstn len l)) /\ 0 <= crc_octets POLY_8005_REV r (firstn len l) < 65536.
Proof. intros. split; [now apply crc16_ok|]. apply crc_octets_range; auto. unfold POLY_8005_REV. lia. Qed.
Print Assumptions C54_crc16.
Theorem C54_ccitt : forall r l len, bytes l -> 0 <= r < 65536 -> (len <= length l)%nat ->
  osmo_crc16_ccitt r l len = Ok (crc_octets POLY_CCITT_REV r (firstn len l)) /\ 0 <= crc_octets POLY_CCITT_REV r (firstn len l) < 65536.
Proof. intros. split; [now apply ccitt_ok|]. apply crc_octets_range; auto. unfold POLY_CCITT_REV. lia. Qed.
Print Assumptions C54_ccitt.
(** Computing piece by piece gives the same as computing at once. *)
Theorem C54_pieces : forall r a b c1, bytes a -> bytes b -> 0 <= r < 65536 -> osmo_crc16_ccitt r a (length a) = Ok c1 ->
  osmo_crc16_ccitt c1 b (length b) = osmo_crc16_ccitt r (a ++ b) (length (a ++ b)).
Proof.
  intros r a b c1 Ha Hb Hr E. rewrite ccitt_ok, firstn_all in E by auto. injection E as <-.
  rewrite !ccitt_ok, !firstn_all by (auto; try (apply Forall_app; auto); apply crc_octets_range; unfold POLY_CCITT_REV; lia).
  now rewrite crc_octets_app.
Qed.
Print Assumptions C54_pieces.
(** Two check octets after a message leave the HDLC residue 0xF0B8 exactly when they are its FCS. *)
Theorem C54_residue : forall l x, bytes l -> bytes x -> length x = 2%nat ->
  (osmo_crc16_ccitt 65535 (l ++ x) (length (l ++ x)) = Ok 61624 <-> x = fcs l).
Proof.
  intros l x Hl Hx Lx. rewrite ccitt_ok, firstn_all by (auto; try (apply Forall_app; auto); lia). rewrite <- (fcs_good l x) by assumption.
  split; [intros E; injection E; auto|intros ->; reflexivity].
Qed.
Print Assumptions C54_residue.
(** Check values of the two CRCs for "123456789" (CRC-16/ARC, CRC-16/KERMIT, and X.25 FCS 0x906E). *)
Example C54_nonvacuous : let m := [49; 50; 51; 52; 53; 54; 55; 56; 57] in
  osmo_crc16 0 m 9 = Ok 47933 /\ osmo_crc16_ccitt 0 m 9 = Ok 8585 /\ fcs m = [110; 144] /\ bytes m.
Proof. cbn zeta. split; [vm_compute; reflexivity|]. split; [vm_compute; reflexivity|]. split; [vm_compute; reflexivity|]. repeat constructor; unfold is_byte; lia. Qed.
