(** Asynchronous serial line: what a UART puts on the line. *)
From Coq Require Import ZArith List Lia Bool.
From Verif Require Import Base.
Import ListNotations.
Open Scope Z_scope.

Inductive parity := PNone | PEven | POdd | PMark | PSpace.
Record conf := Conf { ndata : Z; nstop : Z; par : parity }.

(** The [n] low bits of a character, least significant first, and back. *)
Definition data_bits (n : Z) (ch : Z) : list Z := map (fun k => b2z (Z.testbit ch k)) (zseq 0 (Z.to_nat n)).
Fixpoint data_val (l : list Z) : Z := match l with [] => 0 | b :: t => b + 2 * data_val t end.

(** Parity bit for the data bits [l]. *)
Definition ones_parity (l : list Z) : Z := (fold_right Z.add 0 l) mod 2.
Definition parity_bits (p : parity) (l : list Z) : list Z :=
  match p with
  | PNone => []
  | PEven => [ones_parity l]
  | POdd => [1 - ones_parity l]
  | PMark => [1]
  | PSpace => [0]
  end.

(** One character: start bit, data, parity, stop bits. *)
Definition frame (c : conf) (ch : Z) : list Z :=
  [0] ++ data_bits (ndata c) ch ++ parity_bits (par c) (data_bits (ndata c) ch) ++ repeat 1 (Z.to_nat (nstop c)).
Definition frame_len (c : conf) : Z := 1 + ndata c + (match par c with PNone => 0 | _ => 1 end) + nstop c.

(** [on_line c chars bits]: the bits are the frames of the characters, in order, with any number of
    idle bits (1) before, between and after them. *)
Inductive on_line (c : conf) : list Z -> list Z -> Prop :=
| line_nil : on_line c [] []
| line_idle : forall cs l, on_line c cs l -> on_line c cs (l ++ [1])
| line_char : forall cs l ch, on_line c cs l -> on_line c (cs ++ [ch]) (l ++ frame c ch).

(** Configurations osmo_soft_uart_configure accepts and whose bit count fits an octet. *)
Definition conf_ok (c : conf) : Prop := 1 <= ndata c <= 8 /\ 1 <= nstop c /\ ndata c + nstop c <= 255.

(** Error flags due for a received character: OSMO_SUART_F_PARITY_ERROR (2) when the parity bit is
    not the one for the data, OSMO_SUART_F_FRAMING_ERROR (1) when some stop bit is not 1. *)
Definition err_flags (c : conf) (ds pb ss : list Z) : Z :=
  (if list_eq_dec Z.eq_dec pb (parity_bits (par c) ds) then 0 else 2) + (if forallb (fun b => b =? 1) ss then 0 else 1).
