(** HDLC framing: zero insertion, flags and frame check sequence. *)
From Coq Require Import ZArith List Lia Bool.
From Verif Require Import Base S_crc16.
Import ListNotations.
Open Scope Z_scope.

(** A zero is inserted after every five consecutive ones; [n] ones have just been sent. *)
Fixpoint stuff (n : nat) (l : list Z) : list Z :=
  match l with
  | [] => []
  | b :: t => if b =? 1 then (if Nat.eqb n 4 then 1 :: 0 :: stuff 0 t else 1 :: stuff (S n) t) else b :: stuff 0 t
  end.
Definition flag : list Z := [0; 1; 1; 1; 1; 1; 1; 0].

(** What is between two flags for the octets [x] (which include the frame check sequence). *)
Definition body (x : list Z) : list Z := stuff 0 (flat_map octet_bits x).

(** [hdlc_line xs bits]: flags, with the octet strings [xs] (none empty) in order between them. *)
Inductive hdlc_line : list (list Z) -> list Z -> Prop :=
| hl_start : hdlc_line [] flag
| hl_flag : forall xs l, hdlc_line xs l -> hdlc_line xs (l ++ flag)
| hl_body : forall xs l x, hdlc_line xs l -> bytes x -> x <> [] -> hdlc_line (xs ++ [x]) (l ++ body x ++ flag).

(** What the receiver has to say about the octets between two flags: (length, frame) when the last
    two are the frame check sequence of the others (nothing when there are no others),
    OSMO_HDLC_FRAMING_ERROR when they are fewer than two, OSMO_HDLC_CRC_ERROR otherwise. *)
Definition verdict (x : list Z) : list (Z * list Z) :=
  let n := (length x - 2)%nat in
  if zlen x <? 2 then [(-1, [])]
  else if list_eq_dec Z.eq_dec (skipn n x) (fcs (firstn n x)) then
    (if zlen x =? 2 then [] else [(zlen x - 2, firstn n x)])
  else [(-2, [])].
Definition with_fcs (f : list Z) : list Z := f ++ fcs f.

(** The bits of an octet stream: with bit reversal (features flag OSMO_HDLC_F_BITREVERSE) the most
    significant bit of an octet comes first, without it the least significant. *)
Definition line_bits (brev : bool) (octets : list Z) : list Z :=
  flat_map (fun o => if brev then rev (octet_bits o) else octet_bits o) octets.
