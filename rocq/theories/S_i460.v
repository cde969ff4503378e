(* S_i460.v - specification of I.460 sub-channel multiplexing, independent of the model *)
From Verif Require Import Base.

(* the w bits of an octet that start at bit position off, position 0 being the most significant bit *)
Definition field (off : Z) (w : nat) (octet : Z) : list Z :=
  map (fun j => if Z.testbit octet (7 - off - j) then 1 else 0) (zseq 0 w).
Definition fields (off : Z) (w : nat) (octets : list Z) : list Z := concat (map (field off w) octets).

(* the first n bits of a sub-channel: those at hand; when there are none left, those the user then supplies (later
   holds what each request for more yields); when there are none either, the idle bit 1.  Also what is left. *)
Fixpoint line (n : nat) (now : list Z) (later : list (list Z)) : list Z * list Z * list (list Z) :=
  match n with
  | O => ([], now, later)
  | S n' =>
    match now, later with
    | b :: t, _ => let '(l, a, c) := line n' t later in (b :: l, a, c)
    | [], [] => let '(l, a, c) := line n' [] [] in (1 :: l, a, c)
    | [], [] :: rs => let '(l, a, c) := line n' [] rs in (1 :: l, a, c)
    | [], (b :: t) :: rs => let '(l, a, c) := line n' t rs in (b :: l, a, c)
    end
  end.
Definition line_bits n now later : list Z := fst (fst (line n now later)).
