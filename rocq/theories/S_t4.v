(** Compressed bit maps: the modified T.4 code of TS 44.060 9.1.10 and its decoder. *)
From Coq Require Import ZArith List Bool Ascii String.
Import ListNotations.
Open Scope string_scope.

(** TS 44.060 table 9.1.10.1: terminating codes for runs of 0 to 63 bits of value [b];
    table 9.1.10.2: make-up codes for 64, 128, ..., 960 bits. *)
Definition term_words (b : bool) : list string :=
  if b then
    ["00110101"; "000111"; "0111"; "1000"; "1011"; "1100"; "1110"; "1111"; "10011"; "10100"; "00111";
    "01000"; "001000"; "000011"; "110100"; "110101"; "101010"; "101011"; "0100111"; "0001100";
    "0001000"; "0010111"; "0000011"; "0000100"; "0101000"; "0101011"; "0010011"; "0100100";
    "0011000"; "00000010"; "00000011"; "00011010"; "00011011"; "00010010"; "00010011"; "00010100";
    "00010101"; "00010110"; "00010111"; "00101000"; "00101001"; "00101010"; "00101011"; "00101100";
    "00101101"; "00000100"; "00000101"; "00001010"; "00001011"; "01010010"; "01010011"; "01010100";
    "01010101"; "00100100"; "00100101"; "01011000"; "01011001"; "01011010"; "01011011"; "01001010";
    "01001011"; "00110010"; "00110011"; "00110100"]
  else
    ["0000110111"; "10"; "11"; "010"; "011"; "0011"; "0010"; "00011"; "000101"; "000100"; "0000100";
    "0000101"; "0000111"; "00000100"; "00000111"; "000011000"; "0000010111"; "0000011000";
    "0000001000"; "00001100111"; "00001101000"; "00001101100"; "00000110111"; "00000101000";
    "00000010111"; "00000011000"; "000011001010"; "000011001011"; "000011001100"; "000011001101";
    "000001101000"; "000001101001"; "000001101010"; "000001101011"; "000011010010"; "000011010011";
    "000011010100"; "000011010101"; "000011010110"; "000011010111"; "000001101100"; "000001101101";
    "000011011010"; "000011011011"; "000001010100"; "000001010101"; "000001010110"; "000001010111";
    "000001100100"; "000001100101"; "000001010010"; "000001010011"; "000000100100"; "000000110111";
    "000000111000"; "000000100111"; "000000101000"; "000001011000"; "000001011001"; "000000101011";
    "000000101100"; "000001011010"; "000001100110"; "000001100111"].
Definition make_up_words (b : bool) : list string :=
  if b then
    ["11011"; "10010"; "010111"; "0110111"; "00110110"; "00110111"; "01100100"; "01100101";
    "01101000"; "01100111"; "011001100"; "011001101"; "011010010"; "011010011"; "011010100"]
  else
    ["0000001111"; "000011001000"; "000011001001"; "000001011011"; "000000110011"; "000000110100";
    "000000110101"; "0000001101100"; "0000001101101"; "0000001001010"; "0000001001011";
    "0000001001100"; "0000001001101"; "0000001110010"; "0000001110011"].

Fixpoint word (s : string) : list bool :=
  match s with EmptyString => [] | String a t => Ascii.eqb a "1"%char :: word t end.

Close Scope string_scope.
Open Scope Z_scope.

(** Code words of a colour with the run length each stands for. *)
Definition terms (b : bool) : list (list bool * Z) :=
  combine (map word (term_words b)) (map Z.of_nat (seq 0 64)).
Definition make_ups (b : bool) : list (list bool * Z) :=
  combine (map word (make_up_words b)) (map (fun i => 64 * Z.of_nat i) (seq 1 15)).

(** Remove the prefix [w]. *)
Fixpoint strip (w bits : list bool) : option (list bool) :=
  match w, bits with
  | [], _ => Some bits
  | a :: w', b :: t => if Bool.eqb a b then strip w' t else None
  | _, [] => None
  end.
Fixpoint read_word (tab : list (list bool * Z)) (bits : list bool) : option (Z * list bool) :=
  match tab with
  | [] => None
  | (w, n) :: t => match strip w bits with Some rest => Some (n, rest) | None => read_word t bits end
  end.
(** One run: an optional make-up code and a terminating code. *)
Definition read_run (b : bool) (bits : list bool) : option (Z * list bool) :=
  let '(m, bits) := match read_word (make_ups b) bits with Some (m, rest) => (m, rest) | None => (0, bits) end in
  match read_word (terms b) bits with
  | Some (n, rest) => Some (m + n, rest)
  | None => None
  end.
(** The first [need] bits of the bit map, the first run having colour [b]. *)
Fixpoint t4_decode (fuel : nat) (b : bool) (bits : list bool) (need : Z) : option (list bool) :=
  match fuel with
  | O => None
  | S fu =>
    if need <=? 0 then Some []
    else match read_run b bits with
         | None => None
         | Some (n, rest) =>
           if need <=? n then Some (repeat b (Z.to_nat need))
           else match t4_decode fu (negb b) rest (need - n) with
                | Some l => Some (repeat b (Z.to_nat n) ++ l)%list
                | None => None
                end
         end
  end.
