(* M_ident.v - model of identifier validation and sanitizing, src/core/utils.c.
   A C string is the list of its characters (each 1..255) without the terminating NUL; NULL is [None]. *)
From Verif Require Import Base Str.
From Coq Require Import String.

(* strchr(set, c) != NULL for c != 0 *)
Definition chr_in (set : list Z) (c : Z) : bool := existsb (Z.eqb c) set.

(* src/core/utils.c:644 osmo_identifier_illegal_chars: the characters . , space { } [ ] ( ) < > | ~ \ ^ ` ' double-quote ? = ; / + * & % $ # ! *)
Definition illegal_chars : list Z :=
  [46; 44; 32; 123; 125; 91; 93; 40; 41; 60; 62; 124; 126; 92; 94; 96; 39; 34; 63; 61; 59; 47; 43; 42; 38; 37; 36; 35; 33].

(* isprint() in the "C" locale *)
Definition isprint (c : Z) : bool := (32 <=? c) && (c <=? 126).

(* the loop of src/core/utils.c:651-675 osmo_separated_identifiers_valid *)
Fixpoint sep_valid_loop (seps : option (list Z)) (s : list Z) : bool :=
  match s with
  | [] => true
  | c :: t =>
    if match seps with Some q => chr_in q c | None => false end then sep_valid_loop seps t
    else if negb (Z.land c 128 =? 0) then false
    else if negb (isprint c) then false
    else if chr_in illegal_chars c then false
    else sep_valid_loop seps t
  end.

(* src/core/utils.c:651-675 *)
Definition osmo_separated_identifiers_valid (s : option (list Z)) (seps : option (list Z)) : bool :=
  match s with
  | None => false
  | Some [] => false
  | Some l => sep_valid_loop seps l
  end.

(* src/core/utils.c:681-684 *)
Definition osmo_identifier_valid (s : option (list Z)) : bool := osmo_separated_identifiers_valid s None.

(* src/core/utils.c:693-703; the NULL string is a no-op.  The string keeps its storage; when replace_with is NUL
   the text would end there: that case (a zero character in the result) is visible as a 0 in the list. *)
Definition osmo_identifier_sanitize_buf (s : list Z) (seps : option (list Z)) (r : Z) : list Z :=
  map (fun c => if chr_in illegal_chars c || match seps with Some q => chr_in q c | None => false end then r else c) s.
