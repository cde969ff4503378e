(* S_tdef.v - what the values mean *)
From Verif Require Import Base M_tdef.

(* length of one unit in microseconds; the custom unit has none *)
Definition unit_us (u : Z) : option Z :=
  if u =? TDEF_US then Some 1 else if u =? TDEF_MS then Some 1000 else if u =? TDEF_S then Some 1000000 else if u =? TDEF_M then Some 60000000 else None.
Definition is_ulong (v : Z) : Prop := 0 <= v <= ULONG_MAX.
Definition is_unit (u : Z) : Prop := 0 <= u <= 4.
(* v, counted in units of a microseconds, as a number of units of b microseconds: the least one not shorter, as far as it can be stored *)
Definition is_round_up (v a b r : Z) : Prop :=
  (v = 0 -> r = 0) /\ (r < ULONG_MAX -> v * a <= r * b < v * a + b) /\ (r = ULONG_MAX -> (ULONG_MAX - 1) * b < v * a).
(* the table as the user sees it: entries up to the terminator *)
Fixpoint entries (ts : list tdef) : list tdef := match ts with [] => [] | t :: r => if tdef_end t then [] else t :: entries r end.
Definition terminated (ts : list tdef) : Prop := exists t, In t ts /\ tdef_end t = true.
(* value within the bounds of the entry, 0 meaning no upper bound *)
Definition within (t : tdef) (v : Z) : Prop := tmin t <= v /\ (tmax t <> 0 -> v <= tmax t).
