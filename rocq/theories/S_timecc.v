(* S_timecc.v - specification of the cumulative time counter, independent of the model *)
From Verif Require Import Base.

(* how many increments a time of `sum` is worth: one more at every thr, gran + thr, 2 gran + thr, ... *)
Definition rounded (gran thr sum : Z) : Z := (sum + gran - thr) / gran.

(* A history of the flag, newest first: the times at which its value was reported.  The flag is false before. *)
Definition hist := list (Z * bool).
Definition flag_now (h : hist) : bool := match h with [] => false | (_, f) :: _ => f end.
(* the time for which the flag was true, up to time t *)
Fixpoint true_time (h : hist) (t : Z) : Z :=
  match h with
  | [] => 0
  | (s, f) :: h' => (if f then t - s else 0) + true_time h' s
  end.

(* With surplus time forgotten after the flag was false for `forget`: the increments settled, the time since then
   that counts, and since when the flag has its value.  forget = 0: never. *)
Record account := { settled : Z; surplus : Z; since : Z }.
Definition acc_step (gran thr forget : Z) (a : account) (was : bool) (t : Z) : account :=
  if was then {| settled := settled a; surplus := surplus a + (t - since a); since := t |}
  else if (forget >? 0) && (t - since a >=? forget) then
         {| settled := settled a + rounded gran thr (surplus a); surplus := 0; since := t |}
  else {| settled := settled a; surplus := surplus a; since := t |}.
(* a repeated report of the same value changes nothing *)
Fixpoint acc_hist (gran thr forget : Z) (h : hist) (t0 : Z) : account :=
  match h with
  | [] => {| settled := 0; surplus := 0; since := t0 |}
  | (t, f) :: h' =>
    let a := acc_hist gran thr forget h' t0 in
    if eqb f (flag_now h') then a else acc_step gran thr forget a (flag_now h') t
  end.
(* the increments due at time t *)
Definition increments (gran thr forget : Z) (h : hist) (t0 t : Z) : Z :=
  let a := acc_hist gran thr forget h t0 in
  settled a + rounded gran thr (surplus a + (if flag_now h then t - since a else 0)).
