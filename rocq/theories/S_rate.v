(* S_rate.v - what a rate counter must show, in terms of the history of calls that concern it. *)
From Verif Require Import Base M_rate.

(* what happens to one counter: an addition, a one-second tick, a difference query, a reset *)
Inductive ev := EAdd (inc : Z) | ETick | EDiff | EReset.

(* the part of a call that concerns counter i of group id *)
Definition concerns (id i : Z) (o : op) : list ev :=
  match o with
  | OAlloc _ _ => []
  | OFree _ => []
  | OAdd id' i' inc => if (id' =? id) && (i' =? i) then [EAdd inc] else []
  | ODiff id' i' => if (id' =? id) && (i' =? i) then [EDiff] else []
  | OReset id' i' => if (id' =? id) && (i' =? i) then [EReset] else []
  | OGroupReset id' => if id' =? id then [EReset] else []
  | OTimer n => repeat ETick (Z.to_nat n)
  end.
Definition history (id i : Z) (os : list op) : list ev := flat_map (concerns id i) os.

(* sum of the increments, number of ticks *)
Fixpoint total (h : list ev) : Z := match h with EAdd n :: t => n + total t | _ :: t => total t | [] => 0 end.
Fixpoint nticks (h : list ev) : Z := match h with ETick :: t => 1 + nticks t | _ :: t => nticks t | [] => 0 end.
Definition secs (os : list op) : Z := fold_right (fun o n => match o with OTimer k => k + n | _ => n end) 0 os.

(* h contains no tick whose number (T ticks happened before h) is a multiple of P *)
Definition quiet (P T : Z) (h : list ev) : Prop :=
  forall h1 h2, h = h1 ++ ETick :: h2 -> (T + nticks h1 + 1) mod P <> 0.
(* h is empty or ends with a tick whose number is a multiple of P *)
Definition aligned (P T : Z) (h : list ev) : Prop :=
  h = [] \/ exists h', h = h' ++ [ETick] /\ (T + nticks h) mod P = 0.
(* h is empty or ends with a reset *)
Definition fresh (h : list ev) : Prop := h = [] \/ exists h', h = h' ++ [EReset].
(* h is empty or ends with a difference query *)
Definition queried (h : list ev) : Prop := h = [] \/ exists h', h = h' ++ [EDiff].

(* length in seconds of the intervals: second, minute, hour, day *)
Definition period (p : nat) : Z := nth p [1; 60; 3600; 86400] 0.

(* the rate shown for interval p *)
Definition rate (c : ctr) (p : nat) : Z := snd (nth p (ivs c) (0, 0)).
