(* S_stat.v - what a statistics item must report: the values recorded in the current period, in order, as a list. *)
From Verif Require Import Base M_stat.

(* (last value, values recorded in the running period, what was reported by the last flush) *)
Record view := View { vlast : Z; vals : list Z; vrep : option (Z * list Z) }.
Definition vstep (d : Z) (w : view) (o : sop) : view :=
  match o with
  | SSet v => View v (vals w ++ [v]) (vrep w)
  | SInc v => View (vlast w + v) (vals w ++ [vlast w + v]) (vrep w)
  | SDec v => View (vlast w - v) (vals w ++ [vlast w - v]) (vrep w)
  | SFlush => View (vlast w) [] (Some (vlast w, vals w))
  | SReset => View d [] (vrep w)
  end.
Definition vrun d os := fold_left (vstep d) os (View d [] None).

(* p describes a period in which exactly the values vs were recorded, the latest value being l *)
Definition describes (p : period) (l : Z) (vs : list Z) : Prop :=
  plast p = l /\ pn p = zlen vs /\ psum p = fold_right Z.add 0 vs /\
  match vs with
  | [] => pmin p = l /\ pmax p = l
  | _ => In (pmin p) vs /\ In (pmax p) vs /\ last vs 0 = l /\ forall v, In v vs -> pmin p <= v <= pmax p
  end.

(* arguments and results are ints: no inc/dec overflows, and fewer than 2^32 values per period *)
Fixpoint fits (d : Z) (w : view) (os : list sop) : Prop :=
  match os with
  | [] => True
  | o :: t => let w' := vstep d w o in is_s32 (vlast w') /\ zlen (vals w') < 2 ^ 32 /\ fits d w' t
  end.
