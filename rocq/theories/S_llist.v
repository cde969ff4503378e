(* S_llist.v - specification: a family of named sequences of nodes.
   A world lists, for every list head, the nodes queued on it in order. *)
From Verif Require Import Base.

Definition world := list (Z * list Z).
Definition nodes (w : world) : list Z := flat_map (fun p => fst p :: snd p) w.
Definition heads (w : world) : list Z := map fst w.
(* heads and nodes are all distinct: a node is on at most one list, at most once *)
Definition world_ok (w : world) : Prop := NoDup (nodes w).

Inductive lop :=
| LAdd (n hd : Z)        (* insert unlisted node n first on list hd *)
| LAddTail (n hd : Z)    (* insert unlisted node n last on list hd *)
| LDel (n : Z)           (* remove listed node n *)
| LMove (n hd : Z)       (* take listed node n off its list, make it first on hd *)
| LMoveTail (n hd : Z)   (* ... last on hd *)
| LSpliceInit (src hd : Z). (* prepend all of src to hd, leaving src empty *)

Definition queued (w : world) (n : Z) : Prop := exists p, In p w /\ In n (snd p).

Definition lop_ok (w : world) (o : lop) : Prop :=
  match o with
  | LAdd n hd | LAddTail n hd => ~ In n (nodes w) /\ In hd (heads w)
  | LDel n => queued w n
  | LMove n hd | LMoveTail n hd => queued w n /\ In hd (heads w)
  | LSpliceInit a b => In a (heads w) /\ In b (heads w) /\ a <> b
  end.

Definition on_list (hd : Z) (f : list Z -> list Z) (w : world) : world :=
  map (fun p => if fst p =? hd then (fst p, f (snd p)) else p) w.
Definition without (n : Z) (w : world) : world :=
  map (fun p => (fst p, filter (fun x => negb (x =? n)) (snd p))) w.
Definition contents (hd : Z) (w : world) : list Z :=
  match find (fun p => fst p =? hd) w with Some p => snd p | None => [] end.

Definition l_step (w : world) (o : lop) : world :=
  match o with
  | LAdd n hd => on_list hd (fun l => n :: l) w
  | LAddTail n hd => on_list hd (fun l => l ++ [n]) w
  | LDel n => without n w
  | LMove n hd => on_list hd (fun l => n :: l) (without n w)
  | LMoveTail n hd => on_list hd (fun l => l ++ [n]) (without n w)
  | LSpliceInit a b => on_list b (fun l => contents a w ++ l) (on_list a (fun _ => []) w)
  end.

(* an operation sequence each of whose calls is permitted when it is made *)
Fixpoint lops_ok (w : world) (ops : list lop) : Prop :=
  match ops with
  | [] => True
  | o :: t => lop_ok w o /\ lops_ok (l_step w o) t
  end.
