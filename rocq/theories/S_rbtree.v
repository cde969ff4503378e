(* S_rbtree.v - specification: ideal binary trees, how the heap represents one, and the red-black rules *)
From Verif Require Import Base M_rbtree.

Inductive tree := E | T (c : color) (l : tree) (x : Z) (r : tree).
Fixpoint inorder (t : tree) : list Z := match t with E => [] | T _ l x r => inorder l ++ x :: inorder r end.
Fixpoint height (t : tree) : Z := match t with E => 0 | T _ l _ r => 1 + Z.max (height l) (height r) end.
Definition addr (t : tree) : Z := match t with E => 0 | T _ _ x _ => x end.

(* every node's fields: children, colour, and the parent pointer par *)
Fixpoint cells (h : heap) (t : tree) (par : Z) : Prop :=
  match t with
  | E => True
  | T c l x r => mem h x = Nd par c (addr l) (addr r) /\ cells h l x /\ cells h r x
  end.
(* the heap holds the tree: root pointer, all nodes distinct and non-NULL, the root's parent NULL *)
Definition holds (h : heap) (t : tree) : Prop :=
  root h = addr t /\ cells h t 0 /\ NoDup (inorder t) /\ ~ In 0 (inorder t).

Definition blk (t : tree) : Prop := match t with T R _ _ _ => False | _ => True end.
(* no red node has a red child; equally many black nodes (n) on every path *)
Fixpoint rb (t : tree) (n : nat) : Prop :=
  match t with
  | E => n = O
  | T R l x r => rb l n /\ rb r n /\ blk l /\ blk r
  | T B l x r => match n with O => False | S m => rb l m /\ rb r m end
  end.
Definition rb_tree (t : tree) : Prop := blk t /\ exists n, rb t n.

(* what the operations do to the in-order sequence *)
Inductive seq_step : list Z -> rop -> list Z -> Prop :=
| ss_ins go n a b : seq_step (a ++ b) (RIns go n) (a ++ n :: b)
| ss_del n a b : seq_step (a ++ n :: b) (RDel n) (a ++ b)
| ss_repl v n a b : seq_step (a ++ v :: b) (RRepl v n) (a ++ n :: b).
Inductive seq_run : list Z -> list rop -> list Z -> Prop :=
| sr_nil l : seq_run l [] l
| sr_cons l o l1 os l2 : seq_step l o l1 -> seq_run l1 os l2 -> seq_run l (o :: os) l2.
(* the client's obligations; set = the nodes currently in the tree *)
Fixpoint legal (set : list Z) (os : list rop) : Prop :=
  match os with
  | [] => True
  | RIns _ n :: os => n <> 0 /\ ~ In n set /\ legal (n :: set) os
  | RDel n :: os => In n set /\ legal (remove Z.eq_dec n set) os
  | RRepl v n :: os => In v set /\ n <> 0 /\ ~ In n set /\ legal (n :: remove Z.eq_dec v set) os
  end.
