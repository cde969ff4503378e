(* M_llist.v - model of the intrusive doubly linked list, include/osmocom/core/linuxlist.h.
   Memory: two maps giving the next/prev pointer of every node (an address, a Z). *)
From Verif Require Import Base S_llist.

Record heap := Heap { nxt : Z -> Z; prv : Z -> Z }.
Definition set_nxt (h : heap) (a v : Z) : heap := Heap (fun x => if x =? a then v else nxt h x) (prv h).
Definition set_prv (h : heap) (a v : Z) : heap := Heap (nxt h) (fun x => if x =? a then v else prv h x).

(* linuxlist.h:42-43 *)
Definition LLIST_POISON1 : Z := 1048832.
Definition LLIST_POISON2 : Z := 2097664.

(* linuxlist.h:65-67 INIT_LLIST_HEAD *)
Definition INIT_LLIST_HEAD (h : heap) (p : Z) : heap := set_prv (set_nxt h p p) p p.

(* linuxlist.h:75-83 __llist_add *)
Definition __llist_add (h : heap) (new prev next : Z) : heap :=
  set_nxt (set_prv (set_nxt (set_prv h next new) new next) new prev) prev new.

(* linuxlist.h:92-95, 104-107 *)
Definition llist_add (h : heap) (new head : Z) : heap := __llist_add h new head (nxt h head).
Definition llist_add_tail (h : heap) (new head : Z) : heap := __llist_add h new (prv h head) head.

(* linuxlist.h:116-120 __llist_del *)
Definition __llist_del (h : heap) (prev next : Z) : heap := set_nxt (set_prv h next prev) prev next.

(* linuxlist.h:128-133 llist_del *)
Definition llist_del (h : heap) (e : Z) : heap :=
  set_prv (set_nxt (__llist_del h (prv h e) (nxt h e)) e LLIST_POISON1) e LLIST_POISON2.

(* linuxlist.h:138-142 llist_del_init *)
Definition llist_del_init (h : heap) (e : Z) : heap :=
  INIT_LLIST_HEAD (__llist_del h (prv h e) (nxt h e)) e.

(* linuxlist.h:148-163 llist_move, llist_move_tail *)
Definition llist_move (h : heap) (l head : Z) : heap :=
  llist_add (__llist_del h (prv h l) (nxt h l)) l head.
Definition llist_move_tail (h : heap) (l head : Z) : heap :=
  llist_add_tail (__llist_del h (prv h l) (nxt h l)) l head.

(* linuxlist.h:169-172 *)
Definition llist_empty (h : heap) (head : Z) : bool := nxt h head =? head.

(* linuxlist.h:174-186 __llist_splice: all three reads happen before the writes *)
Definition __llist_splice (h : heap) (l head : Z) : heap :=
  let first := nxt h l in
  let last := prv h l in
  let a := nxt h head in
  set_prv (set_nxt (set_nxt (set_prv h first head) head first) last a) a last.

(* linuxlist.h:204-211 llist_splice_init *)
Definition llist_splice_init (h : heap) (l head : Z) : heap :=
  if negb (llist_empty h l) then INIT_LLIST_HEAD (__llist_splice h l head) l else h.

(* linuxlist.h:393-400 llist_count / llist_for_each: follow next until head.
   Fuel bounds the walk; the theorems show it terminates within the list length. *)
Fixpoint llist_walk (fuel : nat) (h : heap) (pos head : Z) : option (list Z) :=
  if pos =? head then Some [] else
  match fuel with
  | O => None
  | S f => match llist_walk f h (nxt h pos) head with Some t => Some (pos :: t) | None => None end
  end.

Definition m_lop (h : heap) (o : lop) : heap :=
  match o with
  | LAdd n hd => llist_add h n hd
  | LAddTail n hd => llist_add_tail h n hd
  | LDel n => llist_del h n
  | LMove n hd => llist_move h n hd
  | LMoveTail n hd => llist_move_tail h n hd
  | LSpliceInit a b => llist_splice_init h a b
  end.

(* forward and backward traversal of head yield exactly l *)
Fixpoint path (h : heap) (a : Z) (l : list Z) (b : Z) : Prop :=
  match l with
  | [] => nxt h a = b /\ prv h b = a
  | x :: t => nxt h a = x /\ prv h x = a /\ path h x t b
  end.
Definition ring (h : heap) (hd : Z) (l : list Z) : Prop := path h hd l hd.
Definition represents (h : heap) (w : world) : Prop :=
  Forall (fun p => ring h (fst p) (snd p)) w.
