(* M_rbtree.v - model of src/core/rbtree.c and include/osmocom/core/linuxrbtree.h on a pointer heap.
   Node addresses are integers, 0 is NULL; reading or writing a field of NULL is UB.  The colour bit and the parent
   pointer packed in rb_parent_color are kept as two fields (the addresses are aligned, so they do not overlap).
   Loops take fuel (running out of it is UB; the theorems show it is never reached with fuel above the node count). *)
From Verif Require Import Base.

Inductive color := R | B.
(* linuxrbtree.h:94-101 struct rb_node *)
Record node := Nd { npar : Z; ncol : color; nleft : Z; nright : Z }.
(* linuxrbtree.h:104-107 struct rb_root, together with the memory *)
Record heap := Hp { mem : Z -> node; root : Z }.

Definition get (h : heap) (n : Z) : res node := if n =? 0 then UB else Ok (mem h n).
Definition put (h : heap) (n : Z) (v : node) : heap := Hp (fun y => if y =? n then v else mem h y) (root h).
Definition modify (h : heap) (n : Z) (f : node -> node) : res heap := if n =? 0 then UB else Ok (put h n (f (mem h n))).
Definition set_root (h : heap) (n : Z) : heap := Hp (mem h) n.
(* linuxrbtree.h:117-127 rb_set_red, rb_set_black, rb_set_parent, rb_set_color; assignments to rb_left, rb_right *)
Definition set_color (h : heap) (n : Z) (c : color) := modify h n (fun v => Nd (npar v) c (nleft v) (nright v)).
Definition set_parent (h : heap) (n p : Z) := modify h n (fun v => Nd p (ncol v) (nleft v) (nright v)).
Definition set_left (h : heap) (n x : Z) := modify h n (fun v => Nd (npar v) (ncol v) x (nright v)).
Definition set_right (h : heap) (n x : Z) := modify h n (fun v => Nd (npar v) (ncol v) (nleft v) x).
Definition is_red (c : color) : bool := match c with R => true | B => false end.
(* "p && rb_is_red(p)"; "!p || rb_is_black(p)" is its negation *)
Definition red_ptr (h : heap) (p : Z) : bool := if p =? 0 then false else is_red (ncol (mem h p)).

(* rbtree.c:23-44 __rb_rotate_left *)
Definition rotate_left (h : heap) (n : Z) : res heap :=
  do v <- get h n ;;
  let right := nright v in
  let parent := npar v in
  do w <- get h right ;;
  do h <- set_right h n (nleft w) ;;
  do h <- (if nleft w =? 0 then Ok h else do w <- get h right ;; set_parent h (nleft w) n) ;;
  do h <- set_left h right n ;;
  do h <- set_parent h right parent ;;
  do h <- (if parent =? 0 then Ok (set_root h right) else
           do p <- get h parent ;; if n =? nleft p then set_left h parent right else set_right h parent right) ;;
  set_parent h n right.

(* rbtree.c:46-67 __rb_rotate_right *)
Definition rotate_right (h : heap) (n : Z) : res heap :=
  do v <- get h n ;;
  let left := nleft v in
  let parent := npar v in
  do w <- get h left ;;
  do h <- set_left h n (nright w) ;;
  do h <- (if nright w =? 0 then Ok h else do w <- get h left ;; set_parent h (nright w) n) ;;
  do h <- set_right h left n ;;
  do h <- set_parent h left parent ;;
  do h <- (if parent =? 0 then Ok (set_root h left) else
           do p <- get h parent ;; if n =? nright p then set_right h parent left else set_left h parent left) ;;
  set_parent h n left.

(* rbtree.c:69-132 rb_insert_color: the loop ... *)
Fixpoint insert_loop (fuel : nat) (h : heap) (n : Z) : res heap :=
  match fuel with
  | O => UB
  | S f =>
    do v <- get h n ;;
    let parent := npar v in
    if negb (red_ptr h parent) then Ok h else
    do pv <- get h parent ;;
    let gparent := npar pv in
    do gv <- get h gparent ;;
    if parent =? nleft gv then
      let uncle := nright gv in
      if red_ptr h uncle then
        do h <- set_color h uncle B ;; do h <- set_color h parent B ;; do h <- set_color h gparent R ;;
        insert_loop f h gparent
      else
        do ' (h, n, parent) <- (if nright pv =? n then do h <- rotate_left h parent ;; Ok (h, parent, n) else Ok (h, n, parent)) ;;
        do h <- set_color h parent B ;; do h <- set_color h gparent R ;; do h <- rotate_right h gparent ;;
        insert_loop f h n
    else
      let uncle := nleft gv in
      if red_ptr h uncle then
        do h <- set_color h uncle B ;; do h <- set_color h parent B ;; do h <- set_color h gparent R ;;
        insert_loop f h gparent
      else
        do ' (h, n, parent) <- (if nleft pv =? n then do h <- rotate_right h parent ;; Ok (h, parent, n) else Ok (h, n, parent)) ;;
        do h <- set_color h parent B ;; do h <- set_color h gparent R ;; do h <- rotate_left h gparent ;;
        insert_loop f h n
  end.
(* ... and line 131 *)
Definition rb_insert_color (fuel : nat) (h : heap) (n : Z) : res heap :=
  do h <- insert_loop fuel h n ;; set_color h (root h) B.

(* rbtree.c:151-173, the part for a left child once other is black; rec continues the loop with (node, parent) *)
Definition fix_left (rec : heap -> Z -> Z -> res (heap * Z)) (h : heap) (parent other : Z) : res (heap * Z) :=
  do ov <- get h other ;;
  if negb (red_ptr h (nleft ov)) && negb (red_ptr h (nright ov)) then
    do h <- set_color h other R ;;
    do pv <- get h parent ;;
    rec h parent (npar pv)
  else
    do ' (h, other) <- (if negb (red_ptr h (nright ov)) then
          do h <- set_color h (nleft ov) B ;; do h <- set_color h other R ;; do h <- rotate_right h other ;;
          do pv <- get h parent ;; Ok (h, nright pv)
        else Ok (h, other)) ;;
    do pv <- get h parent ;;
    do h <- set_color h other (ncol pv) ;;
    do h <- set_color h parent B ;;
    do ov <- get h other ;;
    do h <- set_color h (nright ov) B ;;
    do h <- rotate_left h parent ;;
    Ok (h, root h).
(* rbtree.c:185-207, the same for a right child *)
Definition fix_right (rec : heap -> Z -> Z -> res (heap * Z)) (h : heap) (parent other : Z) : res (heap * Z) :=
  do ov <- get h other ;;
  if negb (red_ptr h (nleft ov)) && negb (red_ptr h (nright ov)) then
    do h <- set_color h other R ;;
    do pv <- get h parent ;;
    rec h parent (npar pv)
  else
    do ' (h, other) <- (if negb (red_ptr h (nleft ov)) then
          do h <- set_color h (nright ov) B ;; do h <- set_color h other R ;; do h <- rotate_left h other ;;
          do pv <- get h parent ;; Ok (h, nleft pv)
        else Ok (h, other)) ;;
    do pv <- get h parent ;;
    do h <- set_color h other (ncol pv) ;;
    do h <- set_color h parent B ;;
    do ov <- get h other ;;
    do h <- set_color h (nleft ov) B ;;
    do h <- rotate_right h parent ;;
    Ok (h, root h).
(* rbtree.c:134-209 __rb_erase_color: the loop returns the heap and the final value of node *)
Fixpoint erase_loop (fuel : nat) (h : heap) (n parent : Z) : res (heap * Z) :=
  match fuel with
  | O => UB
  | S f =>
    if negb (negb (red_ptr h n) && negb (n =? root h)) then Ok (h, n) else
    do pv <- get h parent ;;
    if nleft pv =? n then
      let other := nright pv in
      do ov <- get h other ;;
      do ' (h, other) <- (if is_red (ncol ov) then
            do h <- set_color h other B ;; do h <- set_color h parent R ;; do h <- rotate_left h parent ;;
            do pv <- get h parent ;; Ok (h, nright pv)
          else Ok (h, other)) ;;
      fix_left (erase_loop f) h parent other
    else
      let other := nleft pv in
      do ov <- get h other ;;
      do ' (h, other) <- (if is_red (ncol ov) then
            do h <- set_color h other B ;; do h <- set_color h parent R ;; do h <- rotate_right h parent ;;
            do pv <- get h parent ;; Ok (h, nleft pv)
          else Ok (h, other)) ;;
      fix_right (erase_loop f) h parent other
  end.
(* rbtree.c:134-212 __rb_erase_color *)
Definition erase_color (fuel : nat) (h : heap) (n parent : Z) : res heap :=
  do ' (h, n) <- erase_loop fuel h n parent ;;
  if n =? 0 then Ok h else set_color h n B.

(* rbtree.c:228-229 and 319-320, 291-292: go left as far as possible *)
Fixpoint leftmost (fuel : nat) (h : heap) (n : Z) : res Z :=
  match fuel with
  | O => UB
  | S f => do v <- get h n ;; if nleft v =? 0 then Ok n else leftmost f h (nleft v)
  end.
(* rbtree.c:303-304, 347-348 *)
Fixpoint rightmost (fuel : nat) (h : heap) (n : Z) : res Z :=
  match fuel with
  | O => UB
  | S f => do v <- get h n ;; if nright v =? 0 then Ok n else rightmost f h (nright v)
  end.

(* rbtree.c:219-222, 261-274: unlinking a node v = *n with at most one child; gives child, parent, colour *)
Definition unlink1 (h : heap) (n : Z) (v : node) : res (heap * Z * Z * color) :=
  let child := if nleft v =? 0 then nright v else nleft v in
  let parent := npar v in
  do h <- (if child =? 0 then Ok h else set_parent h child parent) ;;
  do h <- (if parent =? 0 then Ok (set_root h child) else
           do p <- get h parent ;; if nleft p =? n then set_left h parent child else set_right h parent child) ;;
  Ok (h, child, parent, ncol v).
(* rbtree.c:225-256: a node with two children; its successor n takes its place *)
Definition unlink2 (fuel : nat) (h : heap) (old : Z) (v : node) : res (heap * Z * Z * color) :=
  do n <- leftmost fuel h (nright v) ;;
  do ov <- get h old ;;
  do h <- (if npar ov =? 0 then Ok (set_root h n) else
           do p <- get h (npar ov) ;; if nleft p =? old then set_left h (npar ov) n else set_right h (npar ov) n) ;;
  do nv <- get h n ;;
  let child := nright nv in
  let parent := npar nv in
  let c := ncol nv in
  do ' (h, parent) <-
    (if parent =? old then Ok (h, n) else
     do h <- (if child =? 0 then Ok h else set_parent h child parent) ;;
     do h <- set_left h parent child ;;
     do ov <- get h old ;;
     do h <- set_right h n (nright ov) ;;
     do ov <- get h old ;;
     do h <- set_parent h (nright ov) n ;;
     Ok (h, parent)) ;;
  do ov <- get h old ;;
  do h <- modify h n (fun w => Nd (npar ov) (ncol ov) (nleft w) (nright w)) ;;
  do ov <- get h old ;;
  do h <- set_left h n (nleft ov) ;;
  do ov <- get h old ;;
  do h <- set_parent h (nleft ov) n ;;
  Ok (h, child, parent, c).
(* rbtree.c:214-279 rb_erase *)
Definition rb_erase (fuel : nat) (h : heap) (n : Z) : res heap :=
  do v <- get h n ;;
  do ' (h, child, parent, c) <- (if (nleft v =? 0) || (nright v =? 0) then unlink1 h n v else unlink2 fuel h n v) ;;
  match c with B => erase_color fuel h child parent | R => Ok h end.

(* rbtree.c:284-306 rb_first, rb_last *)
Definition rb_first (fuel : nat) (h : heap) : res Z := if root h =? 0 then Ok 0 else leftmost fuel h (root h).
Definition rb_last (fuel : nat) (h : heap) : res Z := if root h =? 0 then Ok 0 else rightmost fuel h (root h).

(* rbtree.c:330-333 and 354-357 *)
Fixpoint up_next (fuel : nat) (h : heap) (n : Z) : res Z :=
  match fuel with
  | O => UB
  | S f => do v <- get h n ;; if npar v =? 0 then Ok 0 else
           do p <- get h (npar v) ;; if n =? nright p then up_next f h (npar v) else Ok (npar v)
  end.
Fixpoint up_prev (fuel : nat) (h : heap) (n : Z) : res Z :=
  match fuel with
  | O => UB
  | S f => do v <- get h n ;; if npar v =? 0 then Ok 0 else
           do p <- get h (npar v) ;; if n =? nleft p then up_prev f h (npar v) else Ok (npar v)
  end.
(* rbtree.c:308-358 rb_next, rb_prev *)
Definition rb_next (fuel : nat) (h : heap) (n : Z) : res Z :=
  do v <- get h n ;;
  if npar v =? n then Ok 0 else
  if nright v =? 0 then up_next fuel h n else leftmost fuel h (nright v).
Definition rb_prev (fuel : nat) (h : heap) (n : Z) : res Z :=
  do v <- get h n ;;
  if npar v =? n then Ok 0 else
  if nleft v =? 0 then up_prev fuel h n else rightmost fuel h (nleft v).

(* rbtree.c:360-381 rb_replace_node *)
Definition rb_replace_node (h : heap) (victim new : Z) : res heap :=
  do v <- get h victim ;;
  let parent := npar v in
  do h <- (if parent =? 0 then Ok (set_root h new) else
           do p <- get h parent ;; if victim =? nleft p then set_left h parent new else set_right h parent new) ;;
  do v <- get h victim ;;
  do h <- (if nleft v =? 0 then Ok h else set_parent h (nleft v) new) ;;
  do v <- get h victim ;;
  do h <- (if nright v =? 0 then Ok h else set_parent h (nright v) new) ;;
  do v <- get h victim ;;
  modify h new (fun _ => v).

(* The usual insertion by descent (as in timer.c:44-63 __add_timer): go decides at a node whether to go left.
   rb_link_node (linuxrbtree.h:145-152) writes the link: the root pointer, or rb_left/rb_right of parent *)
Definition link_node (h : heap) (n parent : Z) (left : bool) : res heap :=
  do h <- modify h n (fun _ => Nd parent R 0 0) ;;
  if parent =? 0 then Ok (set_root h n) else if left then set_left h parent n else set_right h parent n.
Fixpoint descend (fuel : nat) (h : heap) (go : Z -> bool) (cur parent : Z) (left : bool) : res (Z * bool) :=
  match fuel with
  | O => UB
  | S f => if cur =? 0 then Ok (parent, left) else
           do v <- get h cur ;;
           if go cur then descend f h go (nleft v) cur true else descend f h go (nright v) cur false
  end.
Definition insert_by (fuel : nat) (h : heap) (go : Z -> bool) (n : Z) : res heap :=
  do ' (parent, is_left) <- descend fuel h go (root h) 0 false ;;
  do h <- link_node h n parent is_left ;;
  rb_insert_color fuel h n.

Definition empty_root (h : heap) : heap := set_root h 0.

(* a client program: insert by descent, erase, replace *)
Inductive rop := RIns (go : Z -> bool) (n : Z) | RDel (n : Z) | RRepl (victim new : Z).
Definition rb_step (fuel : nat) (h : heap) (o : rop) : res heap :=
  match o with
  | RIns go n => insert_by fuel h go n
  | RDel n => rb_erase fuel h n
  | RRepl v n => rb_replace_node h v n
  end.
Fixpoint rb_run (fuel : nat) (h : heap) (os : list rop) : res heap :=
  match os with [] => Ok h | o :: os => do h <- rb_step fuel h o ;; rb_run fuel h os end.
