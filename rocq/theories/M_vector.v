(** Model of src/vty/vector.c: arrays of pointers that grow.
    Simplifications: a pointer is a number, NULL is 0; memory does not run out; the number of allocated slots is the length of the list,
    which the code keeps so. *)
From Verif Require Import Base.

(** include/osmocom/vty/vector.h:22-26 struct _vector *)
Record vec := Vec { active : Z; index : list Z }.
(** src/vty/vector.c:37-56 vector_init *)
Definition vector_init (size : Z) : vec := let size := if size =? 0 then 1 else size in Vec 0 (repeat 0 (Z.to_nat size)).
(** src/vty/vector.c:96-108 vector_ensure; clearing behind an allocation whose size has wrapped is undefined; [Err]: out of fuel *)
Fixpoint ensure (fuel : nat) (v : vec) (num : Z) : res vec :=
  match fuel with
  | O => Err 0
  | S fuel =>
    if num <? zlen (index v) then Ok v else
    if negb (u32 (zlen (index v) * 2) =? zlen (index v) * 2) then UB else
    let v := Vec (active v) (index v ++ repeat 0 (length (index v))) in
    if zlen (index v) <=? num then ensure fuel v num else Ok v
  end.
Definition vector_ensure (v : vec) (num : Z) : res vec := ensure 33 v num.
(** src/vty/vector.c:113-125 vector_empty_slot *)
Fixpoint slot_loop (n : nat) (l : list Z) (i : Z) : res Z :=
  match n with
  | O => Ok i
  | S n => do x <- rd l i ;; if x =? 0 then Ok i else slot_loop n l (i + 1)
  end.
Definition vector_empty_slot (v : vec) : res Z := if active v =? 0 then Ok 0 else slot_loop (Z.to_nat (active v)) (index v) 0.
(** src/vty/vector.c:144-154 vector_set_index *)
Definition vector_set_index (v : vec) (i val : Z) : res (Z * vec) :=
  do v <- vector_ensure v i ;;
  do l <- wr (index v) i val ;;
  Ok (i, Vec (if active v <=? i then u32 (i + 1) else active v) l).
(** src/vty/vector.c:128-141 vector_set *)
Definition vector_set (v : vec) (val : Z) : res (Z * vec) :=
  do i <- vector_empty_slot v ;;
  do v <- vector_ensure v i ;;
  do l <- wr (index v) i val ;;
  Ok (i, Vec (if active v <=? i then u32 (i + 1) else active v) l).
(** src/vty/vector.c:157-162 vector_lookup *)
Definition vector_lookup (v : vec) (i : Z) : res Z := if active v <=? i then Ok 0 else rd (index v) i.
(** src/vty/vector.c:165-169 vector_lookup_ensure *)
Definition vector_lookup_ensure (v : vec) (i : Z) : res (Z * vec) := do v <- vector_ensure v i ;; do x <- rd (index v) i ;; Ok (x, v).
(** src/vty/vector.c:181-181 the loop of vector_unset *)
Fixpoint trim (i : nat) (l : list Z) (act : Z) : res Z :=
  match i with
  | O => Ok act
  | S i => do x <- rd l (Z.of_nat i) ;; if negb (x =? 0) then Ok act else if act =? 0 then Ok (u32 (act - 1)) else trim i l (act - 1)
  end.
(** src/vty/vector.c:172-183 vector_unset *)
Definition vector_unset (v : vec) (i : Z) : res vec :=
  if zlen (index v) <=? i then Ok v else
  do l <- wr (index v) i 0 ;;
  if u32 (i + 1) =? active v then do a <- trim (Z.to_nat i) l (active v - 1) ;; Ok (Vec a l) else Ok (Vec (active v) l).
(** src/vty/vector.c:186-196 vector_count *)
Fixpoint count_loop (n : nat) (l : list Z) (i count : Z) : res Z :=
  match n with
  | O => Ok count
  | S n => do x <- rd l i ;; count_loop n l (i + 1) (if x =? 0 then count else count + 1)
  end.
Definition vector_count (v : vec) : res Z := count_loop (Z.to_nat (active v)) (index v) 0 0.
