(* M_use.v - model of src/core/use_count.c.  Use tokens: None = NULL pointer, Some s = a C string with content s
   (tokens are compared by pointer or strcmp, i.e. by content).  The llist of entries is a sequence (C41).
   use_cb only contributes its return value: it is the last thing done, so calls it makes are later operations. *)
From Verif Require Import Base.

Definition token := option (list Z).
(* include/osmocom/core/use_count.h struct osmo_use_count_entry *)
Record entry := En { euse : token; ecount : Z }.
Definition tok_dec (a b : token) : {a = b} + {a <> b}.
Proof. decide equality. apply list_eq_dec, Z.eq_dec. Defined.
Definition tok_eqb (a b : token) : bool := if tok_dec a b then true else false.

Definition INT32_MIN := -2147483648. Definition INT32_MAX := 2147483647.
Definition neg32 (x : Z) : res Z := if x =? INT32_MIN then UB else Ok (- x).

(* use_count.c:42-61 count_safe: result, *val_p afterwards *)
Definition count_safe (val add : Z) : res (bool * Z) :=
  do c1 <- (if (add <? 0) && (val <? 0) then do n <- neg32 add ;; Ok (val - INT32_MIN <? n) else Ok false) ;;
  if c1 : bool then Ok (false, INT32_MIN) else
  if (0 <? add) && (0 <? val) && (INT32_MAX - val <? add) then Ok (false, INT32_MAX) else
  if (INT32_MIN <=? val + add) && (val + add <=? INT32_MAX) then Ok (true, val + add) else UB.

(* use_count.c:67-79 osmo_use_count_total *)
Fixpoint total_loop (l : list entry) (t : Z) : res Z :=
  match l with [] => Ok t | e :: r => do ' (_, t) <- count_safe t (ecount e) ;; total_loop r t end.
Definition osmo_use_count_total (l : list entry) : res Z := total_loop l 0.

(* use_count.c:164-174 osmo_use_count_find: the position of the entry *)
Fixpoint find (l : list entry) (use : token) : option nat :=
  match l with
  | [] => None
  | e :: t => if tok_eqb (euse e) use then Some O else match find t use with Some n => Some (S n) | None => None end
  end.
(* use_count.c:86-95 osmo_use_count_by *)
Definition osmo_use_count_by (l : list entry) (use : token) : Z :=
  match find l use with Some n => ecount (nth n l (En None 0)) | None => 0 end.

(* use_count.c:177-189 osmo_use_count_repurpose_zero_entry *)
Fixpoint find_zero (l : list entry) : option nat :=
  match l with [] => None | e :: t => if ecount e =? 0 then Some O else match find_zero t with Some n => Some (S n) | None => None end end.

Fixpoint del {A} (l : list A) (n : nat) : list A :=
  match l, n with [], _ => [] | _ :: t, O => t | x :: t, S m => x :: del t m end.

(* use_count.c:233-266 _osmo_use_count_get_put, uc non-NULL.  cb = None: no use_cb; Some rc: what it returns *)
Definition get_put (alloc_ok : bool) (cb : option Z) (l : list entry) (use : token) (change : Z) : res (list entry * Z) :=
  if change =? 0 then Ok (l, 0) else
  let '(l, pos) := match find l use with
                   | Some n => (l, Some n)
                   | None => match find_zero l with
                             | Some n => (upd l n (En use (ecount (nth n l (En None 0)))), Some n)
                             | None => if alloc_ok then (l ++ [En use 0], Some (length l)) else (l, None)
                             end
                   end in
  match pos with
  | None => Ok (l, - ENOMEM)
  | Some n =>
    let e := nth n l (En None 0) in
    (* 251-255 move to end *)
    let '(l, n) := if ecount e =? 0 then (del l n ++ [e], (length (del l n))) else (l, n) in
    do ' (ok, v) <- count_safe (ecount e) change ;;
    if negb ok then Ok (l, - ERANGE)
    else Ok (upd l n (En (euse e) v), match cb with Some rc => rc | None => 0 end)
  end.

(* use_count.c:220-226 osmo_use_count_free, of the entry found for a token (NULL if there is none) *)
Definition free_entry (l : list entry) (use : token) : list entry :=
  match find l use with Some n => del l n | None => l end.

(* use_count.c:291-304 osmo_use_count_make_static_entries *)
Definition make_static (l : list entry) (n : nat) : list entry := l ++ repeat (En None 0) n.

Inductive uop := UGet (alloc_ok : bool) (cb : option Z) (use : token) (change : Z) | UFree (use : token) | UStatic (n : nat).
Definition u_step (l : list entry) (o : uop) : res (list entry * Z) :=
  match o with
  | UGet a cb u c => get_put a cb l u c
  | UFree u => Ok (free_entry l u, 0)
  | UStatic n => Ok (make_static l n, 0)
  end.
Fixpoint u_run (l : list entry) (os : list uop) : res (list entry * list Z) :=
  match os with [] => Ok (l, []) | o :: t => do ' (l, r) <- u_step l o ;; do ' (l, rs) <- u_run l t ;; Ok (l, r :: rs) end.
