(* M_rate.v - model of the rate counters, src/core/rate_ctr.c and include/osmocom/core/rate_ctr.h. *)
From Verif Require Import Base M_ident.

(* include/osmocom/core/rate_ctr.h struct rate_ctr: current, previous, and intv[4] = (last, rate) *)
Record ctr := Ctr { cur : Z; prev : Z; ivs : list (Z * Z) }.
Definition ctr0 : ctr := Ctr 0 0 [(0, 0); (0, 0); (0, 0); (0, 0)].   (* talloc_zero_size / memset 0 *)

(* struct rate_ctr_group_desc: group_name_prefix and the counter names (num_ctr = their number) *)
Record desc := Desc { dname : list Z; dctrs : list (list Z) }.

(* struct rate_ctr_group; gid stands for the address of the object, groups are referred to by it.
   Simplification: the optional display name (rate_ctr_group_set_name) is not modelled. *)
Record group := Grp { gid : Z; gdesc : desc; gidx : Z; gctrs : list ctr }.

(* timer_ticks, the list rate_ctr_groups (head first), and the next fresh address *)
Record st := St { ticks : Z; grps : list group; next : Z }.
Definition st0 : st := St 0 [] 0.

Definition name_eqb (a b : list Z) : bool := if list_eq_dec Z.eq_dec a b then true else false.   (* !strcmp *)

(* src/core/rate_ctr.c:75-104 *)
Definition desc_validate (d : desc) : bool :=
  osmo_identifier_valid (Some (dname d)) && forallb (fun n => osmo_identifier_valid (Some n)) (dctrs d).

(* src/core/rate_ctr.c:108-135 *)
Definition mangle_identifier (s : list Z) : list Z := map (fun c => if c =? 46 then 58 else c) s.

(* src/core/rate_ctr.c:138-181; a NULL counter name is not modelled *)
Definition desc_mangle (d : desc) : option desc :=
  let d' := Desc (mangle_identifier (dname d)) (map mangle_identifier (dctrs d)) in
  if desc_validate d' then Some d' else None.

(* src/core/rate_ctr.c:189-205 *)
Fixpoint unused_idx (l : list group) (name : list Z) (idx : Z) : Z :=
  match l with
  | [] => idx
  | g :: t =>
    if name_eqb (dname (gdesc g)) name then
      unused_idx t name (if idx <=? gidx g then u32 (gidx g + 1) else idx)
    else unused_idx t name idx
  end.

(* src/core/rate_ctr.c:397-411 *)
Fixpoint get_group_by_name_idx (l : list group) (name : list Z) (idx : Z) : option group :=
  match l with
  | [] => None
  | g :: t => if name_eqb (dname (gdesc g)) name && (gidx g =? idx) then Some g else get_group_by_name_idx t name idx
  end.

(* src/core/rate_ctr.c:212-252; the allocation itself always succeeds. Returns the new group's address or -1 for NULL *)
Definition rate_ctr_group_alloc (s : st) (d : desc) (idx : Z) : st * Z :=
  let idx' := match get_group_by_name_idx (grps s) (dname d) idx with
              | Some _ => unused_idx (grps s) (dname d) 0
              | None => idx
              end in
  match (if desc_validate d then Some d else desc_mangle d) with
  | None => (s, -1)
  | Some d' =>
    (St (ticks s) (Grp (next s) d' idx' (repeat ctr0 (length (dctrs d'))) :: grps s) (next s + 1), next s)
  end.

(* the group at an address, if still allocated *)
Fixpoint find_grp (l : list group) (id : Z) : option group :=
  match l with
  | [] => None
  | g :: t => if gid g =? id then Some g else find_grp t id
  end.

(* src/core/rate_ctr.c:255-263 (non-NULL argument; freeing twice is undefined) *)
Definition rate_ctr_group_free (s : st) (id : Z) : res st :=
  match find_grp (grps s) id with
  | None => UB
  | Some _ => Ok (St (ticks s) (filter (fun g => negb (gid g =? id)) (grps s)) (next s))
  end.

(* src/core/rate_ctr.c:286-289; inc is an int, converted to uint64_t *)
Definition rate_ctr_add (c : ctr) (inc : Z) : ctr := Ctr (u64 (cur c + inc)) (prev c) (ivs c).

(* src/core/rate_ctr.c:292-298 *)
Definition rate_ctr_difference (c : ctr) : ctr * Z := (Ctr (cur c) (cur c) (ivs c), s64 (cur c - prev c)).

(* src/core/rate_ctr.c:303-309 *)
Definition interval_expired (c : ctr) (i : nat) : ctr :=
  Ctr (cur c) (prev c) (upd (ivs c) i (cur c, u64 (cur c - fst (nth i (ivs c) (0, 0))))).

(* the loop body of src/core/rate_ctr.c:315-330 rate_ctr_group_intv *)
Definition ctr_intv (t : Z) (c : ctr) : ctr :=
  let c := interval_expired c 0 in
  let c := if t mod 60 =? 0 then interval_expired c 1 else c in
  let c := if t mod (60 * 60) =? 0 then interval_expired c 2 else c in
  if t mod (24 * 60 * 60) =? 0 then interval_expired c 3 else c.

(* src/core/rate_ctr.c:315-330 *)
Definition rate_ctr_group_intv (t : Z) (g : group) : group :=
  Grp (gid g) (gdesc g) (gidx g) (map (ctr_intv t) (gctrs g)).

(* one turn of the loop of src/core/rate_ctr.c:332-361 rate_ctr_timer_cb *)
Definition one_tick (s : st) : st :=
  let t := u64 (ticks s + 1) in
  St t (map (rate_ctr_group_intv t) (grps s)) (next s).

(* src/core/rate_ctr.c:332-361, after expire_count was read from the timerfd: do ... while (--expire_count).
   The kernel never reports 0 expirations; the 2^64 turns a 0 would cause are modelled as undefined. *)
Fixpoint tick_loop (s : st) (n : nat) : st := match n with O => s | S k => tick_loop (one_tick s) k end.
Definition rate_ctr_timer_cb (s : st) (expire_count : Z) : res st :=
  if expire_count <=? 0 then UB else Ok (tick_loop s (Z.to_nat expire_count)).

(* src/core/rate_ctr.c:481-484 *)
Definition rate_ctr_reset (c : ctr) : ctr := ctr0.

(* access to &grp->ctr[i], src/core/rate_ctr.c:270-273 *)
Definition on_group (s : st) (id : Z) (f : group -> group) : st :=
  St (ticks s) (map (fun g => if gid g =? id then f g else g) (grps s)) (next s).
Definition ctr_of (s : st) (id : Z) (i : Z) : res ctr :=
  match find_grp (grps s) id with None => UB | Some g => rd (gctrs g) i end.
Definition set_ctr (s : st) (id : Z) (i : Z) (c : ctr) : st :=
  on_group s id (fun g => Grp (gid g) (gdesc g) (gidx g) (upd (gctrs g) (Z.to_nat i) c)).

(* src/core/rate_ctr.c:489-497 *)
Definition rate_ctr_group_reset (s : st) (id : Z) : res st :=
  match find_grp (grps s) id with
  | None => UB
  | Some _ => Ok (on_group s id (fun g => Grp (gid g) (gdesc g) (gidx g) (map rate_ctr_reset (gctrs g))))
  end.

(* src/core/rate_ctr.c:418-434: index of the first counter of that name *)
Fixpoint name_pos (l : list (list Z)) (name : list Z) (i : Z) : option Z :=
  match l with [] => None | n :: t => if name_eqb n name then Some i else name_pos t name (i + 1) end.
Definition rate_ctr_get_by_name (g : group) (name : list Z) : option Z := name_pos (dctrs (gdesc g)) name 0.

(* a program's use of the module *)
Inductive op :=
| OAlloc (d : desc) (idx : Z)
| OFree (id : Z)
| OAdd (id i inc : Z)
| ODiff (id i : Z)
| OReset (id i : Z)
| OGroupReset (id : Z)
| OTimer (expire_count : Z).

Definition step (s : st) (o : op) : res (st * Z) :=
  match o with
  | OAlloc d idx => Ok (rate_ctr_group_alloc s d idx)
  | OFree id => do s' <- rate_ctr_group_free s id ;; Ok (s', 0)
  | OAdd id i inc => do c <- ctr_of s id i ;; Ok (set_ctr s id i (rate_ctr_add c inc), 0)
  | ODiff id i => do c <- ctr_of s id i ;; let (c', r) := rate_ctr_difference c in Ok (set_ctr s id i c', r)
  | OReset id i => do c <- ctr_of s id i ;; Ok (set_ctr s id i (rate_ctr_reset c), 0)
  | OGroupReset id => do s' <- rate_ctr_group_reset s id ;; Ok (s', 0)
  | OTimer n => do s' <- rate_ctr_timer_cb s n ;; Ok (s', 0)
  end.

Fixpoint run (s : st) (os : list op) : res (st * list Z) :=
  match os with
  | [] => Ok (s, [])
  | o :: t => do ' (s', r) <- step s o ;; do ' (s'', rs) <- run s' t ;; Ok (s'', r :: rs)
  end.
