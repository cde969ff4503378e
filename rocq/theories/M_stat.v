(* M_stat.v - model of one statistics item, src/core/stat_item.c. *)
From Verif Require Import Base.

(* src/core/stat_item_internal.h struct osmo_stat_item_period *)
Record period := Per { pn : Z; pmin : Z; plast : Z; pmax : Z; psum : Z }.
(* struct osmo_stat_item: the running period, the last reported one, desc->default_value *)
Record item := Item { value : period; reported : period; dflt : Z }.

(* src/core/stat_item.c:179-222 (one item; talloc_array + compound literal, so reported is zeroed) *)
Definition item_alloc (d : Z) : item := Item (Per 0 d d d 0) (Per 0 0 0 0 0) d.

(* src/core/stat_item.c:282-297; the sum is int64_t (signed overflow is undefined), n is uint32_t *)
Definition osmo_stat_item_set (it : item) (v : Z) : res item :=
  let p := value it in
  if pn p =? 0 then Ok (Item (Per 1 v v v v) (reported it) (dflt it))
  else
    let s := psum p + v in
    if (s <? -9223372036854775808) || (9223372036854775807 <? s) then UB
    else Ok (Item (Per (u32 (pn p + 1)) (Z.min (pmin p) v) v (Z.max (pmax p) v) s) (reported it) (dflt it)).

Definition int_ok (x : Z) : bool := (-2147483648 <=? x) && (x <=? 2147483647).
(* src/core/stat_item.c:260-263; int overflow is undefined *)
Definition osmo_stat_item_inc (it : item) (v : Z) : res item :=
  if int_ok (plast (value it) + v) then osmo_stat_item_set it (plast (value it) + v) else UB.
(* src/core/stat_item.c:271-274 *)
Definition osmo_stat_item_dec (it : item) (v : Z) : res item :=
  if int_ok (plast (value it) - v) then osmo_stat_item_set it (plast (value it) - v) else UB.

(* src/core/stat_item.c:302-315 *)
Definition osmo_stat_item_flush (it : item) : item :=
  let l := plast (value it) in Item (Per 0 l l l 0) (value it) (dflt it).

(* src/core/stat_item.c:437-442 *)
Definition osmo_stat_item_reset (it : item) : item :=
  Item (Per 0 (dflt it) (dflt it) (dflt it) 0) (reported it) (dflt it).

Inductive sop := SSet (v : Z) | SInc (v : Z) | SDec (v : Z) | SFlush | SReset.
Definition sstep (it : item) (o : sop) : res item :=
  match o with
  | SSet v => osmo_stat_item_set it v
  | SInc v => osmo_stat_item_inc it v
  | SDec v => osmo_stat_item_dec it v
  | SFlush => Ok (osmo_stat_item_flush it)
  | SReset => Ok (osmo_stat_item_reset it)
  end.
Fixpoint srun (it : item) (os : list sop) : res item :=
  match os with [] => Ok it | o :: t => do it' <- sstep it o ;; srun it' t end.
