(* M_tdef.v - src/core/tdef.c (not modelled: description strings beyond being NULL or not, VTY, range_str_buf) *)
From Verif Require Import Base.

Definition ULONG_MAX := 18446744073709551615.
(* tdef.h:38-44 enum osmo_tdef_unit *)
Definition TDEF_S := 0.
Definition TDEF_MS := 1.
Definition TDEF_M := 2.
Definition TDEF_CUSTOM := 3.
Definition TDEF_US := 4.

(* tdef.h:63-85 struct osmo_tdef; has_desc: desc != NULL *)
Record tdef := Tdef { tT : Z; tdefault : Z; tunit : Z; has_desc : bool; tval : Z; tmin : Z; tmax : Z }.
Definition w_val (v : Z) (t : tdef) : tdef := Tdef (tT t) (tdefault t) (tunit t) (has_desc t) v (tmin t) (tmax t).

(* tdef.c:90-126 osmo_tdef_factor *)
Definition tdef_factor (a b : Z) : Z :=
  if (b =? a) || (b =? TDEF_CUSTOM) || (a =? TDEF_CUSTOM) then 1 else
  if b =? TDEF_US then (if a =? TDEF_MS then 1000 else if a =? TDEF_S then 1000 * 1000 else if a =? TDEF_M then 60 * 1000 * 1000 else 0) else
  if b =? TDEF_MS then (if a =? TDEF_S then 1000 else if a =? TDEF_M then 60 * 1000 else 0) else
  if b =? TDEF_S then (if a =? TDEF_M then 60 else 0) else 0.

(* tdef.c:129-147 osmo_tdef_round; division by a zero factor (units outside the enum) is UB *)
Definition tdef_round (val from to : Z) : res Z :=
  if val =? 0 then Ok 0 else
  let f := tdef_factor from to in
  if f =? 1 then Ok val else
  if f <? 1 then
    let f := tdef_factor to from in
    if f =? 0 then UB else Ok (u64 (val / f + (if val mod f =? 0 then 0 else 1)))
  else if ULONG_MAX / val <? f then Ok ULONG_MAX else Ok (u64 (val * f)).

(* tdef.h:98-99 osmo_tdef_for_each: the index of the first entry of number T before the terminator; running off the array is UB *)
Definition tdef_end (t : tdef) : bool := (tT t =? 0) && (tdefault t =? 0) && negb (has_desc t).
(* tdef.c:225-233 osmo_tdef_get_entry *)
Fixpoint get_entry (ts : list tdef) (T : Z) : res (option nat) :=
  match ts with
  | [] => UB
  | t :: r => if tdef_end t then Ok None else if tT t =? T then Ok (Some O) else do i <- get_entry r T ;; Ok (option_map S i)
  end.

(* tdef.c:263-266 osmo_tdef_val_in_range *)
Definition val_in_range (t : tdef) (v : Z) : bool := (tmin t <=? v) && ((tmax t =? 0) || (v <=? tmax t)).

(* tdef.c:154-166 osmo_tdefs_reset *)
Fixpoint tdefs_reset (ts : list tdef) : res (list tdef) :=
  match ts with
  | [] => UB
  | t :: r => if tdef_end t then Ok ts else
              if negb (val_in_range t (tdefault t)) then Abort else do r' <- tdefs_reset r ;; Ok (w_val (tdefault t) t :: r')
  end.

Definition nth_tdef (ts : list tdef) (i : nat) : tdef := nth i ts (Tdef 0 0 0 false 0 0 0).
(* tdef.c:208-216 osmo_tdef_get *)
Definition tdef_get (ts : list tdef) (T as_unit dflt : Z) : res Z :=
  do i <- get_entry ts T ;;
  match i with
  | None => if dflt <? 0 then Abort else Ok dflt
  | Some i => let t := nth_tdef ts i in tdef_round (tval t) (tunit t) as_unit
  end.

(* tdef.c:243-256 osmo_tdef_set *)
Definition tdef_set (ts : list tdef) (T val unit : Z) : res (list tdef) :=
  do i <- get_entry ts T ;;
  match i with
  | None => Err (-17)
  | Some i =>
      let t := nth_tdef ts i in
      do v <- tdef_round val unit (tunit t) ;;
      if negb (val_in_range t v) then Err (-34) else Ok (upd ts i (w_val v t))
  end.

(* tdef.c:320-328 osmo_tdef_get_state_timeout: entries are (keep_timer, T); the caller's array must have 32 *)
Definition get_state_timeout (state : Z) (arr : list (bool * Z)) : res (option (bool * Z)) :=
  if 32 <=? state then Abort else
  do t <- rd arr state ;;
  if negb (fst t) && (snd t =? 0) then Ok None else Ok (Some t).

(* tdef.c:334-371 _osmo_tdef_fsm_inst_state_chg: the (keep_timer, timeout_ms, T) it passes on to state_chg (fsm.c:619 ff.) *)
Definition tdef_state_chg (state : Z) (arr : list (bool * Z)) (ts : list tdef) (dflt : Z) : res (bool * Z * Z) :=
  do e <- get_state_timeout state arr ;;
  match e with
  | None => Ok (false, 0, 0)
  | Some (keep, T) =>
      do ms <- (if T =? 0 then Ok 0 else
                do i <- get_entry ts T ;;
                match i with
                | None => if dflt <? 0 then Abort else if 9223372036854775807 <? dflt * 1000 then UB else Ok (dflt * 1000)
                | Some i => let t := nth_tdef ts i in
                            do v <- tdef_round (tval t) (tunit t) TDEF_MS ;;
                            Ok (if tunit t =? TDEF_CUSTOM then u64 (v * 1000) else v)
                end) ;;
      if keep then Ok (true, (if T =? 0 then 0 else ms), T) else if T =? 0 then Abort else Ok (false, ms, T)
  end.
