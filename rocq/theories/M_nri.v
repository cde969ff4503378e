(* M_nri.v - src/gsm/gsm23236.c: Network Resource Indicator values and range lists.
   A struct osmo_nri_range is the pair (first, last); a range list is the list of its entries in order.  A NULL list is not modelled;
   the int16_t members are in -32768..32767. *)
From Verif Require Import Base Str M_num.

Definition range := (Z * Z)%type.
Definition first (r : range) : Z := fst r.
Definition last (r : range) : Z := snd r.

(* include/osmocom/gsm/gsm23236.h:12-13 *)
Definition NRI_BITLEN_MIN := 1.
Definition NRI_BITLEN_MAX := 15.

(* src/gsm/gsm23236.c:34-43 *)
Definition osmo_nri_v_validate (nri_v nri_bitlen : Z) : Z :=
  if nri_v <? 0 then -1 else
  if nri_bitlen <? NRI_BITLEN_MIN then 1 else
  if (nri_bitlen <? NRI_BITLEN_MAX) && negb (Z.shiftr nri_v nri_bitlen =? 0) then 1 else 0.
(* src/gsm/gsm23236.c:46-49 *)
Definition nri_v_matches_range (r : range) (nri_v : Z) : bool := (nri_v >=? first r) && (nri_v <=? last r).
(* src/gsm/gsm23236.c:52-56 *)
Definition nri_range_overlaps_range (a b : range) : bool :=
  nri_v_matches_range b (first a) || nri_v_matches_range b (last a) || nri_v_matches_range a (first b) || nri_v_matches_range a (last b).
(* src/gsm/gsm23236.c:59-65 *)
Definition nri_range_touches (a b : range) : bool :=
  nri_range_overlaps_range a b || ((first a >? last b) && (first a =? last b + 1)) || ((first b >? last a) && (first b =? last a + 1)).
(* src/gsm/gsm23236.c:69-73 *)
Definition nri_range_extend (target add : range) : range := (Z.min (first target) (first add), Z.max (last target) (last add)).
(* src/gsm/gsm23236.c:80-90 *)
Definition osmo_nri_v_matches_ranges (nri_v : Z) (l : list range) : bool := existsb (fun r => nri_v_matches_range r nri_v) l.
(* src/gsm/gsm23236.c:220-232 *)
Definition osmo_nri_range_validate (r : range) (nri_bitlen : Z) : Z :=
  let rc := osmo_nri_v_validate (first r) nri_bitlen in if negb (rc =? 0) then rc else
  let rc := osmo_nri_v_validate (last r) nri_bitlen in if negb (rc =? 0) then 2 * rc else
  if first r >? last r then -3 else 0.
(* src/gsm/gsm23236.c:239-249 *)
Definition osmo_nri_range_overlaps_ranges (r : range) (l : list range) : bool := existsb (fun i => nri_range_overlaps_range i r) l.

(* src/gsm/gsm23236.c:99-136: the two loops of osmo_nri_v_limit_by_ranges.  sum_values: None is the return -1 inside the loop *)
Fixpoint sum_values (l : list range) (range_max total : Z) : option Z :=
  match l with
  | [] => Some total
  | r :: t =>
    if negb (osmo_nri_range_validate r 255 =? 0) then None else
    if first r >? range_max then sum_values t range_max total else
    sum_values t range_max (u32 (total + (Z.min range_max (last r) - first r + 1)))
  end.
Fixpoint pick (l : list range) (range_max v : Z) : option Z :=
  match l with
  | [] => None
  | r :: t =>
    if first r >? range_max then pick t range_max v else
    let len := u32 (Z.min range_max (last r) - first r + 1) in
    if v <? len then Some (s16 (first r + v)) else pick t range_max (s16 (v - len))
  end.
(* osmo_nri_v_limit_by_ranges: (return code, new *nri_v).  1 << nri_bitlen is an int shift; v %= total_values is unsigned *)
Definition osmo_nri_v_limit_by_ranges (nri_v : Z) (l : list range) (nri_bitlen : Z) : res (Z * Z) :=
  if nri_bitlen >=? 31 then UB else
  let range_max := s16 (Z.shiftl 1 nri_bitlen - 1) in
  if nri_v <? 0 then Ok (-1, nri_v) else
  match sum_values l range_max 0 with
  | None => Ok (-1, nri_v)
  | Some total =>
    if total =? 0 then UB else
    match pick l range_max (s16 (nri_v mod total)) with
    | Some v => Ok (0, v)
    | None => Ok (-1, nri_v)
    end
  end.

(* src/gsm/gsm23236.c:147-165: (return code, *nri_v) *)
Definition osmo_tmsi_nri_v_get (tmsi nri_bitlen : Z) : Z * Z :=
  if (nri_bitlen <? NRI_BITLEN_MIN) || (nri_bitlen >? NRI_BITLEN_MAX) then (-1, -1) else
  let lowest_bit := u8 (23 - (nri_bitlen - 1)) in
  (0, s16 (Z.land (Z.shiftr tmsi lowest_bit) (u32 (Z.shiftl 1 nri_bitlen - 1)))).
(* src/gsm/gsm23236.c:176-190: (return code, *tmsi) *)
Definition osmo_tmsi_nri_v_set (tmsi nri_v nri_bitlen : Z) : Z * Z :=
  if (nri_bitlen <? NRI_BITLEN_MIN) || (nri_bitlen >? NRI_BITLEN_MAX) then (-1, tmsi) else
  if nri_v <? 0 then (-1, tmsi) else
  let lowest_bit := u8 (23 - (nri_bitlen - 1)) in
  let v_mask := u32 (Z.shiftl (u32 (Z.shiftl 1 nri_bitlen - 1)) lowest_bit) in
  (0, Z.lor (Z.land tmsi (u32 (Z.lnot v_mask))) (Z.land (u32 (Z.shiftl (u32 nri_v) lowest_bit)) v_mask)).
(* src/gsm/gsm23236.c:201-212 *)
Definition osmo_tmsi_nri_v_limit_by_ranges (tmsi : Z) (l : list range) (nri_bitlen : Z) : res (Z * Z) :=
  let '(rc, v) := osmo_tmsi_nri_v_get tmsi nri_bitlen in
  if negb (rc =? 0) then Ok (rc, tmsi) else
  do ' (rc, v) <- osmo_nri_v_limit_by_ranges v l nri_bitlen ;;
  if negb (rc =? 0) then Ok (rc, tmsi) else Ok (osmo_tmsi_nri_v_set tmsi v nri_bitlen).

(* src/gsm/gsm23236.c:274-287: in front of the first entry with a larger first value, else at the end *)
Fixpoint nri_ranges_add_entry_sorted (l : list range) (add : range) : list range :=
  match l with
  | [] => [add]
  | r :: t => if first r <=? first add then r :: nri_ranges_add_entry_sorted t add else add :: r :: t
  end.
(* src/gsm/gsm23236.c:296-337, the first loop: the list cut at the last entry touching add *)
Fixpoint last_touching (l : list range) (add : range) : option (list range * range * list range) :=
  match l with
  | [] => None
  | r :: t =>
    match last_touching t add with
    | Some (pre, x, post) => Some (r :: pre, x, post)
    | None => if nri_range_touches r add then Some ([], r, t) else None
    end
  end.
(* the third loop: entries other than target are deleted and merged into it if they touch it *)
Fixpoint absorb (target : range) (l : list range) : range * list range :=
  match l with
  | [] => (target, [])
  | r :: t =>
    if nri_range_touches target r then absorb (nri_range_extend target r) t
    else let '(target, t) := absorb target t in (target, r :: t)
  end.
Definition osmo_nri_ranges_add (l : list range) (add : range) : Z * list range :=
  if negb (osmo_nri_range_validate add 255 =? 0) then (-1, l) else
  match last_touching l add with
  | None => (0, nri_ranges_add_entry_sorted l add)
  | Some (pre, target, post) =>
    let target := nri_range_extend target add in
    let '(target, pre) := absorb target pre in
    let '(target, post) := absorb target post in
    (0, pre ++ target :: post)
  end.
(* src/gsm/gsm23236.c:347-394: the loop body; the entry for a tail section goes behind the head and is not visited *)
Definition del_one (d r : range) : list range :=
  if negb (nri_range_overlaps_range r d) then [r] else
  let head := nri_v_matches_range r (first d) && (first d >? first r) in
  let tail := nri_v_matches_range r (last d) && (last d <? last r) in
  if head && tail then [(first r, s16 (first d - 1)); (s16 (last d + 1), last r)]
  else if head then [(first r, s16 (first d - 1))]
  else if tail then [(s16 (last d + 1), last r)]
  else [].
Definition osmo_nri_ranges_del (l : list range) (d : range) : Z * list range :=
  if negb (osmo_nri_range_validate d 255 =? 0) then (-1, l) else (0, flat_map (del_one d) l).

(* src/gsm/gsm23236.c:402-415: the text (before truncation to the buffer); first is never cleared, so no comma is printed.
   Entries are non-negative, so %d prints as %u *)
Definition osmo_nri_ranges_to_str (l : list range) : list Z :=
  match l with [] => bs "empty" | _ => flat_map (fun r => dec (first r) ++ bs ".." ++ dec (last r)) l end.

(* src/gsm/gsm23236.c:433-443 *)
Definition osmo_nri_parse (s : list Z) : option Z :=
  let base := match s with a :: b :: _ => if (a =? 48) && (b =? 120) then 16 else 10 | _ => 10 end in
  let '(rc, val) := osmo_str_to_int s base 0 32767 in
  if negb (rc =? 0) then None else Some (s16 val).
(* src/gsm/gsm23236.c:454-472 with first_str not NULL *)
Definition osmo_nri_parse_range (first_str : list Z) (last_str : option (list Z)) : option range :=
  match osmo_nri_parse first_str with
  | None => None
  | Some f => match last_str with None => Some (f, f) | Some s => match osmo_nri_parse s with None => None | Some g => Some (f, g) end end
  end.
(* src/gsm/gsm23236.c:487-511: (return code, list); the message texts are not modelled *)
Definition osmo_nri_ranges_vty_add (l : list range) (a : list Z) (b : option (list Z)) (nri_bitlen : Z) : Z * list range :=
  match osmo_nri_parse_range a b with
  | None => (-1, l)
  | Some r =>
    let '(rc, l') := osmo_nri_ranges_add l r in
    if negb (rc =? 0) then (-1, l') else
    if (nri_bitlen <=? NRI_BITLEN_MAX) && negb (osmo_nri_range_validate r nri_bitlen =? 0) then (1, l') else (0, l')
  end.
(* src/gsm/gsm23236.c:523-542 *)
Definition osmo_nri_ranges_vty_del (l : list range) (a : list Z) (b : option (list Z)) : Z * list range :=
  match osmo_nri_parse_range a b with
  | None => (-1, l)
  | Some r => let '(rc, l') := osmo_nri_ranges_del l r in if negb (rc =? 0) then (-1, l') else (0, l')
  end.
