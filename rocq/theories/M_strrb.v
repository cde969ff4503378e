(* M_strrb.v - model of src/core/strrb.c.  talloc is assumed to succeed.  C strings passed in are lists of
   non-zero bytes (without the NUL). *)
From Verif Require Import Base.

(* include/osmocom/core/strrb.h:31-37 *)
Definition RB_MAX_MESSAGE_SIZE := 240.
Record strrb := Rb { rstart : Z; rend : Z; rsize : Z; rbuf : list (list Z) }.

(* strrb.c:54-79 osmo_strrb_create; rb->size is uint16_t *)
Definition osmo_strrb_create (rb_size : Z) : strrb :=
  Rb 0 0 (u16 rb_size) (repeat (repeat 0 240) (Z.to_nat (u16 rb_size))).

(* strrb.c:85-88 osmo_strrb_is_empty *)
Definition osmo_strrb_is_empty (rb : strrb) : bool := rend rb =? rstart rb.

(* strrb.c:112-122 _osmo_strrb_is_bufindex_valid *)
Definition bufindex_valid (rb : strrb) (bufi : Z) : bool :=
  if osmo_strrb_is_empty rb then false else
  if rsize rb <=? bufi then false else
  if rstart rb <? rend rb then (rstart rb <=? bufi) && (bufi <? rend rb)
  else (bufi <? rend rb) || (rstart rb <=? bufi).

(* the C string stored at the start of a slot *)
Fixpoint cstr (l : list Z) : list Z := match l with [] => [] | c :: t => if c =? 0 then [] else c :: cstr t end.

(* strrb.c:99-110 osmo_strrb_get_nth: the string found at the returned pointer, None = NULL *)
Definition osmo_strrb_get_nth (rb : strrb) (string_index : Z) : option (list Z) :=
  let offset := u32 (string_index + rstart rb) in
  let offset := if (rsize rb <=? offset) && (rend rb <? rstart rb) then u32 (offset - rsize rb) else offset in
  if bufindex_valid rb offset then Some (cstr (nth (Z.to_nat offset) (rbuf rb) [])) else None.

(* strrb.c:129-135 osmo_strrb_elements *)
Definition osmo_strrb_elements (rb : strrb) : Z :=
  if rend rb <? rstart rb then rend rb + (rsize rb - rstart rb) else rend rb - rstart rb.

(* strrb.c:145-169 osmo_strrb_add; % 0 is undefined *)
Definition osmo_strrb_add (rb : strrb) (data : list Z) : res (strrb * Z) :=
  let len := zlen data in
  let '(len, ret) := if RB_MAX_MESSAGE_SIZE <=? len then (RB_MAX_MESSAGE_SIZE - 1, 1) else (len, 0) in
  match nth_error (rbuf rb) (Z.to_nat (rend rb)) with
  | None => UB
  | Some slot =>
    do slot <- memcpy slot 0 data 0 len ;;
    do slot <- wr slot len 0 ;;
    let buf := upd (rbuf rb) (Z.to_nat (rend rb)) slot in
    if rsize rb =? 0 then UB else
    let e := u16 (rend rb + 1) mod rsize rb in
    let s := if e =? rstart rb then u16 (rstart rb + 1) mod rsize rb else rstart rb in
    Ok (Rb s e (rsize rb) buf, ret)
  end.

Fixpoint adds (rb : strrb) (l : list (list Z)) : res (strrb * list Z) :=
  match l with
  | [] => Ok (rb, [])
  | d :: t => do ' (rb, r) <- osmo_strrb_add rb d ;; do ' (rb, rs) <- adds rb t ;; Ok (rb, r :: rs)
  end.
