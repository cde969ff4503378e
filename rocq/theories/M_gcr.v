(** Model of src/gsm/gsm29205.c: the Global Call Reference.
    Simplifications: the message buffer is the list of octets appended and the room left; running out of room aborts (msgb_put).
    [elem] are the octets that may be read; their number is the length argument. *)
From Verif Require Import Base.

(** include/osmocom/gsm/gsm29205.h:29-34 struct osmo_gcr_parsed *)
Record gcr := Gcr { g_net : list Z; g_net_len : Z; g_node : Z; g_cr : list Z }.
Definition EBADMSG := 74. Definition EINVAL := 22. Definition ENOENT := 2.

(** memcpy from the [n] octets at [off] *)
Definition cpy (l : list Z) (off n : Z) : res (list Z) := if (off <? 0) || (zlen l <? off + n) then UB else Ok (zslice l off n).
(** include/osmocom/gsm/tlv.h:358-362 msgb_lv_put, include/osmocom/gsm/tlv.h:96-102 lv_put *)
Definition msgb_lv_put (m : Z * list Z) (len : Z) (val : list Z) : res (Z * list Z) :=
  if fst m <? len + 1 then Abort else do v <- cpy val 0 len ;; Ok (fst m - (len + 1), snd m ++ u8 len :: v).
(** src/gsm/gsm29205.c:40-59 osmo_enc_gcr *)
Definition osmo_enc_gcr (m : Z * list Z) (g : option gcr) : res (Z * (Z * list Z)) :=
  match g with
  | None => Ok (0, m)
  | Some g =>
    if (g_net_len g <? 3) || (5 <? g_net_len g) then Ok (0, m) else
    do m <- msgb_lv_put m (g_net_len g) (g_net g) ;;
    do m <- msgb_lv_put m 2 (be_bytes 2 (g_node g)) ;;
    do m <- msgb_lv_put m 5 (g_cr g) ;;
    Ok (u8 ((g_net_len g + 1) + (2 + 1) + (5 + 1)), m)
  end.
(** src/gsm/gsm29205.c:66-92 osmo_dec_gcr *)
Definition osmo_dec_gcr (g : gcr) (elem : list Z) : res (Z * gcr) :=
  let parsed := 1 in
  if zlen elem <? 13 then Ok (- EBADMSG, g) else
  do nl <- rd elem 0 ;;
  let g := Gcr (g_net g) nl (g_node g) (g_cr g) in
  if (nl <? 3) || (5 <? nl) then Ok (- EINVAL, g) else
  do n <- cpy elem parsed nl ;;
  let g := Gcr (n ++ skipn (Z.to_nat nl) (g_net g)) nl (g_node g) (g_cr g) in
  let parsed := parsed + (nl + 1) in
  do b <- cpy elem parsed 2 ;;
  let g := Gcr (g_net g) nl (be_val b) (g_cr g) in
  let parsed := parsed + 2 in
  do x <- rd elem parsed ;;
  if negb (x =? 5) then Ok (- ENOENT, g) else
  let parsed := parsed + 1 in
  do c <- cpy elem parsed 5 ;;
  Ok (parsed + 5, Gcr (g_net g) nl (g_node g) c).
(** memcmp: the first [n] octets are the same *)
Definition same (a b : list Z) (n : Z) : res bool := do x <- cpy a 0 n ;; do y <- cpy b 0 n ;; Ok (if list_eq_dec Z.eq_dec x y then true else false).
(** src/gsm/gsm29205.c:98-113 osmo_gcr_eq *)
Definition osmo_gcr_eq (a b : gcr) : res bool :=
  if negb (g_net_len a =? g_net_len b) then Ok false else
  if negb (g_node a =? g_node b) then Ok false else
  do c <- same (g_cr a) (g_cr b) 5 ;;
  if negb c then Ok false else
  do c <- same (g_net a) (g_net b) (g_net_len b) ;;
  if negb c then Ok false else Ok true.
