(** Model of src/gsm/auth_xor.c and src/gsm/auth_xor_2g.c: the XOR test algorithms.
    Simplifications: arrays are lists of the sizes the structures give them, so that no access is out of bounds; the union of key data is a record
    with the fields of both, the key of 3G as its k_len octets (resynchronisation of GSM subscribers, which have no sequence number, is left out). *)
From Verif Require Import Base M_bitgen.

Definition GSM := 1. Definition UMTS := 2.
Definition EINVAL := 22. Definition ENOTSUP := 95.
(** include/osmocom/crypt/auth.h:44-65 struct osmo_sub_auth_data2 *)
Record aud := Aud { a_type : Z; ki : list Z; k : list Z; k_len : Z; amf : list Z; sqn : Z; sqn_ms : Z }.
(** include/osmocom/crypt/auth.h:89-99 struct osmo_auth_vector *)
Record vec := Vec { autn : list Z; ck : list Z; ik : list Z; xres : list Z; res_len : Z; kc : list Z; sres : list Z; auth_types : Z }.

(** src/gsm/auth_xor.c:36-42 xor *)
Definition xor (a b : list Z) (len : nat) : list Z := map (fun p => Z.lxor (fst p) (snd p)) (combine (firstn len a) (firstn len b)).
(** src/gsm/auth_core.c:360-365 osmo_auth_c3 *)
Definition osmo_auth_c3 (ck ik : list Z) : list Z :=
  map (fun i => Z.lxor (Z.lxor (Z.lxor (at0 ck i) (at0 ck (i + 8))) (at0 ik i)) (at0 ik (i + 8))) (zseq 0 8).
(** src/gsm/auth_xor.c:55-63 step 1, and src/gsm/auth_xor.c:144-152 *)
Definition step1 (a : aud) (rand : list Z) : Z * list Z :=
  if a_type a =? GSM then (0, xor (ki a) rand 16)
  else if a_type a =? UMTS then if negb (k_len a =? 16) then (- EINVAL, []) else (0, xor (k a) rand 16)
  else (- ENOTSUP, []).
(** src/gsm/auth_xor.c:45-128 xor_gen_vec *)
Definition xor_gen_vec (v : vec) (a : aud) (rand : list Z) : res (Z * vec) :=
  let '(rc, xdout) := step1 a rand in
  if negb (rc =? 0) then Ok (rc, v) else
  let r := zslice xdout 0 16 in
  let c := zslice xdout 1 15 ++ zslice xdout 0 1 in
  let i := zslice xdout 2 14 ++ zslice xdout 0 2 in
  let ak := zslice xdout 3 6 in
  let s := map (fun j => Z.lxor (Z.lxor (at0 r j) (at0 r (j + 4))) (Z.lxor (at0 r (j + 8)) (at0 r (j + 12)))) (zseq 0 4) in
  let kc := osmo_auth_c3 c i in
  if negb (a_type a =? UMTS) then Ok (0, Vec (autn v) c i r 16 kc s GSM) else
  do cd <- store_be_ext 8 (sqn a) (repeat 0 8) 6 ;;
  let cdout := firstn 6 cd ++ amf a in
  let xmac := xor xdout cdout 8 in
  Ok (0, Vec (xor cdout ak 6 ++ amf a ++ xmac) c i r 16 kc s (Z.lor UMTS GSM)).
(** src/gsm/auth_xor.c:131-176 xor_gen_vec_auts; also the key data afterwards *)
Definition xor_gen_vec_auts (v : vec) (a : aud) (auts rand_auts rand : list Z) : res (Z * vec * aud) :=
  let '(rc, xdout) := step1 a rand in
  if negb (rc =? 0) then Ok (rc, v, a) else
  let ak := zslice xdout 3 6 in
  let sqnms := xor auts ak 6 in
  let cdout := sqnms ++ [0; 0] in
  let xmac := xor xdout cdout 8 in
  if list_eq_dec Z.eq_dec (zslice auts 6 8) xmac then
    do l <- load_be_ext 8 sqnms 6 ;;
    let s := Z.shiftr l 16 in
    let a := Aud (a_type a) (ki a) (k a) (k_len a) (amf a) s s in
    do x <- xor_gen_vec v a rand ;; Ok (fst x, snd x, a)
  else Ok (-1, v, a).
(** src/gsm/auth_xor_2g.c:45-67 xor2g_gen_vec *)
Definition xor2g_gen_vec (v : vec) (a : aud) (rand : list Z) : Z * vec :=
  if negb (a_type a =? GSM) then (- ENOTSUP, v) else
  let res1 := xor (ki a) rand 16 in
  (0, Vec (autn v) (ck v) (ik v) (xres v) (res_len v) (zslice res1 4 8) (zslice res1 0 4) GSM).
