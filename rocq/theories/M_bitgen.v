(* M_bitgen.v - model of the unaligned load/store helpers
   generated from include/osmocom/core/bitXXgen.h.tpl for XX = 16, 32, 64.
   [w] is sizeof(uintXX_t), i.e. XX/8.  [p] is the memory the pointer argument points to. *)
From Verif Require Import Base.

(* bitXXgen.h.tpl:28-36 osmo_loadXXle_ext.
   The shift result is truncated to uintXX_t by the |= assignment. *)
Definition load_le_ext (w : Z) (p : list Z) (n : Z) : res Z :=
  if w <? n then Abort else
  zfor (Z.to_nat n) 0 (fun i r => do q <- rd p i ;;
     Ok (Z.lor r (Z.shiftl q (8 * i)) mod 2 ^ (8 * w))) 0.

(* bitXXgen.h.tpl:45-53 osmo_loadXXbe_ext *)
Definition load_be_ext (w : Z) (p : list Z) (n : Z) : res Z :=
  if w <? n then Abort else
  zfor (Z.to_nat n) 0 (fun i r => do q <- rd p i ;;
     Ok (Z.lor r (Z.shiftl q (8 * w - 8 * (1 + i))) mod 2 ^ (8 * w))) 0.

(* bitXXgen.h.tpl:60-68 osmo_loadXXbe_ext_2 *)
Definition load_be_ext_2 (w : Z) (p : list Z) (n : Z) : res Z :=
  if w <? n then Abort else
  zfor (Z.to_nat n) 0 (fun i r => do q <- rd p i ;;
     Ok (Z.lor r (Z.shiftl q (8 * w - 8 * (1 + i + (w - n)))) mod 2 ^ (8 * w))) 0.

(* bitXXgen.h.tpl:76-82 osmo_storeXXle_ext; returns the memory after the stores *)
Definition store_le_ext (w : Z) (x : Z) (p : list Z) (n : Z) : res (list Z) :=
  if w <? n then Abort else
  zfor (Z.to_nat n) 0 (fun i m => wr m i (Z.land (Z.shiftr x (i * 8)) 255)) p.

(* bitXXgen.h.tpl:89-95 osmo_storeXXbe_ext *)
Definition store_be_ext (w : Z) (x : Z) (p : list Z) (n : Z) : res (list Z) :=
  if w <? n then Abort else
  zfor (Z.to_nat n) 0 (fun i m => wr m i (Z.land (Z.shiftr x ((n - 1 - i) * 8)) 255)) p.

(* bitXXgen.h.tpl:102-124 convenience forms with n = XX/8 *)
Definition load_le (w : Z) (p : list Z) : res Z := load_le_ext w p w.
Definition load_be (w : Z) (p : list Z) : res Z := load_be_ext w p w.
Definition store_le (w x : Z) (p : list Z) : res (list Z) := store_le_ext w x p w.
Definition store_be (w x : Z) (p : list Z) : res (list Z) := store_be_ext w x p w.
