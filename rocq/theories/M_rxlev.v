(** Model of src/gsm/rxlev_stat.c: which channels were received at which level.
    Simplifications: the cursor of the bit vectors, which is not initialised, is 0 (it is not used); printing is left out. *)
From Verif Require Import Base M_bitvec.

(** include/osmocom/gsm/rxlev_stat.h:5-6 *)
Definition NUM_RXLEVS := 32. Definition NUM_ARFCNS := 1024.
(** include/osmocom/gsm/rxlev_stat.h:8-12 struct rxlev_stats: the buckets *)
Notation rxlev_stats := (list (list Z)) (only parsing).

(** src/gsm/rxlev_stat.c:63-66 rxlev_stat_reset *)
Definition rxlev_stat_reset : rxlev_stats := repeat (repeat 0 (Z.to_nat (NUM_ARFCNS / 8))) (Z.to_nat NUM_RXLEVS).
(** src/gsm/rxlev_stat.c:32-43 rxlev_stat_input *)
Definition rxlev_stat_input (st : rxlev_stats) (arfcn rxlev : Z) : res rxlev_stats :=
  let rxlev := if NUM_RXLEVS <=? rxlev then NUM_RXLEVS - 1 else rxlev in
  do b <- rd st rxlev ;;
  wr st rxlev (bdata (snd (bitvec_set_bit_pos (Bv 0 b) arfcn ONE))).
(** src/gsm/rxlev_stat.c:46-61 rxlev_stat_get_next *)
Definition rxlev_stat_get_next (st : rxlev_stats) (rxlev arfcn : Z) : res Z :=
  let rxlev := if NUM_RXLEVS <=? rxlev then NUM_RXLEVS - 1 else rxlev in
  let arfcn := if arfcn <? 0 then -1 else arfcn in
  do b <- rd st rxlev ;;
  Ok (s16 (bitvec_find_bit_pos (Bv 0 b) (u32 (arfcn + 1)) ONE)).
(** src/gsm/rxlev_stat.c:73-78 the inner loop of rxlev_stat_dump: the channels of one level; [Err]: out of fuel *)
Fixpoint dump_loop (fuel : nat) (st : rxlev_stats) (i arfcn : Z) : res (list Z) :=
  match fuel with
  | O => Err 0
  | S fuel => do a <- rxlev_stat_get_next st i arfcn ;; if 0 <=? a then do r <- dump_loop fuel st i a ;; Ok (a :: r) else Ok []
  end.
(** src/gsm/rxlev_stat.c:68-81 rxlev_stat_dump: what is printed, as level and channels per line *)
Fixpoint dump_levels (n : nat) (st : rxlev_stats) : res (list (Z * list Z)) :=
  match n with
  | O => Ok []
  | S n => let i := Z.of_nat n in do l <- dump_loop (Z.to_nat (NUM_ARFCNS + 1)) st i (-1) ;; do r <- dump_levels n st ;; Ok ((i, l) :: r)
  end.
Definition rxlev_stat_dump (st : rxlev_stats) : res (list (Z * list Z)) := dump_levels (Z.to_nat NUM_RXLEVS) st.
