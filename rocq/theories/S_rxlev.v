(** What a set of measurements says about a level. *)
From Verif Require Import Base M_rxlev.
From Coq Require Import Sorted.

(** All measurements since the reset, in order: channel and level *)
Definition after (h : list (Z * Z)) : res (list (list Z)) := fold_left (fun s x => do s <- s ;; rxlev_stat_input s (fst x) (snd x)) h (Ok rxlev_stat_reset).
(** Channel [a], one of the 1024, was measured at this level; levels from 31 on are one *)
Definition measured (h : list (Z * Z)) (level a : Z) : Prop := a < 1024 /\ exists l, In (a, l) h /\ Z.min l 31 = Z.min level 31.
(** Channels are 16 bit, levels 8 bit numbers *)
Definition input_ok (x : Z * Z) : Prop := 0 <= fst x < 65536 /\ 0 <= snd x < 256.
(** The channels measured at a level, ascending, each once *)
Definition channels_of (h : list (Z * Z)) (level : Z) (l : list Z) : Prop :=
  Sorted.StronglySorted Z.lt l /\ forall a, In a l <-> measured h level a.
