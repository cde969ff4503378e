(* M_ilv.v - model of the GSM 05.03 interleavers and burst mappers:
   src/coding/gsm0503_interleaving.c and src/coding/gsm0503_mapping.c.
   All these functions only move array elements around: dst[i] = src[g], element by element.  A function is therefore
   modelled as the sequence of its assignments, in execution order; a pointer is (number of the array, offset).
   NULL pointers (skipped parts) are not modelled; memcpy is modelled as element-wise assignment in ascending order.
   Elements are numbers (ubit_t or sbit_t); they are moved unchanged. *)
From Verif Require Import Base M_ilvtab.

Definition ptr : Type := nat * Z.
Definition padd (p : ptr) (k : Z) : ptr := (fst p, snd p + k).
Notation "p +! k" := (padd p k) (at level 50).
(* dst[..] = src[..] *)
Definition ins : Type := ptr * ptr.
Definition prog : Type := list ins.

(* for (k = a; k < b; k++) *)
Definition for_ (a b : Z) (f : Z -> ins) : prog := map f (zseq a (Z.to_nat (b - a))).
(* memcpy(d, s, n) *)
Definition memcpy_ (d s : ptr) (n : Z) : prog := for_ 0 n (fun k => (d +! k, s +! k)).

(* the memory: list of arrays *)
Definition exec1 (e : list (list Z)) (x : ins) : res (list (list Z)) :=
  let '((d, i), (s, g)) := x in
  do v <- rd (nth s e []) g ;; do m <- wr (nth d e []) i v ;; Ok (upd e d m).
Fixpoint exec (e : list (list Z)) (p : prog) : res (list (list Z)) :=
  match p with [] => Ok e | x :: t => do e' <- exec1 e x ;; exec e' t end.

(* ---- src/coding/gsm0503_interleaving.c ---- *)

(* :84-90, :98-104 index computation *)
Definition xcch_idx (k : Z) : Z :=
  let B := Z.land k 3 in let j := 2 * ((49 * k) mod 57) + Z.shiftr (Z.land k 7) 2 in B * 114 + j.
(* :82-91 *)
Definition gsm0503_xcch_deinterleave (cB iB : ptr) : prog := for_ 0 456 (fun k => (cB +! k, iB +! xcch_idx k)).
(* :96-105 *)
Definition gsm0503_xcch_interleave (cB iB : ptr) : prog := for_ 0 456 (fun k => (iB +! xcch_idx k, cB +! k)).

(* :121-130 and :198-207, cp -> c *)
Definition mcs1_unstuff (c cp : ptr) : prog :=
  for_ 0 25 (fun k => (c +! k, cp +! k)) ++ for_ 26 82 (fun k => (c +! (k - 1), cp +! k)) ++
  for_ 83 139 (fun k => (c +! (k - 2), cp +! k)) ++ for_ 140 424 (fun k => (c +! (k - 3), cp +! k)) ++
  for_ 425 456 (fun k => (c +! (k - 4), cp +! k)).
(* :167-181 and :235-249, c -> cp; zero points to the constant 0 *)
Definition mcs1_stuff (c cp zero : ptr) : prog :=
  for_ 0 25 (fun k => (cp +! k, c +! k)) ++ for_ 26 82 (fun k => (cp +! k, c +! (k - 1))) ++
  for_ 83 139 (fun k => (cp +! k, c +! (k - 2))) ++ for_ 140 424 (fun k => (cp +! k, c +! (k - 3))) ++
  for_ 425 456 (fun k => (cp +! k, c +! (k - 4))) ++
  [(cp +! 25, zero); (cp +! 82, zero); (cp +! 139, zero); (cp +! 424, zero)].

(* :112-146; c and cp are the local arrays *)
Definition gsm0503_mcs1_dl_deinterleave (u hc dc iB c cp : ptr) : prog :=
  gsm0503_xcch_deinterleave cp iB ++ mcs1_unstuff c cp ++
  for_ 0 12 (fun k => (u +! k, c +! k)) ++ for_ 12 80 (fun k => (hc +! (k - 12), c +! k)) ++
  for_ 80 452 (fun k => (dc +! (k - 80), c +! k)).
(* :153-184 *)
Definition gsm0503_mcs1_dl_interleave (up hc dc iB c cp zero : ptr) : prog :=
  for_ 0 12 (fun k => (c +! k, up +! k)) ++ for_ 12 80 (fun k => (c +! k, hc +! (k - 12))) ++
  for_ 80 452 (fun k => (c +! k, dc +! (k - 80))) ++ mcs1_stuff c cp zero ++ gsm0503_xcch_interleave cp iB.
(* :190-218 *)
Definition gsm0503_mcs1_ul_deinterleave (hc dc iB c cp : ptr) : prog :=
  gsm0503_xcch_deinterleave cp iB ++ mcs1_unstuff c cp ++
  for_ 0 80 (fun k => (hc +! k, c +! k)) ++ for_ 80 452 (fun k => (dc +! (k - 80), c +! k)).
(* :224-252 *)
Definition gsm0503_mcs1_ul_interleave (hc dc iB c cp zero : ptr) : prog :=
  for_ 0 80 (fun k => (c +! k, hc +! k)) ++ for_ 80 452 (fun k => (c +! k, dc +! (k - 80))) ++
  mcs1_stuff c cp zero ++ gsm0503_xcch_interleave cp iB.

(* header and data index computations *)
Definition mcs5_ul_h (k : Z) : Z := 34 * (k mod 4) + 2 * (11 * k mod 17) + k mod 8 / 4.          (* :266, :289 *)
Definition mcs5_dl_h (k : Z) : Z := 25 * (k mod 4) + ((17 * k) mod 25).                          (* :315, :338 *)
Definition mcs7_dl_h (k : Z) : Z := 31 * (k mod 4) + ((17 * k) mod 31).                          (* :366, :396 *)
Definition mcs7_ul_h (k : Z) : Z := 40 * (k mod 4) + 2 * (13 * (k / 8) mod 20) + k mod 8 / 4.    (* :428, :458 *)
Definition mcs5_d (k : Z) : Z := at0 gsm0503_interleave_mcs5 k.                                  (* :272, :296 *)
Definition mcs7_d (k : Z) : Z := 306 * (k mod 4) + 3 * (44 * k mod 102 + k / 4 mod 2) + (k + 2 - k / 408) mod 3.                 (* :375-376 *)
Definition mcs8_d (k : Z) : Z := 306 * (2 * (k / 612) + k mod 2) + 3 * (74 * k mod 102 + k / 2 mod 2) + (k + 2 - k / 204) mod 3. (* :498-500 *)

(* :259-275 *)
Definition gsm0503_mcs5_ul_interleave (hc dc hi di : ptr) : prog :=
  for_ 0 136 (fun k => (hi +! mcs5_ul_h k, hc +! k)) ++ for_ 0 1248 (fun k => (di +! mcs5_d k, dc +! k)).
(* :281-301 *)
Definition gsm0503_mcs5_ul_deinterleave (hc dc hi di : ptr) : prog :=
  for_ 0 136 (fun k => (hc +! k, hi +! mcs5_ul_h k)) ++ for_ 0 1248 (fun k => (dc +! k, di +! mcs5_d k)).
(* :308-324 *)
Definition gsm0503_mcs5_dl_interleave (hc dc hi di : ptr) : prog :=
  for_ 0 100 (fun k => (hi +! mcs5_dl_h k, hc +! k)) ++ for_ 0 1248 (fun k => (di +! mcs5_d k, dc +! k)).
(* :330-350 *)
Definition gsm0503_mcs5_dl_deinterleave (hc dc hi di : ptr) : prog :=
  for_ 0 100 (fun k => (hc +! k, hi +! mcs5_dl_h k)) ++ for_ 0 1248 (fun k => (dc +! k, di +! mcs5_d k)).
(* :358-379; dc is the local array *)
Definition gsm0503_mcs7_dl_interleave (hc c1 c2 hi di dc : ptr) : prog :=
  for_ 0 124 (fun k => (hi +! mcs7_dl_h k, hc +! k)) ++ memcpy_ dc c1 612 ++ memcpy_ (dc +! 612) c2 612 ++
  for_ 0 1224 (fun k => (di +! mcs7_d k, dc +! k)).
(* :387-412 *)
Definition gsm0503_mcs7_dl_deinterleave (hc c1 c2 hi di dc : ptr) : prog :=
  for_ 0 124 (fun k => (hc +! k, hi +! mcs7_dl_h k)) ++ for_ 0 1224 (fun k => (dc +! k, di +! mcs7_d k)) ++
  memcpy_ c1 dc 612 ++ memcpy_ c2 (dc +! 612) 612.
(* :420-441 *)
Definition gsm0503_mcs7_ul_interleave (hc c1 c2 hi di dc : ptr) : prog :=
  for_ 0 160 (fun k => (hi +! mcs7_ul_h k, hc +! k)) ++ memcpy_ dc c1 612 ++ memcpy_ (dc +! 612) c2 612 ++
  for_ 0 1224 (fun k => (di +! mcs7_d k, dc +! k)).
(* :449-474 *)
Definition gsm0503_mcs7_ul_deinterleave (hc c1 c2 hi di dc : ptr) : prog :=
  for_ 0 160 (fun k => (hc +! k, hi +! mcs7_ul_h k)) ++ for_ 0 1224 (fun k => (dc +! k, di +! mcs7_d k)) ++
  memcpy_ c1 dc 612 ++ memcpy_ c2 (dc +! 612) 612.
(* :482-503 *)
Definition gsm0503_mcs8_ul_interleave (hc c1 c2 hi di dc : ptr) : prog :=
  for_ 0 160 (fun k => (hi +! mcs7_ul_h k, hc +! k)) ++ memcpy_ dc c1 612 ++ memcpy_ (dc +! 612) c2 612 ++
  for_ 0 1224 (fun k => (di +! mcs8_d k, dc +! k)).
(* :512-537 *)
Definition gsm0503_mcs8_ul_deinterleave (hc c1 c2 hi di dc : ptr) : prog :=
  for_ 0 160 (fun k => (hc +! k, hi +! mcs7_ul_h k)) ++ for_ 0 1224 (fun k => (dc +! k, di +! mcs8_d k)) ++
  memcpy_ c1 dc 612 ++ memcpy_ c2 (dc +! 612) 612.
(* :545-566 *)
Definition gsm0503_mcs8_dl_interleave (hc c1 c2 hi di dc : ptr) : prog :=
  for_ 0 124 (fun k => (hi +! mcs7_dl_h k, hc +! k)) ++ memcpy_ dc c1 612 ++ memcpy_ (dc +! 612) c2 612 ++
  for_ 0 1224 (fun k => (di +! mcs8_d k, dc +! k)).
(* :574-599 *)
Definition gsm0503_mcs8_dl_deinterleave (hc c1 c2 hi di dc : ptr) : prog :=
  for_ 0 124 (fun k => (hc +! k, hi +! mcs7_dl_h k)) ++ for_ 0 1224 (fun k => (dc +! k, di +! mcs8_d k)) ++
  memcpy_ c1 dc 612 ++ memcpy_ c2 (dc +! 612) 612.

(* :628-651 *)
Definition tch_fr_idx (k : Z) : Z :=
  let B := Z.land k 7 in let j := 2 * ((49 * k) mod 57) + Z.shiftr (Z.land k 7) 2 in B * 114 + j.
Definition gsm0503_tch_fr_deinterleave (cB iB : ptr) : prog := for_ 0 456 (fun k => (cB +! k, iB +! tch_fr_idx k)).
Definition gsm0503_tch_fr_interleave (cB iB : ptr) : prog := for_ 0 456 (fun k => (iB +! tch_fr_idx k, cB +! k)).
(* :656-679 *)
Definition tch_hr_idx (k : Z) : Z := at0 tch_hr_interleaving_1 k * 114 + at0 tch_hr_interleaving_0 k.
Definition gsm0503_tch_hr_deinterleave (cB iB : ptr) : prog := for_ 0 228 (fun k => (cB +! k, iB +! tch_hr_idx k)).
Definition gsm0503_tch_hr_interleave (cB iB : ptr) : prog := for_ 0 228 (fun k => (iB +! tch_hr_idx k, cB +! k)).
(* :704-730 *)
Definition tch_f96_idx (k : Z) : Z := let B := k mod 19 + k / 114 in let j := k mod 19 + 19 * (k mod 6) in B * 114 + j.
Definition gsm0503_tch_f96_deinterleave (cB iB : ptr) : prog := for_ 0 456 (fun k => (cB +! k, iB +! tch_f96_idx k)).
Definition gsm0503_tch_f96_interleave (cB iB : ptr) : prog := for_ 0 456 (fun k => (iB +! tch_f96_idx k, cB +! k)).

(* ---- src/coding/gsm0503_mapping.c ---- *)

(* :36-47 *)
Definition gsm0503_xcch_burst_unmap (iB eB hl hn : ptr) : prog :=
  memcpy_ iB eB 57 ++ memcpy_ (iB +! 57) (eB +! 59) 57 ++ [(hl, eB +! 57); (hn, eB +! 58)].
(* :49-59 *)
Definition gsm0503_xcch_burst_map (iB eB hl hn : ptr) : prog :=
  memcpy_ eB iB 57 ++ memcpy_ (eB +! 59) (iB +! 57) 57 ++ [(eB +! 57, hl); (eB +! 58, hn)].
(* for (i = a; i < b; i += 2) *)
Definition for2 (a b : Z) (f : Z -> ins) : prog := map (fun n => f (a + 2 * n)) (zseq 0 (Z.to_nat ((b - a + 1) / 2))).
(* :61-79 *)
Definition gsm0503_tch_burst_unmap (iB eB h : ptr) (odd : Z) : prog :=
  for2 odd 57 (fun i => (iB +! i, eB +! i)) ++ for2 (58 - odd) 114 (fun i => (iB +! i, eB +! (i + 2))) ++
  [(h, eB +! (if odd =? 0 then 58 else 57))].
(* :81-94 *)
Definition gsm0503_tch_burst_map (iB eB h : ptr) (odd : Z) : prog :=
  for2 odd 57 (fun i => (eB +! i, iB +! i)) ++ for2 (58 - odd) 114 (fun i => (eB +! (i + 2), iB +! i)) ++
  [(eB +! (if odd =? 0 then 58 else 57), h)].
(* :96-116; q points to the constant array *)
Definition gsm0503_mcs5_dl_burst_map (di eB hi up q : ptr) (B : Z) : prog :=
  for_ 0 156 (fun j => (eB +! j, di +! (312 * B + j))) ++ for_ 156 168 (fun j => (eB +! j, hi +! (25 * B + j - 156))) ++
  for_ 168 174 (fun j => (eB +! j, up +! (9 * B + j - 168))) ++ for_ 174 176 (fun j => (eB +! j, q +! (2 * B + j - 174))) ++
  for_ 176 179 (fun j => (eB +! j, up +! (9 * B + j - 170))) ++ for_ 179 192 (fun j => (eB +! j, hi +! (25 * B + j - 167))) ++
  for_ 192 348 (fun j => (eB +! j, di +! (312 * B + j - 36))).
(* :118-136 *)
Definition gsm0503_mcs5_dl_burst_unmap (di eB hi up : ptr) (B : Z) : prog :=
  for_ 0 156 (fun j => (di +! (312 * B + j), eB +! j)) ++ for_ 156 168 (fun j => (hi +! (25 * B + j - 156), eB +! j)) ++
  for_ 168 174 (fun j => (up +! (9 * B + j - 168), eB +! j)) ++
  for_ 176 179 (fun j => (up +! (9 * B + j - 170), eB +! j)) ++ for_ 179 192 (fun j => (hi +! (25 * B + j - 167), eB +! j)) ++
  for_ 192 348 (fun j => (di +! (312 * B + j - 36), eB +! j)).
(* :138-153; zero points to the constant 0 *)
Definition gsm0503_mcs5_ul_burst_map (di eB hi zero : ptr) (B : Z) : prog :=
  for_ 0 156 (fun j => (eB +! j, di +! (312 * B + j))) ++ for_ 156 174 (fun j => (eB +! j, hi +! (34 * B + j - 156))) ++
  for_ 174 176 (fun j => (eB +! j, zero)) ++ for_ 176 192 (fun j => (eB +! j, hi +! (34 * B + j - 158))) ++
  for_ 192 348 (fun j => (eB +! j, di +! (312 * B + j - 36))).
(* :155-168 *)
Definition gsm0503_mcs5_ul_burst_unmap (di eB hi : ptr) (B : Z) : prog :=
  for_ 0 156 (fun j => (di +! (312 * B + j), eB +! j)) ++ for_ 156 174 (fun j => (hi +! (34 * B + j - 156), eB +! j)) ++
  for_ 176 192 (fun j => (hi +! (34 * B + j - 158), eB +! j)) ++ for_ 192 348 (fun j => (di +! (312 * B + j - 36), eB +! j)).
(* :170-190 *)
Definition gsm0503_mcs7_dl_burst_map (di eB hi up q : ptr) (B : Z) : prog :=
  for_ 0 153 (fun j => (eB +! j, di +! (306 * B + j))) ++ for_ 153 168 (fun j => (eB +! j, hi +! (31 * B + j - 153))) ++
  for_ 168 174 (fun j => (eB +! j, up +! (9 * B + j - 168))) ++ for_ 174 176 (fun j => (eB +! j, q +! (2 * B + j - 174))) ++
  for_ 176 179 (fun j => (eB +! j, up +! (9 * B + j - 170))) ++ for_ 179 195 (fun j => (eB +! j, hi +! (31 * B + j - 164))) ++
  for_ 195 348 (fun j => (eB +! j, di +! (306 * B + j - 42))).
(* :192-210 *)
Definition gsm0503_mcs7_dl_burst_unmap (di eB hi up : ptr) (B : Z) : prog :=
  for_ 0 153 (fun j => (di +! (306 * B + j), eB +! j)) ++ for_ 153 168 (fun j => (hi +! (31 * B + j - 153), eB +! j)) ++
  for_ 168 174 (fun j => (up +! (9 * B + j - 168), eB +! j)) ++
  for_ 176 179 (fun j => (up +! (9 * B + j - 170), eB +! j)) ++ for_ 179 195 (fun j => (hi +! (31 * B + j - 164), eB +! j)) ++
  for_ 195 348 (fun j => (di +! (306 * B + j - 42), eB +! j)).
(* :212-228 *)
Definition gsm0503_mcs7_ul_burst_map (di eB hi q : ptr) (B : Z) : prog :=
  for_ 0 153 (fun j => (eB +! j, di +! (306 * B + j))) ++ for_ 153 174 (fun j => (eB +! j, hi +! (40 * B + j - 153))) ++
  for_ 174 176 (fun j => (eB +! j, q +! (2 * B + j - 174))) ++ for_ 176 195 (fun j => (eB +! j, hi +! (40 * B + j - 155))) ++
  for_ 195 348 (fun j => (eB +! j, di +! (306 * B + j - 42))).
(* :230-244 *)
Definition gsm0503_mcs7_ul_burst_unmap (di eB hi : ptr) (B : Z) : prog :=
  for_ 0 153 (fun j => (di +! (306 * B + j), eB +! j)) ++ for_ 153 174 (fun j => (hi +! (40 * B + j - 153), eB +! j)) ++
  for_ 176 195 (fun j => (hi +! (40 * B + j - 155), eB +! j)) ++ for_ 195 348 (fun j => (di +! (306 * B + j - 42), eB +! j)).
(* :246-294; t is the local array *)
Definition swap_a : list Z := [155; 158; 161; 164; 167; 170; 173; 195; 196; 198; 199; 201; 202; 204].
Definition swap_b : list Z := [142; 144; 145; 147; 148; 150; 151; 176; 179; 182; 185; 188; 191; 194].
Definition gsm0503_mcs5_burst_swap (eB t : ptr) : prog :=
  for_ 0 14 (fun k => (t +! k, eB +! at0 swap_a k)) ++ for_ 0 14 (fun k => (eB +! at0 swap_a k, eB +! at0 swap_b k)) ++
  for_ 0 14 (fun k => (eB +! at0 swap_b k, t +! k)).

(* the parts of src/coding/gsm0503_coding.c that combine the two, for one block *)
(* :644-647 (xCCH decode), :664-667 (xCCH encode); bursts of 116 bits *)
Definition xcch_unburst (bursts iB cB hl hn : ptr) : prog :=
  flat_map (fun i => gsm0503_xcch_burst_unmap (iB +! (i * 114)) (bursts +! (i * 116)) hl hn) (zseq 0 4) ++
  gsm0503_xcch_deinterleave cB iB.
Definition xcch_burst (cB iB bursts hl hn : ptr) : prog :=
  gsm0503_xcch_interleave cB iB ++
  flat_map (fun i => gsm0503_xcch_burst_map (iB +! (i * 114)) (bursts +! (i * 116)) hl hn) (zseq 0 4).
(* :1866-1874 (TCH/F decode), :1989-1994 (TCH/F encode) *)
Definition tch_fr_unburst (bursts iB cB h : ptr) : prog :=
  flat_map (fun i => gsm0503_tch_burst_unmap (iB +! (i * 114)) (bursts +! (i * 116)) h (Z.shiftr i 2)) (zseq 0 8) ++
  gsm0503_tch_fr_deinterleave cB iB.
Definition tch_fr_burst (cB iB bursts h : ptr) : prog :=
  gsm0503_tch_fr_interleave cB iB ++
  flat_map (fun i => gsm0503_tch_burst_map (iB +! (i * 114)) (bursts +! (i * 116)) h (Z.shiftr i 2)) (zseq 0 8).
(* :2049-2054 (TCH/H decode), :2128-2132 (TCH/H encode) *)
Definition tch_hr_unburst (bursts iB cB h : ptr) : prog :=
  flat_map (fun i => gsm0503_tch_burst_unmap (iB +! (i * 114)) (bursts +! (i * 116)) h (Z.shiftr i 1)) (zseq 0 4) ++
  gsm0503_tch_hr_deinterleave cB iB.
Definition tch_hr_burst (cB iB bursts h : ptr) : prog :=
  gsm0503_tch_hr_interleave cB iB ++
  flat_map (fun i => gsm0503_tch_burst_map (iB +! (i * 114)) (bursts +! (i * 116)) h (Z.shiftr i 1)) (zseq 0 4).
