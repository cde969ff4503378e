(* T_ilv.v - C34: interleavers and burst mappers lose nothing.
   Arrays are numbered by their place in the memory list; (n, o) is a pointer to element o of array n.  Arrays named x.. and
   y.. hold arbitrary previous contents (outputs and local variables of the functions). *)
From Verif Require Import Base M_ilvtab M_ilv P_ilv S_ilv P_ilvdiag.

Lemma moves_all ns p goals e : moves ns p goals = true -> map zlen e = ns ->
  exists e', exec e p = Ok e' /\ length e' = length e /\ Forall (fun g => nth (fst g) e' [] = nth (snd g) e []) goals.
Proof.
  intros M L. destruct (moves_ok ns p goals e M L) as (e' & X & L' & G). exists e'. split; auto. split.
  { now rewrite <- (map_length zlen), L', map_length. } apply Forall_forall. intros [a b] H. cbn [fst snd]. auto.
Qed.

Ltac destr e := match goal with
  | H : length e = S _ |- _ => let x := fresh "x" in let r := fresh "r" in
      destruct e as [|x r]; [discriminate H|]; cbn [length] in H; injection H as H; destr r
  | H : length e = 0%nat |- _ => destruct e; [|discriminate H]
  end.
(* the program restores the listed arrays: computed on positions *)
Ltac restore ns goals :=
  intros; match goal with |- context [exec ?e ?p] =>
    let M := fresh "M" in let e' := fresh "e" in let X := fresh "X" in let L := fresh "L" in let G := fresh "G" in
    assert (M : moves ns p goals = true) by (vm_compute; reflexivity);
    destruct (moves_all ns p goals e M) as (e' & X & L & G); [cbn [map]; congruence|]; clear M;
    cbn [length] in L; destr e'; rewrite X;
    repeat match type of G with Forall _ (_ :: _) => let G1 := fresh "G" in pose proof (Forall_inv G) as G1; apply Forall_inv_tail in G; cbn [fst snd nth] in G1 end;
    subst; repeat eexists
  end.

(* ---- interleaver then deinterleaver gives back every input ---- *)

(* gsm0503_xcch_interleave(cB, x); gsm0503_xcch_deinterleave(y, x) *)
Theorem C34_xcch : forall cB x y, zlen cB = 456 -> zlen x = 456 -> zlen y = 456 ->
  exists x', exec [cB; x; y]
    (gsm0503_xcch_interleave (0%nat, 0) (1%nat, 0) ++ gsm0503_xcch_deinterleave (2%nat, 0) (1%nat, 0)) = Ok [cB; x'; cB].
Proof. restore [456; 456; 456] [(0%nat, 0%nat); (2%nat, 0%nat)]. Qed.
Print Assumptions C34_xcch.

(* gsm0503_tch_fr_interleave(cB, x); gsm0503_tch_fr_deinterleave(y, x) *)
Theorem C34_tch_fr : forall cB x y, zlen cB = 456 -> zlen x = 912 -> zlen y = 456 ->
  exists x', exec [cB; x; y]
    (gsm0503_tch_fr_interleave (0%nat, 0) (1%nat, 0) ++ gsm0503_tch_fr_deinterleave (2%nat, 0) (1%nat, 0)) = Ok [cB; x'; cB].
Proof. restore [456; 912; 456] [(0%nat, 0%nat); (2%nat, 0%nat)]. Qed.
Print Assumptions C34_tch_fr.

(* gsm0503_tch_hr_interleave(cB, x); gsm0503_tch_hr_deinterleave(y, x) *)
Theorem C34_tch_hr : forall cB x y, zlen cB = 228 -> zlen x = 456 -> zlen y = 228 ->
  exists x', exec [cB; x; y]
    (gsm0503_tch_hr_interleave (0%nat, 0) (1%nat, 0) ++ gsm0503_tch_hr_deinterleave (2%nat, 0) (1%nat, 0)) = Ok [cB; x'; cB].
Proof. restore [228; 456; 228] [(0%nat, 0%nat); (2%nat, 0%nat)]. Qed.
Print Assumptions C34_tch_hr.

(* gsm0503_tch_f96_interleave(cB, x); gsm0503_tch_f96_deinterleave(y, x) *)
Theorem C34_tch_f96 : forall cB x y, zlen cB = 456 -> zlen x = 2508 -> zlen y = 456 ->
  exists x', exec [cB; x; y]
    (gsm0503_tch_f96_interleave (0%nat, 0) (1%nat, 0) ++ gsm0503_tch_f96_deinterleave (2%nat, 0) (1%nat, 0)) = Ok [cB; x'; cB].
Proof. restore [456; 2508; 456] [(0%nat, 0%nat); (2%nat, 0%nat)]. Qed.
Print Assumptions C34_tch_f96.

(* downlink MCS-1..4: up, hc, dc *)
Theorem C34_mcs1_dl : forall up hc dc zero x x1 x2 yu yh yd y1 y2, zlen up = 12 -> zlen hc = 68 -> zlen dc = 372 -> zlen zero = 1 -> zlen x = 456 -> zlen x1 = 452 -> zlen x2 = 456 -> zlen yu = 12 -> zlen yh = 68 -> zlen yd = 372 -> zlen y1 = 452 -> zlen y2 = 456 ->
  exists x' x1' x2' y1' y2', exec [up; hc; dc; zero; x; x1; x2; yu; yh; yd; y1; y2]
    (gsm0503_mcs1_dl_interleave (0%nat, 0) (1%nat, 0) (2%nat, 0) (4%nat, 0) (5%nat, 0) (6%nat, 0) (3%nat, 0) ++
     gsm0503_mcs1_dl_deinterleave (7%nat, 0) (8%nat, 0) (9%nat, 0) (4%nat, 0) (10%nat, 0) (11%nat, 0)) = Ok [up; hc; dc; zero; x'; x1'; x2'; up; hc; dc; y1'; y2'].
Proof. restore [12; 68; 372; 1; 456; 452; 456; 12; 68; 372; 452; 456] [(0%nat, 0%nat); (1%nat, 1%nat); (2%nat, 2%nat); (3%nat, 3%nat); (7%nat, 0%nat); (8%nat, 1%nat); (9%nat, 2%nat)]. Qed.
Print Assumptions C34_mcs1_dl.

(* uplink MCS-1..4: hc, dc *)
Theorem C34_mcs1_ul : forall hc dc zero x x1 x2 yh yd y1 y2, zlen hc = 80 -> zlen dc = 372 -> zlen zero = 1 -> zlen x = 456 -> zlen x1 = 452 -> zlen x2 = 456 -> zlen yh = 80 -> zlen yd = 372 -> zlen y1 = 452 -> zlen y2 = 456 ->
  exists x' x1' x2' y1' y2', exec [hc; dc; zero; x; x1; x2; yh; yd; y1; y2]
    (gsm0503_mcs1_ul_interleave (0%nat, 0) (1%nat, 0) (3%nat, 0) (4%nat, 0) (5%nat, 0) (2%nat, 0) ++
     gsm0503_mcs1_ul_deinterleave (6%nat, 0) (7%nat, 0) (3%nat, 0) (8%nat, 0) (9%nat, 0)) = Ok [hc; dc; zero; x'; x1'; x2'; hc; dc; y1'; y2'].
Proof. restore [80; 372; 1; 456; 452; 456; 80; 372; 452; 456] [(0%nat, 0%nat); (1%nat, 1%nat); (2%nat, 2%nat); (6%nat, 0%nat); (7%nat, 1%nat)]. Qed.
Print Assumptions C34_mcs1_ul.

(* ul MCS-5/6 *)
Theorem C34_mcs5_ul : forall hc dc xh xd yh yd, zlen hc = 136 -> zlen dc = 1248 -> zlen xh = 136 -> zlen xd = 1248 -> zlen yh = 136 -> zlen yd = 1248 ->
  exists xh' xd', exec [hc; dc; xh; xd; yh; yd]
    (gsm0503_mcs5_ul_interleave (0%nat, 0) (1%nat, 0) (2%nat, 0) (3%nat, 0) ++
     gsm0503_mcs5_ul_deinterleave (4%nat, 0) (5%nat, 0) (2%nat, 0) (3%nat, 0)) = Ok [hc; dc; xh'; xd'; hc; dc].
Proof. restore [136; 1248; 136; 1248; 136; 1248] [(0%nat, 0%nat); (1%nat, 1%nat); (4%nat, 0%nat); (5%nat, 1%nat)]. Qed.
Print Assumptions C34_mcs5_ul.

(* dl MCS-5/6 *)
Theorem C34_mcs5_dl : forall hc dc xh xd yh yd, zlen hc = 100 -> zlen dc = 1248 -> zlen xh = 100 -> zlen xd = 1248 -> zlen yh = 100 -> zlen yd = 1248 ->
  exists xh' xd', exec [hc; dc; xh; xd; yh; yd]
    (gsm0503_mcs5_dl_interleave (0%nat, 0) (1%nat, 0) (2%nat, 0) (3%nat, 0) ++
     gsm0503_mcs5_dl_deinterleave (4%nat, 0) (5%nat, 0) (2%nat, 0) (3%nat, 0)) = Ok [hc; dc; xh'; xd'; hc; dc].
Proof. restore [100; 1248; 100; 1248; 100; 1248] [(0%nat, 0%nat); (1%nat, 1%nat); (4%nat, 0%nat); (5%nat, 1%nat)]. Qed.
Print Assumptions C34_mcs5_dl.

(* dl mcs7 *)
Theorem C34_mcs7_dl : forall hc c1 c2 xh xd x yh y1 y2 y, zlen hc = 124 -> zlen c1 = 612 -> zlen c2 = 612 -> zlen xh = 124 -> zlen xd = 1224 -> zlen x = 1224 -> zlen yh = 124 -> zlen y1 = 612 -> zlen y2 = 612 -> zlen y = 1224 ->
  exists xh' xd' x' y', exec [hc; c1; c2; xh; xd; x; yh; y1; y2; y]
    (gsm0503_mcs7_dl_interleave (0%nat, 0) (1%nat, 0) (2%nat, 0) (3%nat, 0) (4%nat, 0) (5%nat, 0) ++
     gsm0503_mcs7_dl_deinterleave (6%nat, 0) (7%nat, 0) (8%nat, 0) (3%nat, 0) (4%nat, 0) (9%nat, 0)) = Ok [hc; c1; c2; xh'; xd'; x'; hc; c1; c2; y'].
Proof. restore [124; 612; 612; 124; 1224; 1224; 124; 612; 612; 1224] [(0%nat, 0%nat); (1%nat, 1%nat); (2%nat, 2%nat); (6%nat, 0%nat); (7%nat, 1%nat); (8%nat, 2%nat)]. Qed.
Print Assumptions C34_mcs7_dl.

(* ul mcs7 *)
Theorem C34_mcs7_ul : forall hc c1 c2 xh xd x yh y1 y2 y, zlen hc = 160 -> zlen c1 = 612 -> zlen c2 = 612 -> zlen xh = 160 -> zlen xd = 1224 -> zlen x = 1224 -> zlen yh = 160 -> zlen y1 = 612 -> zlen y2 = 612 -> zlen y = 1224 ->
  exists xh' xd' x' y', exec [hc; c1; c2; xh; xd; x; yh; y1; y2; y]
    (gsm0503_mcs7_ul_interleave (0%nat, 0) (1%nat, 0) (2%nat, 0) (3%nat, 0) (4%nat, 0) (5%nat, 0) ++
     gsm0503_mcs7_ul_deinterleave (6%nat, 0) (7%nat, 0) (8%nat, 0) (3%nat, 0) (4%nat, 0) (9%nat, 0)) = Ok [hc; c1; c2; xh'; xd'; x'; hc; c1; c2; y'].
Proof. restore [160; 612; 612; 160; 1224; 1224; 160; 612; 612; 1224] [(0%nat, 0%nat); (1%nat, 1%nat); (2%nat, 2%nat); (6%nat, 0%nat); (7%nat, 1%nat); (8%nat, 2%nat)]. Qed.
Print Assumptions C34_mcs7_ul.

(* dl mcs8 *)
Theorem C34_mcs8_dl : forall hc c1 c2 xh xd x yh y1 y2 y, zlen hc = 124 -> zlen c1 = 612 -> zlen c2 = 612 -> zlen xh = 124 -> zlen xd = 1224 -> zlen x = 1224 -> zlen yh = 124 -> zlen y1 = 612 -> zlen y2 = 612 -> zlen y = 1224 ->
  exists xh' xd' x' y', exec [hc; c1; c2; xh; xd; x; yh; y1; y2; y]
    (gsm0503_mcs8_dl_interleave (0%nat, 0) (1%nat, 0) (2%nat, 0) (3%nat, 0) (4%nat, 0) (5%nat, 0) ++
     gsm0503_mcs8_dl_deinterleave (6%nat, 0) (7%nat, 0) (8%nat, 0) (3%nat, 0) (4%nat, 0) (9%nat, 0)) = Ok [hc; c1; c2; xh'; xd'; x'; hc; c1; c2; y'].
Proof. restore [124; 612; 612; 124; 1224; 1224; 124; 612; 612; 1224] [(0%nat, 0%nat); (1%nat, 1%nat); (2%nat, 2%nat); (6%nat, 0%nat); (7%nat, 1%nat); (8%nat, 2%nat)]. Qed.
Print Assumptions C34_mcs8_dl.

(* ul mcs8 *)
Theorem C34_mcs8_ul : forall hc c1 c2 xh xd x yh y1 y2 y, zlen hc = 160 -> zlen c1 = 612 -> zlen c2 = 612 -> zlen xh = 160 -> zlen xd = 1224 -> zlen x = 1224 -> zlen yh = 160 -> zlen y1 = 612 -> zlen y2 = 612 -> zlen y = 1224 ->
  exists xh' xd' x' y', exec [hc; c1; c2; xh; xd; x; yh; y1; y2; y]
    (gsm0503_mcs8_ul_interleave (0%nat, 0) (1%nat, 0) (2%nat, 0) (3%nat, 0) (4%nat, 0) (5%nat, 0) ++
     gsm0503_mcs8_ul_deinterleave (6%nat, 0) (7%nat, 0) (8%nat, 0) (3%nat, 0) (4%nat, 0) (9%nat, 0)) = Ok [hc; c1; c2; xh'; xd'; x'; hc; c1; c2; y'].
Proof. restore [160; 612; 612; 160; 1224; 1224; 160; 612; 612; 1224] [(0%nat, 0%nat); (1%nat, 1%nat); (2%nat, 2%nat); (6%nat, 0%nat); (7%nat, 1%nat); (8%nat, 2%nat)]. Qed.
Print Assumptions C34_mcs8_ul.

(* ---- burst mapping then unmapping ---- *)

(* gsm0503_xcch_burst_map, _unmap: 114 bits and the two stealing flags hl, hn *)
Theorem C34_xcch_map : forall iB hl hn x y yl yn, zlen iB = 114 -> zlen hl = 1 -> zlen hn = 1 -> zlen x = 116 -> zlen y = 114 -> zlen yl = 1 -> zlen yn = 1 ->
  exists x', exec [iB; hl; hn; x; y; yl; yn]
    (gsm0503_xcch_burst_map (0%nat, 0) (3%nat, 0) (1%nat, 0) (2%nat, 0) ++
     gsm0503_xcch_burst_unmap (4%nat, 0) (3%nat, 0) (5%nat, 0) (6%nat, 0)) = Ok [iB; hl; hn; x'; iB; hl; hn].
Proof. restore [114; 1; 1; 116; 114; 1; 1] [(0%nat, 0%nat); (1%nat, 1%nat); (2%nat, 2%nat); (4%nat, 0%nat); (5%nat, 1%nat); (6%nat, 2%nat)]. Qed.
Print Assumptions C34_xcch_map.

(* a whole xCCH block: interleave, map to four bursts; unmap, deinterleave *)
Theorem C34_xcch_block : forall cB hl hn bursts x out y yl yn, zlen cB = 456 -> zlen hl = 1 -> zlen hn = 1 -> zlen bursts = 464 -> zlen x = 456 -> zlen out = 456 -> zlen y = 456 -> zlen yl = 1 -> zlen yn = 1 ->
  exists bursts' x' y', exec [cB; hl; hn; bursts; x; out; y; yl; yn]
    (xcch_burst (0%nat, 0) (4%nat, 0) (3%nat, 0) (1%nat, 0) (2%nat, 0) ++
     xcch_unburst (3%nat, 0) (6%nat, 0) (5%nat, 0) (7%nat, 0) (8%nat, 0)) = Ok [cB; hl; hn; bursts'; x'; cB; y'; hl; hn].
Proof. restore [456; 1; 1; 464; 456; 456; 456; 1; 1] [(0%nat, 0%nat); (1%nat, 1%nat); (2%nat, 2%nat); (5%nat, 0%nat); (7%nat, 1%nat); (8%nat, 2%nat)]. Qed.
Print Assumptions C34_xcch_block.

(* TCH half bursts: one block in the even bits (flag h0), another in the odd bits (flag h1) of one burst; both are read back *)
Theorem C34_tch_map : forall a b h0 h1 burst ya y0 y1, zlen a = 114 -> zlen b = 114 -> zlen h0 = 1 -> zlen h1 = 1 -> zlen burst = 116 -> zlen ya = 114 -> zlen y0 = 1 -> zlen y1 = 1 ->
  exists burst' ya', exec [a; b; h0; h1; burst; ya; y0; y1]
    (gsm0503_tch_burst_map (0%nat, 0) (4%nat, 0) (2%nat, 0) 0 ++ gsm0503_tch_burst_map (1%nat, 0) (4%nat, 0) (3%nat, 0) 1 ++
     gsm0503_tch_burst_unmap (5%nat, 0) (4%nat, 0) (6%nat, 0) 0 ++ gsm0503_tch_burst_unmap (5%nat, 0) (4%nat, 0) (7%nat, 0) 1) = Ok [a; b; h0; h1; burst'; ya'; h0; h1].
Proof. restore [114; 114; 1; 1; 116; 114; 1; 1] [(0%nat, 0%nat); (1%nat, 1%nat); (2%nat, 2%nat); (3%nat, 3%nat); (6%nat, 2%nat); (7%nat, 3%nat)]. Qed.
Print Assumptions C34_tch_map.

(* the four bursts of mcs5 dl *)
Theorem C34_mcs5_dl_map : forall di hi up q bursts yd yh yu, zlen di = 1248 -> zlen hi = 100 -> zlen up = 36 -> zlen q = 8 -> zlen bursts = 1392 -> zlen yd = 1248 -> zlen yh = 100 -> zlen yu = 36 ->
  exists bursts', exec [di; hi; up; q; bursts; yd; yh; yu]
    (flat_map (fun B => gsm0503_mcs5_dl_burst_map (0%nat, 0) (4%nat, 348 * B) (1%nat, 0) (2%nat, 0) (3%nat, 0) B) (zseq 0 4) ++
     flat_map (fun B => gsm0503_mcs5_dl_burst_unmap (5%nat, 0) (4%nat, 348 * B) (6%nat, 0) (7%nat, 0) B) (zseq 0 4)) = Ok [di; hi; up; q; bursts'; di; hi; up].
Proof. restore [1248; 100; 36; 8; 1392; 1248; 100; 36] [(0%nat, 0%nat); (1%nat, 1%nat); (2%nat, 2%nat); (3%nat, 3%nat); (5%nat, 0%nat); (6%nat, 1%nat); (7%nat, 2%nat)]. Qed.
Print Assumptions C34_mcs5_dl_map.

(* the four bursts of mcs7 dl *)
Theorem C34_mcs7_dl_map : forall di hi up q bursts yd yh yu, zlen di = 1224 -> zlen hi = 124 -> zlen up = 36 -> zlen q = 8 -> zlen bursts = 1392 -> zlen yd = 1224 -> zlen yh = 124 -> zlen yu = 36 ->
  exists bursts', exec [di; hi; up; q; bursts; yd; yh; yu]
    (flat_map (fun B => gsm0503_mcs7_dl_burst_map (0%nat, 0) (4%nat, 348 * B) (1%nat, 0) (2%nat, 0) (3%nat, 0) B) (zseq 0 4) ++
     flat_map (fun B => gsm0503_mcs7_dl_burst_unmap (5%nat, 0) (4%nat, 348 * B) (6%nat, 0) (7%nat, 0) B) (zseq 0 4)) = Ok [di; hi; up; q; bursts'; di; hi; up].
Proof. restore [1224; 124; 36; 8; 1392; 1224; 124; 36] [(0%nat, 0%nat); (1%nat, 1%nat); (2%nat, 2%nat); (3%nat, 3%nat); (5%nat, 0%nat); (6%nat, 1%nat); (7%nat, 2%nat)]. Qed.
Print Assumptions C34_mcs7_dl_map.

(* the four bursts of mcs5 ul *)
Theorem C34_mcs5_ul_map : forall di hi zero bursts yd yh, zlen di = 1248 -> zlen hi = 136 -> zlen zero = 1 -> zlen bursts = 1392 -> zlen yd = 1248 -> zlen yh = 136 ->
  exists bursts', exec [di; hi; zero; bursts; yd; yh]
    (flat_map (fun B => gsm0503_mcs5_ul_burst_map (0%nat, 0) (3%nat, 348 * B) (1%nat, 0) (2%nat, 0) B) (zseq 0 4) ++
     flat_map (fun B => gsm0503_mcs5_ul_burst_unmap (4%nat, 0) (3%nat, 348 * B) (5%nat, 0) B) (zseq 0 4)) = Ok [di; hi; zero; bursts'; di; hi].
Proof. restore [1248; 136; 1; 1392; 1248; 136] [(0%nat, 0%nat); (1%nat, 1%nat); (2%nat, 2%nat); (4%nat, 0%nat); (5%nat, 1%nat)]. Qed.
Print Assumptions C34_mcs5_ul_map.

(* the four bursts of mcs7 ul *)
Theorem C34_mcs7_ul_map : forall di hi q bursts yd yh, zlen di = 1224 -> zlen hi = 160 -> zlen q = 8 -> zlen bursts = 1392 -> zlen yd = 1224 -> zlen yh = 160 ->
  exists bursts', exec [di; hi; q; bursts; yd; yh]
    (flat_map (fun B => gsm0503_mcs7_ul_burst_map (0%nat, 0) (3%nat, 348 * B) (1%nat, 0) (2%nat, 0) B) (zseq 0 4) ++
     flat_map (fun B => gsm0503_mcs7_ul_burst_unmap (4%nat, 0) (3%nat, 348 * B) (5%nat, 0) B) (zseq 0 4)) = Ok [di; hi; q; bursts'; di; hi].
Proof. restore [1224; 160; 8; 1392; 1224; 160] [(0%nat, 0%nat); (1%nat, 1%nat); (2%nat, 2%nat); (4%nat, 0%nat); (5%nat, 1%nat)]. Qed.
Print Assumptions C34_mcs7_ul_map.

(* bit swapping of a burst undoes itself *)
Theorem C34_swap : forall burst x, zlen burst = 348 -> zlen x = 14 ->
  exists x', exec [burst; x]
    (gsm0503_mcs5_burst_swap (0%nat, 0) (1%nat, 0) ++ gsm0503_mcs5_burst_swap (0%nat, 0) (1%nat, 0)) = Ok [burst; x'].
Proof. restore [348; 14] [(0%nat, 0%nat)]. Qed.
Print Assumptions C34_swap.

(* ---- positions: bit k of the block is sent in burst B(k) at place j(k), as TS 05.03 prescribes ---- *)
Ltac placement ns l :=
  intros; match goal with |- context [exec ?e ?p] =>
    let M := fresh "M" in let e' := fresh "e" in let X := fresh "X" in let L := fresh "L" in let G := fresh "G" in
    assert (M : placed ns p l = true) by (vm_compute; reflexivity);
    destruct (placed_ok ns p l e M) as (e' & X & L & G); [cbn [map]; congruence|]; clear M;
    exists e'; split; [exact X|]; split; [exact L|];
    let k := fresh "k" in let Hk := fresh "Hk" in intros k Hk; apply (G 1%nat _ 0%nat k); apply in_map_iff; exists k; split; [reflexivity|apply zseq_In; lia]
  end.

(* TS 05.03 4.1.4 *)
Theorem C34_xcch_places : forall cB x, zlen cB = 456 -> zlen x = 456 ->
  exists e', exec [cB; x] (gsm0503_xcch_interleave (0%nat, 0) (1%nat, 0)) = Ok e' /\ map zlen e' = map zlen [cB; x] /\
    forall k, 0 <= k < 456 -> at0 (nth 1 e' []) (114 * (k mod 4) + (2 * ((49 * k) mod 57) + (k mod 8) / 4)) = at0 cB k.
Proof.
  placement [456; 456] (map (fun k => ((1%nat, 114 * (k mod 4) + (2 * ((49 * k) mod 57) + (k mod 8) / 4)), (0%nat, k))) (zseq 0 456)).
Qed.
Print Assumptions C34_xcch_places.

(* TS 05.03 3.1.3 *)
Theorem C34_tch_fr_places : forall cB x, zlen cB = 456 -> zlen x = 912 ->
  exists e', exec [cB; x] (gsm0503_tch_fr_interleave (0%nat, 0) (1%nat, 0)) = Ok e' /\ map zlen e' = map zlen [cB; x] /\
    forall k, 0 <= k < 456 -> at0 (nth 1 e' []) (114 * (k mod 8) + (2 * ((49 * k) mod 57) + (k mod 8) / 4)) = at0 cB k.
Proof.
  placement [456; 912] (map (fun k => ((1%nat, 114 * (k mod 8) + (2 * ((49 * k) mod 57) + (k mod 8) / 4)), (0%nat, k))) (zseq 0 456)).
Qed.
Print Assumptions C34_tch_fr_places.

(* TS 05.03 3.3.4 *)
Theorem C34_tch_f96_places : forall cB x, zlen cB = 456 -> zlen x = 2508 ->
  exists e', exec [cB; x] (gsm0503_tch_f96_interleave (0%nat, 0) (1%nat, 0)) = Ok e' /\ map zlen e' = map zlen [cB; x] /\
    forall k, 0 <= k < 456 -> at0 (nth 1 e' []) (114 * (k mod 19 + k / 114) + (k mod 19 + 19 * (k mod 6))) = at0 cB k.
Proof.
  placement [456; 2508] (map (fun k => ((1%nat, 114 * (k mod 19 + k / 114) + (k mod 19 + 19 * (k mod 6))), (0%nat, k))) (zseq 0 456)).
Qed.
Print Assumptions C34_tch_f96_places.

(* ---- diagonal interleaving: frames overlap on the air, each is recovered exactly ---- *)
Lemma shiftp_app w k p q : shiftp w k (p ++ q) = shiftp w k p ++ shiftp w k q.
Proof. apply map_app. Qed.
Lemma shiftp_for w k a b f : shiftp w k (for_ a b f) = for_ a b (fun i => (shp w k (fst (f i)), shp w k (snd (f i)))).
Proof. apply map_map. Qed.
Lemma shiftp_for2 w k a b f : shiftp w k (for2 a b f) = for2 a b (fun i => (shp w k (fst (f i)), shp w k (snd (f i)))).
Proof. apply map_map. Qed.
Lemma for_ext a b f g : (forall i, f i = g i) -> for_ a b f = for_ a b g.
Proof. intros. now apply map_ext. Qed.
Lemma for2_ext a b f g : (forall i, f i = g i) -> for2 a b f = for2 a b g.
Proof. intros H. apply map_ext. intros. apply H. Qed.
Lemma shiftp_flat w k (f g : Z -> prog) l : (forall i, shiftp w k (f i) = g i) -> shiftp w k (flat_map f l) = flat_map g l.
Proof. intros H. induction l; cbn [flat_map]; auto. now rewrite shiftp_app, H, IHl. Qed.
Ltac pos_eq := intros; cbv [shp padd fst snd Nat.eqb]; repeat (f_equal; try lia).
Ltac shift_eq := rewrite ?shiftp_app, ?shiftp_for, ?shiftp_for2; repeat first
  [ reflexivity | apply for_ext; pos_eq | apply for2_ext; pos_eq | apply f_equal2 | unfold shiftp; cbn [map]; pos_eq ].

Lemma shift_fr_burst k : tch_fr_burst (0%nat, 0) (1%nat, 0) (2%nat, k) (3%nat, 0) = shiftp 2 k (tch_fr_burst (0%nat, 0) (1%nat, 0) (2%nat, 0) (3%nat, 0)).
Proof.
  symmetry. unfold tch_fr_burst. rewrite shiftp_app. apply f_equal2. { unfold gsm0503_tch_fr_interleave. shift_eq. }
  apply shiftp_flat. intros i. unfold gsm0503_tch_burst_map. shift_eq.
Qed.
Lemma shift_fr_unburst k : tch_fr_unburst (0%nat, k) (1%nat, 0) (2%nat, 0) (3%nat, 0) = shiftp 0 k (tch_fr_unburst (0%nat, 0) (1%nat, 0) (2%nat, 0) (3%nat, 0)).
Proof.
  symmetry. unfold tch_fr_unburst. rewrite shiftp_app. apply f_equal2. 2:{ unfold gsm0503_tch_fr_deinterleave. shift_eq. }
  apply shiftp_flat. intros i. unfold gsm0503_tch_burst_unmap. shift_eq.
Qed.
Lemma shift_hr_burst k : tch_hr_burst (0%nat, 0) (1%nat, 0) (2%nat, k) (3%nat, 0) = shiftp 2 k (tch_hr_burst (0%nat, 0) (1%nat, 0) (2%nat, 0) (3%nat, 0)).
Proof.
  symmetry. unfold tch_hr_burst. rewrite shiftp_app. apply f_equal2. { unfold gsm0503_tch_hr_interleave. shift_eq. }
  apply shiftp_flat. intros i. unfold gsm0503_tch_burst_map. shift_eq.
Qed.
Lemma shift_hr_unburst k : tch_hr_unburst (0%nat, k) (1%nat, 0) (2%nat, 0) (3%nat, 0) = shiftp 0 k (tch_hr_unburst (0%nat, 0) (1%nat, 0) (2%nat, 0) (3%nat, 0)).
Proof.
  symmetry. unfold tch_hr_unburst. rewrite shiftp_app. apply f_equal2. 2:{ unfold gsm0503_tch_hr_deinterleave. shift_eq. }
  apply shiftp_flat. intros i. unfold gsm0503_tch_burst_unmap. shift_eq.
Qed.

Lemma tx_all_ext enc enc' step fs : (forall o, enc o = enc' o) -> forall air off, tx_all enc step air off fs = tx_all enc' step air off fs.
Proof.
  intros H. induction fs; intros; cbn [tx_all]; auto. unfold tx. rewrite H. destruct (exec _ _); cbn [bind]; auto.
Qed.

Definition air_place (B j : Z) : Z := 116 * B + (if j <? 57 then j else j + 2).

(* TCH/F: a frame every 4 bursts (464 bits), each frame spread over 8 bursts (928 bits).  Any number of frames, any contents,
   any stealing flags, whatever was in the arrays before: every frame and its flag is read back. *)
Theorem C34_tch_fr_diagonal : forall (fs : list frame) (air : list Z),
  Forall (fun f => zlen (f_bits f) = 456 /\ zlen (f_scratch f) = 912) fs ->
  464 * (Z.of_nat (length fs) + 1) <= zlen air ->
  exists air', tx_all (fun o => tch_fr_burst (0%nat, 0) (1%nat, 0) (2%nat, o) (3%nat, 0)) 464 air 0 fs = Ok air' /\ zlen air' = zlen air /\
    forall i f, nth_error fs i = Some f -> forall out scratch h, zlen out = 456 -> zlen scratch = 912 ->
      rx (fun o => tch_fr_unburst (0%nat, o) (1%nat, 0) (2%nat, 0) (3%nat, 0)) air' out scratch h (464 * Z.of_nat i) =
      Ok (f_bits f, [f_flag f]).
Proof.
  intros fs air F L.
  destruct (diag_ok 456 912 928 464 (tch_fr_burst (0%nat, 0) (1%nat, 0) (2%nat, 0) (3%nat, 0))
    (tch_fr_unburst (0%nat, 0) (1%nat, 0) (2%nat, 0) (3%nat, 0))
    (fun k => air_place (k mod 8) (2 * ((49 * k) mod 57) + (k mod 8) / 4)) (Some 869) fs air) as (a' & X & La & R).
  { vm_compute. reflexivity. } { exact F. } { lia. }
  exists a'. split. { rewrite (tx_all_ext _ _ _ _ shift_fr_burst). exact X. } split; auto.
  intros i f Hi out junk h O J. destruct (R i f Hi out junk h O J) as (h' & Rr & Rh). unfold rx in *. rewrite shift_fr_unburst.
  rewrite Rr. rewrite (Rh ltac:(discriminate)). reflexivity.
Qed.
Print Assumptions C34_tch_fr_diagonal.

(* TCH/H: a frame every 2 bursts, each spread over 4 bursts *)
Theorem C34_tch_hr_diagonal : forall (fs : list frame) (air : list Z),
  Forall (fun f => zlen (f_bits f) = 228 /\ zlen (f_scratch f) = 456) fs ->
  232 * (Z.of_nat (length fs) + 1) <= zlen air ->
  exists air', tx_all (fun o => tch_hr_burst (0%nat, 0) (1%nat, 0) (2%nat, o) (3%nat, 0)) 232 air 0 fs = Ok air' /\ zlen air' = zlen air /\
    forall i f, nth_error fs i = Some f -> forall out scratch h, zlen out = 228 -> zlen scratch = 456 ->
      rx (fun o => tch_hr_unburst (0%nat, o) (1%nat, 0) (2%nat, 0) (3%nat, 0)) air' out scratch h (232 * Z.of_nat i) =
      Ok (f_bits f, [f_flag f]).
Proof.
  intros fs air F L.
  destruct (diag_ok 228 456 464 232 (tch_hr_burst (0%nat, 0) (1%nat, 0) (2%nat, 0) (3%nat, 0))
    (tch_hr_unburst (0%nat, 0) (1%nat, 0) (2%nat, 0) (3%nat, 0))
    (fun k => air_place (at0 tch_hr_interleaving_1 k) (at0 tch_hr_interleaving_0 k)) (Some 405) fs air) as (a' & X & La & R).
  { vm_compute. reflexivity. } { exact F. } { lia. }
  exists a'. split. { rewrite (tx_all_ext _ _ _ _ shift_hr_burst). exact X. } split; auto.
  intros i f Hi out junk h O J. destruct (R i f Hi out junk h O J) as (h' & Rr & Rh). unfold rx in *. rewrite shift_hr_unburst.
  rewrite Rr. rewrite (Rh ltac:(discriminate)). reflexivity.
Qed.
Print Assumptions C34_tch_hr_diagonal.

(* TCH/F9.6 data: a block every 4 bursts (456 bits of interleaved payload), each spread over 22 bursts *)
Theorem C34_tch_f96_diagonal : forall (fs : list frame) (air : list Z),
  Forall (fun f => zlen (f_bits f) = 456 /\ zlen (f_scratch f) = 0) fs ->
  456 * (Z.of_nat (length fs) - 1) + 2508 <= zlen air ->
  exists air', tx_all (fun o => gsm0503_tch_f96_interleave (0%nat, 0) (2%nat, o)) 456 air 0 fs = Ok air' /\ zlen air' = zlen air /\
    forall i f, nth_error fs i = Some f -> forall out h, zlen out = 456 ->
      exists h', rx (fun o => gsm0503_tch_f96_deinterleave (2%nat, 0) (0%nat, o)) air' out [] h (456 * Z.of_nat i) = Ok (f_bits f, h').
Proof.
  intros fs air F L.
  assert (E1 : forall o, gsm0503_tch_f96_interleave (0%nat, 0) (2%nat, o) = shiftp 2 o (gsm0503_tch_f96_interleave (0%nat, 0) (2%nat, 0))).
  { intros. symmetry. unfold gsm0503_tch_f96_interleave. shift_eq. }
  assert (E2 : forall o, gsm0503_tch_f96_deinterleave (2%nat, 0) (0%nat, o) = shiftp 0 o (gsm0503_tch_f96_deinterleave (2%nat, 0) (0%nat, 0))).
  { intros. symmetry. unfold gsm0503_tch_f96_deinterleave. shift_eq. }
  destruct (diag_ok 456 0 2508 456 (gsm0503_tch_f96_interleave (0%nat, 0) (2%nat, 0)) (gsm0503_tch_f96_deinterleave (2%nat, 0) (0%nat, 0))
    tch_f96_idx None fs air) as (a' & X & La & R).
  { vm_compute. reflexivity. } { exact F. } { exact L. }
  exists a'. split. { rewrite (tx_all_ext _ _ _ _ E1). exact X. } split; auto.
  intros i f Hi out h O. destruct (R i f Hi out [] h O eq_refl) as (h' & Rr & Rh). exists [h']. unfold rx in *. rewrite E2. exact Rr.
Qed.
Print Assumptions C34_tch_f96_diagonal.

(* the hypotheses are met by real frames, and the interleaver does move things *)
Example C34_nonvacuous :
  exists e', exec [zseq 0 456; repeat 0 456] (gsm0503_xcch_interleave (0%nat, 0) (1%nat, 0)) = Ok e' /\
    at0 (nth 1 e' []) 1 = 228 /\ at0 (nth 1 e' []) 114 = 57 /\ nth 1 e' [] <> zseq 0 456.
Proof.
  eexists. split; [vm_compute; reflexivity|]. vm_compute. repeat split; discriminate.
Qed.
Example C34_nonvacuous_fr :
  Forall (fun f => zlen (f_bits f) = 456 /\ zlen (f_scratch f) = 912) (repeat (mkframe (zseq 1 456) 1 (repeat 7 912)) 3) /\
  464 * (Z.of_nat (length (repeat (mkframe (zseq 1 456) 1 (repeat 7 912)) 3)) + 1) <= zlen (repeat 0 1856).
Proof. split; [repeat constructor|]. vm_compute. discriminate. Qed.

