(* Property theorems for unaligned integer load/store: C42.  Model: M_bitgen.v.
   Specification: le_val/be_val (value of a byte string) and le_bytes/be_bytes (digits) in Base.v. *)
From Verif Require Import Base M_bitgen P_bitgen.

Theorem C42_load_le : forall w p n, 0 <= n <= w -> n <= zlen p -> bytes p ->
  load_le_ext w p n = Ok (le_val (firstn (Z.to_nat n) p)).
Proof. exact load_le_ext_ok. Qed.
Print Assumptions C42_load_le.

(* the plain big-endian load left-aligns a short value ... *)
Theorem C42_load_be : forall w p n, 0 <= n <= w -> n <= zlen p -> bytes p ->
  load_be_ext w p n = Ok (be_val (firstn (Z.to_nat n) p) * 2 ^ (8 * (w - n))).
Proof. exact load_be_ext_ok. Qed.
Print Assumptions C42_load_be.

(* ... the _2 variant right-aligns it *)
Theorem C42_load_be_2 : forall w p n, 0 <= n <= w -> n <= zlen p -> bytes p ->
  load_be_ext_2 w p n = Ok (be_val (firstn (Z.to_nat n) p)).
Proof. exact load_be_ext_2_ok. Qed.
Print Assumptions C42_load_be_2.

Theorem C42_store_le : forall w x p n, 0 <= n <= w -> n <= zlen p ->
  store_le_ext w x p n = Ok (le_bytes (Z.to_nat n) x ++ skipn (Z.to_nat n) p).
Proof. exact store_le_ext_ok. Qed.
Print Assumptions C42_store_le.

Theorem C42_store_be : forall w x p n, 0 <= n <= w -> n <= zlen p ->
  store_be_ext w x p n = Ok (be_bytes (Z.to_nat n) x ++ skipn (Z.to_nat n) p).
Proof. exact store_be_ext_ok. Qed.
Print Assumptions C42_store_be.

(* round trips, and no other byte is touched *)
Theorem C42_roundtrip_le : forall w x p n, 0 <= n <= w -> n <= zlen p -> bytes p ->
  exists p', store_le_ext w x p n = Ok p' /\ zlen p' = zlen p /\
    skipn (Z.to_nat n) p' = skipn (Z.to_nat n) p /\ load_le_ext w p' n = Ok (x mod 2 ^ (8 * n)).
Proof. exact roundtrip_le. Qed.
Print Assumptions C42_roundtrip_le.

Theorem C42_roundtrip_be : forall w x p n, 0 <= n <= w -> n <= zlen p -> bytes p ->
  exists p', store_be_ext w x p n = Ok p' /\ zlen p' = zlen p /\
    skipn (Z.to_nat n) p' = skipn (Z.to_nat n) p /\ load_be_ext_2 w p' n = Ok (x mod 2 ^ (8 * n)).
Proof. exact roundtrip_be. Qed.
Print Assumptions C42_roundtrip_be.

(* the forms without a length: all w octets; what is stored is loaded again *)
Theorem C42_full_width : forall w x p, 0 <= w <= zlen p -> bytes p ->
  (exists q, store_le w x p = Ok q /\ load_le w q = Ok (x mod 2 ^ (8 * w)) /\ zlen q = zlen p /\ skipn (Z.to_nat w) q = skipn (Z.to_nat w) p) /\
  (exists q, store_be w x p = Ok q /\ load_be w q = Ok (x mod 2 ^ (8 * w)) /\ zlen q = zlen p /\ skipn (Z.to_nat w) q = skipn (Z.to_nat w) p).
Proof.
  intros w x p Hw Hb. split.
  - destruct (roundtrip_le w x p w) as (q & A & B & C & D); auto; try lia. exists q. auto.
  - destruct (roundtrip_be w x p w) as (q & A & B & C & D); auto; try lia. exists q. split; auto. split; auto.
    unfold load_be. rewrite <- D. unfold load_be_ext, load_be_ext_2. destruct (w <? w); auto.
    replace (w - w) with 0 by lia. apply zfor_ext. intros i r _. rewrite Z.add_0_r. reflexivity.
Qed.
Print Assumptions C42_full_width.

(* requests wider than the integer type panic *)
Theorem C42_too_wide : forall w x p n, w < n ->
  load_le_ext w p n = Abort /\ load_be_ext w p n = Abort /\ load_be_ext_2 w p n = Abort /\
  store_le_ext w x p n = Abort /\ store_be_ext w x p n = Abort.
Proof. exact too_wide. Qed.
Print Assumptions C42_too_wide.

Example C42_nonvacuous :
  store_be_ext 4 11259375 [1;2;3;4;5] 3 = Ok [171;205;239;4;5] /\
  load_be_ext_2 4 [171;205;239;4;5] 3 = Ok 11259375 /\
  load_be_ext 4 [171;205;239;4;5] 3 = Ok 2882400000 /\
  load_le_ext 8 [171;205;239;4;5] 3 = Ok 15715755.
Proof. vm_compute. auto. Qed.
