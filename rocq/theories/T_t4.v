(** Theorems: T.4 compression of bit maps (C38). *)
From Coq Require Import String ZArith List Lia Bool.
From Verif Require Import Base S_bits M_bitvec P_bitvec S_t4 M_t4 P_t4.
Import ListNotations.
Open Scope Z_scope.

(** Full claim: when osmo_t4_encode succeeds on a bit vector, the T.4 decoder of TS 44.060, told the
    colour that was returned and the original number of bits, gives the original bits.  Proved for
    vectors of at most 1016 bits where at most 8*(data_len-2) bits remain after the first run; what
    is missing is refuted below.  On failure nothing changes.  Whatever bits follow the compressed
    ones ([rest]) do not matter. *)
Theorem C38_roundtrip_partial : forall bv first,
  bytes (bdata bv) -> 8 * data_len bv < 2 ^ 31 -> 2 <= data_len bv ->
  0 <= cur_bit bv <= 8 * data_len bv -> cur_bit bv <= 1016 ->
  0 <= first <= cur_bit bv -> cur_bit bv - first <= 8 * (data_len bv - 2) ->
  (forall i j, 0 <= i < first -> 0 <= j < first -> pbit false (bdata bv) i = pbit false (bdata bv) j) ->
  osmo_t4_encode bv = Ok (-1, bv) \/
  exists rc bv', osmo_t4_encode bv = Ok (rc, bv') /\
    data_len bv' = data_len bv /\ bytes (bdata bv') /\ 0 <= cur_bit bv' < cur_bit bv /\
    rc = b2z (pbit false (bdata bv) 0) /\
    forall rest, t4_decode (S (Z.to_nat (cur_bit bv))) (rc =? 1)
      (map (pbit false (bdata bv')) (zseq 0 (Z.to_nat (cur_bit bv'))) ++ rest) (cur_bit bv) =
      Some (map (pbit false (bdata bv)) (zseq 0 (Z.to_nat (cur_bit bv)))).
Proof.
  intros bv first Hb Hl H2 Hc H1 Hf1 Hf2 Hf3. apply encode_ok; try assumption.
  exists first. auto.
Qed.
Print Assumptions C38_roundtrip_partial.
Example C38_roundtrip_nonvacuous :
  let bv := Bv 43 [0; 0; 15; 255; 31; 224; 0; 0] in
  bytes (bdata bv) /\ cur_bit bv - 0 <= 8 * (data_len bv - 2) /\
  exists bv', osmo_t4_encode bv = Ok (0, bv') /\ cur_bit bv' = 25 /\
    t4_decode 44 false (map (pbit false (bdata bv')) (zseq 0 25)) 43 = Some (map (pbit false (bdata bv)) (zseq 0 43)).
Proof.
  cbv zeta. split; [repeat constructor; unfold is_byte; lia|]. split; [vm_compute; discriminate|].
  eexists. split; [vm_compute; reflexivity|]. split; vm_compute; reflexivity.
Qed.

(** A vector that fills its buffer: encoding succeeds, the octets decode to something else. *)
Theorem C38_roundtrip_refuted :
  let bv := Bv 32 [0; 31; 255; 254] in
  exists rc bv', bytes (bdata bv) /\ osmo_t4_encode bv = Ok (rc, bv') /\ 0 <= rc /\
    t4_decode 400 (rc =? 1) (map (pbit false (bdata bv')) (zseq 0 (Z.to_nat (cur_bit bv')))) 32 <>
    Some (map (pbit false (bdata bv)) (zseq 0 32)).
Proof.
  cbv zeta. eexists. eexists. split; [repeat constructor; unfold is_byte; lia|].
  split; [vm_compute; reflexivity|]. split; [discriminate|]. vm_compute. discriminate.
Qed.
Print Assumptions C38_roundtrip_refuted.

(** A run of 1024 bits reads past the end of the table of terminating codes. *)
Theorem C38_long_run_refuted : osmo_t4_encode (Bv 1024 (repeat 0 130)) = UB.
Proof. vm_compute. reflexivity. Qed.
Print Assumptions C38_long_run_refuted.

(** The code is decodable: a code word sequence has only one reading.  For every colour and run
    length below 1024 the words of the two tables are read back, whatever follows. *)
Theorem C38_code_words : forall b n rest, 0 <= n < 1024 ->
  let mk := if n <? 64 then [] else word (nth (Z.to_nat (n / 64 - 1)) (make_up_words b) String.EmptyString) in
  read_run b (mk ++ word (nth (Z.to_nat (n mod 64)) (term_words b) String.EmptyString) ++ rest) = Some (n, rest).
Proof.
  intros b n rest Hn. cbv zeta.
  pose proof (Z.div_mod n 64 ltac:(lia)) as Hd. pose proof (Z.mod_pos_bound n 64 ltac:(lia)) as Hm.
  set (q := n / 64) in *. set (r := n mod 64) in *.
  assert (WT : forall b i, 0 <= i < 64 -> word (nth (Z.to_nat i) (term_words b) String.EmptyString) = cbits (at0 (t4_term b) i) (at0 (t4_term_length b) i)).
  { assert (G : forallb (fun b => forallb (fun i => lbeq (word (nth (Z.to_nat i) (term_words b) String.EmptyString)) (cbits (at0 (t4_term b) i) (at0 (t4_term_length b) i))) (zseq 0 64)) [true; false] = true) by (vm_compute; reflexivity).
    intros b' i Hi. rewrite forallb_forall in G. specialize (G b' ltac:(destruct b'; cbn; auto)). rewrite forallb_forall in G.
    apply lbeq_eq, G, zseq_In. change (Z.of_nat 64) with 64. lia. }
  assert (WM : forall b i, 0 <= i < 15 -> word (nth (Z.to_nat i) (make_up_words b) String.EmptyString) = cbits (at0 (t4_make_up b) i) (at0 (t4_make_up_length b) i)).
  { assert (G : forallb (fun b => forallb (fun i => lbeq (word (nth (Z.to_nat i) (make_up_words b) String.EmptyString)) (cbits (at0 (t4_make_up b) i) (at0 (t4_make_up_length b) i))) (zseq 0 15)) [true; false] = true) by (vm_compute; reflexivity).
    intros b' i Hi. rewrite forallb_forall in G. specialize (G b' ltac:(destruct b'; cbn; auto)). rewrite forallb_forall in G.
    apply lbeq_eq, G, zseq_In. change (Z.of_nat 15) with 15. lia. }
  rewrite WT by lia. pose proof (fun t => term_read b r t ltac:(lia)) as TR. cbv zeta in TR. unfold read_run.
  destruct (Z.ltb_spec n 64).
  - cbn [app]. rewrite (proj1 (proj2 (TR _))), (proj1 (TR _)). f_equal. f_equal. lia.
  - rewrite WM by lia. pose proof (fun t => mk_read b (q - 1) t ltac:(lia)) as MR. cbv zeta in MR.
    rewrite (proj1 (MR _)), (proj1 (TR _)). f_equal. f_equal. lia.
Qed.
Print Assumptions C38_code_words.
Example C38_code_words_nonvacuous :
  read_run false (word "00000011111100011")%string = Some (66, word "00011")%string.
Proof. vm_compute. reflexivity. Qed.
