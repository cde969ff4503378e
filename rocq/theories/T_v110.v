(** C63: V.110 frames, the frames of TS 44.021 and synchronous rate adaptation. *)
From Verif Require Import Base Lib M_v110 S_v110 P_v110.

(** The bit a cell names, in a decoded frame. *)
Definition bit_of (fr : v110fr) (c : cell) : Z := cell_val (v_d fr) (v_e fr) (v_s fr) (v_x fr) c.

(** Every frame is encoded as the recommendations draw it, into the first 80 (60, 36) places of the buffer, the rest
    of which stays as it was. *)
Theorem C63_encode : forall fr b n, v110_typed fr -> n <= zlen b ->
  (80 <= n -> v110_encode_frame b n fr = Ok (80, map (bit_of fr) v110_layout ++ skipn 80 b)) /\
  (60 <= n -> csd_12k_6k_encode_frame b n fr = Ok (60, map (bit_of fr) csd60_layout ++ skipn 60 b)) /\
  (36 <= n -> csd_3k6_encode_frame b n fr = Ok (36, map (fun c => bit_of fr (first_of_pair c)) csd36_layout ++ skipn 36 b)).
Proof.
  intros fr b n Hf Hn. split; [|split]; intro H.
  - exact (enc80_ok b n fr Hf H Hn).
  - exact (enc60_ok b n fr Hf H Hn).
  - exact (enc36_ok b n fr Hf H Hn).
Qed.
Print Assumptions C63_encode.

(** A buffer that is too short is refused in both directions and nothing is changed. *)
Theorem C63_short : forall fr b n,
  (n < 80 -> v110_encode_frame b n fr = Ok (- ENOSPC, b) /\ v110_decode_frame fr b n = Ok (- EINVAL, fr)) /\
  (n < 60 -> csd_12k_6k_encode_frame b n fr = Ok (- EINVAL, b) /\ csd_12k_6k_decode_frame fr b n = Ok (- EINVAL, fr)) /\
  (n < 36 -> csd_3k6_encode_frame b n fr = Ok (- EINVAL, b) /\ csd_3k6_decode_frame fr b n = Ok (- EINVAL, fr)).
Proof.
  intros. unfold v110_encode_frame, v110_decode_frame, csd_12k_6k_encode_frame, csd_12k_6k_decode_frame,
    csd_3k6_encode_frame, csd_3k6_decode_frame.
  do 2 (split; [intro; replace (n <? _) with true by lia; split; reflexivity|]).
  intro; replace (n <? _) with true by lia; split; reflexivity.
Qed.
Print Assumptions C63_short.

Lemma typed_of d e s x : length d = 48%nat -> length e = 7%nat -> length s = 9%nat -> length x = 2%nat ->
  bytes d -> bytes e -> bytes s -> bytes x -> v110_typed (Vfr d e s x).
Proof. intros. unfold v110_typed. cbn [v_d v_e v_s v_x]. do 7 (split; [assumption|]). assumption. Qed.
Lemma bytes_nth l k : bytes l -> is_byte (nth k l 0).
Proof. intros. destruct (nth_in_or_default k l 0) as [Hi|He]; [eapply Forall_forall in Hi; eauto | rewrite He; unfold is_byte; lia]. Qed.
Lemma bytes_pick b l : bytes b -> bytes (pick b l).
Proof. intros. unfold pick, bytes. rewrite Forall_map, Forall_forall. intros. apply bytes_nth. assumption. Qed.
Lemma bytes_firstn' n l : bytes l -> bytes (firstn n l).
Proof. unfold bytes. rewrite !Forall_forall. intros H y Hy. apply H. rewrite <- (firstn_skipn n l). apply in_or_app. left. exact Hy. Qed.
Lemma nth_error_cases {A} (P : nat -> A -> Prop) l : 
  (forall k c, (k < length l)%nat -> nth_error l k = Some c -> P k c) -> forall k c, nth_error l k = Some c -> P k c.
Proof. intros H k c E0. apply H; [|exact E0]. apply nth_error_Some. congruence. Qed.

Lemma Ok_snd {A} (z z' : Z) (x y : A) : Ok (z, x) = Ok (z', y) -> y = x.
Proof. intros [= _ ->]. reflexivity. Qed.

Ltac bys := repeat (apply Forall_cons || apply Forall_nil); apply bytes_nth; assumption.

(** Decoding stores every bit of the frame under its name; S2, S5 and S7, which no frame has, keep their value. *)
Theorem C63_decode : forall fr b n, v110_typed fr -> bytes b -> 80 <= n -> n <= zlen b ->
  exists fr', v110_decode_frame fr b n = Ok (0, fr') /\ v110_typed fr' /\
    (forall k c, nth_error v110_layout k = Some c -> ~ is_const c -> bit_of fr' c = nth k b 0) /\
    (forall j, In j [2; 5; 7]%nat -> bit_of fr' (S j) = bit_of fr (S j)).
Proof.
  intros fr b n Hf Hb H80 Hn. rewrite dec80_ok by assumption. eexists. split; [reflexivity|].
  destruct Hf as (_ & _ & Hs & _ & _ & _ & Hsb & _).
  split; [|split].
  - apply typed_of; try reflexivity; try (apply bytes_pick; assumption); bys.
  - intros k c Hk Hc.
    do 80 (destruct k as [|k]; [injection Hk as <-; first [reflexivity | exfalso; apply Hc; exact I] |]).
    destruct k; discriminate Hk.
  - intros j [<-|[<-|[<-|[]]]]; reflexivity.
Qed.
Print Assumptions C63_decode.

(** The same for the frames of TS 44.021; E1, E2 and E3, which they leave out, keep their value too. *)
Theorem C63_csd_decode : forall fr b n, v110_typed fr -> bytes b -> n <= zlen b ->
  (60 <= n -> exists fr', csd_12k_6k_decode_frame fr b n = Ok (0, fr') /\ v110_typed fr' /\
    (forall k c, nth_error csd60_layout k = Some c -> bit_of fr' c = nth k b 0) /\
    (forall j, In j [2; 5; 7]%nat -> bit_of fr' (S j) = bit_of fr (S j)) /\
    (forall j, In j [1; 2; 3]%nat -> bit_of fr' (E j) = bit_of fr (E j))) /\
  (36 <= n -> exists fr', csd_3k6_decode_frame fr b n = Ok (0, fr') /\ v110_typed fr' /\
    (forall k c, nth_error csd36_layout k = Some c ->
       bit_of fr' (first_of_pair c) = nth k b 0 /\ bit_of fr' (second_of_pair c) = nth k b 0) /\
    (forall j, In j [2; 5; 7]%nat -> bit_of fr' (S j) = bit_of fr (S j)) /\
    (forall j, In j [1; 2; 3]%nat -> bit_of fr' (E j) = bit_of fr (E j))).
Proof.
  intros fr b n Hf Hb Hn. pose proof Hf as (_ & He & Hs & _ & _ & Heb & Hsb & _).
  split; intro H80.
  - rewrite dec60_ok by assumption. eexists. split; [reflexivity|].
    assert (He3 : exists e1 e2 e3 r, v_e fr = [e1; e2; e3] ++ r).
    { destruct (v_e fr) as [|e1 [|e2 [|e3 r]]]; try discriminate He. exists e1, e2, e3, r. reflexivity. }
    destruct He3 as (e1 & e2 & e3 & r & He3).
    assert (Hf3 : firstn 3 (v_e fr) = [e1; e2; e3]) by (rewrite He3; reflexivity). rewrite Hf3.
    split; [|split; [|split]].
    + apply typed_of; try reflexivity; try (apply bytes_pick; assumption); [|bys|bys].
      apply Forall_app; split; [rewrite <- Hf3; apply bytes_firstn'; assumption | apply bytes_pick; assumption].
    + intros k c Hk.
      do 60 (destruct k as [|k]; [injection Hk as <-; reflexivity |]). destruct k; discriminate Hk.
    + intros j [<-|[<-|[<-|[]]]]; reflexivity.
    + unfold bit_of, cell_val. cbn [v_e]. rewrite He3. intros j [<-|[<-|[<-|[]]]]; reflexivity.
  - rewrite dec36_ok by assumption. eexists. split; [reflexivity|].
    assert (He3 : exists e1 e2 e3 r, v_e fr = [e1; e2; e3] ++ r).
    { destruct (v_e fr) as [|e1 [|e2 [|e3 r]]]; try discriminate He. exists e1, e2, e3, r. reflexivity. }
    destruct He3 as (e1 & e2 & e3 & r & He3).
    assert (Hf3 : firstn 3 (v_e fr) = [e1; e2; e3]) by (rewrite He3; reflexivity). rewrite Hf3.
    split; [|split; [|split]].
    + apply typed_of; try reflexivity; try (apply bytes_pick; assumption); [|bys|bys].
      apply Forall_app; split; [rewrite <- Hf3; apply bytes_firstn'; assumption | apply bytes_pick; assumption].
    + intros k c Hk.
      do 36 (destruct k as [|k]; [injection Hk as <-; split; reflexivity |]). destruct k; discriminate Hk.
    + intros j [<-|[<-|[<-|[]]]]; reflexivity.
    + unfold bit_of, cell_val. cbn [v_e]. rewrite He3. intros j [<-|[<-|[<-|[]]]]; reflexivity.
Qed.
Print Assumptions C63_csd_decode.

(** Two frames have the same bits, apart from those that no frame carries. *)
Definition same_bits (a b : v110fr) : Prop :=
  v_d a = v_d b /\ v_e a = v_e b /\ v_x a = v_x b /\ forall j, In j [1; 3; 4; 6; 8; 9]%nat -> bit_of a (S j) = bit_of b (S j).

(** Decoding an encoded frame gives the frame back, whatever was in the receiving structure. *)
Theorem C63_roundtrip : forall fr fr0 b n b' rc, v110_typed fr -> v110_typed fr0 -> n <= zlen b ->
  (v110_encode_frame b n fr = Ok (rc, b') -> 80 <= n ->
     exists fr', v110_decode_frame fr0 b' n = Ok (0, fr') /\ same_bits fr' fr) /\
  (csd_12k_6k_encode_frame b n fr = Ok (rc, b') -> 60 <= n -> firstn 3 (v_e fr0) = firstn 3 (v_e fr) ->
     exists fr', csd_12k_6k_decode_frame fr0 b' n = Ok (0, fr') /\ same_bits fr' fr) /\
  (csd_3k6_encode_frame b n fr = Ok (rc, b') -> 36 <= n -> firstn 3 (v_e fr0) = firstn 3 (v_e fr) ->
     (forall j, (1 <= j <= 24)%nat -> bit_of fr (D (2 * j - 1)) = bit_of fr (D (2 * j))) ->
     exists fr', csd_3k6_decode_frame fr0 b' n = Ok (0, fr') /\ same_bits fr' fr).
Proof.
  intros fr fr0 b n b' rc Hf Hf0 Hn.
  assert (L : forall l m, length l = m -> Z.of_nat m <= n -> n <= zlen (l ++ skipn m b)).
  { intros l m Hl Hm. rewrite zlen_app. unfold zlen in *. rewrite skipn_length. lia. }
  split; [|split].
  - intros He H80. rewrite enc80_ok in He by assumption. apply Ok_snd in He. subst b'.
    rewrite dec80_ok; [|assumption|assumption|apply (L _ 80%nat); [reflexivity|lia]].
    eexists. split; [reflexivity|].
    destruct Hf as (Hd & He & Hs & Hx & _). destruct fr as [d e s x]. cbn [v_d v_e v_s v_x] in *.
    explode d Hd; explode e He; explode x Hx.
    split; [|split; [|split]]; try reflexivity.
    intros j [<-|[<-|[<-|[<-|[<-|[<-|[]]]]]]]; reflexivity.
  - intros He H80 H3. rewrite enc60_ok in He by assumption. apply Ok_snd in He. subst b'.
    rewrite dec60_ok; [|assumption|assumption|apply (L _ 60%nat); [reflexivity|lia]].
    eexists. split; [reflexivity|]. rewrite H3.
    destruct Hf as (Hd & He & Hs & Hx & _). destruct fr as [d e s x]. cbn [v_d v_e v_s v_x] in *.
    explode d Hd; explode e He; explode x Hx.
    split; [|split; [|split]]; try reflexivity.
    intros j [<-|[<-|[<-|[<-|[<-|[<-|[]]]]]]]; reflexivity.
  - intros He H80 H3 Hp. rewrite enc36_ok in He by assumption. apply Ok_snd in He. subst b'.
    rewrite dec36_ok; [|assumption|assumption|apply (L _ 36%nat); [reflexivity|lia]].
    eexists. split; [reflexivity|]. rewrite H3.
    destruct Hf as (Hd & He & Hs & Hx & _). destruct fr as [d e s x]. cbn [v_d v_e v_s v_x] in *.
    split; [|split; [|split]]; [|explode e He; reflexivity|explode x Hx; reflexivity|].
    2:{ intros j [<-|[<-|[<-|[<-|[<-|[<-|[]]]]]]]; reflexivity. }
    cbn [v_d]. apply (nth_ext _ _ 0 0); [rewrite Hd; reflexivity|].
    intros k Hk. change (length _) with 48%nat in Hk.
    assert (Hp' : forall j, (1 <= j <= 24)%nat -> nth (2 * j - 1) d 0 = nth (2 * j - 2) d 0).
    { intros j Hj. specialize (Hp j Hj). unfold bit_of, cell_val, nthbit in Hp. cbn [v_d] in Hp.
      replace (2 * j - 1 - 1)%nat with (2 * j - 2)%nat in Hp by lia. symmetry. exact Hp. }
    do 24 (destruct k as [|[|k]];
      [reflexivity | match goal with |- _ = nth ?m d 0 =>
         let j := eval vm_compute in (Nat.div (m + 1) 2) in
         symmetry; exact (Hp' j ltac:(lia)) end |]).
    lia.
Qed.
Print Assumptions C63_roundtrip.

(** Encoding what was decoded gives the same 80 bits exactly when the frame had the synchronisation pattern; the
    frames of TS 44.021 have no fixed bits and always come back. *)
Theorem C63_reencode : forall fr b n fr' b0 n0, v110_typed fr -> bytes b -> n <= zlen b -> n0 <= zlen b0 ->
  (80 <= n -> 80 <= n0 -> v110_decode_frame fr b n = Ok (0, fr') ->
     exists o, v110_encode_frame b0 n0 fr' = Ok (80, o ++ skipn 80 b0) /\ length o = 80%nat /\
       (o = firstn 80 b <-> forall k v, nth_error v110_layout k = Some (Const v) -> nth k b 0 = v)) /\
  (60 <= n -> 60 <= n0 -> csd_12k_6k_decode_frame fr b n = Ok (0, fr') ->
     csd_12k_6k_encode_frame b0 n0 fr' = Ok (60, firstn 60 b ++ skipn 60 b0)) /\
  (36 <= n -> 36 <= n0 -> csd_3k6_decode_frame fr b n = Ok (0, fr') ->
     csd_3k6_encode_frame b0 n0 fr' = Ok (36, firstn 36 b ++ skipn 36 b0)).
Proof.
  intros fr b n fr' b0 n0 Hf Hb Hn Hn0.
  pose proof (C63_csd_decode fr b n Hf Hb Hn) as [H60 H36].
  split; [|split].
  - intros H1 H2 Hd. destruct (C63_decode fr b n Hf Hb H1 Hn) as (f2 & Hd2 & Hty & Hc & _).
    rewrite Hd in Hd2. apply Ok_snd in Hd2. subst f2.
    exists (map (bit_of fr') v110_layout). split; [exact (enc80_ok b0 n0 fr' Hty H2 Hn0)|].
    split; [reflexivity|]. split.
    + intros E0 k v Hk. apply (f_equal (fun l => nth k l 0)) in E0.
      assert (Hk80 : (k < 80)%nat) by (change 80%nat with (length v110_layout); apply nth_error_Some; congruence).
      rewrite (nth_indep _ 0 (bit_of fr' (Const 0))) in E0 by (rewrite map_length; exact Hk80).
      rewrite map_nth in E0. rewrite (nth_error_nth _ _ _ Hk) in E0. cbn in E0.
      rewrite E0. symmetry. rewrite <- (firstn_skipn 80 b) at 2. rewrite app_nth1; [reflexivity|].
      rewrite firstn_length. unfold zlen in *. lia.
    + intros Hs. apply (nth_ext _ _ 0 0).
      { rewrite map_length, firstn_length. unfold zlen in *. change (length v110_layout) with 80%nat. lia. }
      intros k Hk. rewrite map_length in Hk.
      rewrite (nth_indep _ 0 (bit_of fr' (Const 0))) by (rewrite map_length; exact Hk). rewrite map_nth.
      destruct (nth_error v110_layout k) as [c|] eqn:Ec; [|apply nth_error_None in Ec; lia].
      rewrite (nth_error_nth _ _ _ Ec).
      assert (Hfn : nth k (firstn 80 b) 0 = nth k b 0).
      { rewrite <- (firstn_skipn 80 b) at 2. rewrite app_nth1; [reflexivity|].
        rewrite firstn_length. unfold zlen in *. change (length v110_layout) with 80%nat in Hk. lia. }
      rewrite Hfn. destruct c as [v| | | |]; [symmetry; apply Hs; exact Ec| | | |]; apply (Hc _ _ Ec); intros [].
  - intros H1 H2 Hd. destruct (H60 H1) as (f2 & Hd2 & Hty & Hc & _).
    rewrite Hd in Hd2. apply Ok_snd in Hd2. subst f2.
    rewrite (enc60_ok b0 n0 fr' Hty H2 Hn0). do 3 f_equal.
    apply (nth_ext _ _ 0 0).
    { rewrite map_length, firstn_length. unfold zlen in *. change (length csd60_layout) with 60%nat. lia. }
    intros k Hk. rewrite map_length in Hk.
    rewrite (nth_indep _ 0 (val fr' (Const 0))) by (rewrite map_length; exact Hk). rewrite map_nth.
    destruct (nth_error csd60_layout k) as [c|] eqn:Ec; [|apply nth_error_None in Ec; lia].
    rewrite (nth_error_nth _ _ _ Ec).
    rewrite <- (firstn_skipn 60 b) in Hc. specialize (Hc _ _ Ec). rewrite app_nth1 in Hc; [exact Hc|].
    rewrite firstn_length. unfold zlen in *. change (length csd60_layout) with 60%nat in Hk. lia.
  - intros H1 H2 Hd. destruct (H36 H1) as (f2 & Hd2 & Hty & Hc & _).
    rewrite Hd in Hd2. apply Ok_snd in Hd2. subst f2.
    rewrite (enc36_ok b0 n0 fr' Hty H2 Hn0). do 3 f_equal.
    apply (nth_ext _ _ 0 0).
    { rewrite map_length, firstn_length. unfold zlen in *. change (length csd36_layout) with 36%nat. lia. }
    intros k Hk. rewrite map_length in Hk.
    rewrite (nth_indep _ 0 ((fun c => val fr' (first_of_pair c)) (Const 0))) by (rewrite map_length; exact Hk).
    rewrite (map_nth (fun c => val fr' (first_of_pair c))).
    destruct (nth_error csd36_layout k) as [c|] eqn:Ec; [|apply nth_error_None in Ec; lia].
    rewrite (nth_error_nth _ _ _ Ec).
    rewrite <- (firstn_skipn 36 b) in Hc. destruct (Hc _ _ Ec) as [Hc1 _]. rewrite app_nth1 in Hc1; [exact Hc1|].
    rewrite firstn_length. unfold zlen in *. change (length csd36_layout) with 36%nat in Hk. lia.
Qed.
Print Assumptions C63_reencode.

(** The rates: the three inquiries report Table 1 of V.110, and the bits of one chunk at the user rate last as long as
    the 80 bits of one frame at the intermediate rate. *)
Theorem C63_rates : forall r, In r rates ->
  sync_ra1_get_user_data_rate (rt r) = Ok (bps r) /\ sync_ra1_get_intermediate_rate (rt r) = Ok (ir r) /\
  sync_ra1_get_user_data_chunk_bitlen (rt r) = Ok (chunk r) /\ chunk r * ir r = 80 * bps r.
Proof.
  intros r Hr. repeat (destruct Hr as [<-|Hr]; [repeat split; vm_compute; reflexivity|]). destruct Hr.
Qed.
Print Assumptions C63_rates.

Lemma nto600 fr u n : n <> 6 -> v110_adapt_600_to_IR8000 fr u n = Ok (- EINVAL, fr).
Proof. intro. unfold v110_adapt_600_to_IR8000. replace (n =? 6) with false by lia. reflexivity. Qed.
Lemma nfr600 out n fr : n < 6 -> v110_adapt_IR8000_to_600 out n fr = Ok (- ENOSPC, out).
Proof. intro. unfold v110_adapt_IR8000_to_600. replace (n <? 6) with true by lia. reflexivity. Qed.
Lemma nto1200 fr u n : n <> 12 -> v110_adapt_1200_to_IR8000 fr u n = Ok (- EINVAL, fr).
Proof. intro. unfold v110_adapt_1200_to_IR8000. replace (n =? 12) with false by lia. reflexivity. Qed.
Lemma nfr1200 out n fr : n < 12 -> v110_adapt_IR8000_to_1200 out n fr = Ok (- ENOSPC, out).
Proof. intro. unfold v110_adapt_IR8000_to_1200. replace (n <? 12) with true by lia. reflexivity. Qed.
Lemma nto2400 fr u n : n <> 24 -> v110_adapt_2400_to_IR8000 fr u n = Ok (- EINVAL, fr).
Proof. intro. unfold v110_adapt_2400_to_IR8000. replace (n =? 24) with false by lia. reflexivity. Qed.
Lemma nfr2400 out n fr : n < 24 -> v110_adapt_IR8000_to_2400 out n fr = Ok (- ENOSPC, out).
Proof. intro. unfold v110_adapt_IR8000_to_2400. replace (n <? 24) with true by lia. reflexivity. Qed.
Lemma nto3600 fr u n : n <> 36 -> v110_adapt_Nx3600_to_IR fr u n = Ok (- EINVAL, fr).
Proof. intro. unfold v110_adapt_Nx3600_to_IR. replace (n =? 36) with false by lia. reflexivity. Qed.
Lemma nfr3600 out n fr : n < 36 -> v110_adapt_IR_to_Nx3600 out n fr = Ok (- ENOSPC, out).
Proof. intro. unfold v110_adapt_IR_to_Nx3600. replace (n <? 36) with true by lia. reflexivity. Qed.
Lemma nto4800 fr u n : n <> 48 -> v110_adapt_Nx4800_to_IR fr u n = Ok (- EINVAL, fr).
Proof. intro. unfold v110_adapt_Nx4800_to_IR. replace (n =? 48) with false by lia. reflexivity. Qed.
Lemma nfr4800 out n fr : n < 48 -> v110_adapt_IR_to_Nx4800 out n fr = Ok (- ENOSPC, out).
Proof. intro. unfold v110_adapt_IR_to_Nx4800. replace (n <? 48) with true by lia. reflexivity. Qed.
Lemma nto12000 fr u n : n <> 30 -> v110_adapt_Nx12000_to_IR fr u n = Ok (- EINVAL, fr).
Proof. intro. unfold v110_adapt_Nx12000_to_IR. replace (n =? 30) with false by lia. reflexivity. Qed.
Lemma nfr12000 out n fr : n < 30 -> v110_adapt_IR_to_Nx12000 out n fr = Ok (- ENOSPC, out).
Proof. intro. unfold v110_adapt_IR_to_Nx12000. replace (n <? 30) with true by lia. reflexivity. Qed.

(** RA1 towards the intermediate rate: E1..E3 are those of Table 5, D1..D48 those of Table 6 with fill bits 1, all
    other bits stay; every other chunk length is refused. *)
Theorem C63_user_to_ir : forall r fr u n, In r rates -> v110_typed fr -> n <= zlen u ->
  (n = chunk r -> sync_ra1_user_to_ir (rt r) fr u n =
     Ok (0, Vfr (fill (table6 r) u) (e123 r ++ skipn 3 (v_e fr)) (v_s fr) (v_x fr))) /\
  (n <> chunk r -> sync_ra1_user_to_ir (rt r) fr u n = Ok (- EINVAL, fr)).
Proof.
  intros r fr u n Hr Hf Hn. split.
  - intros ->.
    repeat (destruct Hr as [<-|Hr]; [cbn [rt chunk table6 e123] in *|]); [..|destruct Hr];
      [exact (to600 fr u Hf Hn) | exact (to1200 fr u Hf Hn) | exact (to2400 fr u Hf Hn) | exact (to4800 fr u Hf Hn)
      | exact (to3600 fr u Hf Hn) | exact (to4800 fr u Hf Hn) | exact (to12000 fr u Hf Hn) | exact (to3600 fr u Hf Hn)
      | exact (to4800 fr u Hf Hn) | exact (to12000 fr u Hf Hn) | exact (to3600 fr u Hf Hn) | exact (to4800 fr u Hf Hn)].
  - intros Hc.
    repeat (destruct Hr as [<-|Hr]; [cbn [rt chunk] in *|]); [..|destruct Hr];
      [ exact (nto600 fr u n Hc) | exact (nto1200 fr u n Hc) | exact (nto2400 fr u n Hc) | exact (nto4800 fr u n Hc) | exact (nto3600 fr u n Hc) | exact (nto4800 fr u n Hc) | exact (nto12000 fr u n Hc) | exact (nto3600 fr u n Hc) | exact (nto4800 fr u n Hc) | exact (nto12000 fr u n Hc) | exact (nto3600 fr u n Hc) | exact (nto4800 fr u n Hc) ].
Qed.
Print Assumptions C63_user_to_ir.

(** RA1 from the intermediate rate: with E1..E3 of the rate the user bits are read from their first D bit and nothing
    behind them is touched; with any other E1..E3 the frame is refused; a short buffer is refused. *)
Theorem C63_ir_to_user : forall r fr out n, In r rates -> v110_typed fr -> n <= zlen out ->
  (n < chunk r -> sync_ra1_ir_to_user (rt r) out n fr = Ok (- ENOSPC, out)) /\
  (chunk r <= n -> firstn 3 (v_e fr) = e123 r ->
     sync_ra1_ir_to_user (rt r) out n fr =
     Ok (chunk r, unfill (table6 r) (Z.to_nat (chunk r)) (v_d fr) ++ skipn (Z.to_nat (chunk r)) out)) /\
  (chunk r <= n -> firstn 3 (v_e fr) <> e123 r -> sync_ra1_ir_to_user (rt r) out n fr = Ok (- EINVAL, out)).
Proof.
  intros r fr out n Hr Hf Hn.
  assert (K : forall c0 c1 c2, code_is (v_e fr) [c0; c1; c2] = true <-> firstn 3 (v_e fr) = [c0; c1; c2]).
  { intros. destruct Hf as (_ & He & _). destruct (v_e fr) as [|a [|a0 [|a1 t]]]; try discriminate He.
    unfold code_is. cbn [nth firstn]. rewrite !Bool.andb_true_iff, !Z.eqb_eq. split; [intros [[-> ->] ->]; reflexivity|].
    intros [= -> -> ->]. repeat split. }
  assert (G : forall f c0 c1 c2 t m, (forall out n, Z.of_nat m <= n -> n <= zlen out -> f out n fr = Ok (back fr [c0; c1; c2] t m out)) ->
    (Z.of_nat m <= n -> firstn 3 (v_e fr) = [c0; c1; c2] -> f out n fr = Ok (Z.of_nat m, unfill t m (v_d fr) ++ skipn m out)) /\
    (Z.of_nat m <= n -> firstn 3 (v_e fr) <> [c0; c1; c2] -> f out n fr = Ok (- EINVAL, out))).
  { intros f c0 c1 c2 t m Hff. split; intros Hm He; rewrite Hff by assumption; unfold back.
    - apply K in He. rewrite He. reflexivity.
    - destruct (code_is (v_e fr) [c0; c1; c2]) eqn:Ec; [apply K in Ec; contradiction|reflexivity]. }
  split.
  - intros Hc.
    repeat (destruct Hr as [<-|Hr]; [cbn [rt chunk] in *|]); [..|destruct Hr];
      [ exact (nfr600 out n fr Hc) | exact (nfr1200 out n fr Hc) | exact (nfr2400 out n fr Hc) | exact (nfr4800 out n fr Hc) | exact (nfr3600 out n fr Hc) | exact (nfr4800 out n fr Hc) | exact (nfr12000 out n fr Hc) | exact (nfr3600 out n fr Hc) | exact (nfr4800 out n fr Hc) | exact (nfr12000 out n fr Hc) | exact (nfr3600 out n fr Hc) | exact (nfr4800 out n fr Hc) ].
  - repeat (destruct Hr as [<-|Hr]; [cbn [rt chunk table6 e123] in *|]); [..|destruct Hr];
      [ exact (G _ _ _ _ _ 6%nat (fun o n => fr600 fr o n Hf)) | exact (G _ _ _ _ _ 12%nat (fun o n => fr1200 fr o n Hf))
      | exact (G _ _ _ _ _ 24%nat (fun o n => fr2400 fr o n Hf)) | exact (G _ _ _ _ _ 48%nat (fun o n => fr4800 fr o n Hf))
      | exact (G _ _ _ _ _ 36%nat (fun o n => fr3600 fr o n Hf)) | exact (G _ _ _ _ _ 48%nat (fun o n => fr4800 fr o n Hf))
      | exact (G _ _ _ _ _ 30%nat (fun o n => fr12000 fr o n Hf)) | exact (G _ _ _ _ _ 36%nat (fun o n => fr3600 fr o n Hf))
      | exact (G _ _ _ _ _ 48%nat (fun o n => fr4800 fr o n Hf)) | exact (G _ _ _ _ _ 30%nat (fun o n => fr12000 fr o n Hf))
      | exact (G _ _ _ _ _ 36%nat (fun o n => fr3600 fr o n Hf)) | exact (G _ _ _ _ _ 48%nat (fun o n => fr4800 fr o n Hf)) ].
Qed.
Print Assumptions C63_ir_to_user.

(** Every other rate number is refused by all five calls. *)
Theorem C63_bad_rate : forall k fr u n out m, (forall r, In r rates -> rt r <> k) ->
  sync_ra1_get_user_data_rate k = Ok (- EINVAL) /\ sync_ra1_get_intermediate_rate k = Ok (- EINVAL) /\
  sync_ra1_get_user_data_chunk_bitlen k = Ok (- EINVAL) /\
  sync_ra1_user_to_ir k fr u n = Ok (- EINVAL, fr) /\ sync_ra1_ir_to_user k out m fr = Ok (- EINVAL, out).
Proof.
  intros k fr u n out m H.
  assert (Hk : (k <? 0) || (NUM_RA1 <=? k) = true).
  { unfold NUM_RA1. destruct ((k <? 0) || (12 <=? k)) eqn:E0; [reflexivity|exfalso].
    assert (Hc : Forall (fun r => rt r <> k) rates) by (apply Forall_forall; exact H).
    unfold rates in Hc. repeat rewrite Forall_cons_iff in Hc. cbn [rt] in Hc. lia. }
  unfold sync_ra1_get_user_data_rate, sync_ra1_get_intermediate_rate, sync_ra1_get_user_data_chunk_bitlen,
    sync_ra1_user_to_ir, sync_ra1_ir_to_user. rewrite Hk. repeat split.
Qed.
Print Assumptions C63_bad_rate.

Lemma unfill_fill r u : In r rates -> chunk r <= zlen u ->
  unfill (table6 r) (Z.to_nat (chunk r)) (fill (table6 r) u) = firstn (Z.to_nat (chunk r)) u.
Proof.
  intros Hr Hu.
  repeat (destruct Hr as [<-|Hr]; [
    match type of Hu with chunk ?x <= _ => 
      let c := eval vm_compute in (chunk x) in let m := eval vm_compute in (Z.to_nat (chunk x)) in
      change (chunk x) with c in *;
      destruct (split_at m u ltac:(lia)) as (a & t & -> & Ha & _); clear Hu;
      explode a Ha; vm_compute; reflexivity end |]).
  destruct Hr.
Qed.
Lemma fill_typed r fr u : In r rates -> v110_typed fr -> bytes u ->
  v110_typed (Vfr (fill (table6 r) u) (e123 r ++ skipn 3 (v_e fr)) (v_s fr) (v_x fr)).
Proof.
  intros Hr (Hd & He & Hs & Hx & Hdb & Heb & Hsb & Hxb) Hu.
  assert (He3 : length (e123 r) = 3%nat /\ bytes (e123 r) /\ length (table6 r) = 48%nat).
  { repeat (destruct Hr as [<-|Hr]; [split; [reflexivity|split; [|reflexivity]];
      repeat apply Forall_cons; try apply Forall_nil; unfold is_byte; lia |]). destruct Hr. }
  destruct He3 as (H3 & H3b & H6).
  apply typed_of; try assumption.
  - unfold fill. rewrite map_length. exact H6.
  - rewrite app_length, skipn_length, H3, He. reflexivity.
  - unfold fill, bytes. rewrite Forall_map, Forall_forall. intros [j|] _; [apply bytes_nth; assumption|unfold is_byte; lia].
  - apply Forall_app. split; [exact H3b|]. unfold bytes in *. rewrite Forall_forall in *. intros y Hy. apply Heb.
    rewrite <- (firstn_skipn 3 (v_e fr)). apply in_or_app. right. exact Hy.
Qed.
Lemma e3_len r : In r rates -> length (e123 r) = 3%nat.
Proof. intros Hr. repeat (destruct Hr as [<-|Hr]; [reflexivity|]). destruct Hr. Qed.
Lemma e3_of r l : In r rates -> firstn 3 (e123 r ++ l) = e123 r.
Proof. intros Hr. rewrite firstn_app, (e3_len r Hr), firstn_all2 by (rewrite (e3_len r Hr); lia). cbn [Nat.sub firstn]. apply app_nil_r. Qed.

(** The whole way: a chunk of user bits that goes through RA1, a V.110 frame (or the 60 bit frame, with E1..E3 told to
    the receiver) and RA1 backwards arrives unchanged, whatever the two sides' structures and buffers held before. *)
Theorem C63_end_to_end : forall r fr fr0 u b n out m rc1 fr1 rc2 b' rc3 fr2,
  In r rates -> v110_typed fr -> v110_typed fr0 -> bytes u -> chunk r <= zlen u -> n <= zlen b ->
  chunk r <= m -> m <= zlen out ->
  sync_ra1_user_to_ir (rt r) fr u (chunk r) = Ok (rc1, fr1) ->
  (80 <= n /\ v110_encode_frame b n fr1 = Ok (rc2, b') /\ v110_decode_frame fr0 b' n = Ok (rc3, fr2) \/
   60 <= n /\ csd_12k_6k_encode_frame b n fr1 = Ok (rc2, b') /\ firstn 3 (v_e fr0) = e123 r /\
     csd_12k_6k_decode_frame fr0 b' n = Ok (rc3, fr2)) ->
  sync_ra1_ir_to_user (rt r) out m fr2 =
    Ok (chunk r, firstn (Z.to_nat (chunk r)) u ++ skipn (Z.to_nat (chunk r)) out).
Proof.
  intros r fr fr0 u b n out m rc1 fr1 rc2 b' rc3 fr2 Hr Hf Hf0 Hu Hlu Hn Hm Hmo H1 H2.
  destruct (C63_user_to_ir r fr u (chunk r) Hr Hf Hlu) as [Hto _].
  rewrite (Hto eq_refl) in H1. apply Ok_snd in H1.
  assert (Hf1 : v110_typed fr1) by (subst fr1; apply fill_typed; assumption).
  destruct (C63_roundtrip fr1 fr0 b n b' rc2 Hf1 Hf0 Hn) as (R80 & R60 & _).
  assert (Hs : exists f', fr2 = f' /\ same_bits f' fr1 /\ v110_typed f').
  { destruct H2 as [(Hn80 & He & Hd) | (Hn60 & He & H3 & Hd)].
    - destruct (R80 He Hn80) as (f' & Hd' & Hs). rewrite Hd in Hd'. apply Ok_snd in Hd'. subst f'.
      exists fr2. split; [reflexivity|]. split; [exact Hs|].
      pose proof (enc80_ok b n fr1 Hf1 Hn80 Hn) as He'. rewrite He in He'. apply Ok_snd in He'.
      assert (Hl : n <= zlen b').
      { rewrite <- He'. rewrite zlen_app. unfold zlen in *. rewrite map_length, skipn_length.
        change (length v110_layout) with 80%nat. lia. }
      rewrite (dec80_ok b' n fr0 Hf0 Hn80 Hl) in Hd. apply Ok_snd in Hd.
      destruct Hs as (Sd & Se & Sx & _). destruct Hf1 as (D1 & E1 & S1 & X1 & D2 & E2 & S2 & X2).
      unfold v110_typed. rewrite Sd, Se, Sx. do 2 (split; [assumption|]). split; [rewrite Hd; reflexivity|].
      do 3 (split; [assumption|]). split; [|assumption].
      rewrite Hd. cbn [v_s].
      assert (Hb' : forall k, (k < 80)%nat -> is_byte (nth k b' 0)).
      { intros k Hk. rewrite <- He'. rewrite app_nth1 by (rewrite map_length; exact Hk).
        apply bytes_nth. unfold bytes. rewrite Forall_map, Forall_forall. intros c Hc.
        unfold val, cell_val, nthbit. destruct c; try (apply bytes_nth; assumption).
        unfold v110_layout in Hc. repeat (destruct Hc as [Hc|Hc]; [try discriminate Hc; injection Hc as <-; unfold is_byte; lia|]).
        destruct Hc. }
      destruct Hf0 as (_ & _ & _ & _ & _ & _ & Hs0 & _).
      repeat apply Forall_cons; try apply Forall_nil; first [apply Hb'; lia | apply bytes_nth; assumption].
    - assert (H3' : firstn 3 (v_e fr0) = firstn 3 (v_e fr1)) by (subst fr1; cbn [v_e]; rewrite (e3_of r _ Hr); exact H3).
      destruct (R60 He Hn60 H3') as (f' & Hd' & Hs). rewrite Hd in Hd'. apply Ok_snd in Hd'. subst f'.
      exists fr2. split; [reflexivity|]. split; [exact Hs|].
      pose proof (enc60_ok b n fr1 Hf1 Hn60 Hn) as He'. rewrite He in He'. apply Ok_snd in He'.
      assert (Hl : n <= zlen b').
      { rewrite <- He'. rewrite zlen_app. unfold zlen in *. rewrite map_length, skipn_length.
        change (length csd60_layout) with 60%nat. lia. }
      rewrite (dec60_ok b' n fr0 Hf0 Hn60 Hl) in Hd. apply Ok_snd in Hd.
      destruct Hs as (Sd & Se & Sx & _). destruct Hf1 as (D1 & E1 & S1 & X1 & D2 & E2 & S2 & X2).
      unfold v110_typed. rewrite Sd, Se, Sx. do 2 (split; [assumption|]). split; [rewrite Hd; reflexivity|].
      do 3 (split; [assumption|]). split; [|assumption].
      rewrite Hd. cbn [v_s].
      assert (Hb' : forall k, (k < 60)%nat -> is_byte (nth k b' 0)).
      { intros k Hk. rewrite <- He'. rewrite app_nth1 by (rewrite map_length; exact Hk).
        apply bytes_nth. unfold bytes. rewrite Forall_map, Forall_forall. intros c Hc.
        unfold val, cell_val, nthbit. destruct c; try (apply bytes_nth; assumption).
        unfold csd60_layout in Hc. repeat (destruct Hc as [Hc|Hc]; [try discriminate Hc|]).
        destruct Hc. }
      destruct Hf0 as (_ & _ & _ & _ & _ & _ & Hs0 & _).
      repeat apply Forall_cons; try apply Forall_nil; first [apply Hb'; lia | apply bytes_nth; assumption]. }
  destruct Hs as (f' & -> & (Sd & Se & _) & Hty).
  destruct (C63_ir_to_user r f' out m Hr Hty Hmo) as (_ & Hok & _).
  rewrite (Hok Hm) by (rewrite Se; subst fr1; cbn [v_e]; apply e3_of; exact Hr).
  rewrite Sd. subst fr1. cbn [v_d]. rewrite unfill_fill by assumption. reflexivity.
Qed.
Print Assumptions C63_end_to_end.

Definition on_dec (x y : option nat) : {x = y} + {x <> y}.
Proof. decide equality. apply Nat.eq_dec. Defined.

(** A frame made for one rate is accepted at another rate exactly if the two share E1..E3 (Table 5), which the rates of
    one family n x 4800, n x 3600, n x 12000 do. *)
Theorem C63_other_rate : forall r r' fr u out m rc fr1, In r rates -> In r' rates -> v110_typed fr -> bytes u ->
  chunk r <= zlen u -> chunk r' <= m -> m <= zlen out ->
  sync_ra1_user_to_ir (rt r) fr u (chunk r) = Ok (rc, fr1) ->
  (e123 r <> e123 r' -> sync_ra1_ir_to_user (rt r') out m fr1 = Ok (- EINVAL, out)) /\
  (e123 r = e123 r' -> sync_ra1_ir_to_user (rt r') out m fr1 =
     Ok (chunk r, firstn (Z.to_nat (chunk r)) u ++ skipn (Z.to_nat (chunk r)) out)) /\
  (e123 r = e123 r' <-> chunk r = chunk r').
Proof.
  intros r r' fr u out m rc fr1 Hr Hr' Hf Hu Hlu Hm Hmo H1.
  destruct (C63_user_to_ir r fr u (chunk r) Hr Hf Hlu) as [Hto _].
  rewrite (Hto eq_refl) in H1. apply Ok_snd in H1.
  assert (Hf1 : v110_typed fr1) by (subst fr1; apply fill_typed; assumption).
  destruct (C63_ir_to_user r' fr1 out m Hr' Hf1 Hmo) as (_ & Hok & Hno).
  assert (He : firstn 3 (v_e fr1) = e123 r) by (subst fr1; cbn [v_e]; apply e3_of; exact Hr).
  rewrite He in Hok, Hno.
  assert (Hfam : (e123 r = e123 r' <-> chunk r = chunk r') /\ (e123 r = e123 r' -> table6 r = table6 r')).
  { clear -Hr Hr'.
    assert (G : forallb (fun a => forallb (fun b => 
       Bool.eqb (if list_eq_dec Z.eq_dec (e123 a) (e123 b) then true else false) (chunk a =? chunk b) &&
       (if list_eq_dec Z.eq_dec (e123 a) (e123 b) then 
          if list_eq_dec on_dec (table6 a) (table6 b) then true else false else true)) rates) rates = true)
      by (vm_compute; reflexivity).
    rewrite forallb_forall in G. specialize (G r Hr). rewrite forallb_forall in G. specialize (G r' Hr').
    apply andb_prop in G. destruct G as [G1 G2]. apply Bool.eqb_prop in G1.
    destruct (list_eq_dec Z.eq_dec (e123 r) (e123 r')) as [e|e].
    - split; [split; [intros _; lia|intros _; exact e]|]. intros _.
      match type of G2 with (if ?c then _ else _) = _ => destruct c as [e0|]; [exact e0|discriminate] end.
    - split; [split; [intros; contradiction|lia]|intros; contradiction]. }
  destruct Hfam as [Hfam Ht].
  split; [intros Hne; apply (Hno Hm Hne)|]. split; [|exact Hfam].
  intros Heq. rewrite (Hok Hm Heq). rewrite <- (Ht Heq).
  apply Hfam in Heq. rewrite <- Heq. subst fr1. cbn [v_d]. rewrite unfill_fill by assumption. reflexivity.
Qed.
Print Assumptions C63_other_rate.

(** The three slow rates also survive the 36 bit frame, which halves the number of data bits. *)
Theorem C63_end_to_end_3k6 : forall r fr fr0 u b n out m rc1 fr1 rc2 b' rc3 fr2,
  In r rates -> bps r <= 2400 -> v110_typed fr -> v110_typed fr0 -> bytes u -> bytes b -> chunk r <= zlen u ->
  36 <= n -> n <= zlen b -> chunk r <= m -> m <= zlen out ->
  sync_ra1_user_to_ir (rt r) fr u (chunk r) = Ok (rc1, fr1) ->
  csd_3k6_encode_frame b n fr1 = Ok (rc2, b') -> firstn 3 (v_e fr0) = e123 r ->
  csd_3k6_decode_frame fr0 b' n = Ok (rc3, fr2) ->
  sync_ra1_ir_to_user (rt r) out m fr2 =
    Ok (chunk r, firstn (Z.to_nat (chunk r)) u ++ skipn (Z.to_nat (chunk r)) out).
Proof.
  intros r fr fr0 u b n out m rc1 fr1 rc2 b' rc3 fr2 Hr Hslow Hf Hf0 Hu Hbb Hlu Hn36 Hn Hm Hmo H1 He H3 Hd.
  destruct (C63_user_to_ir r fr u (chunk r) Hr Hf Hlu) as [Hto _].
  rewrite (Hto eq_refl) in H1. apply Ok_snd in H1.
  assert (Hf1 : v110_typed fr1) by (subst fr1; apply fill_typed; assumption).
  destruct (C63_roundtrip fr1 fr0 b n b' rc2 Hf1 Hf0 Hn) as (_ & _ & R36).
  assert (H3' : firstn 3 (v_e fr0) = firstn 3 (v_e fr1)) by (subst fr1; cbn [v_e]; rewrite (e3_of r _ Hr); exact H3).
  assert (Hp : forall j, (1 <= j <= 24)%nat -> bit_of fr1 (D (2 * j - 1)) = bit_of fr1 (D (2 * j))).
  { subst fr1. unfold bit_of, cell_val, nthbit. cbn [v_d]. intros j Hj. unfold fill.
    assert (G : nth (2 * j - 1 - 1) (table6 r) None = nth (2 * j - 1) (table6 r) None /\ length (table6 r) = 48%nat).
    { assert (Hj' : In j (seq 1 24)) by (apply in_seq; lia).
      assert (G : forallb (fun r => (2400 <? bps r) || forallb (fun j => 
        if on_dec (nth (2 * j - 1 - 1) (table6 r) None) (nth (2 * j - 1) (table6 r) None) then true else false) (seq 1 24)) rates = true)
        by (vm_compute; reflexivity).
      rewrite forallb_forall in G. specialize (G r Hr). replace (2400 <? bps r) with false in G by lia. cbn [orb] in G.
      rewrite forallb_forall in G. specialize (G j Hj').
      split; [match type of G with (if ?c then _ else _) = _ => destruct c as [e0|]; [exact e0|discriminate] end|].
      clear -Hr. repeat (destruct Hr as [<-|Hr]; [reflexivity|]). destruct Hr. }
    destruct G as [G Gl].
    set (g := fun c : option nat => match c with Some k => nth (k - 1) u 0 | None => 1 end).
    change (nth (2 * j - 1 - 1) (map g (table6 r)) 0 = nth (2 * j - 1) (map g (table6 r)) 0).
    rewrite !(nth_indep (map g (table6 r)) 0 (g None)) by (rewrite map_length; lia).
    rewrite !map_nth, G. reflexivity. }
  destruct (R36 He Hn36 H3' Hp) as (f' & Hd' & Hs). rewrite Hd in Hd'. apply Ok_snd in Hd'. subst f'.
  pose proof (enc36_ok b n fr1 Hf1 Hn36 Hn) as He'. rewrite He in He'. apply Ok_snd in He'.
  assert (Hl : n <= zlen b').
  { rewrite <- He'. rewrite zlen_app. unfold zlen in *. rewrite map_length, skipn_length.
    change (length csd36_layout) with 36%nat. lia. }
  assert (Hb' : bytes b').
  { rewrite <- He'. apply Forall_app. split.
    - rewrite Forall_map, Forall_forall. intros c Hc. destruct Hf1 as (_ & _ & _ & _ & ? & ? & ? & ?).
      unfold val, cell_val, nthbit. destruct c; cbn [first_of_pair]; try (apply bytes_nth; assumption).
      unfold csd36_layout in Hc. repeat (destruct Hc as [Hc|Hc]; [try discriminate Hc|]). destruct Hc.
    - unfold bytes in *. rewrite Forall_forall in *. intros y Hy. apply Hbb.
      rewrite <- (firstn_skipn 36 b). apply in_or_app. right. exact Hy. }
  destruct (C63_csd_decode fr0 b' n Hf0 Hb' Hl) as [_ H36].
  destruct (H36 Hn36) as (f2 & Hd2 & Hty & _). rewrite Hd in Hd2. apply Ok_snd in Hd2. subst f2.
  destruct Hs as (Sd & Se & _).
  destruct (C63_ir_to_user r fr2 out m Hr Hty Hmo) as (_ & Hok & _).
  rewrite (Hok Hm) by (rewrite Se; subst fr1; cbn [v_e]; apply e3_of; exact Hr).
  rewrite Sd. subst fr1. cbn [v_d]. rewrite unfill_fill by assumption. reflexivity.
Qed.
Print Assumptions C63_end_to_end_3k6.

Definition ex_fr : v110fr := Vfr (repeat 0 48) [0; 0; 0; 1; 0; 1; 1] [1; 0; 0; 1; 0; 1; 0; 1; 0] [1; 0].
Example C63_nonvacuous :
  exists r u fr1 b' fr2, In r rates /\ chunk r = 6 /\ u = [1; 0; 1; 1; 0; 0] /\ v110_typed ex_fr /\
    sync_ra1_user_to_ir (rt r) ex_fr u 6 = Ok (0, fr1) /\
    v110_encode_frame (repeat 7 82) 82 fr1 = Ok (80, b') /\ zlen b' = 82 /\ nth 15 b' 0 = 1 /\ nth 24 b' 0 = 1 /\
    v110_decode_frame ex_fr b' 82 = Ok (0, fr2) /\
    sync_ra1_ir_to_user (rt r) [9; 9; 9; 9; 9; 9; 9] 7 fr2 = Ok (6, [1; 0; 1; 1; 0; 0; 9]) /\
    sync_ra1_ir_to_user 3 (repeat 9 48) 48 fr2 = Ok (-22, repeat 9 48).
Proof.
  exists (Rate 0 600 8000 6 [1; 0; 0] table6a), [1; 0; 1; 1; 0; 0].
  do 3 eexists. split; [left; reflexivity|]. split; [reflexivity|]. split; [reflexivity|].
  split; [unfold v110_typed, ex_fr; cbn [v_d v_e v_s v_x]; do 4 (split; [reflexivity|]);
          unfold bytes; cbn [repeat]; repeat split; repeat (apply Forall_cons; [unfold is_byte; lia|]); apply Forall_nil|].
  split; [vm_compute; reflexivity|]. split; [vm_compute; reflexivity|]. split; [vm_compute; reflexivity|].
  split; [vm_compute; reflexivity|]. split; [vm_compute; reflexivity|]. split; [vm_compute; reflexivity|].
  split; vm_compute; reflexivity.
Qed.
