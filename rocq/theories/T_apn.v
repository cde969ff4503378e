(* T_apn.v - C31: encoded access point names *)
From Verif Require Import Base Lib Str M_num M_apn S_apn P_apn.

(* osmo_apn_from_str: every C string is a dotted list of labels, so this covers every string.  It succeeds exactly when the
   octets fit, then returns their number; in no case is anything at or beyond max written *)
Theorem C31_from_str : forall m max ls, ls <> [] -> Forall (Forall label_char) ls -> Forall (fun l => zlen l <= 255) ls -> 0 <= max <= zlen m ->
  (zlen (encoded ls) <= max -> osmo_apn_from_str m max (dotted ls) = Ok (zlen (encoded ls), blit m 0 (encoded ls))) /\
  (max < zlen (encoded ls) -> exists m', osmo_apn_from_str m max (dotted ls) = Ok (-1, m') /\ zlen m' = zlen m /\ skipn (Z.to_nat max) m' = skipn (Z.to_nat max) m).
Proof.
  intros m max ls N F S H. rewrite encoded_len by assumption. split; intros L.
  - rewrite from_str_ok by lia. rewrite packed_dotted, octets_mod_small by assumption. reflexivity.
  - apply from_str_fail; lia.
Qed.
Print Assumptions C31_from_str.
Theorem C31_every_string_is_labels : forall s, Forall (fun c => 0 < c < 256) s -> exists ls, ls <> [] /\ Forall (Forall label_char) ls /\ dotted ls = s.
Proof. exact dotted_ex. Qed.
Print Assumptions C31_every_string_is_labels.

(* osmo_apn_to_str: for every octet sequence and every buffer of the documented size the function reads only the sequence, writes
   only the buffer, and returns NULL exactly for the malformed sequences *)
Theorem C31_to_str : forall out enc, bytes enc -> Z.max (zlen enc) 1 <= zlen out ->
  (exists t, apn_text enc t /\ zlen t + 1 <= Z.max (zlen enc) 1 /\ osmo_apn_to_str out enc = Ok (Some (blit out 0 (t ++ [0])))) \/
  ((forall t, ~ apn_text enc t) /\ osmo_apn_to_str out enc = Ok None).
Proof.
  intros out enc B L. destruct (to_str_spec out enc B L) as [(t & T & E)|N]; [left|right; exact N]. exists t. split; [exact T|]. split; [apply text_len; exact T|exact E].
Qed.
Print Assumptions C31_to_str.
Theorem C31_text_unique : forall enc t t', apn_text enc t -> apn_text enc t' -> t' = t.
Proof. intros. eapply apn_text_fun; eassumption. Qed.
Print Assumptions C31_text_unique.

(* round trip: exactly for label lists in which only the last label may be empty *)
Theorem C31_round_trip : forall ls out, ls <> [] -> Forall (Forall label_char) ls -> Forall (fun l => zlen l <= 255) ls -> zlen (encoded ls) <= zlen out ->
  (proper ls <-> osmo_apn_to_str out (encoded ls) = Ok (Some (blit out 0 (dotted ls ++ [0])))).
Proof.
  intros ls out N F S L. pose proof (encoded_len ls N) as EL. pose proof (zlen_nonneg (dotted ls)).
  assert (M : Z.max (zlen (encoded ls)) 1 <= zlen out) by lia.
  destruct (to_str_spec out (encoded ls) (encoded_bytes ls S F) M) as [(t & T & E)|[NT E]]; rewrite E.
  - split; intros P.
    + rewrite (apn_text_fun _ _ T _ (round_text ls N P)). reflexivity.
    + assert (Q : t ++ [0] = dotted ls ++ [0]).
      { injection P as P. pose proof (text_len _ _ T) as TL. assert (G : zlen t = zlen (dotted ls) \/ zlen t < zlen (dotted ls)) by lia.
        destruct G as [G|G].
        - apply (f_equal (firstn (length (t ++ [0])))) in P.
          assert (X : forall w : list Z, firstn (length w) (blit out 0 w) = w) by (intros w; unfold blit; cbn [firstn app]; apply firstn_app_exact; reflexivity).
          rewrite X in P. replace (length (t ++ [0])) with (length (dotted ls ++ [0])) in P by (rewrite !app_length; cbn [length]; unfold zlen in G; lia). rewrite X in P. exact P.
        - exfalso. apply (f_equal (fun l => nth (length t) l 0)) in P. unfold blit in P. cbn [firstn app] in P.
          rewrite <- !app_assoc in P. rewrite app_nth2 in P by lia. rewrite Nat.sub_diag in P. cbn [app nth] in P.
          rewrite app_nth1 in P by (unfold zlen in G; lia).
          assert (NZ : Forall (fun c => 0 < c) (dotted ls)).
          { clear - F. induction ls as [|l ls IH]; [constructor|]. inversion F as [|? ? F1 F2]; subst. cbn [dotted].
            assert (Hl : Forall (fun c => 0 < c) l) by (eapply Forall_impl; [|exact F1]; unfold label_char; cbn; intros; lia).
            destruct ls; [exact Hl|]. apply Forall_app. split; [exact Hl|]. constructor; [lia|]. apply IH. exact F2. }
          rewrite Forall_forall in NZ. specialize (NZ (nth (length t) (dotted ls) 0) ltac:(apply nth_In; unfold zlen in G; lia)). lia. }
      apply app_inj_tail in Q as [-> _]. 
      assert (D : proper ls \/ ~ proper ls).
      { clear. induction ls as [|l ls IH]; [left; exact I|]. destruct ls as [|k ls]; [left; exact I|]. destruct l; [right; intros [X _]; congruence|]. destruct IH as [IH|IH]; [left; split; [discriminate|exact IH]|right; intros [_ X]; tauto]. }
      destruct D as [D|D]; [exact D|]. exfalso. apply (text_unproper ls D N _ T). reflexivity.
  - split; intros P; [exfalso; apply (NT _ (round_text ls N P))|discriminate].
Qed.
Print Assumptions C31_round_trip.
(* the length octet of a label of 256 or more characters is truncated and the text is not recovered *)
Theorem C31_long_label_refuted : exists s, Forall label_char s /\ forall m out, 257 <= zlen m -> 257 <= zlen out ->
  exists enc m', osmo_apn_from_str m (zlen m) s = Ok (257, m') /\ enc = firstn 257 m' /\ osmo_apn_to_str out enc <> Ok (Some (blit out 0 (s ++ [0]))).
Proof.
  exists (repeat 97 256). assert (L : zlen (repeat 97 256) = 256) by reflexivity.
  assert (F : Forall label_char (repeat 97 256)) by (apply Forall_forall; intros x Hx; apply repeat_spec in Hx; subst; unfold label_char; lia).
  assert (E0 : packed [] (repeat 97 256) = 0 :: repeat 97 256) by (vm_compute; reflexivity).
  assert (H0 : nth 0 (repeat 97 256) 0 = 97) by reflexivity.
  split; [exact F|]. intros m out Hm Ho. generalize dependent (repeat 97 256). intros s L F E0 H0.
  rewrite from_str_ok by lia. rewrite E0, L. eexists _, _. split; [reflexivity|]. split; [reflexivity|].
  assert (E1 : firstn 257 (blit m 0 (0 :: s)) = 0 :: s).
  { unfold blit. change (firstn 0 m ++ (0 :: s) ++ skipn (0 + length (0 :: s)) m) with ((0 :: s) ++ skipn (0 + length (0 :: s)) m). apply firstn_app_exact. cbn [length]. unfold zlen in L. lia. }
  rewrite E1.
  assert (B : bytes (0 :: s)) by (constructor; [unfold is_byte; lia|]; eapply Forall_impl; [|exact F]; unfold label_char, is_byte; cbn; intros; lia).
  assert (M : Z.max (zlen (0 :: s)) 1 <= zlen out) by (rewrite zlen_cons; lia).
  destruct (to_str_spec out _ B M) as [(t & T & E)|[NT E]]; rewrite E; [|discriminate].
  rewrite (apn_text_fun _ _ (text_zero s) _ T). intros Q. injection Q as Q. apply (f_equal (fun l => nth 0 l 0)) in Q.
  destruct s as [|c s]; [discriminate|]. cbn [nth] in H0. subst c. cbn [app nth blit firstn] in Q. discriminate.
Qed.
Print Assumptions C31_long_label_refuted.

(* osmo_apn_qualify_buf: the C string left in the buffer is the qualified name cut to buf_len - 2 characters *)
Theorem C31_qualify : forall buf n mcc mnc ni, 1 <= n <= zlen buf ->
  exists m, osmo_apn_qualify_buf buf n mcc mnc ni = Ok m /\ zlen m = zlen buf /\ skipn (Z.to_nat n) m = skipn (Z.to_nat n) buf /\
    exists k, firstn (Z.to_nat n) m = firstn (Z.to_nat (n - 2)) (apn_gprs ni mnc mcc) ++ 0 :: k.
Proof. exact qualify_spec. Qed.
Print Assumptions C31_qualify.
(* a buffer that would hold the text and its NUL exactly loses the last character *)
Theorem C31_qualify_exact_fit_refuted : exists buf ni m, zlen buf = zlen (apn_gprs ni 1 262) + 1 /\
  osmo_apn_qualify_buf buf (zlen buf) 262 1 ni = Ok m /\ m <> apn_gprs ni 1 262 ++ [0].
Proof. exists (repeat 0 28), (bs "internet"). eexists. split; [reflexivity|]. split; [vm_compute; reflexivity|vm_compute; discriminate]. Qed.
Print Assumptions C31_qualify_exact_fit_refuted.
Theorem C31_qualify_from_imsi : forall buf n mcc mnc rest ni (three : bool), 0 <= mcc <= 999 -> 0 <= mnc <= (if three then 999 else 99) ->
  osmo_apn_qualify_from_imsi_buf buf n (pad0 3 (dec mcc) ++ pad0 (if three then 3 else 2) (dec mnc) ++ rest) ni three = osmo_apn_qualify_buf buf n mcc mnc ni.
Proof. exact from_imsi_spec. Qed.
Print Assumptions C31_qualify_from_imsi.

Example C31_nonvacuous :
  osmo_apn_from_str (repeat 0 12) 12 (bs "foo.bar.a") = Ok (10, [3; 102; 111; 111; 3; 98; 97; 114; 1; 97; 0; 0]) /\
  osmo_apn_to_str (repeat 0 10) [3; 102; 111; 111; 3; 98; 97; 114; 1; 97] = Ok (Some (bs "foo.bar.a" ++ [0])) /\
  osmo_apn_to_str (repeat 0 3) [3; 102; 111] = Ok None /\ dotted [bs "foo"; bs "bar"] = bs "foo.bar" /\ proper [bs "foo"; bs "bar"] /\
  apn_gprs (bs "internet") 1 262 = bs "internet.mnc001.mcc262.gprs".
Proof. repeat split; try (vm_compute; reflexivity); vm_compute; discriminate. Qed.
