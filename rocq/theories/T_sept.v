(* T_sept.v - C24: the GSM 7-bit default alphabet *)
From Verif Require Import Base Lib S_sept M_sept P_sept.

(* gsm_get_octet_len is the number of octets for that many septets, for every uint8_t *)
Theorem C24_octet_length : forall s, 0 <= s < 256 -> get_octet_len s = octets_for (7 * s).
Proof. exact octet_len_spec. Qed.
Print Assumptions C24_octet_length.

(* gsm_septet_pack: with padding 0..7 the octets written, read as one number, are the septets shifted left by the padding;
   exactly the octets needed are written and nothing else of the destination changes *)
Theorem C24_pack : forall result septets n padding, 0 <= n <= zlen septets -> 0 <= padding <= 7 -> octets_for (7 * n + padding) <= zlen result ->
  exists out, septet_pack result septets n padding = Ok (blit result 0 out, zlen out) /\ bytes out /\ zlen out = octets_for (7 * n + padding) /\
    le_val out = 2 ^ padding * sept_val (firstn (Z.to_nat n) septets).
Proof. exact septet_pack_spec. Qed.
Print Assumptions C24_pack.
Theorem C24_septets2octets : forall result septets n padding, 0 <= n <= zlen septets -> 0 <= padding <= 7 -> octets_for (7 * n + padding) <= zlen result ->
  exists out, septets2octets result septets n padding = Ok (blit result 0 out, zlen out) /\ bytes out /\ zlen out = octets_for (7 * n + padding) /\
    le_val out = 2 ^ padding * sept_val (firstn (Z.to_nat n) septets).
Proof. exact septet_pack_spec. Qed.
Print Assumptions C24_septets2octets.
Theorem C24_pack_large_padding_refuted : forall result septets n padding, 0 <= n <= zlen septets -> 7 < padding ->
  septet_pack result septets n padding = UB.
Proof. exact septet_pack_bad_padding. Qed.
Print Assumptions C24_pack_large_padding_refuted.

(* gsm_7bit_encode_n: the septets are those of the standard's alphabet, cut to what fits in n octets; never more than n octets *)
Theorem C24_encode_n : forall result n data rdata0, bytes data -> Forall encodable data -> zlen rdata0 = 2 * zlen data ->
  0 <= n <= zlen result -> n < 2 ^ 61 ->
  let y := Z.min (zlen (gsm_codes data)) (8 * n / 7) in
  exists out, encode_n result n data rdata0 = Ok (blit result 0 out, y, zlen out) /\ bytes out /\ zlen out = octets_for (7 * y) /\ zlen out <= n /\
    le_val out = sept_val (firstn (Z.to_nat y) (gsm_codes data)).
Proof. exact encode_n_spec. Qed.
Print Assumptions C24_encode_n.

(* the characters of the standard's alphabet the encoder gets wrong, with what it emits (255 is truncated to 127 when packed) *)
Theorem C24_encode_alphabet_refuted : Forall (fun ch => exists l, septet_encode [0; 0] [ch] = l /\
    match gsm0338 ch with Some c => forall m y, l = Ok (m, y) -> firstn (Z.to_nat y) m <> c | None => False end) misencoded
  /\ (forall rdata, zlen rdata = 2 -> septet_encode rdata [255] = UB).
Proof.
  split.
  - repeat constructor; eexists; (split; [reflexivity|]); vm_compute; intros m y E; injection E as <- <-; discriminate.
  - intros rdata _. unfold septet_encode. cbn [septet_encode_loop]. change (is_ext 255) with false. cbv iota. cbn [bind].
    replace (rd alphabet 255) with (@UB Z) by reflexivity. reflexivity.
Qed.
Print Assumptions C24_encode_alphabet_refuted.

(* gsm_7bit_decode_n (and _hdr): there are two tables, right for every convertible character, such that the text produced is the
   decoding of the septets of the user data (after the header), cut to n - 1 characters and always NUL-terminated; nothing
   outside the octets of the user data is read *)
Theorem C24_decode_n : exists base ext,
  (forall ch c, is_byte ch -> convertible ch -> gsm0338 ch = Some [c] -> base c = ch) /\
  (forall ch c, is_byte ch -> convertible ch -> gsm0338 ch = Some [27; c] -> ext c = ch) /\
  (forall text n ud len, bytes ud -> 0 <= len < 256 -> octets_for (7 * len) <= zlen ud -> 1 <= n <= zlen text ->
    let octets := firstn (Z.to_nat (octets_for (7 * len))) ud in
    let out := firstn (Z.to_nat (n - 1)) (decode_text base ext (map (septet octets) (zseq 0 (Z.to_nat len)))) in
    decode_n text n ud len = Ok (blit text 0 (out ++ [0]), zlen out)) /\
  (forall text n ud len ind, bytes ud -> ind <> 0 -> 1 <= len < 256 -> octets_for (7 * len) <= zlen ud -> 1 <= n <= zlen text ->
    let octets := firstn (Z.to_nat (octets_for (7 * len))) ud in
    let h := (8 * (at0 ud 0 + 1) + 6) / 7 in   (* septets taken by the header and its length octet *)
    h <= len ->
    let out := firstn (Z.to_nat (n - 1)) (decode_text base ext (map (septet octets) (zseq h (Z.to_nat (len - h))))) in
    decode_n_hdr text n ud len ind = Ok (blit text 0 (out ++ [0]), zlen out)).
Proof.
  exists base_char, ext_char. split; [|split; [|split]].
  - intros ch c B C E. destruct (enc_encodable ch B (proj1 C)) as [G _]. destruct (enc_char ch B C) as [c' [_ [_ [[D [_ R]] | [D _]]]]]; rewrite G, D in E; congruence.
  - intros ch c B C E. destruct (enc_encodable ch B (proj1 C)) as [G _]. destruct (enc_char ch B C) as [c' [_ [_ [[D [_ R]] | [D R]]]]]; rewrite G, D in E; congruence.
  - intros. apply decode_n_spec; assumption.
  - intros. apply decode_hdr_spec; assumption.
Qed.
Print Assumptions C24_decode_n.

(* a header longer than the user data makes the remaining length wrap: octets behind the user data are read *)
Theorem C24_decode_hdr_refuted : exists text n ud len, bytes ud /\ zlen ud = octets_for (7 * len) /\ 1 <= n <= zlen text /\
  decode_n_hdr text n ud len 1 = UB.
Proof. exists [0; 0; 0; 0], 4, [10], 1. repeat split; try (vm_compute; congruence); try reflexivity. repeat constructor; vm_compute; congruence. Qed.
Print Assumptions C24_decode_hdr_refuted.

(* encoding and decoding a text of convertible characters gives it back *)
Theorem C24_round_trip : forall result n data rdata0 text n2, bytes data -> Forall convertible data -> zlen rdata0 = 2 * zlen data ->
  0 <= n <= zlen result -> n < 2 ^ 61 -> 7 * zlen (gsm_codes data) <= 8 * n -> zlen (gsm_codes data) <= 255 -> zlen data < n2 <= zlen text ->
  exists out, encode_n result n data rdata0 = Ok (blit result 0 out, zlen (gsm_codes data), zlen out) /\
    decode_n text n2 out (zlen (gsm_codes data)) = Ok (blit text 0 (data ++ [0]), zlen data).
Proof.
  intros result n data rdata0 text n2 B F L Hn Hn2 Hfit L255 Ht.
  destruct (encode_n_spec result n data rdata0 B (Forall_convertible_encodable _ F) L Hn Hn2) as [out [E [Bo [Lo [Lon V]]]]].
  assert (M : Z.min (zlen (gsm_codes data)) (8 * n / 7) = zlen (gsm_codes data)) by lia. rewrite M in *.
  rewrite firstn_all2 in V by (unfold zlen; lia). exists out. split; [exact E|].
  pose proof (zlen_nonneg data).
  pose proof (decode_text_spec text n2 out data B F Bo ltac:(lia) Lo V ltac:(lia)) as D. cbv zeta in D. rewrite firstn_all2 in D by (unfold zlen in *; lia). exact D.
Qed.
Print Assumptions C24_round_trip.

(* the remaining characters of the alphabet do not survive: e.g. a umlaut becomes the section sign (the section sign and the
   inverted question mark are encoded with a wrong code, which the decoder turns back into them) *)
Theorem C24_round_trip_refuted : Forall (fun ch => forall r, 
    (do ' ((o, y), _) <- encode_n [0; 0] 2 [ch] [0; 0] ;; do ' (t, l) <- decode_n [0; 0; 0] 3 o y ;; Ok (firstn (Z.to_nat l) t)) = r ->
    gsm0338 ch <> None /\ exists t, r = Ok t /\ t <> [ch]) ([12; 164] ++ misdecoded).
Proof.
  cbv [misencoded misdecoded app].
  repeat (apply Forall_cons; [intros r <-; (split; [discriminate|]); eexists; (split; [vm_compute; reflexivity|discriminate])|]). apply Forall_nil.
Qed.
Print Assumptions C24_round_trip_refuted.

(* USSD: the octets sent are those of the text, with the carriage returns the standard asks for *)
Theorem C24_ussd_encode : forall result n data rdata0, bytes data -> Forall convertible data -> zlen rdata0 = 2 * zlen data ->
  0 <= n <= zlen result -> n < 2 ^ 61 -> 7 * zlen (gsm_codes data) <= 8 * n ->
  let codes := gsm_codes (ussd_sent n data) in
  exists oct y, encode_n_ussd result n data rdata0 = Ok (blit result 0 oct, y, zlen oct) /\ bytes oct /\ zlen oct <= n /\
    zlen oct = octets_for (7 * zlen codes) /\ le_val oct = sept_val codes.
Proof.
  intros result n data rdata0 B F L Hn Hn2 Hfit codes.
  destruct (encode_ussd_spec result n data rdata0 B F L Hn Hn2 Hfit) as [oct [y [E [Bo [Lon [Lo [V M]]]]]]].
  exists oct, y. auto.
Qed.
Print Assumptions C24_ussd_encode.

(* USSD: what the other side decodes, exactly *)
Theorem C24_ussd_exchange : forall result n data rdata0 text n2, bytes data -> Forall convertible data -> zlen rdata0 = 2 * zlen data ->
  0 <= n <= zlen result -> n < 2 ^ 61 -> 7 * zlen (gsm_codes data) <= 8 * n -> zlen (gsm_codes data) < 255 -> zlen data + 1 < n2 <= zlen text ->
  let sent := ussd_sent n data in let got := if ussd_drops_last sent then removelast sent else sent in
  exists oct y text', encode_n_ussd result n data rdata0 = Ok (blit result 0 oct, y, zlen oct) /\
    decode_n_ussd text n2 oct (zlen oct * 8 / 7) = Ok (text', zlen got) /\ firstn (length got + 1) text' = got ++ [0].
Proof.
  intros result n data rdata0 text n2 B F L Hn Hn2 Hfit L255 Ht sent got.
  destruct (encode_ussd_spec result n data rdata0 B F L Hn Hn2 Hfit) as [oct [y [E [Bo [Lon [Lo [V M]]]]]]].
  assert (Hs : bytes sent /\ Forall convertible sent /\ zlen sent <= zlen data + 1 /\ zlen (gsm_codes sent) <= zlen (gsm_codes data) + 1).
  { assert (C13 : Forall is_byte [13] /\ Forall convertible [13]) by (split; (constructor; [|constructor]); [unfold is_byte; lia|exact cr_convertible]).
    unfold sent, ussd_sent. destruct (_ =? 7); [|destruct (_ && _)]; rewrite ?codes_cr, ?zlen_app; change (zlen [13]) with 1; repeat split; try (apply Forall_app; split); try tauto; lia. }
  destruct Hs as [S1 [S2 [S3 S4]]].
  destruct (decode_ussd_spec text n2 oct sent S1 S2 Bo ltac:(lia) Lo V M ltac:(lia)) as [text' [D1 D2]]. exists oct, y, text'. auto.
Qed.
Print Assumptions C24_ussd_exchange.

(* hence the text arrives unless it ends with a carriage return on an octet boundary, or with one of 4..7 in the second septet of a
   group of eight, or with one of h..o in the third *)
Theorem C24_ussd_round_trip_partial : forall n data, bytes data -> Forall convertible data ->
  let y := zlen (gsm_codes data) in
  ~ (y mod 8 = 0 /\ last data 0 = 13) -> ~ (y mod 8 = 2 /\ 52 <= last data 0 <= 55) -> ~ (y mod 8 = 3 /\ 104 <= last data 0 <= 111) ->
  let sent := ussd_sent n data in (if ussd_drops_last sent then removelast sent else sent) = data.
Proof. exact ussd_round. Qed.
Print Assumptions C24_ussd_round_trip_partial.
(* the text "14" arrives as "1" *)
Theorem C24_ussd_round_trip_refuted : exists data, data = [49; 52] /\ Forall convertible data /\
  exists oct y o text', encode_n_ussd [0; 0; 0; 0; 0] 5 data [0; 0; 0; 0] = Ok (oct, y, o) /\
    decode_n_ussd [9; 9; 9; 9; 9] 5 (firstn (Z.to_nat o) oct) (o * 8 / 7) = Ok (text', 1) /\ firstn 2 text' = [49; 0].
Proof.
  eexists. split; [reflexivity|]. split.
  - repeat constructor; (discriminate || (cbn; intuition discriminate)).
  - eexists _, _, _, _. split; [vm_compute; reflexivity|]. split; vm_compute; reflexivity.
Qed.
Print Assumptions C24_ussd_round_trip_refuted.

(* "Hi {x}" : hypotheses met; result *)
Example C24_nonvacuous : Forall convertible [72; 105; 32; 123; 120; 125] /\ gsm_codes [72; 105; 32; 123; 120; 125] = [72; 105; 32; 27; 40; 120; 27; 41] /\
  encode_n (repeat 0 10) 10 [72; 105; 32; 123; 120; 125] (repeat 0 12) = Ok ([200; 52; 104; 131; 194; 111; 82] ++ [0; 0; 0], 8, 7) /\
  decode_n (repeat 9 8) 8 [200; 52; 104; 131; 194; 111; 82] 8 = Ok ([72; 105; 32; 123; 120; 125; 0; 9], 6).
Proof. split; [|repeat split; vm_compute; reflexivity]. repeat constructor; (discriminate || (cbn; intuition discriminate)). Qed.
