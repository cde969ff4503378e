(* C35: hexadecimal and BCD text *)
From Verif Require Import Base M_hex S_hex Lib P_hex.
Local Ltac sp := repeat match goal with |- _ /\ _ => split end.

(* osmo_hexparse: accepts exactly the texts that denote a byte string of at most max_len bytes; the bytes are stored, the rest of
   the max_len cells is zero, the cells beyond are untouched; everything else gives -1 (and never an access outside the buffer) *)
Theorem C35_hexparse : forall s b max_len, 0 <= max_len < 2147483648 -> max_len <= zlen b ->
  (forall l, hextext s l -> zlen l <= max_len -> hexparse s b max_len = Ok (l ++ repeat 0 (Z.to_nat (max_len - zlen l)) ++ skipn (Z.to_nat max_len) b, zlen l)) /\
  ((~ exists l, hextext s l /\ zlen l <= max_len) -> hexparse s b max_len = Err (-1)).
Proof.
  intros s b max_len Hm Hb. rewrite hexparse_spec by auto. split.
  - intros l Hl Hle. rewrite (hextext_parse _ _ Hl). replace (zlen l <=? max_len) with true by lia. reflexivity.
  - intros Hn. destruct (parse None s) as [l|] eqn:E; auto. destruct (zlen l <=? max_len) eqn:El; auto. exfalso. apply Hn. exists l. split; [apply parse_hextext; auto|lia].
Qed.
Print Assumptions C35_hexparse.

Theorem C35_hextext_unique : forall s l l', hextext s l -> hextext s l' -> l = l'.
Proof. intros s l l' H1 H2. apply hextext_parse in H1, H2. congruence. Qed.
Print Assumptions C35_hextext_unique.

(* osmo_hexdump_buf: the buffer holds the NUL-terminated dump; if it is too small, as many whole bytes (with separator) as fit;
   cells behind the NUL are untouched *)
Theorem C35_hexdump : forall out buf delim after_last, zlen delim < 2147483645 -> 1 <= zlen out < 2147483648 -> bytes buf ->
  exists str, hexdump_buf out buf (zlen buf) delim after_last = Ok (str ++ 0 :: skipn (S (length str)) out, zlen str) /\ zlen str < zlen out /\
    (let whole := if after_last then dump_all delim buf else dump_sep delim buf in
     if zlen whole <? zlen out then str = whole else str = dump_all delim (firstn (Z.to_nat ((zlen out - 1) / (2 + zlen delim))) buf)).
Proof.
  intros out buf delim al Hd Ho Hb. exists (dumped delim (zlen out - 1) al buf). destruct (hexdump_spec out buf delim al Hd Ho Hb) as [H1 H2]. split; auto. split; auto. cbv zeta. rewrite dumped_spec by lia. pose proof (zlen_nonneg delim). pose proof (zlen_nonneg buf). destruct al; cbn [negb andb].
  - rewrite zlen_dump_all. destruct ((2 + zlen delim) * zlen buf <? zlen out) eqn:E; auto. rewrite firstn_all2; auto. assert (zlen buf <= (zlen out - 1) / (2 + zlen delim)) by (apply Z.div_le_lower_bound; lia). unfold zlen at 1 in H3. lia.
  - destruct buf as [|x t]; cbn [negb andb]. { rewrite firstn_nil. cbn [dump_sep dump_all]. rewrite zlen_nil. replace (0 <? zlen out) with true by lia. reflexivity. }
    rewrite zlen_dump_sep by discriminate. destruct ((2 + zlen delim) * zlen (x :: t) - zlen delim <=? zlen out - 1) eqn:E; [replace (_ <? zlen out) with true by lia; reflexivity|]. replace (_ <? zlen out) with false by lia. reflexivity.
Qed.
Print Assumptions C35_hexdump.

(* parsing a complete dump (white-space separator, either style) returns the bytes *)
Theorem C35_roundtrip : forall buf delim (after_last : bool) out b max_len, Forall is_ws delim -> bytes buf -> zlen delim < 2147483645 ->
  zlen (if after_last then dump_all delim buf else dump_sep delim buf) < zlen out < 2147483648 -> zlen buf <= max_len < 2147483648 -> max_len <= zlen b ->
  exists text out', hexdump_buf out buf (zlen buf) delim after_last = Ok (text ++ 0 :: out', zlen text) /\
    hexparse text b max_len = Ok (buf ++ repeat 0 (Z.to_nat (max_len - zlen buf)) ++ skipn (Z.to_nat max_len) b, zlen buf).
Proof.
  intros buf delim al out b max_len Hd Hb Hl Ho Hm Hbl. pose proof (zlen_nonneg (if al then dump_all delim buf else dump_sep delim buf)) as Hz. destruct (C35_hexdump out buf delim al Hl ltac:(lia) Hb) as (str & H1 & H2 & H3). cbv zeta in H3. replace (zlen (if al then dump_all delim buf else dump_sep delim buf) <? zlen out) with true in H3 by lia.
  exists str, (skipn (S (length str)) out). split; auto. pose proof (zlen_nonneg buf). rewrite hexparse_spec by lia. assert (E : parse None str = Some buf). { subst str. destruct al; [apply parse_dump_all|apply parse_dump_sep]; auto. } rewrite E. replace (zlen buf <=? max_len) with true by lia. reflexivity.
Qed.
Print Assumptions C35_roundtrip.

Theorem C35_bcd_digit : forall n, 0 <= n < 16 -> bcd2char n = bcd_char n /\ char2bcd (bcd2char n) = n /\ (n >= 10 -> char2bcd (bcd2char n + 32) = n).
Proof.
  intros n Hn. rewrite bcd2char_nib by auto. split; auto. split; [apply char2bcd_nib; auto|]. intros H. unfold char2bcd, bcd_char, u8. replace (n <? 10) with false by lia. replace ((48 <=? n + 55 + 32) && (n + 55 + 32 <=? 57)) with false by lia. replace ((65 <=? n + 55 + 32) && (n + 55 + 32 <=? 70)) with false by lia. replace ((97 <=? n + 55 + 32) && (n + 55 + 32 <=? 102)) with true by lia. rewrite Z.mod_small; lia.
Qed.
Print Assumptions C35_bcd_digit.

(* osmo_bcd2str: prints the nibbles start .. end-1 as far as they fit, NUL-terminated; -EINVAL iff a printed digit exceeds 9 *)
Theorem C35_bcd2str : forall dst bcd start e allow_hex, bytes bcd -> 1 <= zlen dst -> 0 <= start < 2147483648 -> 0 <= e < 2147483648 -> (e + 1) / 2 <= zlen bcd ->
  exists str rc, bcd2str dst bcd start e allow_hex = Ok (str ++ 0 :: skipn (S (length str)) dst, rc) /\
    zlen str = Z.max 0 (Z.min (e - start) (zlen dst - 1)) /\ (forall i, 0 <= i < zlen str -> at0 str i = bcd_char (nibble bcd (start + i))) /\
    (rc = -22 /\ allow_hex = false /\ (exists i, 0 <= i < zlen str /\ 9 < nibble bcd (start + i)) \/
     rc = Z.max 0 (e - start) /\ (allow_hex = true \/ forall i, 0 <= i < zlen str -> nibble bcd (start + i) <= 9)).
Proof.
  intros dst bcd start e hex Hb Hd Hs He Hl. pose proof (bcd2str_spec dst bcd start e hex Hb Hd ltac:(lia) Hl) as L. cbv zeta in L. rewrite L by (unfold is_s32; lia). set (k := Z.max 0 (Z.min (e - start) (zlen dst - 1))). set (ns := nibs bcd start k).
  assert (Ln : length ns = Z.to_nat k) by (unfold ns, nibs; rewrite map_length, zseq_length; reflexivity). assert (Hk : 0 <= k) by (unfold k; lia).
  assert (Nth : forall i, 0 <= i < k -> nth (Z.to_nat i) ns 0 = nibble bcd (start + i)).
  { intros i Hi. unfold ns, nibs. rewrite nth_indep with (d' := nibble bcd 0) by (rewrite map_length, zseq_length; lia). rewrite map_nth. rewrite zseq_nth by lia. f_equal. lia. }
  exists (map bcd_char ns). eexists. split; [replace (Z.to_nat (k + 1)) with (S (length (map bcd_char ns))) by (rewrite map_length, Ln; lia); reflexivity|].
  assert (Lz : zlen (map bcd_char ns) = k) by (unfold zlen; rewrite map_length, Ln; lia). rewrite Lz. split; auto. split.
  - intros i Hi. unfold at0. rewrite nth_indep with (d' := bcd_char 0) by (rewrite map_length; lia). rewrite map_nth, Nth by auto. reflexivity.
  - destruct (existsb (fun x => 9 <? x) ns) eqn:Ex.
    + apply existsb_exists in Ex. destruct Ex as (x & Hin & Hx). apply (In_nth _ _ 0) in Hin. destruct Hin as (m & Hm & Em). destruct hex; cbn [negb andb]; [right; auto|]. left. sp; auto. exists (Z.of_nat m). split; [lia|]. rewrite <- Nth by lia. rewrite Nat2Z.id, Em. lia.
    + rewrite andb_false_r. right. split; auto. right. intros i Hi. rewrite <- Nth by lia. assert (F : existsb (fun x => 9 <? x) ns = true \/ nth (Z.to_nat i) ns 0 <= 9). { destruct (9 <? nth (Z.to_nat i) ns 0) eqn:E9; [left|right; lia]. apply existsb_exists. exists (nth (Z.to_nat i) ns 0). split; [apply nth_In; lia|auto]. } destruct F; [congruence|auto].
Qed.
Print Assumptions C35_bcd2str.

(* osmo_str2bcd: writes the digits as nibbles from start on, 0xf after the end of the string, up to the end nibble; other nibbles
   are unchanged. end < 0 means: end of the string, rounded up to a full octet. *)
Definition str2bcd_end (s : list Z) (start e : Z) : Z := if e <? 0 then start + zlen s + (start + zlen s) mod 2 else e.
Theorem C35_str2bcd : forall dst s start e allow_hex, bytes dst -> 1 <= zlen dst < 2147483648 -> 0 <= start -> start + zlen s < 2147483647 -> e < 2147483648 ->
  let e' := str2bcd_end s start e in
  (zlen dst < e' / 2 -> str2bcd dst s start e allow_hex = Err (-12)) /\
  ((e' + 1) / 2 <= zlen dst ->
     (forall k c, (Z.of_nat k < e' - start) -> nth_error s k = Some c -> valid_digit allow_hex c) ->
     exists dst', str2bcd dst s start e allow_hex = Ok (dst', e' / 2) /\ bytes dst' /\ zlen dst' = zlen dst /\
       forall j, 0 <= j -> nibble dst' j = if (start <=? j) && (j <? e') then match nth_error s (Z.to_nat (j - start)) with Some c => hexdigit c | None => 15 end else nibble dst j) /\
  ((e' + 1) / 2 <= zlen dst -> (exists k c, (Z.of_nat k < e' - start) /\ nth_error s k = Some c /\ ~ valid_digit allow_hex c) -> str2bcd dst s start e allow_hex = Err (-22)).
Proof.
  intros dst s start e hex Hb Hd Hs Hsl He e'. pose proof (zlen_nonneg s) as Hls. unfold str2bcd. replace ((zlen dst =? 0) || (start <? 0)) with false by lia.
  assert (Ee : (if e <? 0 then let e0 := s32 (start + zlen s) in if Z.land e0 1 =? 0 then e0 else e0 + 1 else e) = e').
  { unfold e', str2bcd_end. destruct (e <? 0); auto. cbv zeta. rewrite s32_small by lia. rewrite land1. destruct ((start + zlen s) mod 2 =? 0) eqn:X; lia. }
  cbv zeta in Ee. cbv zeta. rewrite !Ee. assert (He' : 0 <= e' < 2147483648) by (unfold e', str2bcd_end; destruct (e <? 0) eqn:X; lia). rewrite Z.quot_div_nonneg by lia. rewrite u32_small by (unfold is_u32; lia).
  split; [intros H; replace (zlen dst <? e' / 2) with true by lia; reflexivity|]. pose proof (bcdvals_spec hex (Z.to_nat (e' - start)) s) as BV.
  assert (Main : (e' + 1) / 2 <= zlen dst -> match bcdvals hex (Z.to_nat (e' - start)) s with None => str2bcd_loop dst s start hex (Z.to_nat (e' - start)) = Err (-22)
    | Some vs => exists dst', str2bcd_loop dst s start hex (Z.to_nat (e' - start)) = Ok dst' /\ bytes dst' /\ zlen dst' = zlen dst /\ forall j, 0 <= j -> nibble dst' j = if (start <=? j) && (j <? e') then at0 vs (j - start) else nibble dst j end).
  { intros Hl. destruct (Z_le_dec start e') as [Hse|Hse].
    - pose proof (str2bcd_loop_spec hex (Z.to_nat (e' - start)) dst s start Hb Hs) as L. rewrite Z2Nat.id in L by lia. replace (start + (e' - start)) with e' in L by lia. exact (L Hl).
    - replace (Z.to_nat (e' - start)) with O by lia. cbn [bcdvals str2bcd_loop]. exists dst. sp; auto. intros j Hj. replace ((start <=? j) && (j <? e')) with false by lia. reflexivity. }
  split.
  - intros Hl Hv. specialize (Main Hl). replace (zlen dst <? e' / 2) with false by lia. destruct (bcdvals hex (Z.to_nat (e' - start)) s) as [vs|].
    + destruct Main as (d' & M1 & M2 & M3 & M4). rewrite M1. cbn [bind]. exists d'. sp; auto. intros j Hj. rewrite M4 by auto. destruct ((start <=? j) && (j <? e')) eqn:Er; auto. destruct BV as [_ BV]. specialize (BV (Z.to_nat (j - start)) ltac:(lia)). unfold at0. destruct (nth_error s (Z.to_nat (j - start))); [exact (proj2 BV)|exact BV].
    + exfalso. destruct BV as (k & c & B1 & B2 & B3). apply B3. apply (Hv k c); auto. lia.
  - intros Hl (k & c & K1 & K2 & K3). specialize (Main Hl). replace (zlen dst <? e' / 2) with false by lia. destruct (bcdvals hex (Z.to_nat (e' - start)) s) as [vs|].
    + exfalso. destruct BV as [_ BV]. specialize (BV k ltac:(lia)). rewrite K2 in BV. apply K3. exact (proj1 BV).
    + rewrite Main. reflexivity.
Qed.
Print Assumptions C35_str2bcd.

(* an odd end nibble of 2 * dst_size + 1 passes the size check and is written behind the buffer *)
Theorem C35_str2bcd_overflow_refuted : exists dst s, zlen dst = 1 /\ bytes dst /\ str2bcd dst s 0 3 false = UB.
Proof. exists [0], [49; 50; 51]. sp; try (vm_compute; reflexivity). repeat constructor; unfold is_byte; lia. Qed.
Print Assumptions C35_str2bcd_overflow_refuted.

(* text -> BCD -> text gives the digits back, upper case *)
Theorem C35_bcd_roundtrip : forall dst out s start, bytes dst -> 1 <= zlen dst < 2147483648 -> 0 <= start -> start + zlen s < 2147483647 -> (start + zlen s + 1) / 2 <= zlen dst -> zlen s < zlen out ->
  Forall (valid_digit true) s ->
  exists dst' out', str2bcd dst s start (-1) true = Ok (dst', (start + zlen s + 1) / 2) /\ bcd2str out dst' start (start + zlen s) true = Ok (map (fun c => bcd_char (hexdigit c)) s ++ 0 :: out', zlen s).
Proof.
  intros dst out s start Hb Hd Hs Hsl Hl Ho Hv. pose proof (zlen_nonneg s) as Hls. destruct (C35_str2bcd dst s start (-1) true Hb Hd Hs Hsl ltac:(lia)) as (_ & H & _). cbv zeta in H. unfold str2bcd_end in H. change (-1 <? 0) with true in H. cbv iota in H.
  destruct H as (d' & D1 & D2 & D3 & D4). { lia. } { intros k c _ Hk. rewrite Forall_forall in Hv. apply Hv. eapply nth_error_In; eauto. }
  destruct (C35_bcd2str out d' start (start + zlen s) true D2 ltac:(lia) ltac:(lia) ltac:(lia) ltac:(lia)) as (str & rc & B1 & B2 & B3 & B4). replace (Z.max 0 (Z.min (start + zlen s - start) (zlen out - 1))) with (zlen s) in B2 by lia.
  assert (Es : str = map (fun c => bcd_char (hexdigit c)) s).
  { apply (list_ext _ _ 0); [rewrite map_length; unfold zlen in B2; lia|]. intros i Hi. specialize (B3 (Z.of_nat i)). unfold at0 in B3. rewrite Nat2Z.id in B3. rewrite B3 by (unfold zlen; lia). rewrite D4 by lia. assert (i < length s)%nat by (unfold zlen in B2; lia). replace ((start <=? start + Z.of_nat i) && (start + Z.of_nat i <? start + zlen s + (start + zlen s) mod 2)) with true by (unfold zlen; lia). replace (Z.to_nat (start + Z.of_nat i - start)) with i by lia.
    destruct (nth_error s i) as [c|] eqn:Ec; [|apply nth_error_None in Ec; lia]. symmetry. erewrite nth_error_nth; [reflexivity|]. rewrite nth_error_map, Ec. reflexivity. }
  exists d', (skipn (S (length str)) out). split; [rewrite D1; do 2 f_equal; lia|]. rewrite B1, Es. f_equal. f_equal. destruct B4 as [(_ & C & _)|[-> _]]; [discriminate|lia].
Qed.
Print Assumptions C35_bcd_roundtrip.

(* osmo_ubit_dump_buf *)
Theorem C35_ubit_dump : forall buf bits len, 1 <= zlen buf -> 0 <= len <= zlen bits ->
  exists str, ubit_dump_buf buf bits len = Ok (str ++ repeat 0 (Z.to_nat (zlen buf - zlen str))) /\ zlen str = Z.min len (zlen buf - 1) /\
    forall i, 0 <= i < zlen str -> (at0 bits i = 0 -> at0 str i = 48) /\ (at0 bits i = 1 -> at0 str i = 49) /\ (at0 bits i = 255 -> at0 str i = 63) /\ (at0 bits i <> 0 -> at0 bits i <> 1 -> at0 bits i <> 255 -> at0 str i = 69).
Proof.
  intros buf bits len Hb Hl. unfold ubit_dump_buf. replace (zlen buf =? 0) with false by lia. set (l := if zlen buf - 1 <? len then zlen buf - 1 else len). assert (El : l = Z.min len (zlen buf - 1)) by (unfold l; destruct (zlen buf - 1 <? len) eqn:E; lia). replace (zlen bits <? l) with false by lia.
  assert (Hz : zlen (map ubit_char (firstn (Z.to_nat l) bits)) = l) by (unfold zlen in *; rewrite map_length, firstn_length; lia).
  exists (map ubit_char (firstn (Z.to_nat l) bits)). rewrite Hz. split; auto. split; auto. intros i Hi. assert (E : at0 (map ubit_char (firstn (Z.to_nat l) bits)) i = ubit_char (at0 bits i)).
  { unfold at0. rewrite nth_indep with (d' := ubit_char 0) by (unfold zlen in *; rewrite map_length, firstn_length in *; lia). rewrite map_nth, nth_firstn. replace (Nat.ltb (Z.to_nat i) (Z.to_nat l)) with true by (symmetry; apply Nat.ltb_lt; lia). reflexivity. }
  rewrite E. unfold ubit_char. destruct (at0 bits i =? 0) eqn:E0; [sp; intros; lia|]. destruct (at0 bits i =? 255) eqn:E1; [sp; intros; lia|]. destruct (at0 bits i =? 1) eqn:E2; sp; intros; lia.
Qed.
Print Assumptions C35_ubit_dump.

Example C35_nonvacuous : hextext [49; 97; 32; 69; 10; 102] [26; 239] /\ hexparse [49; 97; 32; 69; 10; 102] [9; 9; 9; 9] 3 = Ok ([26; 239; 0; 9], 2) /\ hexparse [49; 97; 50] [0; 0] 2 = Err (-1) /\
  hexdump_buf (repeat 7 10) [26; 239; 217] 3 [58] false = Ok ([49; 97; 58; 101; 102; 58; 100; 57; 0; 7], 8) /\
  str2bcd [170; 187; 204] [49; 50; 51] 1 (-1) false = Ok ([26; 50; 204], 2) /\ bcd2str (repeat 7 5) [26; 50] 1 4 false = Ok ([49; 50; 51; 0; 7], 3).
Proof.
  split. { apply Hhi with 1; [reflexivity|]. apply (Llo 1 97 10); [reflexivity|]. apply Hws; [left; auto|]. apply Hhi with 14; [reflexivity|]. apply Lws; [right; right; left; auto|]. apply (Llo 14 102 15); [reflexivity|]. constructor. }
  sp; vm_compute; reflexivity.
Qed.
