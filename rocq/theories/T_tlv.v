(* T_tlv.v - C29, C30, C48, C49: information elements *)
From Verif Require Import Base M_tlv S_tlv P_tlv.

(* a definition table as the C type holds it: fixed_len is an octet *)
Definition table_ok (def : tlv_definition) : Prop := forall t, 0 <= snd (def t) < 256.
Definition sample_def : tlv_definition := fun t =>
  if t =? 1 then (TYPE_TLV, 0) else if t =? 2 then (TYPE_TV, 0) else if t =? 3 then (TYPE_FIXED, 2) else if t =? 9 then (TYPE_SINGLE_TV, 0) else (TYPE_NONE, 0).
Lemma sample_ok : table_ok sample_def.
Proof. intros t. unfold sample_def. repeat destruct (_ =? _); cbn; lia. Qed.
Lemma sample_nohalf t : 1 <= t <= 3 -> ~ half sample_def t.
Proof. intros H [X|[X _]]; [|lia]. replace (t / 16) with 0 in X by lia. discriminate. Qed.

(* tlv_parse_one on every octet string (mem holds nothing after it): it succeeds exactly when the string starts with an element, then
   consumes exactly that element and returns its tag, its length and a value pointer inside it; otherwise it returns one of the three
   documented errors.  It never reads outside the string (no UB). *)
Theorem C29_parse_one : forall def pre buf, table_ok def -> bytes buf ->
  (forall e r t v, buf = e ++ r -> ie def e t v -> exists o, tlv_parse_one def (pre ++ buf) (zlen pre) (zlen buf) = Ok (zlen e, t, o, zlen v) /\
     zslice (pre ++ buf) o (zlen v) = v /\ zlen pre <= o /\ o + zlen v <= zlen pre + zlen e) /\
  ((forall e r t v, buf = e ++ r -> ~ ie def e t v) -> exists c, tlv_parse_one def (pre ++ buf) (zlen pre) (zlen buf) = Err c /\ In c [-1; -2; -3]).
Proof. intros. apply parse_one_iff; assumption. Qed.
Print Assumptions C29_parse_one.
Theorem C29_consumed : forall def pre buf n t o len, table_ok def -> bytes buf ->
  tlv_parse_one def (pre ++ buf) (zlen pre) (zlen buf) = Ok (n, t, o, len) -> 1 <= n <= zlen buf /\ zlen pre <= o /\ o + len <= zlen pre + n /\ 0 <= len.
Proof.
  intros def pre buf n t o len F B E. destruct (parse_one_spec pre buf def B F) as [([[[n' t'] o'] len'] & E' & (e & r & v & Q & I & A1 & A2 & Z1 & O1 & O2))|(c & E' & _)]; rewrite E in E'; [|discriminate].
  injection E' as -> -> -> ->. subst. rewrite zlen_app. pose proof (ie_len _ _ _ _ I). pose proof (zlen_nonneg r). pose proof (zlen_nonneg v). repeat split; lia.
Qed.
Print Assumptions C29_consumed.
(* an octet string starts with at most one element *)
Theorem C29_ie_unique : forall def e t v e' t' v' r r', ie def e t v -> ie def e' t' v' -> e ++ r = e' ++ r' -> e = e' /\ t = t' /\ v = v' /\ r = r'.
Proof. exact ie_fun. Qed.
Print Assumptions C29_ie_unique.

(* tlv_parse / tlv_parse2 on every octet string: the elements are returned in order of occurrence (dec[i] has the i-th occurrence of each
   tag), the count is the number of elements; a malformed message gives an error, except that a missing leading LV is read from behind the
   end of the buffer *)
Theorem C29_parse_message : forall n def buf lv1 lv2 l, table_ok def -> bytes buf -> lv1 <> lv2 \/ lv1 = 0 \/ (n <= 1)%nat ->
  message def lv1 lv2 buf l -> exists dec, tlv_parse2 n def buf lv1 lv2 = Ok (zlen l, dec) /\ length dec = n /\
    forall i t, (i < n)%nat -> value buf (nth i dec empty_parsed t) = as_entry (nth_error (occurrences t l) i).
Proof.
  intros n def buf lv1 lv2 l F B H M. destruct (parse2_spec n def buf lv1 lv2 B F H) as [(l' & dec & M' & E & L & A & _)|[(N & _)|(N & _)]]; try (exfalso; exact (N _ M)).
  assert (l' = l) by (eapply message_fun; eassumption).
  subst l'. exists dec. repeat split; [exact E|exact L|]. intros i t Hi. apply A. lia.
Qed.
Print Assumptions C29_parse_message.
Theorem C29_parse_malformed : forall n def buf lv1 lv2, table_ok def -> bytes buf -> lv1 <> lv2 \/ lv1 = 0 \/ (n <= 1)%nat ->
  (forall l, ~ message def lv1 lv2 buf l) ->
  (exists c dec, tlv_parse2 n def buf lv1 lv2 = Ok (c, dec) /\ In c [-1; -2; -3]) \/
  (tlv_parse2 n def buf lv1 lv2 = UB /\ (lv1 <> 0 /\ buf = [] \/ lv2 <> 0 /\ exists l, lead lv1 buf [] l)).
Proof.
  intros n def buf lv1 lv2 F B H N. destruct (parse2_spec n def buf lv1 lv2 B F H) as [(l' & dec & M' & _)|[(_ & _ & c & dec & E & C & _)|(_ & O & E)]]; [exfalso; exact (N _ M')|left; exists c, dec; split; assumption|right; split; assumption].
Qed.
Print Assumptions C29_parse_malformed.
(* without leading LVs there is no undefined behaviour at all *)
Theorem C29_parse_safe : forall n def buf, table_ok def -> bytes buf -> exists rc dec, tlv_parse2 n def buf 0 0 = Ok (rc, dec) /\ length dec = n /\ (rc < 0 <-> forall l, ~ message def 0 0 buf l).
Proof.
  intros n def buf F B. destruct (parse2_spec n def buf 0 0 B F) as [(l' & dec & M' & E & L & _)|[(N & _ & c & dec & E & C & L)|(_ & O & E)]]; [tauto| | |].
  - exists (zlen l'), dec. repeat split; try assumption; [pose proof (zlen_nonneg l'); lia|intros N; exfalso; exact (N _ M')].
  - exists c, dec. repeat split; try assumption; [intros _; exact N|intros _; cbn in C; lia].
  - destruct O as [[X _]|[X _]]; congruence.
Qed.
Print Assumptions C29_parse_safe.
(* the two defects of the leading LVs *)
Theorem C29_lv_overread_refuted : ~ (forall n def buf lv1 lv2, table_ok def -> bytes buf -> tlv_parse2 n def buf lv1 lv2 <> UB).
Proof. intros H. apply (H 1%nat sample_def [] 1 0 sample_ok); [constructor|reflexivity]. Qed.
Print Assumptions C29_lv_overread_refuted.
Theorem C29_same_lv_refuted : ~ (forall n def buf lv1 lv2 l, table_ok def -> bytes buf -> message def lv1 lv2 buf l -> exists dec, tlv_parse2 n def buf lv1 lv2 = Ok (zlen l, dec) /\
    forall i t, (i < n)%nat -> value buf (nth i dec empty_parsed t) = as_entry (nth_error (occurrences t l) i)).
Proof.
  intros H. destruct (H 2%nat sample_def [1; 65; 1; 66] 1 1 [(1, [65]); (1, [66])] sample_ok) as (dec & E & A).
  - repeat constructor; unfold is_byte; lia.
  - exists [1; 66], [], [(1, [65])], [(1, [66])], []. split; [apply (lead_lv 1 [65] [1; 66]); [discriminate|cbn; lia]|]. split; [apply (lead_lv 1 [66] []); [discriminate|cbn; lia]|]. split; [constructor|reflexivity].
  - vm_compute in E. injection E as E. subst dec. specialize (A 0%nat 1 ltac:(lia)). vm_compute in A. discriminate.
Qed.
Print Assumptions C29_same_lv_refuted.
Example C29_nonvacuous : message sample_def 7 0 [2; 65; 66; 1; 1; 9; 144; 2; 5] [(7, [65; 66]); (1, [9]); (9, [144]); (2, [5])] /\ (forall l, ~ message sample_def 0 0 [1; 4; 5] l).
Proof.
  split.
  - exists [1; 1; 9; 144; 2; 5], [1; 1; 9; 144; 2; 5], [(7, [65; 66])], [], [(1, [9]); (9, [144]); (2, [5])].
    split; [apply (lead_lv 7 [65; 66]); [discriminate|cbn; lia]|]. split; [constructor; reflexivity|]. split; [|reflexivity].
    apply (ies_cons _ [1; 1; 9] 1 [9]); [apply (ie_TLV sample_def 1 [9]); [apply sample_nohalf; lia|reflexivity|cbn; lia]|].
    apply (ies_cons _ [144] 9 [144]); [apply (ie_half sample_def 144); reflexivity|].
    apply (ies_cons _ [2; 5] 2 [5]); [apply (ie_TV sample_def 2 5); [apply sample_nohalf; lia|reflexivity]|constructor].
  - destruct (C29_parse_safe 1 sample_def [1; 4; 5] sample_ok) as (rc & dec & E & _ & H); [repeat constructor; unfold is_byte; lia|].
    vm_compute in E. injection E as E _. apply H. lia.
Qed.

(* encoding: every value its type can carry is encoded as one element, so that parsing the octets returns exactly the encoded set; the
   half-octet types return the shared octet *)
Theorem C29_encode_one : forall def t v, 0 <= t < 256 -> table_ok def -> encodable def t v ->
  exists e, tlv_encode_one (fst (def t)) t (zlen v) v = Ok e /\ bytes e /\ ie def e t (received def t v).
Proof. intros def t v H F E. apply encode_one_ie; [exact H|apply F|exact E]. Qed.
Print Assumptions C29_encode_one.
Theorem C29_round_trip : forall def tp order, table_ok def -> NoDup order -> Forall (fun t => 0 <= t < 256) order -> (forall t v, In t order -> tp t = Some v -> encodable def t v) ->
  exists e rc d, tlv_encode_ordered def tp order = Ok e /\ tlv_parse def e 0 0 = Ok (rc, [d]) /\ rc = zlen (filter (fun t : Z => match tp t with Some _ => true | None => false end) order) /\
    forall t, value e (d t) = if in_dec Z.eq_dec t order then as_entry (option_map (received def t) (tp t)) else None.
Proof.
  intros def tp order F N O E. destruct (encode_ordered_ies def tp order F O E) as (e & E1 & B & I).
  destruct (C29_parse_message 1 def e 0 0 (elements def tp order) F B) as (dec & P & L & A); [tauto| |].
  { exists e, e, [], [], (elements def tp order). repeat split; try (constructor; reflexivity); assumption. }
  destruct dec as [|d [|]]; try discriminate. exists e, (zlen (elements def tp order)), d. repeat split; try assumption.
  - clear. induction order as [|t r IH]; [reflexivity|]. cbn [elements flat_map filter]. fold (elements def tp r). rewrite zlen_app, IH. destruct (tp t); [rewrite !zlen_cons; reflexivity|reflexivity].
  - intros t. specialize (A 0%nat t ltac:(lia)). cbn [nth] in A. rewrite A, occ_elements by exact N. destruct (in_dec _ _ _); [|reflexivity]. destruct (tp t); reflexivity.
Qed.
Print Assumptions C29_round_trip.
Theorem C29_encode_parse : forall def tp, table_ok def -> (forall t v, 0 <= t < 256 -> tp t = Some v -> encodable def t v) ->
  exists e rc d, tlv_encode def tp = Ok e /\ tlv_parse def e 0 0 = Ok (rc, [d]) /\ forall t, 0 <= t < 256 -> value e (d t) = as_entry (option_map (received def t) (tp t)).
Proof.
  intros def tp F E. destruct (C29_round_trip def tp (zseq 0 256) F (seq_NoDup _ _)) as (e & rc & d & E1 & P & _ & A).
  - apply Forall_forall. intros t H. apply zseq_In in H. lia.
  - intros t v H. apply zseq_In in H. apply E. lia.
  - exists e, rc, d. repeat split; try assumption. intros t H. rewrite A. destruct (in_dec _ _ _) as [|NI]; [reflexivity|]. exfalso. apply NI. apply zseq_In. lia.
Qed.
Print Assumptions C29_encode_parse.
Example C29_encode_nonvacuous : let tp := fun t => if t =? 1 then Some [5; 6; 7] else if t =? 3 then Some [1; 2] else if t =? 9 then Some [4] else None in
  (forall t v, 0 <= t < 256 -> tp t = Some v -> encodable sample_def t v) /\ tlv_encode sample_def tp = Ok [1; 3; 5; 6; 7; 3; 1; 2; 148].
Proof.
  cbn zeta. split; [|vm_compute; reflexivity]. intros t v Ht H. destruct (Z.eqb_spec t 1) as [->|]; [|destruct (Z.eqb_spec t 3) as [->|]; [|destruct (Z.eqb_spec t 9) as [->|]; [|discriminate]]]; injection H as <-;
    (split; [repeat constructor; unfold is_byte; lia|]); cbn; repeat split; try discriminate; try apply sample_nohalf; lia.
Qed.
(* what cannot be carried is encoded without an error and does not come back *)
Theorem C29_long_tlv_refuted : ~ (forall ty tag v e, tlv_encode_one ty tag (zlen v) v = Ok e -> ty = TYPE_TLV -> exists r, e = tag :: r /\ zlen r = 1 + zlen v).
Proof.
  intros H. destruct (H TYPE_TLV 1 (repeat 0 256) [1; 0]) as (r & E & L); [vm_compute; reflexivity|reflexivity|]. injection E as E. subst r. vm_compute in L. discriminate.
Qed.
Print Assumptions C29_long_tlv_refuted.
Theorem C29_no_type_refuted : ~ (forall (def : tlv_definition) t v, tlv_encode_one (fst (def t)) t (zlen v) v <> Ok []).
Proof. intros H. apply (H sample_def 4 [1]). reflexivity. Qed.
Print Assumptions C29_no_type_refuted.
(* half-octet types in tables of the older form (tag 0xN0): the encoder loses the tag *)
Theorem C29_old_half_refuted : forall t x, is_byte x -> 16 <= t < 256 -> t mod 16 = 0 -> tlv_encode_one TYPE_SINGLE_TV t 1 [x] = Ok [x mod 16].
Proof.
  intros t x Bx H M. cbn [tlv_encode_one]. change (rd [x] 0) with (Ok x). cbn [bind]. rewrite put_ok by reflexivity. do 2 f_equal.
  change 15 with (Z.ones 4). rewrite Z.land_ones by lia. change (2 ^ 4) with 16. rewrite Z.lor_comm, lor_shiftl_add by (change (2 ^ 4) with 16; lia). change (2 ^ 4) with 16. unfold u8. lia.
Qed.
Print Assumptions C29_old_half_refuted.
(* GAN elements with a two-octet tag (tag 0x80 and above) are read back with another tag *)
Theorem C29_gan_tag_refuted : forall (def : tlv_definition) t v, (forall x, fst (def x) = TYPE_vTvLV_GAN) -> table_ok def -> bytes v -> 128 <= t < 256 -> zlen v < 128 ->
  exists e, tlv_encode_one TYPE_vTvLV_GAN t (zlen v) v = Ok e /\ forall r n t' o len, bytes r -> tlv_parse_one def (e ++ r) 0 (zlen (e ++ r)) = Ok (n, t', o, len) -> t' = 128.
Proof.
  intros def t v G F Bv Ht L. pose proof (zlen_nonneg v). cbn [tlv_encode_one]. rewrite u16_small by (unfold is_u16; lia). cbv zeta. rewrite val_copy_all. cbn [bind].
  unfold VTVLV_GAN_GROSS_LEN, vt_gan. replace (t >? 127) with true by lia. replace (zlen v >? 127) with false by lia. replace (zlen v <=? 127) with true by lia. rewrite !u16_small by (unfold is_u16; rewrite ?u16_small by (unfold is_u16; lia); lia).
  assert (E0 : u8 (Z.lor 128 (Z.shiftr t 8)) = 128) by (rewrite Z.shiftr_div_pow2 by lia; change (2 ^ 8) with 256; replace (t / 256) with 0 by lia; reflexivity). rewrite E0.
  cbn [app]. rewrite put_ok by (rewrite !zlen_cons; lia). eexists. split; [reflexivity|]. intros r n t' o len Br E.
  unfold tlv_parse_one in E. cbn [app] in E. match type of E with context [zlen (128 :: ?w) <? 1] => pose proof (zlen_nonneg w); replace (zlen (128 :: w) <? 1) with false in E by (rewrite zlen_cons; lia) end.
  match type of E with context [rd (128 :: ?w) 0] => change (rd (128 :: w) 0) with (Ok 128) in E end. cbn [bind] in E. rewrite !G in E. cbn [type_eqb andb] in E. rewrite andb_false_r in E.
  unfold parse_tlv, parse_end in E.
  repeat match type of E with context [if ?c then _ else _] => destruct c; try discriminate | context [rd ?a ?b] => destruct (rd a b); cbn [bind] in E; try discriminate end;
  injection E as _ <- _ _; reflexivity.
Qed.
Print Assumptions C29_gan_tag_refuted.
(* ... and the pointer returned by the put function does not point behind the element *)
Theorem C29_gan_put_refuted : forall tag v, 0 <= tag < 65536 -> zlen v < 32768 -> exists e,
  tlv_encode_one TYPE_vTvLV_GAN tag (zlen v) v = Ok e /\ vtvlv_gan_put_ret tag (zlen v) < zlen e.
Proof.
  intros t v Ht L. pose proof (zlen_nonneg v). cbn [tlv_encode_one]. rewrite u16_small by (unfold is_u16; lia). cbv zeta. rewrite val_copy_all. cbn [bind].
  unfold VTVLV_GAN_GROSS_LEN, vtvlv_gan_put_ret, vt_gan.
  destruct (Z.gtb_spec t 127); destruct (Z.gtb_spec (zlen v) 127); destruct (Z.leb_spec (zlen v) 127); try lia;
  rewrite !u16_small by (unfold is_u16; rewrite ?u16_small by (unfold is_u16; lia); lia); cbn [app]; rewrite put_ok by (rewrite !zlen_cons; lia);
  eexists; (split; [reflexivity|]); rewrite !zlen_cons; lia.
Qed.
Print Assumptions C29_gan_put_refuted.
(* the header-only put reserves the value as well, although it is documented to leave the end of the message at the value's start *)
Theorem C29_tvl_put_refuted : forall tag len, 0 < len < 65533 -> let '(reserved, written) := msgb_tvl_put tag len in reserved = zlen written + len.
Proof.
  intros tag len H. unfold msgb_tvl_put, TVLV_GROSS_LEN. destruct (len <=? 127) eqn:G; rewrite u16_small by (unfold is_u16; lia); rewrite !zlen_cons, zlen_nil; lia.
Qed.
Print Assumptions C29_tvl_put_refuted.

(* ---- C30 ---- *)
(* osmo_tlvp_copy: lengths are copied, no value is: no IE of the copy is present *)
Theorem C30_copy_exact : forall tp i, osmo_tlvp_copy tp i = (None, snd (tp i)).
Proof. reflexivity. Qed.
Print Assumptions C30_copy_exact.
Theorem C30_copy_refuted : forall tp i v, tp i = (Some v, zlen v) -> osmo_tlvp_copy tp i <> tp i.
Proof. intros tp i v H. rewrite C30_copy_exact, H. discriminate. Qed.
Print Assumptions C30_copy_refuted.
Lemma merge_notin alloc src : forall tags dst i, ~ In i tags -> snd (merge_loop alloc src tags dst) i = dst i.
Proof.
  induction tags as [|a r IH]; intros dst i H; [reflexivity|]. cbn [merge_loop]. assert (NE : (i =? a) = false) by (destruct (Z.eqb_spec i a); [exfalso; apply H; left; congruence|reflexivity]).
  destruct (src a) as [[v|] len]; [|apply IH; intros X; apply H; right; exact X]. destruct (len =? 0); [apply IH; intros X; apply H; right; exact X|].
  destruct (alloc a); [rewrite IH by (intros X; apply H; right; exact X); rewrite NE; reflexivity|cbn [snd]; rewrite NE; reflexivity].
Qed.
Lemma merge_spec src : forall tags dst, NoDup tags -> exists out, merge_loop (fun _ => true) src tags dst = (0, out) /\
  forall i, In i tags -> out i = match src i with (Some v, len) => if len =? 0 then dst i else (Some v, match fst (dst i) with Some _ => 0 | None => snd (dst i) end) | (None, _) => dst i end.
Proof.
  induction tags as [|a r IH]; intros dst N; [exists dst; split; [reflexivity|intros i []]|]. inversion N as [|? ? NI Nr]; subst. cbn [merge_loop].
  assert (K : forall d, snd (merge_loop (fun _ => true) src r d) a = d a) by (intros; apply merge_notin; exact NI).
  destruct (src a) as [[v|] len] eqn:S; [destruct (len =? 0) eqn:Z|].
  - destruct (IH dst Nr) as (out & E & A). exists out. split; [exact E|]. intros i [<-|I]; [|apply A; exact I]. rewrite S, Z. rewrite <- (K dst), E. reflexivity.
  - match goal with |- context [merge_loop _ src r ?d] => destruct (IH d Nr) as (out & E & A); exists out; split; [exact E|]; intros i [<-|I]; [rewrite S, Z; pose proof (K d) as Kd; rewrite E in Kd; cbn [snd] in Kd; rewrite Kd, Z.eqb_refl; reflexivity|] end.
    rewrite A by exact I. assert ((i =? a) = false) as -> by (destruct (Z.eqb_spec i a); [congruence|reflexivity]). reflexivity.
  - destruct (IH dst Nr) as (out & E & A). exists out. split; [exact E|]. intros i [<-|I]; [|apply A; exact I]. rewrite S. rewrite <- (K dst), E. reflexivity.
Qed.
(* osmo_tlvp_merge with enough memory: exactly the non-empty IEs of src replace those of dst, but the length is left at 0 (if dst had the IE)
   or at whatever it was *)
Theorem C30_merge_exact : forall dst src, exists out, osmo_tlvp_merge (fun _ => true) dst src = (0, out) /\
  forall i, 0 <= i < 256 -> out i = match src i with (Some v, len) => if len =? 0 then dst i else (Some v, match fst (dst i) with Some _ => 0 | None => snd (dst i) end) | (None, _) => dst i end.
Proof.
  intros dst src. destruct (merge_spec src (zseq 0 256) dst (seq_NoDup _ _)) as (out & E & A). exists out. split; [exact E|]. intros i H. apply A. apply zseq_In. lia.
Qed.
Print Assumptions C30_merge_exact.
(* a merged IE that dst had before has length 0 afterwards; one that was absent from an initialised dst (length 0) too *)
Theorem C30_merge_refuted : forall dst src out i v len, osmo_tlvp_merge (fun _ => true) dst src = (0, out) -> 0 <= i < 256 -> src i = (Some v, len) -> len <> 0 ->
  fst (dst i) <> None \/ snd (dst i) = 0 -> out i = (Some v, 0).
Proof.
  intros dst src out i v len E Hi S L D. destruct (C30_merge_exact dst src) as (out' & E' & A). rewrite E in E'. injection E' as <-. rewrite (A i Hi), S.
  replace (len =? 0) with false by lia. destruct (fst (dst i)); [reflexivity|]. destruct D as [D|D]; [congruence|rewrite D; reflexivity].
Qed.
Print Assumptions C30_merge_refuted.
Example C30_nonvacuous : let src : tlv_set := fun i => if i =? 5 then (Some [1; 2], 2) else (None, 0) in let dst : tlv_set := fun _ => (None, 0) in
  snd (osmo_tlvp_merge (fun _ => true) dst src) 5 = (Some [1; 2], 0) /\ osmo_tlvp_copy src 5 = (None, 2).
Proof. split; vm_compute; reflexivity. Qed.

(* ---- C48: the sequential readers ---- *)
Theorem C48_shift_v_fixed : forall data len, 0 <= len < 2147483648 -> let '(rc, d, v) := osmo_shift_v_fixed data len in
  (exists x, data = x ++ d /\ zlen x = len /\ rc = len /\ v = Some x) \/ zlen data < len /\ rc = -1 /\ d = [] /\ v = None.
Proof.
  intros data len H. unfold osmo_shift_v_fixed. destruct (len >? zlen data) eqn:G; [right; repeat split; lia|left]. destruct (split_at data len) as (x & r & -> & V); [lia|].
  exists x. replace (Z.to_nat len) with (length x) by (unfold zlen in V; lia). rewrite firstn_app_exact, skipn_app_exact by reflexivity. repeat split; [exact V|]. apply s32_small. unfold is_s32. lia.
Qed.
Print Assumptions C48_shift_v_fixed.
Theorem C48_match_shift_tv_fixed : forall data tag len, 0 <= len < 2147483647 -> let '(rc, d, v) := osmo_match_shift_tv_fixed data tag len in
  (exists x, data = tag :: x ++ d /\ zlen x = len /\ rc = 1 + len /\ v = Some x) \/
  (exists t r, data = t :: r /\ t <> tag /\ rc = 0 /\ d = data /\ v = None) \/
  ((data = [] \/ exists r, data = tag :: r /\ zlen r < len) /\ rc = -1 /\ d = [] /\ v = None).
Proof.
  intros data tag len H. unfold osmo_match_shift_tv_fixed. destruct data as [|t r]; [right; right; repeat split; left; reflexivity|].
  destruct (Z.eqb_spec t tag) as [->|NE]; cbn [negb]; [|right; left; exists t, r; repeat split; assumption].
  rewrite zlen_cons. destruct (len >? 1 + zlen r - 1) eqn:G; [right; right; repeat split; right; exists r; split; [reflexivity|lia]|].
  left. destruct (split_at r len) as (x & r' & -> & V); [lia|]. exists x. replace (Z.to_nat (len + 1)) with (S (length x)) by (unfold zlen in V; lia). replace (Z.to_nat len) with (length x) by (unfold zlen in V; lia).
  cbn [skipn]. rewrite firstn_app_exact, skipn_app_exact by reflexivity. repeat split; [exact V|]. rewrite s32_small by (unfold is_s32; lia). lia.
Qed.
Print Assumptions C48_match_shift_tv_fixed.
Lemma shift_tlv_spec data : bytes data -> let '(rc, d, o) := osmo_shift_tlv data in
  (exists t x, data = t :: zlen x :: x ++ d /\ rc = 2 + zlen x /\ o = Some (t, x)) \/
  ((forall t x d, data <> t :: zlen x :: x ++ d) /\ rc = -1 /\ d = [] /\ o = None).
Proof.
  intros B. unfold osmo_shift_tlv. destruct data as [|t [|n b]].
  - right. repeat split. intros t x d. discriminate.
  - right. repeat split. intros t' x d. discriminate.
  - pose proof (zlen_nonneg b). rewrite !zlen_cons. replace (_ <? 2) with false by lia. cbv zeta. rewrite at0_1, at0_0. inversion B as [|? ? _ B']; subst. inversion B' as [|? ? Bn _]; subst. unfold is_byte in Bn.
    destruct (n >? 1 + (1 + zlen b) - 2) eqn:G.
    + right. repeat split. intros t' x d E. injection E as -> -> ->. rewrite zlen_app in *. pose proof (zlen_nonneg d). lia.
    + left. destruct (split_at b n) as (x & r & -> & V); [lia|]. exists t, x. subst n. replace (Z.to_nat (zlen x + 2)) with (S (S (length x))) by (unfold zlen; lia). cbn [skipn]. rewrite skipn_app_exact by reflexivity.
      split; [reflexivity|]. split; [rewrite s32_small by (unfold is_s32; lia); lia|]. do 2 f_equal. apply (zslice_mid [t; zlen x] x r); reflexivity.
Qed.
Theorem C48_shift_tlv : forall data, bytes data -> let '(rc, d, o) := osmo_shift_tlv data in
  (exists t x, data = t :: zlen x :: x ++ d /\ rc = 2 + zlen x /\ o = Some (t, x)) \/
  ((forall t x d, data <> t :: zlen x :: x ++ d) /\ rc = -1 /\ d = [] /\ o = None).
Proof. exact shift_tlv_spec. Qed.
Print Assumptions C48_shift_tlv.
Theorem C48_match_shift_tlv : forall data tag, bytes data -> let '(rc, d, o) := osmo_match_shift_tlv data tag in
  (exists x, data = tag :: zlen x :: x ++ d /\ rc = 2 + zlen x /\ o = Some (tag, x)) \/
  (exists t x d', data = t :: zlen x :: x ++ d' /\ t <> tag /\ rc = 0 /\ d = data) \/
  ((forall t x d, data <> t :: zlen x :: x ++ d) /\ rc = -1 /\ d = []).
Proof.
  intros data tag B. unfold osmo_match_shift_tlv. pose proof (shift_tlv_spec data B) as H. destruct (osmo_shift_tlv data) as [[rc d] o]. destruct H as [(t & x & -> & -> & ->)|(N & -> & -> & ->)].
  - pose proof (zlen_nonneg x). destruct (Z.eqb_spec t tag) as [->|NE]; cbn [negb].
    + rewrite andb_false_r. left. exists x. repeat split.
    + replace (2 + zlen x >? 0) with true by lia. cbn [andb]. right. left. exists t, x, d. repeat split. exact NE.
  - right. right. repeat split. exact N.
Qed.
Print Assumptions C48_match_shift_tlv.
Theorem C48_shift_lv : forall data, bytes data -> let '(rc, d, o) := osmo_shift_lv data in
  (exists x, data = zlen x :: x ++ d /\ rc = 1 + zlen x /\ o = Some x) \/
  ((forall x d, data <> zlen x :: x ++ d) /\ rc = -1 /\ d = [] /\ o = None).
Proof.
  intros data B. unfold osmo_shift_lv. destruct data as [|n b]; [right; repeat split; intros x d; discriminate|].
  pose proof (zlen_nonneg b). rewrite !zlen_cons. replace (_ <? 1) with false by lia. cbv zeta. rewrite at0_0. inversion B as [|? ? Bn _]; subst. unfold is_byte in Bn.
  destruct (n >? 1 + zlen b - 1) eqn:G.
  - right. repeat split. intros x d E. injection E as -> ->. rewrite zlen_app in *. pose proof (zlen_nonneg d). lia.
  - left. destruct (split_at b n) as (x & r & -> & V); [lia|]. exists x. subst n. replace (Z.to_nat (zlen x + 1)) with (S (length x)) by (unfold zlen; lia). cbn [skipn]. rewrite skipn_app_exact by reflexivity.
    split; [reflexivity|]. split; [rewrite s32_small by (unfold is_s32; lia); lia|]. f_equal. apply (zslice_mid [zlen x] x r); reflexivity.
Qed.
Print Assumptions C48_shift_lv.
Example C48_nonvacuous : osmo_shift_tlv [7; 2; 1; 2; 3] = (4, [3], Some (7, [1; 2])) /\ osmo_match_shift_tlv [7; 2; 1; 2; 3] 8 = (0, [7; 2; 1; 2; 3], Some (7, [1; 2])) /\ osmo_shift_tlv [7; 2; 1] = (-1, [], None).
Proof. repeat split; vm_compute; reflexivity. Qed.

(* ---- C49: validation against a protocol definition, and patching of tables ---- *)
Lemma mand_loop_spec tp : forall mand err, mand_loop mand tp err = if negb (err =? 0) then err else if existsb (fun i => match fst (tp i) with None => true | _ => false end) mand then u32 (-50) else err.
Proof.
  induction mand as [|i r IH]; intros err; cbn [mand_loop existsb]; [destruct (negb _); reflexivity|]. rewrite IH. destruct (fst (tp i)); [reflexivity|]. destruct (Z.eqb_spec err 0) as [->|N]; cbn [negb orb]; [reflexivity|].
  replace (err =? 0) with false by lia. reflexivity.
Qed.
Lemma min_loop_spec min_len tp : forall tags err, min_loop tags min_len tp err =
  if negb (err =? 0) then err else if existsb (fun i => match fst (tp i) with None => false | _ => snd (tp i) <? min_len i end) tags then u32 (-51) else err.
Proof.
  induction tags as [|i r IH]; intros err; cbn [min_loop existsb]; [destruct (negb _); reflexivity|]. rewrite IH. destruct (fst (tp i)); [|reflexivity]. destruct (snd (tp i) <? min_len i); [|reflexivity].
  destruct (Z.eqb_spec err 0) as [->|N]; cbn [negb orb]; [reflexivity|]. replace (err =? 0) with false by lia. reflexivity.
Qed.
Theorem C49_validate : forall mand min_len tp, let rc := osmo_tlv_prot_validate_tp mand min_len tp in
  ((exists i, In i mand /\ fst (tp i) = None) -> rc = -50) /\
  ((forall i, In i mand -> fst (tp i) <> None) -> (exists i, 0 <= i < 256 /\ fst (tp i) <> None /\ snd (tp i) < min_len i) -> rc = -51) /\
  ((forall i, In i mand -> fst (tp i) <> None) -> (forall i, 0 <= i < 256 -> fst (tp i) <> None -> min_len i <= snd (tp i)) -> rc = 0).
Proof.
  intros mand min_len tp rc. unfold rc, osmo_tlv_prot_validate_tp. rewrite min_loop_spec, mand_loop_spec. cbn [Z.eqb negb].
  assert (M : (exists i, In i mand /\ fst (tp i) = None) <-> existsb (fun i => match fst (tp i) with None => true | _ => false end) mand = true).
  { rewrite existsb_exists. split; intros (i & H & N); exists i; (split; [exact H|]); destruct (fst (tp i)); congruence. }
  assert (S : (exists i, 0 <= i < 256 /\ fst (tp i) <> None /\ snd (tp i) < min_len i) <-> existsb (fun i => match fst (tp i) with None => false | _ => snd (tp i) <? min_len i end) (zseq 0 256) = true).
  { rewrite existsb_exists. split.
    - intros (i & H & P & L). exists i. split; [apply zseq_In; lia|]. destruct (fst (tp i)); [lia|congruence].
    - intros (i & H & L). apply zseq_In in H. exists i. split; [lia|]. destruct (fst (tp i)); [|discriminate]. split; [discriminate|lia]. }
  destruct (existsb _ mand) eqn:EM; destruct (existsb _ (zseq 0 256)) eqn:ES; repeat split; intros; try reflexivity; exfalso;
    repeat match goal with H : ?P <-> true = true |- _ => destruct H as [_ H]; specialize (H eq_refl) | H : ?P <-> false = true |- _ => destruct H as [H _] end;
    repeat match goal with H : exists i, _ |- _ => let i := fresh "i" in destruct H as (i & H) end;
    repeat match goal with H : _ /\ _ |- _ => destruct H end;
    try (match goal with H : (exists i, _) -> false = true |- _ => cut (false = true); [discriminate|apply H; eexists; repeat split; eassumption] end);
    try (match goal with H : forall i, In i mand -> _, I : In _ mand, N : fst _ = None |- _ => exact (H _ I N) end);
    match goal with H : forall i, 0 <= i < 256 -> fst (tp i) <> None -> _, I : 0 <= ?j, N : fst (tp ?j) <> None |- _ => specialize (H j ltac:(lia) N); lia end.
Qed.
Print Assumptions C49_validate.
(* osmo_tlv_prot_parse: a message without leading LVs is accepted exactly when it is well formed, complete and nothing is too short *)
Theorem C49_prot_parse : forall def mand min_len n buf, table_ok def -> bytes buf -> (1 <= n)%nat -> exists rc dec, osmo_tlv_prot_parse def mand min_len n buf 0 0 = Ok (rc, dec) /\
  (rc = 0 <-> exists l, message def 0 0 buf l /\ (forall i, In i mand -> occurrences i l <> []) /\
     forall i v r, 0 <= i < 256 -> occurrences i l = v :: r -> min_len i <= zlen v).
Proof.
  intros def mand min_len n buf F B N. unfold osmo_tlv_prot_parse. destruct (parse2_spec n def buf 0 0 B F) as [(l & dec & M & E & L & A & _)|[(NM & _ & c & dec & E & C & L)|(_ & O & E)]]; [tauto| | |destruct O as [[X _]|[X _]]; congruence].
  - rewrite E. cbn [bind]. pose proof (zlen_nonneg l). replace (zlen l <? 0) with false by lia. destruct dec as [|d dec]; [cbn in L; lia|]. eexists _, _. split; [reflexivity|].
    assert (V : forall t, value buf (d t) = as_entry (nth_error (occurrences t l) 0)) by (intros t; apply (A 0%nat t); cbn; lia).
    assert (P : forall t, fst (d t) <> None <-> occurrences t l <> []).
    { intros t. specialize (V t). unfold value in V. destruct (fst (d t)), (occurrences t l); cbn in V; split; intros; congruence. }
    assert (LN : forall t v r, occurrences t l = v :: r -> snd (d t) = zlen v).
    { intros t v r Q. specialize (V t). rewrite Q in V. unfold value in V. destruct (fst (d t)); cbn in V; [injection V as V _; exact V|discriminate]. }
    destruct (C49_validate mand min_len d) as (V1 & V2 & V3). cbv zeta in *. split.
    + intros R. exists l. split; [exact M|]. split.
      * intros i I Q. rewrite V1 in R; [discriminate|]. exists i. split; [exact I|]. destruct (fst (d i)) eqn:D; [|reflexivity]. exfalso. apply (proj1 (P i)); [rewrite D; discriminate|exact Q].
      * intros i v r Hi Q. destruct (Z_le_gt_dec (min_len i) (zlen v)) as [|G]; [assumption|exfalso].
        assert (X : osmo_tlv_prot_validate_tp mand min_len d = -50 \/ osmo_tlv_prot_validate_tp mand min_len d = -51).
        { destruct (existsb (fun i => match fst (d i) with None => true | _ => false end) mand) eqn:EX.
          - left. apply V1. apply existsb_exists in EX as (j & J & D). exists j. split; [exact J|]. destruct (fst (d j)); [discriminate|reflexivity].
          - right. apply V2.
            + intros j J D. assert (Y : existsb (fun i => match fst (d i) with None => true | _ => false end) mand = true) by (apply existsb_exists; exists j; split; [exact J|rewrite D; reflexivity]). congruence.
            + exists i. split; [exact Hi|]. split; [apply P; rewrite Q; discriminate|rewrite (LN i v r Q); lia]. }
        lia.
    + intros (l' & M' & MA & MI). assert (l' = l) as -> by (eapply message_fun; eassumption).
      apply V3; [intros i I; apply P; apply MA; exact I|]. intros i Hi D. destruct (occurrences i l) as [|v r] eqn:Q; [apply P in D; congruence|]. rewrite (LN i v r Q). apply (MI i v r Hi Q).
  - rewrite E. cbn [bind]. replace (c <? 0) with true by (cbn in C; lia). eexists _, _. split; [reflexivity|]. split; [intros ->; cbn in C; lia|]. intros (l & M & _). exfalso. exact (NM _ M).
Qed.
Print Assumptions C49_prot_parse.
(* tlv_def_patch: empty slots of dst, and only those, take the definition of src *)
Theorem C49_def_patch : forall (dst src : tlv_definition) i, (fst (dst i) <> TYPE_NONE -> tlv_def_patch dst src i = dst i) /\
  (fst (dst i) = TYPE_NONE -> fst (src i) <> TYPE_NONE -> tlv_def_patch dst src i = src i) /\
  (fst (dst i) = TYPE_NONE -> fst (src i) = TYPE_NONE -> tlv_def_patch dst src i = dst i).
Proof.
  intros dst src i. unfold tlv_def_patch. destruct (type_eqb (fst (src i)) TYPE_NONE) eqn:S; destruct (type_eqb (fst (dst i)) TYPE_NONE) eqn:D;
    repeat match goal with H : type_eqb _ _ = true |- _ => apply type_eqb_eq in H end; repeat split; intros; try reflexivity; try congruence;
    exfalso; match goal with H : fst _ = TYPE_NONE |- _ => apply type_eqb_eq in H; congruence end.
Qed.
Print Assumptions C49_def_patch.
Example C49_nonvacuous : osmo_tlv_prot_parse sample_def [1] (fun i => if i =? 1 then 2 else 0) 1 [1; 1; 9] 0 0 <> UB /\
  (exists d, osmo_tlv_prot_parse sample_def [1] (fun i => if i =? 1 then 2 else 0) 1 [1; 1; 9] 0 0 = Ok (-51, d)) /\
  (exists d, osmo_tlv_prot_parse sample_def [1] (fun i => if i =? 1 then 2 else 0) 1 [1; 2; 9; 9] 0 0 = Ok (0, d)) /\
  (exists d, osmo_tlv_prot_parse sample_def [1] (fun i => if i =? 1 then 2 else 0) 1 [2; 9] 0 0 = Ok (-50, d)).
Proof. split; [vm_compute; discriminate|]. repeat split; eexists; vm_compute; reflexivity. Qed.
