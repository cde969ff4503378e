(** C68: SMS time stamps, validity periods and alphabets follow TS 23.040 and TS 23.038. *)
From Verif Require Import Base M_smsutil S_smsutil P_smsutil.

(** Two-digit numbers: every number below 100 is coded as two decimal semi-octets and read back unchanged, every octet of two
    decimal digits is the code of the number it stands for. *)
Theorem C68_digits :
  (forall v, 0 <= v < 100 -> gsm411_bcdify v = semi v /\ decimal (gsm411_bcdify v) /\ gsm411_unbcdify (gsm411_bcdify v) = v) /\
  (forall b, is_byte b -> decimal b -> 0 <= gsm411_unbcdify b < 100 /\ gsm411_bcdify (gsm411_unbcdify b) = b).
Proof.
  split.
  - intros v H. destruct (bcdify_ok v H) as (A & B & C & D). rewrite A. split; [reflexivity|]. split; [exact B|].
    destruct (unbcdify_ok (semi v)) as (E & _); [unfold is_byte; lia|]. rewrite E. exact C.
  - intros b H D. destruct (unbcdify_ok b H) as (E & _ & F). rewrite E. exact (F D).
Qed.
Print Assumptions C68_digits.
Example C68_digits_nonvacuous : gsm411_bcdify 47 = 116 /\ decimal 116 /\ gsm411_unbcdify 116 = 47.
Proof. split; [reflexivity|]. split; [split; vm_compute; split; discriminate|reflexivity]. Qed.

(** A calendar time as localtime delivers it *)
Definition calendar (t : tm) : Prop :=
  0 <= tm_year t /\ 0 <= tm_mon t <= 11 /\ 1 <= tm_mday t <= 31 /\ 0 <= tm_hour t <= 23 /\ 0 <= tm_min t <= 59 /\ 0 <= tm_sec t <= 60.

(** Writing a time stamp: exactly seven octets are written: year of the century, month counted from one, day, hour, minute,
    second and zone in quarters of an hour (zones at or east of Greenwich); what lies behind is untouched. *)
Theorem C68_write_partial : forall t o a b c d e f g rest,
  calendar t -> (forall q, o = Some q -> 0 <= q < 90000) ->
  gsm340_gen_scts (a :: b :: c :: d :: e :: f :: g :: rest) t o =
  Ok ([semi (tm_year t mod 100); semi (tm_mon t + 1); semi (tm_mday t); semi (tm_hour t); semi (tm_min t); semi (tm_sec t);
       match o with Some q => semi (q / 900) | None => 0 end] ++ rest).
Proof.
  intros t o a b c d e f g rest (Hy & Hm & Hd & Hh & Hi & Hs) Ho. unfold gsm340_gen_scts. rewrite wr7. cbn [app].
  rewrite Z.rem_mod_nonneg by lia. pose proof (Z.mod_pos_bound (tm_year t) 100 ltac:(lia)).
  rewrite (proj1 (bcdify_ok (tm_year t mod 100) ltac:(lia))), (proj1 (bcdify_ok (tm_mon t + 1) ltac:(lia))),
    (proj1 (bcdify_ok (tm_mday t) ltac:(lia))), (proj1 (bcdify_ok (tm_hour t) ltac:(lia))),
    (proj1 (bcdify_ok (tm_min t) ltac:(lia))), (proj1 (bcdify_ok (tm_sec t) ltac:(lia))).
  destruct o as [q|]; [|reflexivity]. specialize (Ho q eq_refl). change (60 * 15) with 900.
  rewrite Z.quot_div_nonneg by lia. rewrite (proj1 (bcdify_ok (q / 900) ltac:(split; [apply Z.div_pos; lia|apply Z.div_lt_upper_bound; lia]))).
  reflexivity.
Qed.
Print Assumptions C68_write_partial.
Example C68_write_nonvacuous : calendar (Tm 126 10 17 4 48 30) /\
  gsm340_gen_scts (repeat 255 8) (Tm 126 10 17 4 48 30) (Some 7200) = Ok [98; 17; 113; 64; 132; 3; 128; 255].
Proof. split; [unfold calendar; cbn; lia|reflexivity]. Qed.

(** A zone west of Greenwich is neither written nor read as TS 23.040 says (sign in bit 3 of the octet): one hour west is four
    quarters, 0x48; what is written stands for 93 quarters east, and 0x48 is read as 84 quarters east. *)
Theorem C68_west_refuted : forall t a b c d e f g mktime s0 s1 s2 s3 s4 s5,
  (exists l, gsm340_gen_scts [a; b; c; d; e; f; g] t (Some (-3600)) = Ok l /\ nth_error l 6 = Some (semi 93) /\ semi 93 <> 72) /\
  (exists z, gsm340_scts false mktime [s0; s1; s2; s3; s4; s5; 0] = Ok z /\
             gsm340_scts false mktime [s0; s1; s2; s3; s4; s5; 72] = Ok (z - 84 * 900)).
Proof.
  intros. split.
  - unfold gsm340_gen_scts. rewrite wr7. eexists. split; [reflexivity|]. split; [reflexivity|vm_compute; discriminate].
  - unfold gsm340_scts. eexists. split; [reflexivity|]. change (gsm411_unbcdify 72) with 84. change (gsm411_unbcdify 0) with 0.
    cbv [rd Z.ltb Z.compare Z.to_nat Pos.to_nat Pos.iter_op Nat.add nth_error bind]. change (gsm411_unbcdify 72) with 84. change (gsm411_unbcdify 0) with 0. f_equal. lia.
Qed.
Print Assumptions C68_west_refuted.

(** Reading a time stamp, where struct tm has no tm_gmtoff: two-digit years up to 80 are in this century, the others in the last;
    the zone, in quarters of an hour, is subtracted.  Nothing outside the seven octets is read. *)
Theorem C68_read_partial : forall mktime y mo d h mi s z rest,
  is_byte y -> is_byte mo -> is_byte d -> is_byte h -> is_byte mi -> is_byte s -> is_byte z ->
  gsm340_scts false mktime ([y; mo; d; h; mi; s; z] ++ rest) =
  Ok (mktime (Tm (if number y <=? 80 then 100 + number y else number y) (number mo - 1) (number d) (number h) (number mi) (number s))
      - number z * 900).
Proof.
  intros. unfold gsm340_scts. cbn [app]. cbv [rd Z.ltb Z.compare Z.to_nat Pos.to_nat Pos.iter_op Nat.add nth_error bind].
  rewrite !(fun b B => proj1 (unbcdify_ok b B)) by assumption. f_equal. lia.
Qed.
Print Assumptions C68_read_partial.
Example C68_read_nonvacuous : forall mk, gsm340_scts false mk [98; 17; 113; 64; 132; 3; 128] = Ok (mk (Tm 126 10 17 4 48 30) - 7200).
Proof. reflexivity. Qed.

(** Where struct tm has tm_gmtoff (as with glibc), the zone is taken from the octet behind the time stamp: a time stamp at the end
    of its buffer is read out of bounds, and elsewhere two equal time stamps can be read as different times. *)
Theorem C68_read_behind_refuted :
  (forall mktime y mo d h mi s z, gsm340_scts true mktime [y; mo; d; h; mi; s; z] = UB) /\
  (forall mktime y mo d h mi s z n rest, is_byte y -> is_byte mo -> is_byte d -> is_byte h -> is_byte mi -> is_byte s -> is_byte n ->
   gsm340_scts true mktime ([y; mo; d; h; mi; s; z; n] ++ rest) =
   Ok (mktime (Tm (if number y <=? 80 then 100 + number y else number y) (number mo - 1) (number d) (number h) (number mi) (number s))
       - number n * 900)).
Proof.
  split.
  - reflexivity.
  - intros. unfold gsm340_scts. cbn [app]. cbv [rd Z.ltb Z.compare Z.to_nat Pos.to_nat Pos.iter_op Nat.add nth_error bind].
    rewrite !(fun b B => proj1 (unbcdify_ok b B)) by assumption. f_equal. lia.
Qed.
Print Assumptions C68_read_behind_refuted.

(** What is written is read back: for local times of the years 1981 to 2080 at or east of Greenwich, all fields come back and
    the zone, in whole quarters of an hour, is subtracted once. *)
Theorem C68_roundtrip_partial : forall mktime t q buf rest l,
  calendar t -> 81 <= tm_year t <= 180 -> 0 <= q < 100 -> length buf = 7%nat ->
  gsm340_gen_scts (buf ++ rest) t (Some (q * 900)) = Ok l ->
  gsm340_scts false mktime l = Ok (mktime t - q * 900).
Proof.
  intros mktime t q buf rest l C Hy Hq Hl E.
  destruct buf as [|a [|b [|c [|d [|e [|f [|g [|]]]]]]]]; cbn [length] in Hl; try discriminate. cbn [app] in E.
  rewrite C68_write_partial in E by (try exact C; intros ? [= <-]; lia). injection E as <-.
  destruct C as (_ & Hm & Hd & Hh & Hi & Hs). rewrite Z.div_mul by lia.
  pose proof (Z.mod_pos_bound (tm_year t) 100 ltac:(lia)) as B.
  destruct (bcdify_ok (tm_year t mod 100) ltac:(lia)) as (_ & _ & Ny & By).
  destruct (bcdify_ok (tm_mon t + 1) ltac:(lia)) as (_ & _ & Nm & Bm). destruct (bcdify_ok (tm_mday t) ltac:(lia)) as (_ & _ & Nd & Bd).
  destruct (bcdify_ok (tm_hour t) ltac:(lia)) as (_ & _ & Nh & Bh). destruct (bcdify_ok (tm_min t) ltac:(lia)) as (_ & _ & Ni & Bi).
  destruct (bcdify_ok (tm_sec t) ltac:(lia)) as (_ & _ & Ns & Bs). destruct (bcdify_ok q ltac:(lia)) as (_ & _ & Nq & Bq).
  etransitivity; [apply (C68_read_partial mktime (semi (tm_year t mod 100)) (semi (tm_mon t + 1)) (semi (tm_mday t)) (semi (tm_hour t)) (semi (tm_min t)) (semi (tm_sec t)) (semi q) rest); unfold is_byte; lia|].
  rewrite Ny, Nm, Nd, Nh, Ni, Ns, Nq.
  f_equal. f_equal. f_equal. destruct t as [y mo dd hh mm ss]. cbn [tm_year tm_mon tm_mday tm_hour tm_min tm_sec] in *.
  f_equal; [|lia]. destruct (Z.leb_spec (y mod 100) 80).
  - assert (y = 100 + y mod 100); [|lia]. pose proof (Z.div_mod y 100 ltac:(lia)). assert (y / 100 = 1); [|lia].
    assert (y / 100 = 0 \/ y / 100 = 1) as [K|K]; [|lia|exact K]. assert (0 <= y / 100 < 2); [|lia]. split; [apply Z.div_pos; lia|apply Z.div_lt_upper_bound; lia].
  - pose proof (Z.div_mod y 100 ltac:(lia)). assert (y / 100 = 0 \/ y / 100 = 1) as [K|K]; [|lia|lia].
    assert (0 <= y / 100 < 2); [|lia]. split; [apply Z.div_pos; lia|apply Z.div_lt_upper_bound; lia].
Qed.
Print Assumptions C68_roundtrip_partial.
Example C68_roundtrip_nonvacuous : calendar (Tm 180 0 1 23 59 60) /\
  exists l, gsm340_gen_scts (repeat 0 7 ++ [1]) (Tm 180 0 1 23 59 60) (Some (22 * 900)) = Ok l /\
            forall mk, gsm340_scts false mk l = Ok (mk (Tm 180 0 1 23 59 60) - 22 * 900).
Proof. split; [unfold calendar; cbn; lia|]. eexists. split; [vm_compute; reflexivity|reflexivity]. Qed.

(** Relative validity periods: the table of TS 23.040, whatever lies behind the octet; a larger octet is a longer period. *)
Theorem C68_relative :
  (forall g mktime now v rest m, is_byte v -> gsm340_validity_period g mktime now 2 (v :: rest) = Ok m <-> relative v m) /\
  (forall g mktime now v w rest rest' m n, is_byte v -> is_byte w ->
   gsm340_validity_period g mktime now 2 (v :: rest) = Ok m -> gsm340_validity_period g mktime now 2 (w :: rest') = Ok n ->
   v < w -> m < n) /\
  (forall g mktime now v rest, is_byte v -> exists m, gsm340_validity_period g mktime now 2 (v :: rest) = Ok m /\ 5 <= m <= 63 * 7 * 24 * 60).
Proof.
  split; [|split].
  - intros g mktime now v rest m B. exact (relative_ok v B rest m).
  - intros g mktime now v w rest rest' m n B C E F L. apply (relative_ok v B) in E. apply (relative_ok w C) in F.
    inversion E; inversion F; subst; lia.
  - intros g mktime now v rest B. change (gsm340_validity_period g mktime now 2 (v :: rest)) with (gsm340_vp_relative (v :: rest)).
    destruct (gsm340_vp_relative (v :: rest)) as [m| | |] eqn:E; try (unfold gsm340_vp_relative in E; rewrite rd_cons0 in E; discriminate E).
    exists m. split; [reflexivity|]. apply (relative_ok v B) in E. inversion E; subst; lia.
Qed.
Print Assumptions C68_relative.
Example C68_relative_nonvacuous : forall g mk now, gsm340_validity_period g mk now 2 [167] = Ok 1440 /\ gsm340_validity_period g mk now 2 [168] = Ok 2880.
Proof. split; reflexivity. Qed.

(** Enhanced validity periods: no period given or a reserved format: two days; the first octet's bit 7 says that one more octet
    comes before the period; a format of seconds or hours, minutes and seconds is reported in whole minutes. *)
Theorem C68_enhanced : forall g mktime now fi rest, is_byte fi ->
  let body := if 128 <=? fi then tl rest else rest in
  (fi mod 8 = 0 \/ 4 <= fi mod 8 -> gsm340_validity_period g mktime now 1 (fi :: rest) = Ok (2 * 24 * 60)) /\
  (fi mod 8 = 1 -> forall v r, body = v :: r -> is_byte v -> forall m, gsm340_validity_period g mktime now 1 (fi :: rest) = Ok m <-> relative v m) /\
  (fi mod 8 = 2 -> forall v r, body = v :: r -> is_byte v -> gsm340_validity_period g mktime now 1 (fi :: rest) = Ok (if v =? 0 then 2 * 24 * 60 else v / 60)) /\
  (fi mod 8 = 3 -> forall h m s r, body = h :: m :: s :: r -> is_byte h -> is_byte m -> is_byte s ->
   gsm340_validity_period g mktime now 1 (fi :: rest) = Ok ((number h * 3600 + number m * 60 + number s) / 60)).
Proof.
  intros g mktime now fi rest B body.
  assert (K7 : Z.land fi 7 = fi mod 8) by (change 7 with (Z.ones 3); rewrite Z.land_ones by lia; reflexivity).
  assert (K128 : negb (Z.land fi 128 =? 0) = (128 <=? fi)).
  { set (P := fun b => Bool.eqb (negb (Z.land b 128 =? 0)) (128 <=? b)).
    apply Bool.eqb_prop. exact (forall_byte P ltac:(vm_compute; reflexivity) fi B). }
  assert (SK : (if negb (Z.land fi 128 =? 0) then skipn 1 rest else rest) = body).
  { rewrite K128. unfold body. destruct (128 <=? fi); [destruct rest; reflexivity|reflexivity]. }
  pose proof (Z.mod_pos_bound fi 8 ltac:(lia)) as R.
  assert (U : gsm340_validity_period g mktime now 1 (fi :: rest) =
    (if fi mod 8 =? 0 then Ok gsm340_vp_default else if fi mod 8 =? 1 then gsm340_vp_relative body else
     if fi mod 8 =? 2 then gsm340_vp_relative_integer body else if fi mod 8 =? 3 then gsm340_vp_relative_semioctet body else Ok gsm340_vp_default)).
  { unfold gsm340_validity_period. change (1 =? 2) with false. change (1 =? 3) with false. change (1 =? 1) with true. cbv iota.
    rewrite rd_cons0. cbn [bind]. change (skipn 1 (fi :: rest)) with rest. cbv zeta. rewrite SK, K7. reflexivity. }
  rewrite U. clear U SK K7 K128. split; [|split; [|split]].
  - intros [->|H]; [reflexivity|]. repeat (match goal with |- context [?x =? ?y] => destruct (Z.eqb_spec x y); [lia|] end). reflexivity.
  - intros -> v r Eb Bv m. cbn [Z.eqb Pos.eqb]. rewrite Eb. exact (relative_ok v Bv r m).
  - intros -> v r Eb Bv. cbn [Z.eqb Pos.eqb]. rewrite Eb. unfold gsm340_vp_relative_integer. rewrite rd_cons0. cbn [bind].
    unfold is_byte in Bv. destruct (Z.eqb_spec v 0); [reflexivity|]. rewrite Z.quot_div_nonneg by lia. reflexivity.
  - intros -> h m s r Eb Bh Bm Bs. cbn [Z.eqb Pos.eqb]. rewrite Eb. unfold gsm340_vp_relative_semioctet.
    cbv [rd Z.ltb Z.compare Z.to_nat Pos.to_nat Pos.iter_op Nat.add nth_error bind].
    destruct (unbcdify_ok h Bh) as (-> & ? & _). destruct (unbcdify_ok m Bm) as (-> & ? & _). destruct (unbcdify_ok s Bs) as (-> & ? & _).
    f_equal. rewrite Z.quot_div_nonneg by lia.
    replace (number h * 3600 + number m * 60 + number s) with (number s + (number h * 60 + number m) * 60) by lia.
    rewrite Z.div_add by lia. lia.
Qed.
Print Assumptions C68_enhanced.
Example C68_enhanced_nonvacuous : forall g mk now,
  gsm340_validity_period g mk now 1 [131; 9; 33; 3; 149] = Ok (12 * 60 + 30) /\ gsm340_validity_period g mk now 1 [2; 180] = Ok 3.
Proof. split; reflexivity. Qed.

(** Absolute validity periods, where struct tm has no tm_gmtoff: whole minutes left until the time stamp, zero once it has passed;
    no validity period, or an unknown format: two days, without reading anything. *)
Theorem C68_absolute :
  (forall mktime now ts rest e, length ts = 7%nat -> gsm340_scts false mktime ts = Ok e ->
   gsm340_validity_period false mktime now 3 (ts ++ rest) = Ok (Z.max 0 ((e - now) / 60))) /\
  (forall g mktime now f vp, f <> 1 -> f <> 2 -> f <> 3 -> gsm340_validity_period g mktime now f vp = Ok (2 * 24 * 60)).
Proof.
  split.
  - intros mktime now ts rest e Hl E. unfold gsm340_validity_period. change (3 =? 2) with false. change (3 =? 3) with true. cbv iota.
    unfold gsm340_vp_absolute.
    destruct ts as [|a [|b [|c [|d [|f [|g [|h [|]]]]]]]]; cbn [length] in Hl; try discriminate.
    assert (E' : gsm340_scts false mktime ([a; b; c; d; f; g; h] ++ rest) = Ok e) by exact E. rewrite E'. cbn [bind]. f_equal.
    destruct (Z.leb_spec e now).
    + assert ((e - now) / 60 <= 0); [|lia]. destruct (Z.eq_dec e now) as [->|]; [rewrite Z.sub_diag; cbn; lia|].
      assert ((e - now) / 60 < 0); [apply Z.div_lt_upper_bound; lia|lia].
    + rewrite Z.quot_div_nonneg by lia. pose proof (Z.div_pos (e - now) 60 ltac:(lia) ltac:(lia)). lia.
  - intros g mktime now f vp A B C. unfold gsm340_validity_period.
    destruct (Z.eqb_spec f 2); [contradiction|]. destruct (Z.eqb_spec f 3); [contradiction|]. destruct (Z.eqb_spec f 1); [contradiction|]. reflexivity.
Qed.
Print Assumptions C68_absolute.
Example C68_absolute_nonvacuous : gsm340_validity_period false (fun t => tm_hour t * 3600 + tm_min t * 60 + tm_sec t) 100 3 [98; 17; 113; 32; 132; 3; 0] = Ok 166 /\
  gsm340_validity_period false (fun t => 99) 100 3 [98; 17; 113; 32; 132; 3; 0] = Ok 0 /\ gsm340_validity_period true (fun _ => 5) 100 0 [] = Ok 2880.
Proof. split; [|split]; reflexivity. Qed.

(** The alphabet as the caller sees it *)
Definition answer (a : alphabet) : Z := match a with Compressed => -1 | Reserved => DCS_NONE | GSM7 => DCS_7BIT_DEFAULT | Octets => DCS_8BIT_DATA | Ucs2 => DCS_UCS2 end.
(** The alphabet is the one of TS 23.038, except for messages marked for automatic deletion (groups 0100 to 0111), for which it is
    always reported as unknown. *)
Theorem C68_alphabet_partial : forall dcs, is_byte dcs ->
  (dcs / 64 <> 1 -> gsm338_get_sms_alphabet dcs = answer (ts23038 dcs)) /\
  (dcs / 64 = 1 -> gsm338_get_sms_alphabet dcs = DCS_NONE).
Proof.
  intros dcs B. set (P := fun d => if d / 64 =? 1 then gsm338_get_sms_alphabet d =? 0 else gsm338_get_sms_alphabet d =? answer (ts23038 d)).
  assert (Q : P dcs = true) by (apply (forall_byte P); [vm_compute; reflexivity|exact B]). unfold P in Q.
  destruct (Z.eqb_spec (dcs / 64) 1); apply Z.eqb_eq in Q; split; intros; try contradiction; exact Q.
Qed.
Print Assumptions C68_alphabet_partial.
Example C68_alphabet_nonvacuous : gsm338_get_sms_alphabet 8 = DCS_UCS2 /\ gsm338_get_sms_alphabet 0xf4 = DCS_8BIT_DATA /\ gsm338_get_sms_alphabet 0x24 = -1.
Proof. split; [|split]; reflexivity. Qed.
(** A message marked for automatic deletion in the default alphabet is not reported as such. *)
Theorem C68_alphabet_deletion_refuted : exists dcs, is_byte dcs /\ ts23038 dcs = GSM7 /\ gsm338_get_sms_alphabet dcs <> DCS_7BIT_DEFAULT.
Proof. exists 64. split; [unfold is_byte; lia|]. split; [reflexivity|discriminate]. Qed.
Print Assumptions C68_alphabet_deletion_refuted.
