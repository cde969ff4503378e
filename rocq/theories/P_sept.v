From Verif Require Import Base Lib S_sept M_sept.

Ltac pw := repeat match goal with |- context [2 ^ ?e] => let v := eval vm_compute in (2 ^ e) in change (2 ^ e) with v end.

Lemma land127 x : Z.land x 127 = x mod 128.
Proof. change 127 with (Z.ones 7). rewrite Z.land_ones by lia. reflexivity. Qed.
Lemma land7 x : Z.land x 7 = x mod 8.
Proof. change 7 with (Z.ones 3). rewrite Z.land_ones by lia. reflexivity. Qed.
Lemma sept_val_nonneg l : 0 <= sept_val l.
Proof. induction l; cbn [sept_val]; lia. Qed.
Lemma sept_val_bound l : sept_val l < 2 ^ (7 * zlen l).
Proof.
  induction l as [|x l IH]; [cbn; lia|]. cbn [sept_val]. rewrite zlen_cons.
  replace (7 * (1 + zlen l)) with (7 + 7 * zlen l) by lia. rewrite Z.pow_add_r by (pose proof (zlen_nonneg l); lia). change (2 ^ 7) with 128. lia.
Qed.

(* pure packing: the octets produced by the loop *)
Fixpoint packed (d : list Z) (s : nat) : list Z :=
  match d with
  | [] => []
  | x :: r =>
    match s with
    | 7%nat => match r with [] => [] | _ => packed r 0 end
    | _ => (match r with y :: _ => Z.lor (Z.shiftr (Z.land x 127) (Z.of_nat s)) (u8 (Z.shiftl (Z.land y 127) (7 - Z.of_nat s)))
            | [] => Z.shiftr (Z.land x 127) (Z.of_nat s) end) :: packed r (S s)
    end
  end.

Lemma pack_loop_packed d : forall s z result, (s <= 7)%nat -> 0 <= z ->
  pack_loop d (Z.of_nat s) z result = puts result z (packed d s).
Proof.
  induction d as [|x r IH]; intros s z result Hs Hz; [reflexivity|].
  cbn [pack_loop]. destruct (Z.eqb_spec (Z.of_nat s) 7) as [E|E].
  - assert (s = 7%nat) by lia. subst s. destruct r; [reflexivity|]. exact (IH 0%nat z result ltac:(lia) Hz).
  - replace (Z.of_nat s <? 0) with false by lia.
    assert (P : packed (x :: r) s = (match r with y :: _ => Z.lor (Z.shiftr (Z.land x 127) (Z.of_nat s)) (u8 (Z.shiftl (Z.land y 127) (7 - Z.of_nat s)))
            | [] => Z.shiftr (Z.land x 127) (Z.of_nat s) end) :: packed r (S s)).
    { do 8 (destruct s as [|s]; [try reflexivity; lia|]). lia. }
    rewrite P. cbn [puts]. destruct r as [|y r'].
    + destruct (wr result z _); cbn [bind]; try reflexivity.
    + destruct (wr result z _) as [m|?| |]; cbn [bind]; try reflexivity.
      rewrite <- (IH (S s) (z + 1) m ltac:(lia) ltac:(lia)). rewrite Nat2Z.inj_succ. f_equal.
Qed.

Lemma octet_eq s x y v : (s < 7)%nat ->
  let c := Z.lor (Z.shiftr (Z.land x 127) (Z.of_nat s)) (u8 (Z.shiftl (Z.land y 127) (7 - Z.of_nat s))) in
  is_byte c /\ (x mod 128 + 128 * (y mod 128 + 128 * v)) / 2 ^ Z.of_nat s = c + 256 * ((y mod 128 + 128 * v) / 2 ^ (Z.of_nat s + 1)).
Proof.
  intros Hs c. assert (E : c = x mod 128 / 2 ^ Z.of_nat s + (y mod 128) mod 2 ^ (Z.of_nat s + 1) * 2 ^ (7 - Z.of_nat s)).
  { subst c. rewrite !land127. rewrite Z.shiftr_div_pow2 by lia.
    assert (U : u8 (Z.shiftl (y mod 128) (7 - Z.of_nat s)) = Z.shiftl ((y mod 128) mod 2 ^ (Z.of_nat s + 1)) (7 - Z.of_nat s)).
    { rewrite !Z.shiftl_mul_pow2 by lia. unfold u8. do 7 (destruct s as [|s]; [pw; lia|]). lia. }
    rewrite U. apply lor_shiftl_add; [lia|].
    do 7 (destruct s as [|s]; [pw; lia|]). lia. }
  rewrite E. clear E c. pose proof (Z.mod_pos_bound x 128 ltac:(lia)). pose proof (Z.mod_pos_bound y 128 ltac:(lia)).
  revert H H0. generalize (x mod 128) (y mod 128). intros a b Ha Hb.
  do 7 (destruct s as [|s]; [unfold is_byte; pw; split; lia|]). lia.
Qed.

Lemma packed_spec d : forall s, (s <= 7)%nat ->
  le_val (packed d s) = sept_val d / 2 ^ Z.of_nat s /\ bytes (packed d s) /\
  (d <> [] -> zlen (packed d s) = octets_for (7 * zlen d - Z.of_nat s)).
Proof.
  induction d as [|x r IH]; intros s Hs.
  - cbn [packed sept_val]. split; [symmetry; apply Z.div_0_l; apply Z.pow_nonzero; lia|]. split; [constructor|congruence].
  - destruct (Nat.eq_dec s 7) as [-> |Hn].
    + destruct r as [|y r'].
      * cbn [packed sept_val]. change (2 ^ Z.of_nat 7) with 128. change (zlen [x]) with 1. split; [cbn; lia|]. split; [constructor|reflexivity].
      * change (packed (x :: y :: r') 7) with (packed (y :: r') 0).
        destruct (IH 0%nat ltac:(lia)) as [I1 [I2 I3]]. split; [|split; [exact I2|]].
        -- rewrite I1. change (2 ^ Z.of_nat 0) with 1. change (2 ^ Z.of_nat 7) with 128.
           change (sept_val (x :: y :: r')) with (x mod 128 + 128 * sept_val (y :: r')). generalize (sept_val (y :: r')). intros v. lia.
        -- intros _. rewrite I3 by discriminate. rewrite (zlen_cons x). f_equal. lia.
    + assert (P : packed (x :: r) s = (match r with y :: _ => Z.lor (Z.shiftr (Z.land x 127) (Z.of_nat s)) (u8 (Z.shiftl (Z.land y 127) (7 - Z.of_nat s)))
            | [] => Z.shiftr (Z.land x 127) (Z.of_nat s) end) :: packed r (S s)).
      { do 8 (destruct s as [|s]; [try reflexivity; lia|]). lia. }
      rewrite P. clear P. destruct r as [|y r'].
      * cbn [packed le_val sept_val]. rewrite land127, Z.shiftr_div_pow2 by lia. split; [rewrite Z.mul_0_r, !Z.add_0_r; reflexivity|].
        split.
        -- constructor; [|constructor]. unfold is_byte. pose proof (Z.mod_pos_bound x 128 ltac:(lia)). revert H. generalize (x mod 128). intros a Ha.
           split; [apply Z.div_pos; [lia|apply pow2_pos; lia]|]. apply Z.div_lt_upper_bound; [apply pow2_pos; lia|]. pose proof (pow2_pos (Z.of_nat s) ltac:(lia)). nia.
        -- intros _. rewrite !zlen_cons. change (zlen (@nil Z)) with 0. unfold octets_for. lia.
      * destruct (IH (S s) ltac:(lia)) as [I1 [I2 I3]]. specialize (I3 ltac:(discriminate)).
        pose proof (octet_eq s x y (sept_val r') ltac:(lia)) as O. cbv zeta in O. destruct O as [O1 O2].
        set (c := Z.lor _ _) in *.
        cbn [le_val]. rewrite I1. split; [|split].
        -- change (sept_val (x :: y :: r')) with (x mod 128 + 128 * (y mod 128 + 128 * sept_val r')). rewrite O2.
           change (sept_val (y :: r')) with (y mod 128 + 128 * sept_val r'). replace (Z.of_nat (S s)) with (Z.of_nat s + 1) by lia. reflexivity.
        -- constructor; assumption.
        -- intros _. rewrite zlen_cons, I3. rewrite !(zlen_cons _ (y :: r')). rewrite !zlen_cons. unfold octets_for. lia.
Qed.

Lemma le_val_nonneg l : bytes l -> 0 <= le_val l.
Proof. intros H. apply (proj1 (le_val_bound l H)). Qed.
Lemma le_val_skip l : forall r, bytes l -> le_val l / 2 ^ (8 * Z.of_nat r) = le_val (skipn r l).
Proof.
  induction l as [|x l IH]; intros [|r] H.
  - cbn. reflexivity.
  - cbn [le_val skipn]. apply Z.div_0_l. apply Z.pow_nonzero; lia.
  - change (8 * Z.of_nat 0) with 0. cbn [skipn]. rewrite Z.pow_0_r, Z.div_1_r. reflexivity.
  - cbn [skipn]. inversion H; subst. rewrite <- IH by assumption.
    replace (8 * Z.of_nat (S r)) with (8 + 8 * Z.of_nat r) by lia. rewrite Z.pow_add_r by lia. rewrite <- Z.div_div by (try apply pow2_pos; lia).
    f_equal. cbn [le_val]. unfold is_byte in *. change (2 ^ 8) with 256. lia.
Qed.
Lemma skipn_two (l : list Z) r : (r < length l)%nat -> exists v, le_val (skipn r l) = nth r l 0 + 256 * (nth (S r) l 0 + 256 * v) /\ (bytes l -> 0 <= v).
Proof.
  revert l; induction r as [|r IH]; intros l H.
  - destruct l as [|x [|y l]]; cbn [length] in H; [lia| |]; cbn [skipn nth].
    + exists 0. cbn [le_val]. split; lia.
    + exists (le_val l). cbn [le_val]. split; [lia|]. intros B. inversion B; subst. inversion H3; subst. apply le_val_nonneg; assumption.
  - destruct l as [|x l]; cbn [length] in H; [lia|]. destruct (IH l ltac:(lia)) as [v [E Hv]]. exists v. cbn [skipn]. split; [exact E|].
    intros B. inversion B; auto.
Qed.

Lemma septet_bits x y v b : 0 <= b < 8 -> is_byte x -> is_byte y -> 0 <= v ->
  Z.land (Z.lor (if b =? 0 then x else u8 (Z.shiftl y (8 - b))) (Z.shiftr x b)) 127 = (x + 256 * (y + 256 * v)) / 2 ^ b mod 128.
Proof.
  intros Hb Hx Hy Hv. unfold is_byte in *. rewrite land127. destruct (b =? 0) eqn:E.
  - assert (b = 0) by lia. subst b. rewrite Z.shiftr_0_r, Z.lor_diag. change (2 ^ 0) with 1. lia.
  - rewrite Z.shiftr_div_pow2 by lia.
    assert (U : u8 (Z.shiftl y (8 - b)) = Z.shiftl (y mod 2 ^ b) (8 - b)).
    { rewrite !Z.shiftl_mul_pow2 by lia. unfold u8.
      assert (B : b = 1 \/ b = 2 \/ b = 3 \/ b = 4 \/ b = 5 \/ b = 6 \/ b = 7) by lia.
      destruct B as [-> | [-> | [-> | [-> | [-> | [-> | ->]]]]]]; pw; lia. }
    rewrite U, Z.lor_comm, lor_shiftl_add.
    + assert (B : b = 1 \/ b = 2 \/ b = 3 \/ b = 4 \/ b = 5 \/ b = 6 \/ b = 7) by lia.
      destruct B as [-> | [-> | [-> | [-> | [-> | [-> | ->]]]]]]; pw; lia.
    + lia.
    + assert (B : b = 1 \/ b = 2 \/ b = 3 \/ b = 4 \/ b = 5 \/ b = 6 \/ b = 7) by lia.
      destruct B as [-> | [-> | [-> | [-> | [-> | [-> | ->]]]]]]; pw; lia.
Qed.

Lemma shr3 x : Z.shiftr x 3 = x / 8. Proof. rewrite Z.shiftr_div_pow2 by lia. reflexivity. Qed.

Lemma read_septet ud maxlen k : bytes ud -> 0 <= k -> maxlen <= zlen ud -> k * 7 / 8 < maxlen ->
  exists lu br, (if Z.shiftr (k * 7 + 7) 3 >=? maxlen then Ok 0
              else do b <- rd ud (Z.shiftr (k * 7 + 7) 3) ;; Ok (u8 (Z.shiftl b (7 - Z.land (k * 7 + 7) 7)))) = Ok lu
  /\ rd ud (Z.shiftr (k * 7) 3) = Ok br
  /\ Z.land (Z.lor lu (Z.shiftr br (Z.land (k * 7) 7))) 127 = septet (firstn (Z.to_nat maxlen) ud) k.
Proof.
  intros Hb Hk Hm Hr. rewrite !shr3, !land7. set (ud' := firstn (Z.to_nat maxlen) ud).
  assert (Hb' : bytes ud') by (apply Forall_firstn; exact Hb).
  set (r := k * 7 / 8) in *. set (b := k * 7 mod 8).
  assert (Hr0 : 0 <= r) by (subst r; lia). assert (Hb0 : 0 <= b < 8) by (subst b; lia).
  assert (Ekb : k * 7 = 8 * r + b) by (subst r b; lia).
  assert (L' : zlen ud' = maxlen) by (unfold ud'; rewrite zlen_firstn'; lia).
  assert (Ar : at0 ud r = at0 ud' r) by (unfold ud'; rewrite at0_firstn by lia; replace (r <? maxlen) with true by lia; reflexivity).
  rewrite (rd_at0 ud r) by lia.
  assert (S0 : septet ud' k = (le_val (skipn (Z.to_nat r) ud')) / 2 ^ b mod 128).
  { unfold septet. replace (7 * k) with (8 * Z.of_nat (Z.to_nat r) + b) by lia. rewrite Z.pow_add_r by lia.
    rewrite <- Z.div_div by (try apply pow2_pos; try (apply Z.pow_nonzero); lia). rewrite le_val_skip by assumption. reflexivity. }
  destruct (skipn_two ud' (Z.to_nat r) ltac:(unfold zlen in L'; lia)) as [v [Ev Hv]]. specialize (Hv Hb').
  change (nth (Z.to_nat r) ud' 0) with (at0 ud' r) in Ev.
  assert (An : nth (S (Z.to_nat r)) ud' 0 = at0 ud' (r + 1)) by (unfold at0; f_equal; lia). rewrite An in Ev. rewrite S0, Ev.
  rewrite <- (septet_bits (at0 ud' r) (at0 ud' (r + 1)) v b) by (try assumption; apply bytes_at0; assumption).
  destruct (b =? 0) eqn:B0.
  - assert (b = 0) by lia. replace ((k * 7 + 7) / 8) with r by lia. replace (r >=? maxlen) with false by lia.
    rewrite (rd_at0 ud r) by lia. cbn [bind]. eexists _, _. split; [reflexivity|]. split; [reflexivity|].
    replace ((k * 7 + 7) mod 8) with 7 by lia. rewrite Z.shiftl_0_r, u8_small by (rewrite Ar; apply bytes_at0; assumption). rewrite Ar. reflexivity.
  - replace ((k * 7 + 7) / 8) with (r + 1) by lia. replace (7 - (k * 7 + 7) mod 8) with (8 - b) by lia.
    destruct (r + 1 >=? maxlen) eqn:Q.
    + eexists _, _. split; [reflexivity|]. split; [reflexivity|]. rewrite (at0_out ud' (r + 1)) by lia. rewrite Z.shiftl_0_l. change (u8 0) with 0. rewrite Ar. reflexivity.
    + rewrite (rd_at0 ud (r + 1)) by lia. cbn [bind]. eexists _, _. split; [reflexivity|]. split; [reflexivity|].
      assert (An' : at0 ud (r + 1) = at0 ud' (r + 1)) by (unfold ud'; rewrite at0_firstn by lia; replace (r + 1 <? maxlen) with true by lia; reflexivity).
      rewrite An', Ar. reflexivity.
Qed.

Definition base_char (c : Z) : Z := u8 (septet_lookup c).
Definition ext_char (c : Z) : Z := at0 alphabet (127 + c).

Fixpoint decs (e : bool) (room : Z) (sl : list Z) : list Z :=
  match sl with
  | [] => []
  | c :: r => if room =? 0 then [] else
    if e then ext_char c :: decs false (room - 1) r
    else if (c =? 27) && negb (zlen r =? 0) then decs true room r
    else base_char c :: decs false (room - 1) r
  end.

Lemma decs_text sl : forall room, 0 <= room ->
  decs false room sl = firstn (Z.to_nat room) (decode_text base_char ext_char sl) /\
  (forall c r, sl = c :: r -> decs true room sl = firstn (Z.to_nat room) (ext_char c :: decode_text base_char ext_char r)).
Proof.
  induction sl as [|c r IH]; intros room Hr.
  - split; [rewrite firstn_nil; reflexivity|]. intros; discriminate.
  - split.
    + cbn [decs decode_text]. destruct (room =? 0) eqn:E0; [replace (Z.to_nat room) with 0%nat by lia; reflexivity|].
      destruct (c =? 27) eqn:Ec; cbn [andb].
      * destruct r as [|c2 r2].
        -- change (zlen (@nil Z) =? 0) with true. cbn [negb decs]. replace (Z.to_nat room) with (S (Z.to_nat (room - 1))) by lia. cbn [firstn]. rewrite firstn_nil. reflexivity.
        -- rewrite zlen_cons. replace (1 + zlen r2 =? 0) with false by (pose proof (zlen_nonneg r2); lia). cbn [negb].
           exact (proj2 (IH room Hr) c2 r2 eq_refl).
      * replace (Z.to_nat room) with (S (Z.to_nat (room - 1))) by lia. cbn [firstn]. f_equal. apply IH. lia.
    + intros c' r' E. injection E as <- <-. cbn [decs]. destruct (room =? 0) eqn:E0; [replace (Z.to_nat room) with 0%nat by lia; reflexivity|].
      replace (Z.to_nat room) with (S (Z.to_nat (room - 1))) by lia. cbn [firstn]. f_equal. apply IH. lia.
Qed.

Lemma alphabet_len : zlen alphabet = 255. Proof. reflexivity. Qed.

Lemma decode_loop_spec septet_l shift maxlen ud n : bytes ud -> maxlen <= zlen ud -> 0 <= shift ->
  forall m fuel i e text pos, 0 <= i -> septet_l = i + Z.of_nat m -> (m < fuel)%nat -> pos <= n - 1 ->
  (forall k, i <= k < septet_l -> (k + shift) * 7 / 8 < maxlen) ->
  decode_loop fuel i septet_l shift maxlen ud e text pos n =
  puts text pos (decs e (n - 1 - pos) (map (fun k => septet (firstn (Z.to_nat maxlen) ud) (k + shift)) (zseq i m))).
Proof.
  intros Hb Hm Hs m. induction m as [|m IH]; intros fuel i e text pos Hi Hl Hf Hp Hk.
  - destruct fuel as [|fuel]; [lia|]. cbn [decode_loop]. replace (i <? septet_l) with false by lia. reflexivity.
  - destruct fuel as [|fuel]; [lia|]. cbn [decode_loop zseq map decs]. replace (i <? septet_l) with true by lia. cbn [andb].
    destruct (pos =? n - 1) eqn:E1; cbn [negb].
    { replace (n - 1 - pos =? 0) with true by lia. reflexivity. }
    replace (n - 1 - pos =? 0) with false by lia.
    destruct (read_septet ud maxlen (i + shift) Hb ltac:(lia) Hm ltac:(apply Hk; lia)) as [lu [br [R1 [R2 R3]]]].
    rewrite R1. cbn [bind]. rewrite R2. cbn [bind]. rewrite R3. set (c := septet _ (i + shift)).
    assert (Hc : 0 <= c < 128) by (subst c; unfold septet; apply Z.mod_pos_bound; lia). clearbody c.
    assert (Next : forall e' text' pos', pos' <= n - 1 -> decode_loop fuel (i + 1) septet_l shift maxlen ud e' text' pos' n =
       puts text' pos' (decs e' (n - 1 - pos') (map (fun k => septet (firstn (Z.to_nat maxlen) ud) (k + shift)) (zseq (i + 1) m)))).
    { intros. apply IH; try lia. intros; apply Hk; lia. }
    destruct e.
    + rewrite (rd_at0 alphabet) by (rewrite alphabet_len; lia). cbn [bind puts]. fold (ext_char c).
      destruct (wr text pos (ext_char c)); cbn [bind]; try reflexivity. rewrite Next by lia. f_equal. f_equal. lia.
    + rewrite zlen_map, zlen_zseq. replace (negb (Z.of_nat m =? 0)) with (i + 1 <? septet_l) by lia.
      destruct ((c =? 27) && (i + 1 <? septet_l)).
      * apply Next; lia.
      * cbn [puts]. fold (base_char c). destruct (wr text pos (base_char c)); cbn [bind]; try reflexivity. rewrite Next by lia. f_equal. f_equal. lia.
Qed.
Lemma octet_len_spec s : 0 <= s < 256 -> get_octet_len s = octets_for (7 * s).
Proof. intros H. unfold get_octet_len, octets_for. rewrite u8_small; destruct (s * 7 mod 8 =? 0) eqn:E; cbn [negb]; unfold is_byte; lia. Qed.

Definition septets_of (ud : list Z) (start count : Z) : list Z := map (fun k => septet ud k) (zseq start (Z.to_nat count)).

Lemma map_zseq_shift {B} (f : Z -> B) m : forall i s, map (fun k => f (k + s)) (zseq i m) = map f (zseq (i + s) m).
Proof. induction m as [|m IH]; intros i s; [reflexivity|]. cbn [zseq map]. f_equal. rewrite IH. f_equal. f_equal. lia. Qed.

Lemma decode_n_spec text n ud len : bytes ud -> 0 <= len < 256 -> octets_for (7 * len) <= zlen ud -> 1 <= n <= zlen text ->
  let out := firstn (Z.to_nat (n - 1)) (decode_text base_char ext_char (septets_of (firstn (Z.to_nat (octets_for (7 * len))) ud) 0 len)) in
  decode_n text n ud len = Ok (blit text 0 (out ++ [0]), zlen out).
Proof.
  intros Hb Hl Hu Hn out. unfold decode_n, decode_n_hdr. replace (n >? 0) with true by lia. cbn [negb Z.eqb bind].
  rewrite octet_len_spec by lia. set (mx := octets_for (7 * len)) in *.
  assert (Hmx : len * 7 <= 8 * mx) by (subst mx; unfold octets_for; lia). clearbody mx.
  rewrite (decode_loop_spec len 0 mx ud n Hb Hu ltac:(lia) (Z.to_nat len)); try lia.
  rewrite (map_zseq_shift (septet (firstn (Z.to_nat mx) ud))). change (0 + 0) with 0.
  rewrite (proj1 (decs_text _ (n - 1 - 0) ltac:(lia))). replace (n - 1 - 0) with (n - 1) by lia.
  fold (septets_of (firstn (Z.to_nat mx) ud) 0 len).
  change (firstn _ (decode_text _ _ _)) with out.
  assert (Lo : zlen out <= n - 1) by (subst out; rewrite zlen_firstn'; lia). pose proof (zlen_nonneg out).
  rewrite puts_ok by lia. cbn [bind]. rewrite Z.add_0_l.
  assert (E : wr (blit text (Z.to_nat 0) out) (zlen out) 0 = Ok (blit text 0 (out ++ [0]))).
  { pose proof (puts_ok [0] (blit text (Z.to_nat 0) out) (zlen out) ltac:(lia) ltac:(rewrite zlen_blit by lia; change (zlen [0]) with 1; lia)) as P.
    cbn [puts] in P. destruct (wr (blit text (Z.to_nat 0) out) (zlen out) 0) as [m|?| |]; cbn [bind] in P; try discriminate.
    injection P as P. rewrite P. f_equal. pose proof (zblit_blit text 0 out [0] ltac:(lia) ltac:(lia)) as Q. rewrite Z.add_0_l in Q. exact Q. }
  rewrite E. cbn [bind]. reflexivity.
Qed.

Lemma septet_pack_spec result rdata n p : 0 <= n <= zlen rdata -> 0 <= p <= 7 -> octets_for (7 * n + p) <= zlen result ->
  exists out, septet_pack result rdata n p = Ok (blit result 0 out, zlen out) /\ bytes out /\ zlen out = octets_for (7 * n + p) /\
    le_val out = 2 ^ p * sept_val (firstn (Z.to_nat n) rdata).
Proof.
  intros Hn Hp Hr. unfold septet_pack. replace (zlen rdata <? n) with false by lia. set (d := firstn (Z.to_nat n) rdata).
  assert (Ld : zlen d = n) by (unfold d; rewrite zlen_firstn'; lia). destruct (Z.eqb_spec p 0) as [-> |P0]; cbn [negb].
  - exists (packed d 0). change 0 with (Z.of_nat 0) at 1. rewrite pack_loop_packed by lia.
    destruct (packed_spec d 0 ltac:(lia)) as [A [B C]].
    assert (L : zlen (packed d 0) = octets_for (7 * n + 0)).
    { destruct d as [|x d']; [change (zlen (@nil Z)) with 0 in Ld; rewrite <- Ld; reflexivity|]. rewrite C by discriminate. rewrite Ld. f_equal; lia. }
    rewrite puts_ok by lia. split; [reflexivity|]. split; [exact B|]. split; [exact L|]. rewrite A. change (2 ^ Z.of_nat 0) with 1. rewrite Z.div_1_r. change (2 ^ 0) with 1. lia.
  - exists (packed (0 :: d) (Z.to_nat (7 - p))). replace (7 - p) with (Z.of_nat (Z.to_nat (7 - p))) at 1 by lia. rewrite pack_loop_packed by lia.
    destruct (packed_spec (0 :: d) (Z.to_nat (7 - p)) ltac:(lia)) as [A [B C]]. specialize (C ltac:(discriminate)).
    rewrite zlen_cons, Ld in C. replace (7 * (1 + n) - Z.of_nat (Z.to_nat (7 - p))) with (7 * n + p) in C by lia.
    rewrite puts_ok by lia. split; [reflexivity|]. split; [exact B|]. split; [exact C|]. rewrite A. cbn [sept_val]. rewrite Zmod_0_l, Z.add_0_l.
    rewrite Z2Nat.id by lia. replace 128 with (2 ^ (7 - p) * 2 ^ p) by (rewrite <- Z.pow_add_r by lia; replace (7 - p + p) with 7 by lia; reflexivity).
    rewrite <- Z.mul_assoc, Z.mul_comm. apply Z.div_mul. apply Z.pow_nonzero; lia.
Qed.

Lemma septet_pack_bad_padding result rdata n p : 0 <= n <= zlen rdata -> 7 < p -> septet_pack result rdata n p = UB.
Proof.
  intros Hn Hp. unfold septet_pack. replace (zlen rdata <? n) with false by lia. replace (p =? 0) with false by lia. cbn [negb pack_loop].
  replace (7 - p =? 7) with false by lia. replace (7 - p <? 0) with true by lia. reflexivity.
Qed.

(* --- encoding --- *)
Definition enc (ch : Z) : list Z := (if is_ext ch then [27] else []) ++ [at0 alphabet ch].

Lemma septet_encode_puts data : forall y result, Forall (fun ch => 0 <= ch < 255) data ->
  septet_encode_loop result y data = puts result y (flat_map enc data).
Proof.
  induction data as [|ch data IH]; intros y result F; [reflexivity|]. inversion F; subst.
  cbn [septet_encode_loop flat_map]. unfold enc at 1. rewrite (rd_at0 alphabet ch) by (rewrite alphabet_len; lia).
  destruct (is_ext ch); cbn [app bind puts].
  - destruct (wr result y 27); cbn [bind]; try reflexivity. destruct (wr _ (y + 1) _); cbn [bind]; try reflexivity. apply IH; assumption.
  - destruct (wr result y _); cbn [bind]; try reflexivity. apply IH; assumption.
Qed.
Lemma enc_len data : zlen data <= zlen (flat_map enc data) <= 2 * zlen data.
Proof.
  induction data as [|ch data IH]; [cbn; lia|]. cbn [flat_map]. rewrite zlen_app, zlen_cons.
  assert (1 <= zlen (enc ch) <= 2) by (unfold enc; destruct (is_ext ch); cbn; lia). lia.
Qed.

Definition inb (x : Z) (l : list Z) : bool := existsb (Z.eqb x) l.
Lemma inb_in x l : inb x l = true <-> In x l.
Proof. unfold inb. rewrite existsb_exists. split; [intros [y [H E]]; apply Z.eqb_eq in E; subst; auto|intros H; exists x; split; [auto|apply Z.eqb_refl]]. Qed.
Definition list_eqb (a b : list Z) : bool := if list_eq_dec Z.eq_dec a b then true else false.
Lemma list_eqb_eq a b : list_eqb a b = true -> a = b.
Proof. unfold list_eqb. destruct (list_eq_dec Z.eq_dec a b); congruence. Qed.


Definition encodableb (ch : Z) : bool := (match gsm0338 ch with Some _ => true | None => false end) && negb (inb ch misencoded).
Definition convertibleb (ch : Z) : bool := encodableb ch && negb (inb ch misdecoded).
Lemma encodable_b ch : encodable ch <-> encodableb ch = true.
Proof.
  unfold encodable, encodableb. rewrite andb_true_iff, negb_true_iff. rewrite <- not_true_iff_false, inb_in.
  destruct (gsm0338 ch); split; intros [A B]; split; auto; try congruence; discriminate.
Qed.
Lemma convertible_b ch : convertible ch <-> convertibleb ch = true.
Proof. unfold convertible, convertibleb. rewrite andb_true_iff, negb_true_iff. rewrite <- not_true_iff_false, inb_in, encodable_b. tauto. Qed.

Lemma enc_encodable ch : is_byte ch -> encodable ch -> gsm0338 ch = Some (enc ch) /\ 0 <= ch < 255.
Proof.
  intros Hb He. apply encodable_b in He.
  pose proof (forall_byte (fun ch => negb (encodableb ch) || (match gsm0338 ch with Some l => list_eqb l (enc ch) | None => false end) && (ch <? 255)) ltac:(vm_compute; reflexivity) ch Hb) as G.
  cbv beta in G. rewrite He in G. cbn [negb orb] in G. apply andb_true_iff in G as [G1 G2]. destruct (gsm0338 ch); [|discriminate]. apply list_eqb_eq in G1. unfold is_byte in Hb. split; [congruence|lia].
Qed.
Lemma codes_enc data : bytes data -> Forall encodable data -> gsm_codes data = flat_map enc data /\ Forall (fun ch => 0 <= ch < 255) data.
Proof.
  intros B F. induction data as [|ch data IH]; [split; [reflexivity|constructor]|]. inversion B; inversion F; subst.
  destruct (IH ltac:(assumption) ltac:(assumption)) as [I1 I2]. destruct (enc_encodable ch) as [E R]; try assumption.
  split; [|constructor; assumption]. unfold gsm_codes in *. cbn [flat_map]. rewrite E, I1. reflexivity.
Qed.

Lemma enc_char ch : is_byte ch -> convertible ch ->
  exists c, 0 <= c < 128 /\ at0 alphabet ch = c /\ ((enc ch = [c] /\ c <> 27 /\ base_char c = ch) \/ (enc ch = [27; c] /\ ext_char c = ch)).
Proof.
  intros Hb Hc. apply convertible_b in Hc. exists (at0 alphabet ch).
  pose proof (forall_byte (fun ch => negb (convertibleb ch) || ((0 <=? at0 alphabet ch) && (at0 alphabet ch <? 128) &&
     (if is_ext ch then ext_char (at0 alphabet ch) =? ch else negb (at0 alphabet ch =? 27) && (base_char (at0 alphabet ch) =? ch)))) ltac:(vm_compute; reflexivity) ch Hb) as G.
  cbv beta in G. rewrite Hc in G. cbn [negb orb] in G. rewrite !andb_true_iff in G. destruct G as [[G1 G2] G3].
  split; [lia|]. split; [reflexivity|]. unfold enc. destruct (is_ext ch); cbn [app].
  - right. split; [reflexivity|lia].
  - left. rewrite andb_true_iff in G3. split; [reflexivity|]. lia.
Qed.

Lemma decode_enc data : bytes data -> Forall convertible data ->
  decode_text base_char ext_char (flat_map enc data) = data /\ Forall (fun c => 0 <= c < 128) (flat_map enc data).
Proof.
  induction data as [|ch data IH]; intros B F; [split; [reflexivity|constructor]|]. inversion B; inversion F; subst.
  destruct (IH ltac:(assumption) ltac:(assumption)) as [I1 I2]. destruct (enc_char ch) as [c [R [_ [[E [N D]] | [E D]]]]]; try assumption;
  cbn [flat_map]; rewrite E; cbn [app decode_text].
  - replace (c =? 27) with false by lia. rewrite I1, D. split; [reflexivity|constructor; assumption].
  - cbn [Z.eqb Pos.eqb]. rewrite I1, D. split; [reflexivity|]. constructor; [lia|]. constructor; assumption.
Qed.

(* --- septets of a packed string --- *)
Lemma sept_val_skip l : forall k, sept_val l / 2 ^ (7 * Z.of_nat k) = sept_val (skipn k l).
Proof.
  induction l as [|x l IH]; intros [|k].
  - reflexivity.
  - cbn [sept_val skipn]. apply Z.div_0_l. apply Z.pow_nonzero; lia.
  - change (7 * Z.of_nat 0) with 0. cbn [skipn]. rewrite Z.pow_0_r, Z.div_1_r. reflexivity.
  - cbn [skipn]. rewrite <- IH. replace (7 * Z.of_nat (S k)) with (7 + 7 * Z.of_nat k) by lia. rewrite Z.pow_add_r by lia.
    rewrite <- Z.div_div by (try apply pow2_pos; lia). f_equal. cbn [sept_val]. change (2 ^ 7) with 128. lia.
Qed.
Lemma septets_of_eq ud d : le_val ud = sept_val d -> Forall (fun c => 0 <= c < 128) d -> septets_of ud 0 (zlen d) = d.
Proof.
  intros E F. apply (list_ext _ _ 0); unfold septets_of.
  - rewrite map_length, zseq_length. unfold zlen. lia.
  - intros i Hi. rewrite map_length, zseq_length in Hi.
    rewrite (nth_indep _ 0 (septet ud 0)) by (rewrite map_length, zseq_length; lia). rewrite map_nth. rewrite nth_zseq by lia.
    unfold septet. rewrite E. rewrite Z.add_0_l, sept_val_skip. unfold zlen in Hi.
    assert (S : skipn i d = nth i d 0 :: skipn (S i) d).
    { clear E F. revert d Hi. induction i as [|i IH]; intros [|x d] Hi; cbn [length] in Hi; try lia; [reflexivity|]. cbn [skipn nth]. apply IH. lia. }
    rewrite S. cbn [sept_val]. rewrite Z.mul_comm, Z_mod_plus_full, Zmod_mod. apply Z.mod_small. rewrite Forall_forall in F. apply F. apply nth_In. lia.
Qed.

Lemma encode_n_spec result n data rdata0 : bytes data -> Forall encodable data -> zlen rdata0 = 2 * zlen data ->
  0 <= n <= zlen result -> n < 2 ^ 61 ->
  let y := Z.min (zlen (gsm_codes data)) (8 * n / 7) in
  exists out, encode_n result n data rdata0 = Ok (blit result 0 out, y, zlen out) /\ bytes out /\ zlen out = octets_for (7 * y) /\ zlen out <= n /\
    le_val out = sept_val (firstn (Z.to_nat y) (gsm_codes data)).
Proof.
  intros B F L Hn Hn2 y. destruct (codes_enc data B F) as [EC R]. unfold encode_n, septet_encode.
  rewrite septet_encode_puts by assumption. pose proof (enc_len data) as El. rewrite <- EC in *. set (codes := gsm_codes data) in *.
  pose proof (zlen_nonneg data).
  rewrite puts_ok by lia. cbn [bind]. rewrite Z.add_0_l.
  assert (E64 : u64 (n * 8) = 8 * n) by (unfold u64; rewrite Z.mod_small; lia). rewrite E64.
  replace (if zlen codes >? 8 * n / 7 then 8 * n / 7 else zlen codes) with y by (subst y; destruct (zlen codes >? 8 * n / 7) eqn:E; lia).
  assert (Hy : 0 <= y <= zlen codes) by (subst y; lia).
  assert (Ho : octets_for (7 * y) <= n) by (subst y; unfold octets_for; lia).
  destruct (septet_pack_spec result (blit rdata0 (Z.to_nat 0) codes) y 0) as [out [P1 [P2 [P3 P4]]]].
  - rewrite zlen_blit by lia. lia.
  - lia.
  - rewrite Z.add_0_r. lia.
  - rewrite P1. cbn [bind]. exists out. rewrite Z.add_0_r in P3. split; [reflexivity|]. split; [exact P2|]. split; [exact P3|]. split; [lia|].
    rewrite P4. rewrite Z.mul_1_l. f_equal. unfold blit. cbn [Z.to_nat firstn app].
    rewrite firstn_app. replace (Z.to_nat y - length codes)%nat with 0%nat by (unfold zlen in Hy; lia). cbn [firstn]. apply app_nil_r.
Qed.

Lemma Forall_convertible_encodable data : Forall convertible data -> Forall encodable data.
Proof. apply Forall_impl. intros a [H _]. exact H. Qed.

(* decoding an octet string whose value is that of the septets of a text *)
Lemma decode_text_spec text n oct data : bytes data -> Forall convertible data -> bytes oct ->
  zlen (gsm_codes data) < 256 -> zlen oct = octets_for (7 * zlen (gsm_codes data)) -> le_val oct = sept_val (gsm_codes data) -> 1 <= n <= zlen text ->
  let out := firstn (Z.to_nat (n - 1)) data in
  decode_n text n oct (zlen (gsm_codes data)) = Ok (blit text 0 (out ++ [0]), zlen out).
Proof.
  intros B F Bo L Lo V Hn out. destruct (codes_enc data B (Forall_convertible_encodable _ F)) as [EC _].
  rewrite (decode_n_spec text n oct) by (try assumption; try lia; pose proof (zlen_nonneg (gsm_codes data)); lia).
  rewrite <- Lo, (firstn_all2 oct) by (unfold zlen; lia). destruct (decode_enc data B F) as [D1 D2].
  rewrite (septets_of_eq oct (gsm_codes data)) by (try assumption; rewrite EC; assumption).
  rewrite EC, D1. reflexivity.
Qed.

(* --- user data header --- *)
Lemma decode_hdr_spec text n ud len ind : bytes ud -> ind <> 0 -> 1 <= len < 256 -> octets_for (7 * len) <= zlen ud -> 1 <= n <= zlen text ->
  let h := (8 * (at0 ud 0 + 1) + 6) / 7 in
  h <= len ->
  let out := firstn (Z.to_nat (n - 1)) (decode_text base_char ext_char (septets_of (firstn (Z.to_nat (octets_for (7 * len))) ud) h (len - h))) in
  decode_n_hdr text n ud len ind = Ok (blit text 0 (out ++ [0]), zlen out).
Proof.
  intros Hb Hi Hl Hu Hn h Hh out. unfold decode_n_hdr. replace (n >? 0) with true by lia. replace (ind =? 0) with false by lia. cbn [negb].
  assert (Ho : 0 < octets_for (7 * len)) by (unfold octets_for; lia).
  rewrite rd_at0 by lia. cbn [bind]. pose proof (bytes_at0 ud 0 Hb) as B0. unfold is_byte in B0.
  assert (Eh : (if negb ((at0 ud 0 + 1) * 8 mod 7 =? 0) then (at0 ud 0 + 1) * 8 / 7 + 1 else (at0 ud 0 + 1) * 8 / 7) = h).
  { subst h. generalize dependent (at0 ud 0). intros x _ _ Hx. destruct ((x + 1) * 8 mod 7 =? 0) eqn:E; cbn [negb]; lia. }
  rewrite Eh. assert (H0 : 0 <= h) by (subst h; lia). clearbody h. rewrite (u8_small (len - h)) by (unfold is_byte; lia).
  rewrite octet_len_spec by lia. set (mx := octets_for (7 * len)) in *.
  assert (Hmx : len * 7 <= 8 * mx) by (subst mx; unfold octets_for; lia). clearbody mx.
  rewrite (decode_loop_spec (len - h) h mx ud n Hb Hu H0 (Z.to_nat (len - h))); try lia.
  rewrite (map_zseq_shift (septet (firstn (Z.to_nat mx) ud))). rewrite Z.add_0_l.
  rewrite (proj1 (decs_text _ (n - 1 - 0) ltac:(lia))). replace (n - 1 - 0) with (n - 1) by lia.
  fold (septets_of (firstn (Z.to_nat mx) ud) h (len - h)).
  change (firstn _ (decode_text _ _ _)) with out.
  assert (Lo : zlen out <= n - 1) by (subst out; rewrite zlen_firstn'; lia). pose proof (zlen_nonneg out).
  rewrite puts_ok by lia. cbn [bind]. rewrite Z.add_0_l.
  assert (E : wr (blit text (Z.to_nat 0) out) (zlen out) 0 = Ok (blit text 0 (out ++ [0]))).
  { pose proof (puts_ok [0] (blit text (Z.to_nat 0) out) (zlen out) ltac:(lia) ltac:(rewrite zlen_blit by lia; change (zlen [0]) with 1; lia)) as P.
    cbn [puts] in P. destruct (wr (blit text (Z.to_nat 0) out) (zlen out) 0) as [m|?| |]; cbn [bind] in P; try discriminate.
    injection P as P. rewrite P. f_equal. pose proof (zblit_blit text 0 out [0] ltac:(lia) ltac:(lia)) as Q. rewrite Z.add_0_l in Q. exact Q. }
  rewrite E. cbn [bind]. reflexivity.
Qed.

(* --- USSD --- *)
Lemma top_octet oct : bytes oct -> 0 < zlen oct -> at0 oct (zlen oct - 1) = le_val oct / 2 ^ (8 * (zlen oct - 1)).
Proof.
  intros B L. replace (zlen oct - 1) with (Z.of_nat (Z.to_nat (zlen oct - 1))) at 2 by lia. rewrite le_val_skip by assumption.
  destruct oct as [|x oct] using rev_ind; [change (zlen (@nil Z)) with 0 in L; lia|]. clear IHoct.
  rewrite zlen_app. change (zlen [x]) with 1. replace (zlen oct + 1 - 1) with (zlen oct) by lia.
  unfold at0, zlen. rewrite Nat2Z.id. rewrite app_nth2, Nat.sub_diag by lia. rewrite skipn_app, skipn_all2, Nat.sub_diag by lia. cbn. lia.
Qed.

Lemma sept_last d x : sept_val (d ++ [x]) = sept_val d + 2 ^ (7 * zlen d) * (x mod 128).
Proof.
  induction d as [|c d IH]; [cbn [app sept_val]; change (2 ^ (7 * zlen (@nil Z))) with 1; lia|]. cbn [app sept_val]. rewrite IH, zlen_cons. replace (7 * (1 + zlen d)) with (7 + 7 * zlen d) by lia.
  rewrite Z.pow_add_r by (pose proof (zlen_nonneg d); lia). change (2 ^ 7) with 128. ring.
Qed.

Lemma last_octet oct d c : bytes oct -> le_val oct = sept_val (d ++ [c]) -> 0 <= c < 128 -> zlen oct = octets_for (7 * zlen (d ++ [c])) ->
  (zlen (d ++ [c])) mod 8 <> 7 ->
  Z.shiftr (at0 oct (zlen oct - 1)) 1 = c / 2 ^ (zlen (d ++ [c]) mod 8).
Proof.
  intros B V Hc L M. rewrite zlen_app in *. change (zlen [c]) with 1 in *. pose proof (zlen_nonneg d) as Hd. set (y := zlen d) in *.
  assert (Lp : 0 < zlen oct) by (rewrite L; unfold octets_for; lia).
  rewrite top_octet by assumption. rewrite Z.shiftr_div_pow2 by lia.
  assert (E : 8 * (zlen oct - 1) + 1 = 7 * y + (y + 1) mod 8) by (rewrite L; unfold octets_for; lia).
  rewrite Z.div_div by (try apply pow2_pos; try apply Z.pow_nonzero; lia). rewrite <- Z.pow_add_r by lia. rewrite E, V, sept_last. fold y.
  rewrite Z.pow_add_r by lia. rewrite <- Z.div_div by (try apply pow2_pos; try apply Z.pow_nonzero; lia). f_equal.
  rewrite (Z.mod_small c) by lia. rewrite Z.mul_comm, Z.div_add by (apply Z.pow_nonzero; lia).
  rewrite Z.div_small; [lia|]. split; [apply sept_val_nonneg|apply sept_val_bound].
Qed.

Lemma wr_blit_end (text out : list Z) c : zlen out < zlen text -> wr (blit text 0 out) (zlen out) c = Ok (blit text 0 (out ++ [c])).
Proof.
  intros H. pose proof (zlen_nonneg out). pose proof (puts_ok [c] (blit text (Z.to_nat 0) out) (zlen out) ltac:(lia) ltac:(rewrite zlen_blit by lia; change (zlen [c]) with 1; lia)) as P.
  cbn [puts] in P. change (Z.to_nat 0) with 0%nat in P. destruct (wr (blit text 0 out) (zlen out) c) as [m|?| |]; cbn [bind] in P; try discriminate.
  injection P as P. rewrite P. f_equal. pose proof (zblit_blit text 0 out [c] ltac:(lia) ltac:(lia)) as Q. rewrite Z.add_0_l in Q. exact Q.
Qed.
Lemma blit0 (m l : list Z) : blit m 0 l = l ++ skipn (length l) m.
Proof. reflexivity. Qed.
Lemma wr_blit_last (text p : list Z) b c : wr (blit text 0 (p ++ [b])) (zlen p) c = Ok (blit text 0 (p ++ [c])).
Proof.
  rewrite !blit0. rewrite !app_length. cbn [length]. rewrite <- !app_assoc. cbn [app]. pose proof (zlen_nonneg p). pose proof (zlen_nonneg (skipn (length p + 1) text)).
  rewrite wr_in by (rewrite zlen_app, zlen_cons; lia). f_equal. unfold zlen. rewrite Nat2Z.id.
  rewrite upd_split by (rewrite app_length; cbn [length]; lia). rewrite firstn_app_exact by reflexivity. f_equal. f_equal.
  rewrite skipn_app, skipn_all2 by lia. replace (S (length p) - length p)%nat with 1%nat by lia. reflexivity.
Qed.
Lemma rd_blit_last (text p : list Z) b : rd (blit text 0 (p ++ [b])) (zlen p) = Ok b.
Proof.
  rewrite blit0, <- app_assoc. cbn [app]. rewrite rd_at0 by (rewrite zlen_app, zlen_cons; pose proof (zlen_nonneg p); pose proof (zlen_nonneg (skipn (length (p ++ [b])) text)); lia).
  unfold at0, zlen. rewrite Nat2Z.id, app_nth2, Nat.sub_diag by lia. reflexivity.
Qed.

Lemma codes_app a b : gsm_codes (a ++ b) = gsm_codes a ++ gsm_codes b.
Proof. apply flat_map_app. Qed.
Lemma codes_snoc data ch : is_byte ch -> convertible ch -> exists pre, gsm_codes (data ++ [ch]) = gsm_codes data ++ pre ++ [at0 alphabet ch].
Proof.
  intros B C. destruct (enc_encodable ch B (proj1 C)) as [E _]. rewrite codes_app. exists (if is_ext ch then [27] else []). f_equal.
  unfold gsm_codes. cbn [flat_map]. rewrite E, app_nil_r. reflexivity.
Qed.
Lemma codes_small data : bytes data -> Forall convertible data -> Forall (fun c => 0 <= c < 128) (gsm_codes data).
Proof. intros B F. destruct (codes_enc data B (Forall_convertible_encodable _ F)) as [E _]. rewrite E. apply decode_enc; assumption. Qed.
Lemma cr_convertible : convertible 13. Proof. apply convertible_b. reflexivity. Qed.
Lemma codes_cr data : gsm_codes (data ++ [13]) = gsm_codes data ++ [13].
Proof. rewrite codes_app. reflexivity. Qed.

Lemma code_strip ch : is_byte ch -> convertible ch -> forall j, 0 <= j < 8 -> at0 alphabet ch / 2 ^ j = 13 ->
  (j = 0 /\ ch = 13) \/ (j = 2 /\ 52 <= ch <= 55) \/ (j = 3 /\ 104 <= ch <= 111).
Proof.
  intros B C j Hj E. apply convertible_b in C.
  pose proof (forall_byte (fun ch => negb (convertibleb ch) || forallb (fun j => negb (at0 alphabet ch / 2 ^ j =? 13) ||
    ((j =? 0) && (ch =? 13) || (j =? 2) && (52 <=? ch) && (ch <=? 55) || (j =? 3) && (104 <=? ch) && (ch <=? 111))) (zseq 0 8)) ltac:(vm_compute; reflexivity) ch B) as G.
  cbv beta in G. rewrite C in G. cbn [negb orb] in G. rewrite forallb_forall in G. specialize (G j ltac:(apply zseq_In; lia)). cbv beta in G. rewrite E in G. cbn [Z.eqb Pos.eqb negb orb] in G. lia.
Qed.
Lemma code_strip_conv ch : is_byte ch -> convertible ch -> (at0 alphabet ch =? 13) = (ch =? 13).
Proof.
  intros B C. apply convertible_b in C.
  pose proof (forall_byte (fun ch => negb (convertibleb ch) || Bool.eqb (at0 alphabet ch =? 13) (ch =? 13)) ltac:(vm_compute; reflexivity) ch B) as G.
  cbv beta in G. rewrite C in G. cbn [negb orb] in G. apply eqb_prop in G. exact G.
Qed.

Lemma encode_ussd_spec result n data rdata0 : bytes data -> Forall convertible data -> zlen rdata0 = 2 * zlen data ->
  0 <= n <= zlen result -> n < 2 ^ 61 -> 7 * zlen (gsm_codes data) <= 8 * n ->
  let sent := ussd_sent n data in let codes := gsm_codes sent in
  exists oct y, encode_n_ussd result n data rdata0 = Ok (blit result 0 oct, y, zlen oct) /\ bytes oct /\ zlen oct <= n /\
    zlen oct = octets_for (7 * zlen codes) /\ le_val oct = sept_val codes /\ zlen codes mod 8 <> 7.
Proof.
  intros B F L Hn Hn2 Hfit sent codes. unfold encode_n_ussd.
  destruct (encode_n_spec result n data rdata0 B (Forall_convertible_encodable _ F) L Hn Hn2) as [out [E [Bo [Lo [Lon V]]]]].
  rewrite E. cbn [bind]. clear E. set (y := zlen (gsm_codes data)) in *. pose proof (zlen_nonneg (gsm_codes data)) as Hy. fold y in Hy.
  assert (Ey : Z.min y (8 * n / 7) = y) by lia. rewrite Ey in *.
  rewrite firstn_all2 in V by (unfold y, zlen; lia). rewrite land7. unfold codes, sent, ussd_sent. fold y.
  destruct (Z.eqb_spec (y * 7 mod 8) 1) as [M7|M7].
  - replace (y mod 8 =? 7) with true by lia. replace (y * 7 mod 8 =? 0) with false by lia. rewrite andb_false_r. cbn [bind].
    assert (Lp : 0 < zlen out) by (rewrite Lo; unfold octets_for; lia). pose proof (top_octet out Bo Lp) as Top.
    destruct out as [|b p] using rev_ind; [change (zlen (@nil Z)) with 0 in Lp; lia|]. clear IHp. rename b into bb.
    rewrite zlen_app in *. change (zlen [bb]) with 1 in *. replace (zlen p + 1 - 1) with (zlen p) in * by lia.
    rewrite rd_blit_last. cbn [bind]. rewrite wr_blit_last. cbn [bind].
    assert (Hbb : 0 <= bb < 2).
    { unfold at0 in Top. rewrite app_nth2 in Top by (unfold zlen; lia). unfold zlen at 1 in Top. rewrite Nat2Z.id, Nat.sub_diag in Top. cbn [nth] in Top. rewrite Top, V.
      pose proof (zlen_nonneg p). split; [apply Z.div_pos; [apply sept_val_nonneg|apply pow2_pos; lia]|].
      apply Z.div_lt_upper_bound; [apply pow2_pos; lia|]. pose proof (sept_val_bound (gsm_codes data)) as SB. fold y in SB.
      replace (2 ^ (8 * zlen p) * 2) with (2 ^ (7 * y)); [exact SB|]. rewrite (Z.mul_comm _ 2), <- Z.pow_succ_r by lia. f_equal. unfold octets_for in Lo. lia. }
    exists (p ++ [Z.lor bb 26]), y. rewrite zlen_app. change (zlen [Z.lor bb 26]) with 1.
    apply Forall_app in Bo as [Bp _]. assert (Lr : Z.lor bb 26 = bb + 26) by (assert (Q : bb = 0 \/ bb = 1) by lia; destruct Q as [-> | ->]; reflexivity).
    rewrite Lr, codes_cr, zlen_app. fold y. change (zlen [13]) with 1.
    split; [reflexivity|]. split; [apply Forall_app; split; [exact Bp|]; constructor; [unfold is_byte; lia|constructor]|]. split; [lia|].
    split; [rewrite Lo; unfold octets_for; lia|]. split; [|lia].
    rewrite le_val_app in *. cbn [le_val] in *. rewrite sept_last, <- V. fold y. change (13 mod 128) with 13.
    replace (2 ^ (7 * y)) with (2 * 2 ^ (8 * zlen p)); [lia|]. pose proof (zlen_nonneg p). rewrite <- Z.pow_succ_r by lia. f_equal. unfold octets_for in Lo. lia.
  - replace (y mod 8 =? 7) with false by lia. cbn [bind].
    destruct (Z.eqb_spec y 0) as [Y0|Y0]; cbn [negb andb bind].
    { exists out, y. split; [reflexivity|]. split; [exact Bo|]. split; [lia|]. fold y. split; [exact Lo|]. split; [exact V|]. lia. }
    replace (y * 7 mod 8 =? 0) with (y mod 8 =? 0) by lia.
    destruct (Z.eqb_spec (y mod 8) 0) as [M0|M0]; cbn [andb bind].
    2: { exists out, y. split; [reflexivity|]. split; [exact Bo|]. split; [lia|]. fold y. split; [exact Lo|]. split; [exact V|]. lia. }
    destruct data as [|ch dp _] using rev_ind; [change y with 0 in Y0; congruence|].
    apply Forall_app in B as [_ Bc]. inversion Bc as [|? ? Hch _]; subst. pose proof F as F'. apply Forall_app in F' as [_ Fc]. inversion Fc as [|? ? Cch _]; subst.
    rewrite last_last. destruct (codes_snoc dp ch Hch Cch) as [pre Ec].
    assert (Lp : 0 < zlen out) by (rewrite Lo; unfold octets_for; lia).
    assert (Hc : 0 <= at0 alphabet ch < 128) by (destruct (enc_char ch Hch Cch) as [c [R [<- _]]]; exact R).
    assert (Sh : Z.shiftr (at0 out (zlen out - 1)) 1 = at0 alphabet ch).
    { rewrite app_assoc in Ec. unfold y in M0, Lo. rewrite Ec in V, M0, Lo. rewrite (last_octet out (gsm_codes dp ++ pre) (at0 alphabet ch)) by (try assumption; lia).
      rewrite M0. apply Z.div_1_r. }
    assert (Rd : rd (blit result 0 out) (zlen out - 1) = Ok (at0 out (zlen out - 1))).
    { destruct out as [|b p _] using rev_ind; [change (zlen (@nil Z)) with 0 in Lp; lia|]. rewrite zlen_app. change (zlen [b]) with 1. replace (zlen p + 1 - 1) with (zlen p) by lia.
      rewrite rd_blit_last. f_equal. unfold at0. rewrite app_nth2 by (unfold zlen; lia). unfold zlen. rewrite Nat2Z.id, Nat.sub_diag. reflexivity. }
    rewrite Rd. cbn [bind]. rewrite Sh. rewrite (code_strip_conv ch Hch Cch). rewrite <- Lo.
    assert (Un : u64 (n - 1) = n - 1) by (unfold u64; apply Z.mod_small; lia). rewrite Un.
    destruct ((ch =? 13) && (zlen out <? n - 1)) eqn:Q.
    + apply andb_true_iff in Q as [Q1 Q2]. rewrite wr_blit_end by lia. cbn [bind].
      exists (out ++ [13]), (y + 1). rewrite zlen_app. change (zlen [13]) with 1. rewrite codes_cr, zlen_app. fold y. change (zlen [13]) with 1.
      split; [reflexivity|]. split; [apply Forall_app; split; [exact Bo|]; constructor; [unfold is_byte; lia|constructor]|]. split; [lia|].
      split; [rewrite Lo; unfold octets_for; lia|]. split; [|lia]. rewrite le_val_app, sept_last, <- V. fold y. cbn [le_val]. change (13 mod 128) with 13.
      replace (2 ^ (7 * y)) with (2 ^ (8 * zlen out)); [lia|]. f_equal. unfold octets_for in Lo. lia.
    + exists out, y. split; [reflexivity|]. split; [exact Bo|]. split; [lia|]. fold y. split; [exact Lo|]. split; [exact V|]. lia.
Qed.

Lemma removelast_zlen (l : list Z) : l <> [] -> zlen (removelast l) = zlen l - 1.
Proof. intros H. destruct l as [|x l _] using rev_ind; [congruence|]. rewrite removelast_last, zlen_app. change (zlen [x]) with 1. lia. Qed.

Lemma decode_ussd_spec text n oct data : bytes data -> Forall convertible data -> bytes oct ->
  zlen (gsm_codes data) < 256 -> zlen oct = octets_for (7 * zlen (gsm_codes data)) -> le_val oct = sept_val (gsm_codes data) ->
  zlen (gsm_codes data) mod 8 <> 7 -> zlen data < n <= zlen text ->
  let out := if ussd_drops_last data then removelast data else data in
  exists text', decode_n_ussd text n oct (zlen oct * 8 / 7) = Ok (text', zlen out) /\ firstn (length out + 1) text' = out ++ [0].
Proof.
  intros B F Bo L Lo V M Hn out. pose proof (zlen_nonneg (gsm_codes data)) as Hy. set (y := zlen (gsm_codes data)) in *. pose proof (zlen_nonneg data).
  assert (Ly : zlen oct * 8 / 7 = y) by (rewrite Lo; unfold octets_for; lia). rewrite Ly. unfold decode_n_ussd. change (decode_n_hdr text n oct y 0) with (decode_n text n oct y).
  pose proof (decode_text_spec text n oct data B F Bo L Lo V ltac:(lia)) as D. cbv zeta in D. fold y in D. rewrite firstn_all2 in D by (unfold zlen in *; lia).
  rewrite D. cbn [bind]. rewrite octet_len_spec by lia. rewrite <- Lo.
  destruct data as [|ch dp _] using rev_ind.
  - change (zlen (@nil Z) =? 0) with true. cbv iota. eexists. split; [reflexivity|]. destruct text; [change (zlen (@nil Z)) with 0 in *; lia|reflexivity].
  - rewrite zlen_app in *. change (zlen [ch]) with 1 in *. pose proof (zlen_nonneg dp).
    replace (zlen dp + 1 =? 0) with false by lia.
    apply Forall_app in B as [_ Bc]. inversion Bc as [|? ? Hch _]; subst. pose proof F as F'. apply Forall_app in F' as [_ Fc]. inversion Fc as [|? ? Cch _]; subst.
    destruct (codes_snoc dp ch Hch Cch) as [pre Ec]. rewrite app_assoc in Ec.
    assert (Hc : 0 <= at0 alphabet ch < 128) by (destruct (enc_char ch Hch Cch) as [c [R [<- _]]]; exact R).
    assert (Yp : 0 < y) by (unfold y; rewrite Ec, zlen_app; change (zlen [at0 alphabet ch]) with 1; pose proof (zlen_nonneg (gsm_codes dp ++ pre)); lia).
    assert (Lp : 0 < zlen oct) by (rewrite Lo; unfold octets_for; lia).
    rewrite rd_at0 by lia. cbn [bind].
    assert (Sh : Z.shiftr (at0 oct (zlen oct - 1)) 1 = at0 alphabet ch / 2 ^ (y mod 8)).
    { unfold y in M, Lo |- *. rewrite Ec in V, M, Lo |- *. apply last_octet; assumption. }
    rewrite Sh. unfold out, ussd_drops_last. fold y. replace (y =? 0) with false by lia. cbn [negb andb]. rewrite Ec, last_last.
    destruct (at0 alphabet ch / 2 ^ (y mod 8) =? 13).
    + rewrite removelast_last. replace (zlen dp + 1 - 1) with (zlen dp) by lia.
      assert (W : wr (blit text 0 ((dp ++ [ch]) ++ [0])) (zlen dp) 0 = Ok (blit text 0 ((dp ++ [0]) ++ [0]))).
      { rewrite !blit0, !app_length. cbn [length]. rewrite <- !app_assoc. cbn [app]. rewrite wr_in by (rewrite zlen_app, !zlen_cons; pose proof (zlen_nonneg (skipn (length dp + 1 + 1) text)); lia). f_equal.
        unfold zlen. rewrite Nat2Z.id. rewrite upd_split by (rewrite app_length; cbn [length]; lia). rewrite firstn_app_exact by reflexivity. f_equal. f_equal.
        rewrite skipn_app, skipn_all2 by lia. replace (S (length dp) - length dp)%nat with 1%nat by lia. reflexivity. }
      rewrite W. cbn [bind]. eexists. split; [reflexivity|]. rewrite blit0, <- app_assoc. apply firstn_app_exact. rewrite app_length. cbn [length]. lia.
    + eexists. split; [rewrite zlen_app; reflexivity|]. rewrite blit0. apply firstn_app_exact. rewrite !app_length. cbn [length]. lia.
Qed.

Lemma ussd_round n data : bytes data -> Forall convertible data ->
  let y := zlen (gsm_codes data) in
  ~ (y mod 8 = 0 /\ last data 0 = 13) -> ~ (y mod 8 = 2 /\ 52 <= last data 0 <= 55) -> ~ (y mod 8 = 3 /\ 104 <= last data 0 <= 111) ->
  let sent := ussd_sent n data in (if ussd_drops_last sent then removelast sent else sent) = data.
Proof.
  intros B F y N0 N2 N3 sent. destruct data as [|ch dp _] using rev_ind; [reflexivity|].
  rewrite last_last in *. unfold sent, ussd_sent. fold y. rewrite last_last.
  apply Forall_app in B as [_ Bc]. inversion Bc as [|? ? Hch _]; subst. pose proof F as F'. apply Forall_app in F' as [_ Fc]. inversion Fc as [|? ? Cch _]; subst.
  destruct (Z.eqb_spec (y mod 8) 7) as [M|M].
  - unfold ussd_drops_last. rewrite codes_cr, zlen_app. fold y. change (zlen [13]) with 1. rewrite last_last. replace ((y + 1) mod 8) with 0 by lia.
    assert (0 <= y) by apply zlen_nonneg. replace (y + 1 =? 0) with false by lia. cbn [negb andb]. change (13 / 2 ^ 0 =? 13) with true. cbv iota. apply removelast_last.
  - assert (S : (if negb (y =? 0) && (y mod 8 =? 0) && (ch =? 13) && (octets_for (7 * y) <? n - 1) then (dp ++ [ch]) ++ [13] else dp ++ [ch]) = dp ++ [ch]).
    { destruct (Z.eqb_spec (y mod 8) 0) as [M0|M0]; [|rewrite andb_false_r; reflexivity].
      destruct (Z.eqb_spec ch 13) as [C13|C13]; [exfalso; apply N0; auto|rewrite andb_false_r; reflexivity]. }
    rewrite S. unfold ussd_drops_last. fold y. destruct (codes_snoc dp ch Hch Cch) as [pre Ec]. rewrite Ec, app_assoc, last_last.
    destruct (Z.eqb_spec (at0 alphabet ch / 2 ^ (y mod 8)) 13) as [E|E]; [|rewrite andb_false_r; reflexivity].
    exfalso. destruct (code_strip ch Hch Cch (y mod 8) (Z.mod_pos_bound y 8 ltac:(lia)) E) as [Q | [Q | Q]]; tauto.
Qed.
