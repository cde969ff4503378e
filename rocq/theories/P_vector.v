(** Proofs about vectors. *)
From Verif Require Import Base M_vector S_vector.

Definition inv (n : Z) (v : vec) : Prop := 1 <= zlen (index v) < 2 ^ 32 /\ 0 <= active v <= zlen (index v) /\ active v <= 2 ^ 30 + n /\ forall i, active v <= i -> at0 (index v) i = 0.
Definition tight (v : vec) : Prop := active v = 0 \/ at0 (index v) (active v - 1) <> 0.

Lemma at0_zeros k i : at0 (repeat 0 k) i = 0.
Proof. unfold at0. destruct (Nat.lt_ge_cases (Z.to_nat i) k) as [L|L]; [apply nth_repeat|apply nth_overflow; rewrite repeat_length; exact L]. Qed.
Lemma at0_pad l k i : 0 <= i -> at0 (l ++ repeat 0 k) i = at0 l i.
Proof. intros. rewrite at0_app by lia. destruct (Z.ltb_spec i (zlen l)); [reflexivity|]. rewrite at0_zeros, at0_out by lia. reflexivity. Qed.
Lemma wr_in (l : list Z) i x : 0 <= i < zlen l -> wr l i x = Ok (upd l (Z.to_nat i) x).
Proof. intros. unfold wr. destruct (Z.ltb_spec i 0); [lia|]. destruct (Z.leb_spec (Z.of_nat (length l)) i); [unfold zlen in *; lia|reflexivity]. Qed.
Lemma ensure_S fuel a l num : ensure (S fuel) (Vec a l) num =
  if num <? zlen l then Ok (Vec a l) else if negb (u32 (zlen l * 2) =? zlen l * 2) then UB else
  if zlen (l ++ repeat 0 (length l)) <=? num then ensure fuel (Vec a (l ++ repeat 0 (length l))) num else Ok (Vec a (l ++ repeat 0 (length l))).
Proof. reflexivity. Qed.
Lemma ensure_loop_ok num : 0 <= num < 2 ^ 31 -> forall k v, 1 <= zlen (index v) < 2 ^ 32 -> num < zlen (index v) * 2 ^ Z.of_nat k ->
  exists j, ensure (S k) v num = Ok (Vec (active v) (index v ++ repeat 0 j)) /\ num < zlen (index v ++ repeat 0 j) < 2 ^ 32.
Proof.
  intros Hn. induction k as [|k IH]; intros [a l] Hl Hb; cbn [active index] in *; rewrite ensure_S.
  - change (2 ^ Z.of_nat 0) with 1 in Hb. destruct (Z.ltb_spec num (zlen l)); [|lia]. exists 0%nat. cbn [repeat]. rewrite app_nil_r. split; [reflexivity|lia].
  - destruct (Z.ltb_spec num (zlen l)).
    { exists 0%nat. cbn [repeat]. rewrite app_nil_r. split; [reflexivity|lia]. }
    assert (L2 : zlen (l ++ repeat 0 (length l)) = 2 * zlen l) by (rewrite zlen_app; unfold zlen; rewrite repeat_length; lia).
    rewrite u32_small by (unfold is_u32; lia). rewrite Z.eqb_refl. cbn [negb]. rewrite L2. destruct (Z.leb_spec (2 * zlen l) num).
    + specialize (IH (Vec a (l ++ repeat 0 (length l)))). cbn [active index] in IH. rewrite L2 in IH. rewrite Nat2Z.inj_succ, Z.pow_succ_r in Hb by lia.
      destruct IH as (j & E & B); [lia|lia|]. rewrite E. exists (length l + j)%nat. rewrite <- app_assoc, <- repeat_app in *. split; [reflexivity|exact B].
    + exists (length l). split; [reflexivity|]. rewrite L2. lia.
Qed.
Lemma ensure_ok v num n : inv n v -> 0 <= num < 2 ^ 31 -> exists v', vector_ensure v num = Ok v' /\ inv n v' /\ active v' = active v /\ num < zlen (index v') /\ forall i, 0 <= i -> at0 (index v') i = at0 (index v) i.
Proof.
  intros (L & A & An & Z0) Hn. destruct (ensure_loop_ok num Hn 32 v L) as (j & E & B).
  { assert (1 * 2 ^ Z.of_nat 32 <= zlen (index v) * 2 ^ Z.of_nat 32) by (apply Z.mul_le_mono_nonneg_r; [apply Z.pow_nonneg; lia|lia]). change (2 ^ Z.of_nat 32) with 4294967296 in *. change (2 ^ 31) with 2147483648 in *. lia. }
  exists (Vec (active v) (index v ++ repeat 0 j)). split; [exact E|]. cbn [active index]. split.
  - split; cbn [active index]; [lia|]. split; [rewrite zlen_app; pose proof (zlen_nonneg (repeat 0 j)); lia|]. split; [exact An|]. intros i Hi. rewrite at0_pad by lia. apply Z0. exact Hi.
  - split; [reflexivity|]. split; [lia|]. intros i Hi. apply at0_pad. exact Hi.
Qed.
Lemma lookup_ok n v : inv n v -> shows v (at0 (index v)).
Proof. intros (L & A & _ & Z0) i Hi. unfold vector_lookup. destruct (Z.leb_spec (active v) i); [rewrite Z0 by lia; reflexivity|apply rd_at0; lia]. Qed.
Lemma store_ok n v i val : inv n v -> 0 <= i < 2 ^ 31 -> i + 1 <= 2 ^ 30 + (n + 1) -> 0 <= n -> exists v', (do v <- vector_ensure v i ;; do l <- wr (index v) i val ;; Ok (i, Vec (if active v <=? i then u32 (i + 1) else active v) l)) = Ok (i, v') /\
  inv (n + 1) v' /\ (forall j, 0 <= j -> at0 (index v') j = if j =? i then val else at0 (index v) j) /\ active v' = Z.max (active v) (i + 1).
Proof.
  intros I Hi Hb Hn. destruct (ensure_ok v i n I Hi) as (w & E & (L & A & An & Z0) & Ea & Li & At). rewrite E. cbn [bind]. rewrite wr_in by lia. cbn [bind].
  assert (Em : (if active w <=? i then u32 (i + 1) else active w) = Z.max (active v) (i + 1)) by (rewrite <- Ea; destruct (Z.leb_spec (active w) i); [rewrite u32_small by (unfold is_u32; lia)|]; lia).
  rewrite Em. eexists. split; [reflexivity|]. cbn [active index].
  assert (U : forall j, 0 <= j -> at0 (upd (index w) (Z.to_nat i) val) j = if j =? i then val else at0 (index v) j) by (intros j Hj; rewrite at0_upd by lia; rewrite At by lia; reflexivity).
  assert (Lu : zlen (upd (index w) (Z.to_nat i) val) = zlen (index w)) by (unfold zlen; rewrite upd_length; reflexivity).
  split; [|split; [exact U|reflexivity]]. unfold inv. cbn [active index]. rewrite Lu. split; [lia|]. split; [lia|]. split; [lia|]. intros j Hj. rewrite U by lia. destruct (Z.eqb_spec j i); [lia|]. rewrite <- At by lia. apply Z0. lia.
Qed.
Lemma slot_loop_ok l : forall n i, 0 <= i -> i + Z.of_nat n <= zlen l -> exists r, slot_loop n l i = Ok r /\ i <= r <= i + Z.of_nat n /\ (r < i + Z.of_nat n -> at0 l r = 0) /\ forall j, i <= j < r -> at0 l j <> 0.
Proof.
  induction n as [|n IH]; intros i Hi Hl; cbn [slot_loop]; [exists i; split; [reflexivity|]; split; [lia|]; split; [lia|]; intros; lia|].
  rewrite rd_at0 by lia. cbn [bind]. destruct (Z.eqb_spec (at0 l i) 0) as [E|E]; [exists i; split; [reflexivity|]; split; [lia|]; split; [auto|]; intros; lia|].
  destruct (IH (i + 1)) as (r & R & B & C & D); [lia|lia|]. exists r. split; [exact R|]. split; [lia|]. split; [intros; apply C; lia|]. intros j Hj. destruct (Z.eq_dec j i) as [->|]; [exact E|apply D; lia].
Qed.
Lemma slot_ok n v : inv n v -> exists r, vector_empty_slot v = Ok r /\ 0 <= r <= active v /\ at0 (index v) r = 0 /\ forall j, 0 <= j < r -> at0 (index v) j <> 0.
Proof.
  intros (L & A & _ & Z0). unfold vector_empty_slot. destruct (Z.eqb_spec (active v) 0) as [E|E]; [exists 0; split; [reflexivity|]; split; [lia|]; split; [apply Z0; lia|]; intros; lia|].
  destruct (slot_loop_ok (index v) (Z.to_nat (active v)) 0) as (r & R & B & C & D); [lia|lia|]. exists r. split; [exact R|]. split; [lia|]. split; [|intros; apply D; lia].
  destruct (Z.eq_dec r (active v)) as [->|]; [apply Z0; lia|apply C; lia].
Qed.
Lemma trim_ok l : forall i, Z.of_nat i <= zlen l -> exists a, trim i l (Z.of_nat i) = Ok a /\ 0 <= a <= Z.of_nat i /\ (forall j, a <= j < Z.of_nat i -> at0 l j = 0) /\ (a = 0 \/ at0 l (a - 1) <> 0).
Proof.
  induction i as [|i IH]; intros Hl; cbn [trim]; [exists 0; split; [reflexivity|]; split; [lia|]; split; [intros; lia|auto]|].
  rewrite rd_at0 by lia. cbn [bind]. destruct (Z.eqb_spec (at0 l (Z.of_nat i)) 0) as [E|E]; cbn [negb].
  - destruct (Z.eqb_spec (Z.of_nat (S i)) 0); [lia|]. replace (Z.of_nat (S i) - 1) with (Z.of_nat i) by lia. destruct (IH ltac:(lia)) as (a & Ea & B & C & D). exists a. split; [exact Ea|]. split; [lia|].
    split; [|exact D]. intros j Hj. destruct (Z.eq_dec j (Z.of_nat i)) as [->|]; [exact E|apply C; lia].
  - exists (Z.of_nat (S i)). split; [reflexivity|]. split; [lia|]. split; [intros; lia|]. right. replace (Z.of_nat (S i) - 1) with (Z.of_nat i) by lia. exact E.
Qed.
Lemma unset_ok n v i : inv n v -> 0 <= n -> 0 <= i < 2 ^ 32 -> exists v', vector_unset v i = Ok v' /\ inv (n + 1) v' /\ (forall j, 0 <= j -> at0 (index v') j = if j =? i then 0 else at0 (index v) j) /\ (tight v -> tight v').
Proof.
  intros (L & A & An & Z0) Hn Hi. unfold vector_unset. destruct (Z.leb_spec (zlen (index v)) i) as [G|G].
  { exists v. split; [reflexivity|]. split; [split; [lia|]; split; [lia|]; split; [lia|exact Z0]|]. split; [|auto]. intros j Hj. destruct (Z.eqb_spec j i) as [->|]; [apply Z0; lia|reflexivity]. }
  rewrite wr_in by lia. cbn [bind]. set (l := upd (index v) (Z.to_nat i) 0).
  assert (U : forall j, 0 <= j -> at0 l j = if j =? i then 0 else at0 (index v) j) by (intros j Hj; apply at0_upd; lia).
  assert (Lu : zlen l = zlen (index v)) by (unfold zlen, l; rewrite upd_length; reflexivity).
  destruct (Z.eq_dec (i + 1) (2 ^ 32)) as [W|W].
  { exfalso. change (2 ^ 32) with 4294967296 in *. lia. }
  rewrite u32_small by (unfold is_u32; lia). destruct (Z.eqb_spec (i + 1) (active v)) as [E|E].
  - replace (active v - 1) with (Z.of_nat (Z.to_nat i)) by lia. destruct (trim_ok l (Z.to_nat i)) as (a & Ea & B & C & D); [lia|]. rewrite Ea. cbn [bind]. eexists. split; [reflexivity|].
    unfold inv, tight. cbn [active index]. rewrite Lu. split; [split; [lia|]; split; [lia|]; split; [lia|]|split; [exact U|intros _; exact D]].
    intros j Hj. destruct (Z_lt_ge_dec j i); [apply C; lia|]. rewrite U by lia. destruct (Z.eqb_spec j i); [reflexivity|apply Z0; lia].
  - eexists. split; [reflexivity|]. unfold inv, tight. cbn [active index]. rewrite Lu. split; [split; [lia|]; split; [lia|]; split; [lia|]|split; [exact U|]].
    + intros j Hj. rewrite U by lia. destruct (Z.eqb_spec j i); [reflexivity|apply Z0; lia].
    + intros [T|T]; [left; exact T|]. destruct (Z.eq_dec (active v) 0); [left; assumption|]. right. rewrite U by lia. destruct (Z.eqb_spec (active v - 1) i); [lia|exact T].
Qed.
Lemma tight_store v v' i val : 0 <= active v -> 0 <= i -> tight v -> val <> 0 -> (forall j, 0 <= j -> at0 (index v') j = if j =? i then val else at0 (index v) j) -> active v' = Z.max (active v) (i + 1) -> tight v'.
Proof.
  intros A Hi T N U E. right. rewrite E, U by lia. destruct (Z.eqb_spec (Z.max (active v) (i + 1) - 1) i); [exact N|]. destruct T as [T|T]; [lia|]. replace (Z.max (active v) (i + 1)) with (active v) by lia. exact T.
Qed.
Lemma run_ok n v o : inv n v -> 0 <= n < 2 ^ 30 -> op_ok o -> exists r v', run v o = Ok (r, v') /\ inv (n + 1) v' /\ effect (at0 (index v)) o r (at0 (index v')) /\ (tight v -> stores_pointer o -> tight v').
Proof.
  intros I Hn Ho. pose proof I as (L & A & An & Z0). destruct o as [val|i val|i|i]; cbn [run op_ok effect stores_pointer] in *.
  - destruct (slot_ok n v I) as (r & R & B & C & D). unfold vector_set. rewrite R. cbn [bind]. destruct (store_ok n v r val I) as (v' & E & I' & U & Ea); [lia|lia|lia|]. rewrite E.
    exists r, v'. split; [reflexivity|]. split; [exact I'|]. split; [split; [lia|]; split; [exact C|]; split; [exact D|exact U]|]. intros T N. apply (tight_store v v' r val); try assumption; lia.
  - unfold vector_set_index. destruct (store_ok n v i val I) as (v' & E & I' & U & Ea); [lia|lia|lia|]. rewrite E.
    exists i, v'. split; [reflexivity|]. split; [exact I'|]. split; [split; [reflexivity|exact U]|]. intros T N. apply (tight_store v v' i val); try assumption; lia.
  - destruct (unset_ok n v i I) as (v' & E & I' & U & T); [lia|lia|]. rewrite E. cbn [bind]. exists 0, v'. split; [reflexivity|]. split; [exact I'|]. split; [exact U|]. intros X _. exact (T X).
  - unfold vector_lookup_ensure. destruct (ensure_ok v i n I) as (v' & E & I' & Ea & Li & At); [lia|]. rewrite E. cbn [bind]. rewrite rd_at0 by lia. cbn [bind]. exists (at0 (index v') i), v'.
    split; [reflexivity|]. split; [destruct I' as (a & b & c & d); split; [exact a|]; split; [exact b|]; split; [lia|exact d]|]. split; [split; [apply At; lia|exact At]|].
    intros T _. unfold tight in *. rewrite Ea. destruct T as [T|T]; [left; exact T|]. destruct (Z.eq_dec (active v) 0); [left; assumption|]. right. rewrite At by lia. exact T.
Qed.
Lemma init_ok size : 0 <= size < 2 ^ 32 -> inv 0 (vector_init size) /\ tight (vector_init size) /\ forall i, at0 (index (vector_init size)) i = 0.
Proof.
  intros H. unfold vector_init, inv, tight. cbn [active index]. assert (E : zlen (repeat 0 (Z.to_nat (if size =? 0 then 1 else size))) = Z.max size 1).
  { unfold zlen. rewrite repeat_length. destruct (Z.eqb_spec size 0); lia. }
  rewrite E. split; [split; [lia|]; split; [lia|]; split; [lia|]; intros; apply at0_zeros|]. split; [auto|]. intros. apply at0_zeros.
Qed.
Lemma run_all_ok h : forall n v, inv n v -> 0 <= n -> n + zlen h < 2 ^ 30 -> Forall op_ok h -> exists v', run_all v h = Ok v' /\ inv (n + zlen h) v' /\ (tight v -> Forall stores_pointer h -> tight v').
Proof.
  induction h as [|o h IH]; intros n v I Hn Hb F; cbn [run_all].
  - exists v. split; [reflexivity|]. change (zlen []) with 0. rewrite Z.add_0_r. auto.
  - inversion F; subst. rewrite zlen_cons in *. pose proof (zlen_nonneg h). destruct (run_ok n v o I) as (r & w & E & Iw & _ & T); [lia|assumption|]. rewrite E. cbn [bind snd].
    destruct (IH (n + 1) w Iw) as (v' & E' & I' & T'); [lia|lia|assumption|]. exists v'. split; [exact E'|]. split; [replace (n + (1 + zlen h)) with (n + 1 + zlen h) by lia; exact I'|].
    intros X Y. inversion Y; subst. apply T'; [apply T; assumption|assumption].
Qed.
Lemma count_ok l : forall n i c, 0 <= i -> i + Z.of_nat n <= zlen l -> count_loop n l i c = Ok (c + zlen (filter (fun j => negb (at0 l j =? 0)) (zseq i n))).
Proof.
  induction n as [|n IH]; intros i c Hi Hl; cbn [count_loop zseq filter]; [change (zlen []) with 0; f_equal; lia|]. rewrite rd_at0 by lia. cbn [bind]. rewrite IH by lia.
  destruct (Z.eqb_spec (at0 l i) 0); cbn [negb]; [reflexivity|]. rewrite zlen_cons. f_equal. lia.
Qed.
