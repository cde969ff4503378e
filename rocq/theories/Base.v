(* Base.v - shared helper library for the libosmocore model.
   No part of /repo is modelled here: machine integers, outcomes and list-backed memory. *)
From Coq Require Export ZArith List Lia Bool.
From Coq Require Export ZifyBool ZifyNat.
Export ListNotations.
Open Scope Z_scope.

Ltac Zify.zify_post_hook ::= Z.div_mod_to_equations.

(* ------------------------------------------------------------------ *)
(* Outcomes of a C function                                            *)

(* Ok: normal return.  Err c: return of the negative error code c.
   Abort: osmo_panic()/OSMO_ASSERT failure.  UB: undefined behaviour
   (out-of-bounds access, invalid shift, signed overflow, division by 0). *)
Inductive res (A : Type) : Type :=
| Ok (a : A)
| Err (c : Z)
| Abort
| UB.
Arguments Ok {A} a.
Arguments Err {A} c.
Arguments Abort {A}.
Arguments UB {A}.

Definition bind {A B} (x : res A) (f : A -> res B) : res B :=
  match x with
  | Ok a => f a
  | Err c => Err c
  | Abort => Abort
  | UB => UB
  end.

Notation "'do' X <- A ;; B" := (bind A (fun X => B))
  (at level 200, X name, A at level 100, B at level 200).
Notation "'do' ' X <- A ;; B" := (bind A (fun X => B))
  (at level 200, X pattern, A at level 100, B at level 200).

Lemma bind_Ok_inv {A B} (x : res A) (f : A -> res B) b :
  bind x f = Ok b -> exists a, x = Ok a /\ f a = Ok b.
Proof. destruct x; simpl; intros H; try discriminate. eauto. Qed.

(* ------------------------------------------------------------------ *)
(* Machine integers                                                    *)

Definition u8 (x : Z) : Z := x mod 256.
Definition u16 (x : Z) : Z := x mod 65536.
Definition u32 (x : Z) : Z := x mod 4294967296.
Definition u64 (x : Z) : Z := x mod 18446744073709551616.

(* conversion of an unsigned 32-bit value to (two's complement) int *)
Definition s32 (x : Z) : Z :=
  let y := u32 x in if y <? 2147483648 then y else y - 4294967296.
Definition s64 (x : Z) : Z :=
  let y := u64 x in if y <? 9223372036854775808 then y else y - 18446744073709551616.
Definition s16 (x : Z) : Z :=
  let y := u16 x in if y <? 32768 then y else y - 65536.
Definition s8 (x : Z) : Z :=
  let y := u8 x in if y <? 128 then y else y - 256.

Definition is_byte (b : Z) : Prop := 0 <= b < 256.
Definition is_u16 (b : Z) : Prop := 0 <= b < 65536.
Definition is_u32 (b : Z) : Prop := 0 <= b < 4294967296.
Definition is_u64 (b : Z) : Prop := 0 <= b < 18446744073709551616.
Definition is_s32 (b : Z) : Prop := -2147483648 <= b < 2147483648.
Definition bytes (l : list Z) : Prop := Forall is_byte l.
Definition is_bit (b : Z) : Prop := b = 0 \/ b = 1.
Definition bits (l : list Z) : Prop := Forall is_bit l.

Definition is_byteb (b : Z) : bool := (0 <=? b) && (b <? 256).

Lemma u8_small x : is_byte x -> u8 x = x.
Proof. unfold u8, is_byte; intros; apply Z.mod_small; lia. Qed.
Lemma u8_range x : is_byte (u8 x).
Proof. unfold u8, is_byte. lia. Qed.
Lemma u16_small x : is_u16 x -> u16 x = x.
Proof. unfold u16, is_u16; intros; apply Z.mod_small; lia. Qed.
Lemma u16_range x : is_u16 (u16 x).
Proof. unfold u16, is_u16. lia. Qed.
Lemma u32_small x : is_u32 x -> u32 x = x.
Proof. unfold u32, is_u32; intros; apply Z.mod_small; lia. Qed.
Lemma u32_range x : is_u32 (u32 x).
Proof. unfold u32, is_u32. lia. Qed.
Lemma u64_small x : is_u64 x -> u64 x = x.
Proof. unfold u64, is_u64; intros; apply Z.mod_small; lia. Qed.
Lemma u64_range x : is_u64 (u64 x).
Proof. unfold u64, is_u64. lia. Qed.

(* ------------------------------------------------------------------ *)
(* Lists as memory                                                     *)

Definition zlen {A} (l : list A) : Z := Z.of_nat (length l).

(* read element at Z index; out of bounds is UB *)
Definition rd {A} (l : list A) (i : Z) : res A :=
  if i <? 0 then UB else
  match nth_error l (Z.to_nat i) with
  | Some x => Ok x
  | None => UB
  end.

Fixpoint upd {A} (l : list A) (n : nat) (v : A) : list A :=
  match l, n with
  | [], _ => []
  | _ :: t, O => v :: t
  | h :: t, S m => h :: upd t m v
  end.

Definition wr {A} (l : list A) (i : Z) (v : A) : res (list A) :=
  if i <? 0 then UB else
  if Z.of_nat (length l) <=? i then UB else
  Ok (upd l (Z.to_nat i) v).

(* slice [off, off+n) *)
Definition slice {A} (l : list A) (off n : nat) : list A := firstn n (skipn off l).
Definition zslice {A} (l : list A) (off n : Z) : list A :=
  slice l (Z.to_nat off) (Z.to_nat n).

(* overwrite [off, off+length s) by s *)
Definition blit {A} (l : list A) (off : nat) (s : list A) : list A :=
  firstn off l ++ s ++ skipn (off + length s) l.

(* total read with default, for specifications *)
Definition at0 (l : list Z) (i : Z) : Z := nth (Z.to_nat i) l 0.

Lemma zlen_nonneg {A} (l : list A) : 0 <= zlen l.
Proof. unfold zlen; lia. Qed.
Lemma zlen_app {A} (a b : list A) : zlen (a ++ b) = zlen a + zlen b.
Proof. unfold zlen; rewrite app_length; lia. Qed.
Lemma zlen_cons {A} (a : A) b : zlen (a :: b) = 1 + zlen b.
Proof. unfold zlen; simpl length; lia. Qed.
Lemma zlen_nil {A} : zlen (@nil A) = 0.
Proof. reflexivity. Qed.

Lemma upd_length {A} (l : list A) n v : length (upd l n v) = length l.
Proof. revert n; induction l; destruct n; simpl; congruence. Qed.

Lemma upd_nth_same {A} (l : list A) n v d :
  (n < length l)%nat -> nth n (upd l n v) d = v.
Proof. revert n; induction l; destruct n; simpl; intros; try lia; auto. apply IHl; lia. Qed.

Lemma upd_nth_other {A} (l : list A) n m v d :
  n <> m -> nth m (upd l n v) d = nth m l d.
Proof.
  revert n m; induction l; intros [|n] [|m] H; simpl; try congruence; auto.
Qed.

Lemma upd_nth {A} (l : list A) n m v d :
  nth m (upd l n v) d =
  if (Nat.eqb n m && Nat.ltb n (length l))%bool then v else nth m l d.
Proof.
  destruct (Nat.eqb_spec n m).
  - subst. destruct (Nat.ltb_spec m (length l)); simpl.
    + apply upd_nth_same; auto.
    + rewrite !nth_overflow; auto; rewrite upd_length; auto.
  - simpl. apply upd_nth_other; auto.
Qed.

Lemma upd_nth_error {A} (l : list A) n m v :
  nth_error (upd l n v) m =
  if (Nat.eqb n m && Nat.ltb n (length l))%bool then Some v else nth_error l m.
Proof.
  revert n m; induction l; intros [|n] [|m]; simpl; auto.
  - rewrite andb_false_r; auto.
  - apply IHl.
Qed.

Lemma upd_app_l {A} (a b : list A) n v :
  (n < length a)%nat -> upd (a ++ b) n v = upd a n v ++ b.
Proof. revert n; induction a; intros [|n]; simpl; intros; try lia; auto. rewrite IHa; auto; lia. Qed.

Lemma upd_app_r {A} (a b : list A) n v :
  upd (a ++ b) (length a + n) v = a ++ upd b n v.
Proof. induction a; simpl; auto. rewrite IHa; auto. Qed.

Lemma upd_app_at {A} (a : list A) x b v :
  upd (a ++ x :: b) (length a) v = a ++ v :: b.
Proof. replace (length a) with (length a + 0)%nat by lia. rewrite upd_app_r. reflexivity. Qed.

Lemma upd_split {A} (l : list A) n v :
  (n < length l)%nat -> upd l n v = firstn n l ++ v :: skipn (S n) l.
Proof. revert n; induction l; intros [|n]; simpl; intros; try lia; auto. rewrite IHl; auto; lia. Qed.

Lemma Forall_upd {A} (P : A -> Prop) l n v :
  Forall P l -> P v -> Forall P (upd l n v).
Proof.
  intros H Hv; revert n; induction H; intros [|n]; simpl; auto.
Qed.

Lemma rd_Ok {A} (l : list A) i x :
  rd l i = Ok x <-> 0 <= i /\ nth_error l (Z.to_nat i) = Some x.
Proof.
  unfold rd. destruct (Z.ltb_spec i 0).
  - split; [discriminate | lia].
  - destruct (nth_error l (Z.to_nat i)); split.
    + intros [= ->]; auto.
    + intros [_ [= ->]]; auto.
    + discriminate.
    + intros [_ ?]; discriminate.
Qed.

Lemma rd_in {A} (l : list A) i d :
  0 <= i < zlen l -> rd l i = Ok (nth (Z.to_nat i) l d).
Proof.
  intros H; unfold zlen in H. apply rd_Ok; split; [lia|].
  apply nth_error_nth'; lia.
Qed.

Lemma rd_at0 (l : list Z) i : 0 <= i < zlen l -> rd l i = Ok (at0 l i).
Proof. intros; unfold at0; apply rd_in; auto. Qed.

Lemma rd_out {A} (l : list A) i : i < 0 \/ zlen l <= i -> rd l i = UB.
Proof.
  unfold rd, zlen; intros H. destruct (Z.ltb_spec i 0); auto.
  destruct (nth_error l (Z.to_nat i)) eqn:E; auto.
  apply nth_error_Some_bound_index || (assert (nth_error l (Z.to_nat i) <> None) by congruence;
    apply nth_error_Some in H1; lia).
Qed.

Lemma wr_in {A} (l : list A) i v :
  0 <= i < zlen l -> wr l i v = Ok (upd l (Z.to_nat i) v).
Proof.
  unfold wr, zlen; intros.
  destruct (Z.ltb_spec i 0); [lia|]. destruct (Z.leb_spec (Z.of_nat (length l)) i); [lia|auto].
Qed.

Lemma wr_out {A} (l : list A) i v : i < 0 \/ zlen l <= i -> wr l i v = UB.
Proof.
  unfold wr, zlen; intros.
  destruct (Z.ltb_spec i 0); auto. destruct (Z.leb_spec (Z.of_nat (length l)) i); [auto|lia].
Qed.

Lemma wr_Ok_inv {A} (l l' : list A) i v :
  wr l i v = Ok l' -> 0 <= i < zlen l /\ l' = upd l (Z.to_nat i) v.
Proof.
  unfold wr, zlen; intros.
  destruct (Z.ltb_spec i 0); try discriminate.
  destruct (Z.leb_spec (Z.of_nat (length l)) i); try discriminate.
  injection H as <-; auto.
Qed.

Lemma slice_length {A} (l : list A) off n :
  (off + n <= length l)%nat -> length (slice l off n) = n.
Proof. unfold slice; intros. rewrite firstn_length, skipn_length; lia. Qed.

Lemma blit_length {A} (l : list A) off s :
  (off + length s <= length l)%nat -> length (blit l off s) = length l.
Proof. unfold blit; intros. rewrite !app_length, firstn_length, skipn_length; lia. Qed.

Lemma Forall_firstn {A} (P : A -> Prop) n l : Forall P l -> Forall P (firstn n l).
Proof. revert n; induction l; intros [|n] H; simpl; auto. inversion H; auto. Qed.
Lemma Forall_skipn {A} (P : A -> Prop) n l : Forall P l -> Forall P (skipn n l).
Proof. revert n; induction l; intros [|n] H; simpl; auto. inversion H; auto. Qed.
Lemma Forall_slice {A} (P : A -> Prop) l o n : Forall P l -> Forall P (slice l o n).
Proof. intros; apply Forall_firstn, Forall_skipn; auto. Qed.
Lemma Forall_blit {A} (P : A -> Prop) l o s : Forall P l -> Forall P s -> Forall P (blit l o s).
Proof.
  intros; unfold blit; apply Forall_app; split; [apply Forall_firstn; auto|].
  apply Forall_app; split; auto. apply Forall_skipn; auto.
Qed.

Lemma Forall_nth0 (P : Z -> Prop) l i : Forall P l -> P 0 -> P (nth i l 0).
Proof.
  intros H H0. destruct (Nat.lt_ge_cases i (length l)).
  - rewrite Forall_nth in H. apply H; auto.
  - rewrite nth_overflow; auto.
Qed.

Lemma bytes_at0 l i : bytes l -> is_byte (at0 l i).
Proof. intros; unfold at0; apply (Forall_nth0 is_byte); auto. unfold is_byte; lia. Qed.

Lemma list_ext {A} (a b : list A) d :
  length a = length b -> (forall i, (i < length a)%nat -> nth i a d = nth i b d) -> a = b.
Proof. intros; eapply nth_ext; eauto. Qed.

Lemma nth_firstn {A} (l : list A) n i d :
  nth i (firstn n l) d = if Nat.ltb i n then nth i l d else d.
Proof.
  revert n i; induction l; intros [|n] [|i]; simpl; auto.
  - destruct (Nat.ltb _ _); auto.
  - rewrite IHl. reflexivity.
Qed.

Lemma nth_skipn {A} (l : list A) n i d :
  nth i (skipn n l) d = nth (n + i) l d.
Proof. revert l; induction n; intros [|x l]; simpl; auto. destruct i; auto. Qed.

Lemma nth_slice {A} (l : list A) o n i d :
  nth i (slice l o n) d = if Nat.ltb i n then nth (o + i) l d else d.
Proof. unfold slice. rewrite nth_firstn, nth_skipn; auto. Qed.

Lemma nth_blit {A} (l : list A) o s i d :
  (o + length s <= length l)%nat ->
  nth i (blit l o s) d =
  if (Nat.leb o i && Nat.ltb i (o + length s))%bool then nth (i - o) s d else nth i l d.
Proof.
  intros H. unfold blit.
  assert (Hf : length (firstn o l) = o) by (rewrite firstn_length; lia).
  destruct (Nat.leb_spec o i); simpl.
  - rewrite app_nth2 by lia. rewrite Hf.
    destruct (Nat.ltb_spec i (o + length s)).
    + rewrite app_nth1 by lia. auto.
    + rewrite app_nth2 by lia. rewrite nth_skipn. f_equal; lia.
  - rewrite app_nth1 by lia. rewrite nth_firstn.
    destruct (Nat.ltb_spec i o); auto; lia.
Qed.

Lemma firstn_app_exact {A} (a b : list A) n : n = length a -> firstn n (a ++ b) = a.
Proof. intros ->. rewrite firstn_app, Nat.sub_diag, firstn_all. simpl. apply app_nil_r. Qed.
Lemma skipn_app_exact {A} (a b : list A) n : n = length a -> skipn n (a ++ b) = b.
Proof. intros ->. rewrite skipn_app, Nat.sub_diag, skipn_all. auto. Qed.

Lemma slice_blit_same {A} (l : list A) o s :
  (o <= length l)%nat -> slice (blit l o s) o (length s) = s.
Proof.
  intros. unfold slice, blit. rewrite skipn_app_exact by (rewrite firstn_length; lia).
  apply firstn_app_exact; auto.
Qed.

(* repeat an operation list on a state: used by all histories *)
Definition run {S O} (step : S -> O -> S) (s : S) (ops : list O) : S := fold_left step ops s.

Lemma run_inv {S O} (step : S -> O -> S) (I : S -> Prop) :
  (forall s o, I s -> I (step s o)) -> forall ops s, I s -> I (run step s ops).
Proof. intros Hs ops; induction ops; simpl; auto. Qed.

Lemma run_app {S O} (step : S -> O -> S) s a b :
  run step s (a ++ b) = run step (run step s a) b.
Proof. apply fold_left_app. Qed.

(* enumeration of an interval of Z, for complete finite checks *)
Fixpoint zseq (start : Z) (n : nat) : list Z :=
  match n with O => [] | S m => start :: zseq (start + 1) m end.

Lemma zseq_In start n x : In x (zseq start n) <-> start <= x < start + Z.of_nat n.
Proof.
  revert start; induction n; intros; cbn [zseq In].
  - lia.
  - rewrite IHn. lia.
Qed.

Lemma zseq_length start n : length (zseq start n) = n.
Proof. revert start; induction n; simpl; auto. Qed.

Lemma forall_zseq (P : Z -> bool) start n :
  forallb P (zseq start n) = true ->
  forall x, start <= x < start + Z.of_nat n -> P x = true.
Proof. intros H x Hx. rewrite forallb_forall in H. apply H, zseq_In; auto. Qed.

Lemma forall_byte (P : Z -> bool) :
  forallb P (zseq 0 256) = true -> forall x, is_byte x -> P x = true.
Proof. intros H x Hx. apply (forall_zseq P 0 256); auto. Qed.

(* ------------------------------------------------------------------ *)
(* Bits                                                                *)

Definition b2z (b : bool) : Z := if b then 1 else 0.

Lemma b2z_bit b : is_bit (b2z b).
Proof. destruct b; [right|left]; reflexivity. Qed.
Lemma bit_b2z x : is_bit x -> x = b2z (x =? 1).
Proof. intros [->| ->]; reflexivity. Qed.
Lemma testbit_bit0 x : is_bit x -> Z.testbit x 0 = (x =? 1).
Proof. intros [->| ->]; reflexivity. Qed.

Lemma testbit_above x n m : 0 <= x < 2 ^ n -> 0 <= n <= m -> Z.testbit x m = false.
Proof.
  intros Hx Hn. rewrite Z.testbit_eqb by lia.
  rewrite Z.div_small; [reflexivity|].
  split; [lia|]. eapply Z.lt_le_trans; [apply Hx|]. apply Z.pow_le_mono_r; lia.
Qed.

Lemma byte_testbit_above x m : is_byte x -> 8 <= m -> Z.testbit x m = false.
Proof. intros Hx Hm; apply testbit_above with 8; [exact Hx|lia]. Qed.

Lemma bits_bound x n : 0 <= n -> 0 <= x ->
  (forall m, n <= m -> Z.testbit x m = false) -> x < 2 ^ n.
Proof.
  intros Hn Hx H.
  assert (x mod 2 ^ n = x).
  { apply Z.bits_inj'. intros m Hm. destruct (Z_lt_le_dec m n).
    - rewrite Z.mod_pow2_bits_low by lia; auto.
    - rewrite Z.mod_pow2_bits_high by lia. rewrite H; auto. }
  rewrite <- H0. apply Z.mod_pos_bound. apply Z.pow_pos_nonneg; lia.
Qed.

Lemma byte_bits_ext a b : is_byte a -> is_byte b ->
  (forall i, 0 <= i < 8 -> Z.testbit a i = Z.testbit b i) -> a = b.
Proof.
  intros Ha Hb H. apply Z.bits_inj'. intros n Hn.
  destruct (Z_lt_le_dec n 8); [apply H; lia|].
  rewrite !byte_testbit_above; auto.
Qed.

Lemma byte_of_bits a : 0 <= a -> (forall m, 8 <= m -> Z.testbit a m = false) -> is_byte a.
Proof. intros; split; auto. change 256 with (2^8). apply bits_bound; auto; lia. Qed.

Lemma testbit_1 n : Z.testbit 1 n = (n =? 0).
Proof.
  destruct (Z.eqb_spec n 0); [subst; reflexivity|].
  destruct (Z_lt_le_dec n 0).
  - apply Z.testbit_neg_r; lia.
  - apply testbit_above with 1; simpl; lia.
Qed.

Lemma testbit_pow2 k n : 0 <= k -> Z.testbit (2 ^ k) n = (n =? k).
Proof.
  intros. destruct (Z_lt_le_dec n 0).
  - rewrite Z.testbit_neg_r by lia. lia.
  - destruct (Z.eqb_spec n k); [subst; apply Z.pow2_bits_true; lia|].
    apply Z.pow2_bits_false; lia.
Qed.

Lemma testbit_shl1 k n : 0 <= k -> Z.testbit (Z.shiftl 1 k) n = (n =? k).
Proof. intros. rewrite Z.shiftl_1_l. apply testbit_pow2; auto. Qed.

Lemma testbit_ones k n : 0 <= k -> Z.testbit (Z.ones k) n = (0 <=? n) && (n <? k).
Proof.
  intros. destruct (Z_lt_le_dec n 0).
  - rewrite Z.testbit_neg_r by lia. lia.
  - destruct (Z_lt_le_dec n k).
    + rewrite Z.ones_spec_low; lia.
    + rewrite Z.ones_spec_high; lia.
Qed.

Lemma lor_shiftl_add a b k : 0 <= k -> 0 <= a < 2 ^ k -> Z.lor a (Z.shiftl b k) = a + b * 2 ^ k.
Proof.
  intros Hk Ha.
  rewrite Z.shiftl_mul_pow2 by lia.
  rewrite <- Z.lxor_lor.
  - rewrite <- Z.add_nocarry_lxor; [reflexivity|].
    apply Z.bits_inj'. intros n Hn. rewrite Z.land_spec, Z.bits_0.
    destruct (Z_lt_le_dec n k).
    + rewrite Z.mul_pow2_bits_low by lia. apply andb_false_r.
    + rewrite (testbit_above a k n) by lia. reflexivity.
  - apply Z.bits_inj'. intros n Hn. rewrite Z.land_spec, Z.bits_0.
    destruct (Z_lt_le_dec n k).
    + rewrite Z.mul_pow2_bits_low by lia. apply andb_false_r.
    + rewrite (testbit_above a k n) by lia. reflexivity.
Qed.

(* ------------------------------------------------------------------ *)
(* Counted loops: for (j = i; j < i + n; j++) s = f j s                *)

Fixpoint zfor {S : Type} (n : nat) (i : Z) (f : Z -> S -> res S) (s : S) : res S :=
  match n with
  | O => Ok s
  | Datatypes.S m => do s' <- f i s ;; zfor m (i + 1) f s'
  end.

Lemma zfor_inv {S : Type} (Inv : Z -> S -> Prop) (f : Z -> S -> res S) (n : nat) :
  forall i s,
  Inv i s ->
  (forall j s, i <= j < i + Z.of_nat n -> Inv j s -> exists s', f j s = Ok s' /\ Inv (j + 1) s') ->
  exists s', zfor n i f s = Ok s' /\ Inv (i + Z.of_nat n) s'.
Proof.
  induction n; intros i s H0 Hs.
  - exists s; split; auto. replace (i + Z.of_nat 0) with i by lia. auto.
  - destruct (Hs i s) as (s1 & E & H1); [lia|auto|].
    destruct (IHn (i + 1) s1) as (s2 & E2 & H2); auto.
    { intros; apply Hs; auto; lia. }
    exists s2; split.
    + simpl. rewrite E. simpl. auto.
    + replace (i + Z.of_nat (Datatypes.S n)) with (i + 1 + Z.of_nat n) by lia. auto.
Qed.

(* the same with a known result of every iteration *)
Lemma zfor_pure {S : Type} (f : Z -> S -> res S) (g : Z -> S -> S) n :
  forall i s, (forall j s, i <= j < i + Z.of_nat n -> f j s = Ok (g j s)) ->
  zfor n i f s = Ok (fold_left (fun s j => g j s) (zseq i n) s).
Proof.
  induction n; intros; simpl; auto.
  rewrite H by lia. simpl. apply IHn. intros; apply H; lia.
Qed.

Lemma zfor_app {S : Type} (f : Z -> S -> res S) n m : forall i s,
  zfor (n + m) i f s = do s' <- zfor n i f s ;; zfor m (i + Z.of_nat n) f s'.
Proof.
  induction n; intros; simpl.
  - f_equal; lia.
  - destruct (f i s); simpl; auto. rewrite IHn. f_equal. 
    replace (i + 1 + Z.of_nat n) with (i + Z.of_nat (Datatypes.S n)) by lia. reflexivity.
Qed.

(* little-endian value of a byte string (specification helper) *)
Fixpoint le_val (l : list Z) : Z :=
  match l with [] => 0 | b :: t => b + 256 * le_val t end.
Definition be_val (l : list Z) : Z := le_val (rev l).

Lemma le_val_app a b : le_val (a ++ b) = le_val a + 2 ^ (8 * zlen a) * le_val b.
Proof.
  induction a; cbn [le_val app].
  - change (zlen (@nil Z)) with 0. change (2 ^ (8 * 0)) with 1. lia.
  - rewrite IHa, zlen_cons. replace (8 * (1 + zlen a0)) with (8 + 8 * zlen a0) by lia.
    pose proof (zlen_nonneg a0). rewrite Z.pow_add_r by lia. change (2^8) with 256. lia.
Qed.

Lemma le_val_bound l : bytes l -> 0 <= le_val l < 2 ^ (8 * zlen l).
Proof.
  induction l; intros H; cbn [le_val].
  - change (zlen (@nil Z)) with 0; simpl; lia.
  - inversion H; subst. specialize (IHl H3). unfold is_byte in H2.
    rewrite zlen_cons. replace (8 * (1 + zlen l)) with (8 + 8 * zlen l) by lia.
    pose proof (zlen_nonneg l). rewrite Z.pow_add_r by lia. change (2^8) with 256. lia.
Qed.

Lemma bytes_rev l : bytes l -> bytes (rev l).
Proof. apply Forall_rev. Qed.

Lemma zlen_rev {A} (l : list A) : zlen (rev l) = zlen l.
Proof. unfold zlen; rewrite rev_length; auto. Qed.

Lemma be_val_bound l : bytes l -> 0 <= be_val l < 2 ^ (8 * zlen l).
Proof. intros; unfold be_val. rewrite <- (zlen_rev l). apply le_val_bound, bytes_rev; auto. Qed.

Lemma be_val_snoc l b : be_val (l ++ [b]) = 256 * be_val l + b.
Proof. unfold be_val. rewrite rev_app_distr. cbn [rev app le_val]. lia. Qed.

(* the n least significant base-256 digits of x, least significant first *)
Fixpoint le_bytes (n : nat) (x : Z) : list Z :=
  match n with O => [] | S m => x mod 256 :: le_bytes m (x / 256) end.
Definition be_bytes (n : nat) (x : Z) : list Z := rev (le_bytes n x).

Lemma le_bytes_length n x : length (le_bytes n x) = n.
Proof. revert x; induction n; simpl; auto. Qed.
Lemma be_bytes_length n x : length (be_bytes n x) = n.
Proof. unfold be_bytes; rewrite rev_length; apply le_bytes_length. Qed.
Lemma le_bytes_bytes n x : bytes (le_bytes n x).
Proof. revert x; induction n; intros; simpl; constructor; auto. unfold is_byte; lia. apply IHn. Qed.
Lemma be_bytes_bytes n x : bytes (be_bytes n x).
Proof. apply bytes_rev, le_bytes_bytes. Qed.

Lemma le_val_le_bytes n x : le_val (le_bytes n x) = x mod 2 ^ (8 * Z.of_nat n).
Proof.
  revert x; induction n; intros.
  - simpl. rewrite Z.mod_1_r. reflexivity.
  - cbn [le_bytes le_val]. rewrite IHn.
    replace (8 * Z.of_nat (S n)) with (8 + 8 * Z.of_nat n) by lia.
    rewrite Z.pow_add_r by lia. change (2^8) with 256.
    rewrite Z.rem_mul_r by (try lia; apply Z.pow_pos_nonneg; lia). reflexivity.
Qed.
Lemma be_val_be_bytes n x : be_val (be_bytes n x) = x mod 2 ^ (8 * Z.of_nat n).
Proof. unfold be_val, be_bytes. rewrite rev_involutive. apply le_val_le_bytes. Qed.

Lemma le_bytes_le_val l : bytes l -> le_bytes (length l) (le_val l) = l.
Proof.
  induction l; intros H; cbn [le_bytes le_val length]; auto. inversion H; subst. unfold is_byte in H2.
  replace ((a + 256 * le_val l) mod 256) with a by lia.
  replace ((a + 256 * le_val l) / 256) with (le_val l) by lia.
  rewrite IHl; auto.
Qed.
Lemma be_bytes_be_val l : bytes l -> be_bytes (length l) (be_val l) = l.
Proof.
  intros. unfold be_bytes, be_val. rewrite <- (rev_length l).
  rewrite le_bytes_le_val by (apply bytes_rev; auto). apply rev_involutive.
Qed.

Lemma nth_le_bytes n x i : (i < n)%nat ->
  nth i (le_bytes n x) 0 = (x / 2 ^ (8 * Z.of_nat i)) mod 256.
Proof.
  revert x i; induction n; intros x [|i] H; cbn [le_bytes nth]; try lia.
  rewrite IHn by lia. rewrite Z.div_div by (try lia; apply Z.pow_pos_nonneg; lia).
    f_equal. f_equal. replace (8 * Z.of_nat (S i)) with (8 + 8 * Z.of_nat i) by lia.
    rewrite Z.pow_add_r by lia. reflexivity.
Qed.

Lemma firstn_snoc (p : list Z) (i : nat) :
  (i < length p)%nat -> firstn (S i) p = firstn i p ++ [nth i p 0].
Proof.
  revert i; induction p; intros [|i] H; cbn [firstn nth app length] in *; try lia; auto.
  rewrite IHp by lia. reflexivity.
Qed.

Lemma zlen_firstn (p : list Z) (i : nat) : (i <= length p)%nat -> zlen (firstn i p) = Z.of_nat i.
Proof. intros; unfold zlen; rewrite firstn_length; lia. Qed.

Lemma pow2_pos k : 0 <= k -> 0 < 2 ^ k.
Proof. intros; apply Z.pow_pos_nonneg; lia. Qed.

(* extensionality of the loop in its body *)
Lemma zfor_ext {S} (f g : Z -> S -> res S) n : forall i s,
  (forall j s, i <= j < i + Z.of_nat n -> f j s = g j s) -> zfor n i f s = zfor n i g s.
Proof.
  induction n; intros; simpl; auto. rewrite H by lia.
  destruct (g i s); simpl; auto. apply IHn. intros; apply H; lia.
Qed.

Lemma zseq_snoc n : forall a, zseq a (S n) = zseq a n ++ [a + Z.of_nat n].
Proof.
  induction n; intros.
  - simpl. rewrite Z.add_0_r. reflexivity.
  - change (zseq a (S (S n))) with (a :: zseq (a + 1) (S n)).
    rewrite IHn. cbn [zseq app].
    replace (a + 1 + Z.of_nat n) with (a + Z.of_nat (S n)) by lia. reflexivity.
Qed.

Lemma nth_zseq n i a d : (i < n)%nat -> nth i (zseq a n) d = a + Z.of_nat i.
Proof.
  revert i a; induction n; intros [|i] a H; cbn [zseq nth]; try lia.
  rewrite IHn; lia.
Qed.

Lemma land_255 x : Z.land x 255 = x mod 256.
Proof. change 255 with (Z.ones 8). apply Z.land_ones; lia. Qed.

(* a loop writing v(i) at i for i in [0,n) *)
Lemma wr_loop (v : Z -> Z) (p : list Z) (n : Z) :
  0 <= n <= zlen p ->
  zfor (Z.to_nat n) 0 (fun i m => wr m i (v i)) p
  = Ok (map v (zseq 0 (Z.to_nat n)) ++ skipn (Z.to_nat n) p).
Proof.
  intros Hn.
  destruct (zfor_inv (fun i m => m = map v (zseq 0 (Z.to_nat i)) ++ skipn (Z.to_nat i) p)
     (fun i m => wr m i (v i)) (Z.to_nat n) 0 p) as (s & E & Hs).
  - reflexivity.
  - intros j s Hj ->. rewrite wr_in.
    2:{ rewrite zlen_app. unfold zlen at 1 2. rewrite map_length, zseq_length, skipn_length.
        unfold zlen in Hn. lia. }
    eexists; split; [reflexivity|].
    assert (Hlen : length (map v (zseq 0 (Z.to_nat j))) = Z.to_nat j) by (rewrite map_length, zseq_length; auto).
    assert (Hsk: exists x t, skipn (Z.to_nat j) p = x :: t /\ t = skipn (Z.to_nat (j+1)) p).
    { destruct (skipn (Z.to_nat j) p) as [|x t] eqn:Es.
      - apply (f_equal (@length Z)) in Es. rewrite skipn_length in Es. simpl in Es. unfold zlen in Hn. lia.
      - exists x, t; split; auto. replace (Z.to_nat (j+1)) with (S (Z.to_nat j)) by lia.
        clear - Es. revert p Es. generalize (Z.to_nat j). induction n; intros p Es.
        + simpl in *. subst. reflexivity.
        + destruct p; [discriminate|]. simpl in Es. apply IHn in Es. exact Es. }
    destruct Hsk as (x & t & Es & Et). rewrite Es.
    rewrite <- Hlen at 2. rewrite upd_app_at. rewrite Et.
    replace (Z.to_nat (j+1)) with (Z.to_nat j + 1)%nat by lia.
    assert (Hz: zseq 0 (Z.to_nat j + 1) = zseq 0 (Z.to_nat j) ++ [j]).
    { rewrite Nat.add_1_r, zseq_snoc. rewrite Z2Nat.id by lia. reflexivity. }
    rewrite Hz, map_app, <- app_assoc. reflexivity.
  - rewrite E, Hs. rewrite !Z2Nat.id by lia. reflexivity.
Qed.

Lemma nth_map_zseq {B} (v : Z -> B) n i a d : (i < n)%nat ->
  nth i (map v (zseq a n)) d = v (a + Z.of_nat i).
Proof.
  intros. rewrite nth_indep with (d' := v 0) by (rewrite map_length, zseq_length; auto).
  rewrite map_nth, nth_zseq; auto.
Qed.
Lemma skipn_skipn {A} x : forall y (l : list A), skipn x (skipn y l) = skipn (x + y) l.
Proof.
  intros y; induction y; intros l.
  - rewrite Nat.add_0_r. reflexivity.
  - rewrite Nat.add_succ_r. destruct l; simpl; [apply skipn_nil|apply IHy].
Qed.

(* Z-indexed access after a Z-indexed update *)
Lemma zlen_upd {A} (l : list A) n v : zlen (upd l n v) = zlen l.
Proof. unfold zlen. rewrite upd_length. reflexivity. Qed.

Lemma at0_upd l i v j : 0 <= i < zlen l -> 0 <= j ->
  at0 (upd l (Z.to_nat i) v) j = if j =? i then v else at0 l j.
Proof.
  intros Hi Hj. unfold at0, zlen in *. destruct (Z.eqb_spec j i).
  - subst. apply upd_nth_same. lia.
  - apply upd_nth_other. lia.
Qed.

Lemma at0_app a b i : 0 <= i -> at0 (a ++ b) i = if i <? zlen a then at0 a i else at0 b (i - zlen a).
Proof.
  intros. unfold at0, zlen. destruct (Z.ltb_spec i (Z.of_nat (length a))).
  - apply app_nth1; lia.
  - rewrite app_nth2 by lia. f_equal. lia.
Qed.

Lemma at0_out l i : zlen l <= i -> at0 l i = 0.
Proof. intros. unfold at0, zlen in *. apply nth_overflow. lia. Qed.

Lemma at0_cons x l i : 0 <= i -> at0 (x :: l) i = if i =? 0 then x else at0 l (i - 1).
Proof.
  intros. unfold at0. destruct (Z.eqb_spec i 0); [subst; reflexivity|].
  replace (Z.to_nat i) with (S (Z.to_nat (i - 1))) by lia. reflexivity.
Qed.

Lemma at0_ext a b : zlen a = zlen b -> (forall i, 0 <= i < zlen a -> at0 a i = at0 b i) -> a = b.
Proof.
  intros L H. apply list_ext with (d := 0). { unfold zlen in L. lia. }
  intros i Hi. specialize (H (Z.of_nat i)). unfold at0, zlen in H. rewrite Nat2Z.id in H. apply H. lia.
Qed.

Lemma at0_map_zseq v n i a : 0 <= i < n -> at0 (map v (zseq a (Z.to_nat n))) i = v (a + i).
Proof. intros. unfold at0. rewrite nth_map_zseq by lia. f_equal. lia. Qed.

Lemma at0_firstn l n i : 0 <= i -> at0 (firstn (Z.to_nat n) l) i = if i <? n then at0 l i else 0.
Proof. intros. unfold at0. rewrite nth_firstn. destruct (Z.ltb_spec i n), (Nat.ltb_spec (Z.to_nat i) (Z.to_nat n)); auto; lia. Qed.

Lemma at0_skipn l n i : 0 <= i -> 0 <= n -> at0 (skipn (Z.to_nat n) l) i = at0 l (n + i).
Proof. intros. unfold at0. rewrite nth_skipn. f_equal. lia. Qed.

Lemma bits_at0 l i : bits l -> is_bit (at0 l i).
Proof. intros. unfold at0. apply Forall_nth0; auto. left; reflexivity. Qed.

Lemma s32_small x : is_s32 x -> s32 x = x.
Proof. unfold is_s32, s32, u32. intros. destruct (Z.ltb_spec (x mod 4294967296) 2147483648); lia. Qed.
Lemma s32_range x : is_s32 (s32 x).
Proof. unfold is_s32, s32, u32. destruct (Z.ltb_spec (x mod 4294967296) 2147483648); lia. Qed.

Lemma zlen_map {A B} (f : A -> B) l : zlen (map f l) = zlen l.
Proof. unfold zlen. rewrite map_length. reflexivity. Qed.
Lemma at0_map f l i : 0 <= i < zlen l -> at0 (map f l) i = f (at0 l i).
Proof.
  intros. unfold at0, zlen in *. rewrite nth_indep with (d' := f 0) by (rewrite map_length; lia). apply map_nth.
Qed.
Lemma zlen_zseq a n : zlen (zseq a n) = Z.of_nat n.
Proof. unfold zlen. rewrite zseq_length. reflexivity. Qed.
Lemma zlen_firstn' {A} (l : list A) n : zlen (firstn (Z.to_nat n) l) = Z.min (Z.max n 0) (zlen l).
Proof. unfold zlen. rewrite firstn_length. lia. Qed.
Lemma zlen_skipn' {A} (l : list A) n : zlen (skipn (Z.to_nat n) l) = Z.max 0 (zlen l - Z.max n 0).
Proof. unfold zlen. rewrite skipn_length. lia. Qed.

(* memcpy / memmove between list-backed buffers, bounds checked on both sides *)
Definition memcpy (dst : list Z) (doff : Z) (src : list Z) (soff n : Z) : res (list Z) :=
  if (0 <=? n) && (0 <=? doff) && (doff + n <=? zlen dst) && (0 <=? soff) && (soff + n <=? zlen src)
  then Ok (blit dst (Z.to_nat doff) (slice src (Z.to_nat soff) (Z.to_nat n)))
  else UB.
Lemma memcpy_ok dst doff src soff n :
  0 <= n -> 0 <= doff -> doff + n <= zlen dst -> 0 <= soff -> soff + n <= zlen src ->
  exists o, memcpy dst doff src soff n = Ok o /\ zlen o = zlen dst /\
    forall i, 0 <= i < zlen dst -> at0 o i = if (doff <=? i) && (i <? doff + n) then at0 src (soff + (i - doff)) else at0 dst i.
Proof.
  intros. unfold memcpy.
  replace ((0 <=? n) && (0 <=? doff) && (doff + n <=? zlen dst) && (0 <=? soff) && (soff + n <=? zlen src)) with true by lia.
  eexists; split; [reflexivity|]. split.
  - unfold zlen in *. rewrite blit_length; auto. rewrite slice_length; lia.
  - intros i Hi. unfold at0, zlen in *. rewrite nth_blit by (rewrite slice_length; lia).
    rewrite slice_length by lia.
    replace ((Z.to_nat doff <=? Z.to_nat i)%nat && (Z.to_nat i <? Z.to_nat doff + Z.to_nat n)%nat)
      with ((doff <=? i) && (i <? doff + n)) by lia.
    destruct ((doff <=? i) && (i <? doff + n)) eqn:E; auto.
    rewrite nth_slice. replace (Nat.ltb _ _) with true by (symmetry; apply Nat.ltb_lt; lia). f_equal. lia.
Qed.
Lemma memcpy_UB dst doff src soff n :
  n < 0 \/ doff < 0 \/ zlen dst < doff + n \/ soff < 0 \/ zlen src < soff + n -> memcpy dst doff src soff n = UB.
Proof.
  intros. unfold memcpy.
  replace ((0 <=? n) && (0 <=? doff) && (doff + n <=? zlen dst) && (0 <=? soff) && (soff + n <=? zlen src)) with false by lia.
  reflexivity.
Qed.

(* errno values (Linux, asm-generic), returned negated by the C code *)
Definition EPERM := 1. Definition ENOENT := 2. Definition EIO := 5. Definition E2BIG := 7.
Definition EBADF := 9. Definition EAGAIN := 11. Definition ENOMEM := 12. Definition EACCES := 13.
Definition EBUSY := 16. Definition EEXIST := 17. Definition ENODEV := 19. Definition EINVAL := 22.
Definition ENOSPC := 28. Definition ERANGE := 34. Definition ENAMETOOLONG := 36. Definition ENOTSUP := 95.
Definition EOVERFLOW := 75. Definition EMSGSIZE := 90. Definition ENOBUFS := 105.
