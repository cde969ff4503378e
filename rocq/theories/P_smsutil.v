(** Proofs about the utilities for short messages. *)
From Verif Require Import Base M_smsutil S_smsutil.

Lemma bcdify_ok v : 0 <= v < 100 -> gsm411_bcdify v = semi v /\ decimal (semi v) /\ number (semi v) = v /\ 0 <= semi v < 256.
Proof.
  intros H. set (P := fun v => (gsm411_bcdify v =? semi v) && (semi v mod 16 <=? 9) && (0 <=? semi v mod 16) && (0 <=? semi v / 16) && (semi v / 16 <=? 9) && (number (semi v) =? v) && (0 <=? semi v) && (semi v <? 256)).
  assert (Q : P v = true) by (apply (forall_zseq P 0 100); [vm_compute; reflexivity|exact H]).
  unfold P in Q. rewrite !andb_true_iff, !Z.eqb_eq, !Z.leb_le, Z.ltb_lt in Q. unfold decimal. tauto.
Qed.
Lemma unbcdify_ok b : is_byte b -> gsm411_unbcdify b = number b /\ 0 <= number b <= 165 /\ (decimal b -> 0 <= number b < 100 /\ gsm411_bcdify (number b) = b).
Proof.
  intros H. set (P := fun b => (gsm411_unbcdify b =? number b) && (0 <=? number b) && (number b <=? 165) &&
    (if (b mod 16 <=? 9) && (b / 16 <=? 9) then (number b <? 100) && (gsm411_bcdify (number b) =? b) else true)).
  assert (Q : P b = true) by (apply (forall_byte P); [vm_compute; reflexivity|exact H]).
  unfold P in Q. rewrite !andb_true_iff, Z.eqb_eq, !Z.leb_le in Q. destruct Q as [[[A B] C] D]. split; [exact A|]. split; [auto|].
  intros [[_ X] [_ Y]]. apply Z.leb_le in X, Y. rewrite X, Y in D. cbn [andb] in D. rewrite andb_true_iff, Z.ltb_lt, Z.eqb_eq in D. tauto.
Qed.
Lemma rd_cons0 (x : Z) r : rd (x :: r) 0 = Ok x. Proof. reflexivity. Qed.
Lemma relative_ok v : is_byte v -> forall r m, gsm340_vp_relative (v :: r) = Ok m <-> relative v m.
Proof.
  intros B r m. unfold gsm340_vp_relative. rewrite rd_cons0. cbn [bind]. unfold is_byte in B.
  destruct (Z.leb_spec v 143); [|destruct (Z.leb_spec v 167); [|destruct (Z.leb_spec v 196)]]; (split; [intros E; injection E as <-|intros R; f_equal; inversion R; subst; lia]).
  - apply rel_5min. lia.
  - apply rel_30min. lia.
  - replace ((v - 166) * 60 * 24) with ((v - 166) * (24 * 60)) by lia. apply rel_days. lia.
  - replace ((v - 192) * 60 * 24 * 7) with ((v - 192) * (7 * 24 * 60)) by lia. apply rel_weeks. lia.
Qed.
Lemma wr7 a b c d e f g r v0 v1 v2 v3 v4 v5 v6 :
  (do s <- wr (a :: b :: c :: d :: e :: f :: g :: r) 0 v0 ;; do s <- wr s 1 v1 ;; do s <- wr s 2 v2 ;; do s <- wr s 3 v3 ;; do s <- wr s 4 v4 ;; do s <- wr s 5 v5 ;; wr s 6 v6)
  = Ok (v0 :: v1 :: v2 :: v3 :: v4 :: v5 :: v6 :: r : list Z).
Proof.
  assert (L : forall i x (l : list Z), 0 <= i < zlen l -> wr l i x = Ok (upd l (Z.to_nat i) x)).
  { intros i x l H. unfold wr, zlen in *. destruct (Z.ltb_spec i 0); [lia|]. destruct (Z.leb_spec (Z.of_nat (length l)) i); [lia|]. reflexivity. }
  pose proof (zlen_nonneg r).
  repeat (rewrite L by (rewrite !zlen_cons; lia); match goal with |- context [upd ?l ?n ?x] => let u := eval cbv [upd Z.to_nat Pos.to_nat Pos.iter_op Nat.add] in (upd l n x) in change (upd l n x) with u end; cbn [bind]).
  reflexivity.
Qed.
