(** Proofs about the XOR algorithms. *)
From Verif Require Import Base M_bitgen P_bitgen M_authxor S_authxor.

Lemma l16 (l : list Z) : length l = 16%nat -> exists a b c d e f g h i j m n o p q r, l = [a; b; c; d; e; f; g; h; i; j; m; n; o; p; q; r].
Proof.
  intros H. do 16 (destruct l as [|? l]; [discriminate H|]). destruct l; [|discriminate H]. do 16 eexists. reflexivity.
Qed.
Lemma l14 (l : list Z) : length l = 14%nat -> exists a b c d e f g h i j m n o p, l = [a; b; c; d; e; f; g; h; i; j; m; n; o; p].
Proof. intros H. do 14 (destruct l as [|? l]; [discriminate H|]). destruct l; [|discriminate H]. do 14 eexists. reflexivity. Qed.
Lemma l6 (l : list Z) : length l = 6%nat -> exists a b c d e f, l = [a; b; c; d; e; f].
Proof. intros H. do 6 (destruct l as [|? l]; [discriminate H|]). destruct l; [|discriminate H]. do 6 eexists. reflexivity. Qed.
Lemma l2 (l : list Z) : length l = 2%nat -> exists a b, l = [a; b].
Proof. intros H. do 2 (destruct l as [|? l]; [discriminate H|]). destruct l; [|discriminate H]. do 2 eexists. reflexivity. Qed.
Lemma xor_xorl a b : forall n, length a = n -> length b = n -> xor a b n = xorl a b.
Proof.
  intros n <-. unfold xor. rewrite firstn_all. intros H. rewrite <- H, firstn_all. revert b H. induction a as [|x a IH]; intros [|y b] H; try discriminate H; [reflexivity|].
  cbn. f_equal. apply IH. cbn in H. lia.
Qed.
Lemma xorl_length a : forall b, length a = length b -> length (xorl a b) = length a.
Proof. induction a as [|x a IH]; intros [|y b] H; try discriminate H; cbn; [reflexivity|]. f_equal. apply IH. cbn in H. lia. Qed.
Lemma xx a b : Z.lxor (Z.lxor a b) b = a.
Proof. rewrite Z.lxor_assoc, Z.lxor_nilpotent, Z.lxor_0_r. reflexivity. Qed.
Lemma bytes_xorl a : forall b, bytes a -> bytes b -> bytes (xorl a b).
Proof.
  induction a as [|x a IH]; intros [|y b] Ha Hb; cbn; try constructor.
  - inversion Ha; inversion Hb; subst. unfold is_byte in *. split; [apply Z.lxor_nonneg; lia|].
    destruct (Z.eq_dec (Z.lxor x y) 0) as [->|N]; [lia|]. assert (0 <= Z.lxor x y) by (apply Z.lxor_nonneg; lia). change 256 with (2 ^ 8). apply Z.log2_lt_pow2; [lia|].
    eapply Z.le_lt_trans; [apply Z.log2_lxor; lia|]. assert (G : forall z, 0 <= z < 256 -> Z.log2 z < 8) by (intros z Hz; destruct (Z.eq_dec z 0) as [->|]; [reflexivity|apply Z.log2_lt_pow2; lia]).
    apply Z.max_lub_lt; apply G; lia.
  - inversion Ha; inversion Hb; subst. apply IH; assumption.
Qed.

(** The vector for the octets [x] *)
Lemma gen_ok v a rand : a_type a = UMTS -> k_len a = 16 -> length (k a) = 16%nat -> length rand = 16%nat -> length (amf a) = 2%nat ->
  let x := xorl (k a) rand in let s := be_bytes 6 (sqn a) in
  xor_gen_vec v a rand = Ok (0, Vec (xorl s (anonymity x) ++ amf a ++ mac x s (amf a)) (rotate 1 x) (rotate 2 x) x 16 (c3 (rotate 1 x) (rotate 2 x)) (c2 x) 3).
Proof.
  intros T L K R A x s. unfold xor_gen_vec, step1. rewrite T, L. change (UMTS =? GSM) with false. change (UMTS =? UMTS) with true. change (negb (16 =? 16)) with false. cbv iota.
  rewrite (xor_xorl (k a) rand 16 K R). fold x. change (negb (0 =? 0)) with false. change (negb true) with false. cbv iota zeta.
  rewrite store_be_ext_ok by (cbn; lia). cbn [bind]. change (Z.to_nat 6) with 6%nat. rewrite firstn_app, be_bytes_length, Nat.sub_diag, firstn_O, app_nil_r. rewrite firstn_all2 by (rewrite be_bytes_length; lia). fold s.
  assert (Lx : length x = 16%nat) by (unfold x; rewrite xorl_length; congruence). assert (Ls : length s = 6%nat) by apply be_bytes_length.
  clearbody x s. destruct (l16 x Lx) as (x0 & x1 & x2 & x3 & x4 & x5 & x6 & x7 & x8 & x9 & x10 & x11 & x12 & x13 & x14 & x15 & ->). destruct (l6 s Ls) as (s0 & s1 & s2 & s3 & s4 & s5 & ->).
  destruct (l2 (amf a) A) as (m0 & m1 & ->). reflexivity.
Qed.
