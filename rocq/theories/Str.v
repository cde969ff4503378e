(* Str.v - text helpers (no part of /repo is modelled here): string literals as octets, and the unsigned number
   formatting of the C library's printf family (%u, %x, %0Nu, %0Nx), which /repo calls. *)
From Coq Require Export String.
From Coq Require Import Ascii.
From Verif Require Export Base.

(* a string literal as the octets before its NUL *)
Definition bs (s : string) : list Z := map (fun c => Z.of_N (N_of_ascii c)) (list_ascii_of_string s).
Arguments bs s%string.

(* digit values of n in a base, most significant first; 20 digits are enough below 10^20 *)
Fixpoint ndig (base : Z) (fuel : nat) (n : Z) : list Z :=
  match fuel with
  | O => []
  | S f => if n <? base then [n] else ndig base f (n / base) ++ [n mod base]
  end.
Definition dig_char (d : Z) : Z := if d <? 10 then 48 + d else 87 + d.
Definition dec (n : Z) : list Z := map dig_char (ndig 10 20 n).     (* %u *)
Definition hex (n : Z) : list Z := map dig_char (ndig 16 20 n).     (* %x *)
Definition pad0 (w : nat) (s : list Z) : list Z := repeat 48 (w - List.length s) ++ s.  (* %0wu, %0wx *)

(* value of a digit list *)
Fixpoint num (base : Z) (acc : Z) (l : list Z) : Z := match l with [] => acc | d :: t => num base (acc * base + d) t end.

Lemma num_app base a b : forall acc, num base acc (a ++ b) = num base (num base acc a) b.
Proof. induction a; intros; cbn [app num]; auto. Qed.

Lemma ndig_spec base fuel : 2 <= base -> forall n, 0 <= n < base ^ Z.of_nat fuel -> (0 < fuel)%nat ->
  num base 0 (ndig base fuel n) = n /\ Forall (fun d => 0 <= d < base) (ndig base fuel n) /\ (0 < List.length (ndig base fuel n))%nat.
Proof.
  intros Hb. induction fuel as [|f IH]; intros n Hn Hf; [lia|]. cbn [ndig]. destruct (Z.ltb_spec n base).
  - cbn [num List.length]. split; [lia|]. split; [repeat constructor; lia|lia].
  - destruct f as [|f']. { change (base ^ Z.of_nat 1) with (base ^ 1) in Hn. rewrite Z.pow_1_r in Hn. lia. }
    assert (Hn' : 0 <= n / base < base ^ Z.of_nat (S f')).
    { split; [apply Z.div_pos; lia|]. apply Z.div_lt_upper_bound; [lia|]. rewrite <- Z.pow_succ_r by lia. replace (Z.succ (Z.of_nat (S f'))) with (Z.of_nat (S (S f'))) by lia. lia. }
    destruct (IH (n / base) Hn' ltac:(lia)) as (I1 & I2 & I3). split; [|split].
    + rewrite num_app, I1. cbn [num]. pose proof (Z.div_mod n base ltac:(lia)). lia.
    + apply Forall_app. split; [exact I2|]. repeat constructor; apply Z.mod_pos_bound; lia.
    + rewrite app_length. cbn [List.length]. lia.
Qed.

Lemma ndig_len base fuel : 2 <= base -> forall n k, 0 <= n < base ^ Z.of_nat k -> (0 < k)%nat -> (List.length (ndig base fuel n) <= k)%nat.
Proof.
  intros Hb. induction fuel as [|f IH]; intros n k Hn Hk; [cbn; lia|]. cbn [ndig]. destruct (Z.ltb_spec n base); [cbn; lia|].
  destruct k as [|[|k]]; [lia| |].
  - change (base ^ Z.of_nat 1) with (base ^ 1) in Hn. rewrite Z.pow_1_r in Hn. lia.
  - rewrite app_length. cbn [List.length]. specialize (IH (n / base) (S k)). 
    assert (Hn' : 0 <= n / base < base ^ Z.of_nat (S k)).
    { split; [apply Z.div_pos; lia|]. apply Z.div_lt_upper_bound; [lia|]. rewrite <- Z.pow_succ_r by lia. replace (Z.succ (Z.of_nat (S k))) with (Z.of_nat (S (S k))) by lia. lia. }
    specialize (IH Hn' ltac:(lia)). lia.
Qed.

Lemma num_repeat0 base k l : num base 0 (repeat 0 k ++ l) = num base 0 l.
Proof. induction k; cbn [repeat app num]; auto. Qed.

(* two padded numbers of the same base are the same text only if the numbers and the effective widths agree *)
Definition char_dig (c : Z) : Z := if c <? 58 then c - 48 else c - 87.
Lemma char_dig_char d : 0 <= d < 16 -> char_dig (dig_char d) = d.
Proof. intros. unfold char_dig, dig_char. destruct (Z.ltb_spec d 10); [replace (48 + d <? 58) with true by lia | replace (87 + d <? 58) with false by lia]; lia. Qed.
Lemma map_char_dig l : Forall (fun d => 0 <= d < 16) l -> map char_dig (map dig_char l) = l.
Proof. intros F. rewrite map_map. rewrite <- (map_id l) at 2. apply map_ext_Forall. eapply Forall_impl; [|exact F]. intros; apply char_dig_char; auto. Qed.
Definition strval (base : Z) (s : list Z) : Z := num base 0 (map char_dig s).

Lemma strval_pad base w n fuel : 2 <= base <= 16 -> (0 < fuel)%nat -> 0 <= n < base ^ Z.of_nat fuel ->
  strval base (pad0 w (map dig_char (ndig base fuel n))) = n.
Proof.
  intros Hb Hf Hn. destruct (ndig_spec base fuel ltac:(lia) n Hn Hf) as (I1 & I2 & I3).
  unfold strval, pad0. rewrite map_app, map_char_dig by (eapply Forall_impl; [|exact I2]; intros ? ?; cbv beta in *; lia).
  assert (R : forall k, map char_dig (repeat 48 k) = repeat 0 k) by (induction k as [|k IHk]; cbn [repeat map]; [reflexivity|rewrite IHk; reflexivity]). rewrite R. rewrite num_repeat0. exact I1.
Qed.
Lemma pow20 : 10 ^ Z.of_nat 20 = 100000000000000000000. Proof. reflexivity. Qed.
Lemma strval_dec w n : 0 <= n < 10 ^ 20 -> strval 10 (pad0 w (dec n)) = n.
Proof. intros. apply strval_pad; lia. Qed.
Lemma strval_dec0 n : 0 <= n < 10 ^ 20 -> strval 10 (dec n) = n.
Proof. intros. exact (strval_dec 0 n H). Qed.
Lemma strval_hex w n : 0 <= n < 2 ^ 64 -> strval 16 (pad0 w (hex n)) = n.
Proof. intros. apply strval_pad; lia. Qed.

Definition dchar (c : Z) : Prop := 48 <= c <= 57.
Lemma pad0_Forall (P : Z -> Prop) w s : P 48 -> Forall P s -> Forall P (pad0 w s).
Proof. intros. unfold pad0. apply Forall_app. split; auto. apply Forall_forall. intros x Hx. apply repeat_spec in Hx. subst; auto. Qed.
Lemma dec_dchar n : 0 <= n < 10 ^ 20 -> Forall dchar (dec n).
Proof.
  intros Hn. destruct (ndig_spec 10 20 ltac:(lia) n ltac:(lia) ltac:(lia)) as (I1 & I2 & I3). unfold dec.
  apply Forall_map. eapply Forall_impl; [|exact I2]. cbv beta. intros d Hd. unfold dig_char, dchar. destruct (Z.ltb_spec d 10); lia.
Qed.
Lemma dec_nonempty n : 0 <= n < 10 ^ 20 -> dec n <> [].
Proof.
  intros Hn. destruct (ndig_spec 10 20 ltac:(lia) n ltac:(lia) ltac:(lia)) as (I1 & I2 & I3). unfold dec. intros E. apply map_eq_nil in E. rewrite E in I3. cbn in I3. lia.
Qed.
Lemma dec_len n k : 0 <= n < 10 ^ Z.of_nat k -> (0 < k)%nat -> (List.length (dec n) <= k)%nat.
Proof. intros. unfold dec. rewrite map_length. apply ndig_len; try lia. Qed.
Lemma hex_len n k : 0 <= n < 16 ^ Z.of_nat k -> (0 < k)%nat -> (List.length (hex n) <= k)%nat.
Proof. intros. unfold hex. rewrite map_length. apply ndig_len; try lia. Qed.
Lemma pad0_len w s : List.length (pad0 w s) = Nat.max w (List.length s).
Proof. unfold pad0. rewrite app_length, repeat_length. lia. Qed.

(* a number cannot have fewer digits than its size needs *)
Lemma num_bound base l : 2 <= base -> Forall (fun d => 0 <= d < base) l -> forall acc, 0 <= acc -> num base acc l < (acc + 1) * base ^ Z.of_nat (List.length l).
Proof.
  intros Hb. induction l as [|d l IH]; intros F acc Ha; cbn [num List.length].
  - change (Z.of_nat 0) with 0. rewrite Z.pow_0_r. lia.
  - inversion F; subst. specialize (IH H2 (acc * base + d) ltac:(nia)). rewrite Nat2Z.inj_succ, Z.pow_succ_r by lia.
    pose proof (Z.pow_pos_nonneg base (Z.of_nat (List.length l)) ltac:(lia) ltac:(lia)). nia.
Qed.
Lemma dec_len_lower n k : 0 <= n < 10 ^ 20 -> 10 ^ Z.of_nat k <= n -> (k < List.length (dec n))%nat.
Proof.
  intros Hn Hk. destruct (ndig_spec 10 20 ltac:(lia) n ltac:(lia) ltac:(lia)) as (I1 & I2 & I3).
  pose proof (num_bound 10 _ ltac:(lia) I2 0 ltac:(lia)) as B. rewrite I1 in B. unfold dec. rewrite map_length.
  destruct (Nat.lt_ge_cases k (List.length (ndig 10 20 n))) as [?|L]; auto. exfalso.
  pose proof (Z.pow_le_mono_r 10 (Z.of_nat (List.length (ndig 10 20 n))) (Z.of_nat k) ltac:(lia) ltac:(lia)). lia.
Qed.
