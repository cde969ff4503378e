(* T_a5.v - C39: the A5/1 and A5/2 key streams *)
From Verif Require Import Base S_a5 M_a5 P_a5.

(* A5/1 writes the published key stream: the first 114 bits to dl, the next 114 bits to ul, whichever of them is wanted *)
Theorem C39_a5_1 : forall key fn dl ul, length key = 8%nat -> 0 <= fn < 2715648 ->
  a5_1 key fn dl ul = Ok (if dl then Some (map Z.b2z (firstn 114 (a51_stream key fn))) else None,
                          if ul then Some (map Z.b2z (skipn 114 (a51_stream key fn))) else None).
Proof. exact a5_1_spec. Qed.
Print Assumptions C39_a5_1.
Theorem C39_a5_2 : forall key fn dl ul, length key = 8%nat -> 0 <= fn < 2715648 ->
  a5_2 key fn dl ul = Ok (if dl then Some (map Z.b2z (firstn 114 (a52_stream key fn))) else None,
                          if ul then Some (map Z.b2z (skipn 114 (a52_stream key fn))) else None).
Proof. exact a5_2_spec. Qed.
Print Assumptions C39_a5_2.
(* 114 bits each *)
Theorem C39_lengths : forall key fn, length (a51_stream key fn) = 228%nat /\ length (a52_stream key fn) = 228%nat.
Proof.
  intros. split; [apply stream_length|]. unfold a52_stream. destruct (fold_left _ _ _) as [[[? ?] ?] ?]. apply stream_length.
Qed.
Print Assumptions C39_lengths.
(* different frames of a hyperframe load different counts *)
Theorem C39_fn_count : forall fn fn', 0 <= fn < 2715648 -> 0 <= fn' < 2715648 -> osmo_a5_fn_count fn = osmo_a5_fn_count fn' -> fn = fn'.
Proof.
  intros fn fn' H H' E. destruct (fn_count_spec fn H) as (c & D & _). eapply fn_count_inj; eauto. congruence.
Qed.
Print Assumptions C39_fn_count.
Lemma ok2_inj {A} (a b c d : A) : Ok (Some a, Some b) = Ok (Some c, Some d) -> a = c /\ b = d.
Proof. intros H. injection H as -> ->. auto. Qed.
(* both sides of a link add the same stream: the text comes back; a burst of the other direction is independent *)
Theorem C39_twice : forall key fn (dl ul : list Z) text alg, length key = 8%nat -> 0 <= fn < 2715648 -> alg = a5_1 \/ alg = a5_2 ->
  alg key fn true true = Ok (Some dl, Some ul) -> (length text <= 114)%nat ->
  cipher dl (cipher dl text) = text /\ cipher ul (cipher ul text) = text /\
  alg key fn true false = Ok (Some dl, None) /\ alg key fn false true = Ok (None, Some ul).
Proof.
  intros key fn dl ul text alg L Hf Ha E Ht.
  assert (G : exists s, length s = 228%nat /\ forall d u, alg key fn d u = Ok (if d then Some (map Z.b2z (firstn 114 s)) else None, if u then Some (map Z.b2z (skipn 114 s)) else None)).
  { destruct Ha as [-> | ->].
    - exists (a51_stream key fn). split; [exact (proj1 (C39_lengths key fn))|]. intros d u. exact (a5_1_spec key fn d u L Hf).
    - exists (a52_stream key fn). split; [exact (proj2 (C39_lengths key fn))|]. intros d u. exact (a5_2_spec key fn d u L Hf). }
  destruct G as (s & Ls & G). rewrite G in E. apply ok2_inj in E as [<- <-]. rewrite !G.
  split; [|split; [|auto]]; apply cipher_twice; rewrite map_length; [rewrite firstn_length|rewrite skipn_length]; lia.
Qed.
Print Assumptions C39_twice.

(* the published test vector of A5/1 (key 12 23 45 67 89 AB CD EF with the first octet loaded first, frame count 0x134) is met *)
Fixpoint bits_val (l : list Z) : Z := match l with [] => 0 | b :: t => b * 2 ^ (zlen t) + bits_val t end.
Example C39_nonvacuous :
  let key := [0xEF; 0xCD; 0xAB; 0x89; 0x67; 0x45; 0x23; 0x12] in
  exists fn dl ul, 0 <= fn < 2715648 /\ length key = 8%nat /\ osmo_a5_fn_count fn = Ok 0x134 /\ a5_1 key fn true true = Ok (Some dl, Some ul) /\
  bits_val (firstn 16 dl) = 0x534E /\ (existsb (fun b => b =? 1) ul && existsb (fun b => b =? 0) ul) = true.
Proof.
  intros key. remember (a5_1 key 774 true true) as r eqn:E. vm_compute in E. subst r. exists 774. eexists _, _. split; [lia|]. split; [reflexivity|]. split; [reflexivity|]. split; [vm_compute; reflexivity|]. split; vm_compute; reflexivity.
Qed.
