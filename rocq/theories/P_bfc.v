From Coq Require Import Permutation.
From Verif Require Import Base S_bfc M_bfc.
Ltac Zify.zify_post_hook ::= idtac.

Lemma u32_small x : 0 <= x < 2 ^ 32 -> u32 x = x.
Proof. intros. unfold u32. change 4294967296 with (2 ^ 32). apply Z.mod_small. auto. Qed.

Record fok (f : bfc) : Prop := {
  k_depth : f_depth f = zlen (f_queue f);
  k_max : f_depth f <= f_maxq f < 2 ^ 32;
  k_tm : f_queue f <> [] -> f_rate f <> 0 -> f_timer f <> None }.

Lemma nq_same f now len : let '(f1, _) := needs_queueing f now len in
  f_bmax f1 = f_bmax f /\ f_rate f1 = f_rate f /\ f_last f1 = f_last f /\ f_maxq f1 = f_maxq f /\ f_depth f1 = f_depth f /\
  f_queue f1 = f_queue f /\ f_timer f1 = f_timer f.
Proof. unfold needs_queueing. cbv zeta. destruct (_ <? _); [auto 10|]. destruct (_ <=? _); cbn; auto 10. Qed.
Lemma tc_same f now : f_bmax (queue_timer_cfg f now) = f_bmax f /\ f_rate (queue_timer_cfg f now) = f_rate f /\
  f_cnt (queue_timer_cfg f now) = f_cnt f /\ f_last (queue_timer_cfg f now) = f_last f /\ f_maxq (queue_timer_cfg f now) = f_maxq f /\
  f_depth (queue_timer_cfg f now) = f_depth f /\ f_queue (queue_timer_cfg f now) = f_queue f /\
  (f_queue f <> [] -> f_rate f <> 0 -> f_timer (queue_timer_cfg f now) <> None).
Proof.
  unfold queue_timer_cfg. destruct (f_queue f) as [|[i n] q] eqn:E; [rewrite E; repeat split; auto; congruence|].
  destruct (Z.eqb_spec (f_rate f) 0) as [R|R]; cbn [negb]; cbn; rewrite ?E; repeat split; auto; try congruence; try discriminate.
Qed.

Lemma fstep_ok f e : fok f -> let '(f1, l) := fstep f e in
  fok f1 /\ f_maxq f1 = f_maxq f /\ f_queue f ++ queued l = dequeued l ++ f_queue f1 /\
  Permutation (offered [e]) (passed l ++ queued l ++ map fst (refused l)).
Proof.
  intros [D M T]. destruct e as [now p|now|now size rate]; cbn [fstep offered flat_map app].
  - unfold bssgp_fc_in. destruct (snd p >? f_bmax f).
    + change (- EIO =? 0) with false. cbn. repeat split; auto; try lia; rewrite ?app_nil_r; auto.
    + pose proof (nq_same f now (snd p)) as N. destruct (needs_queueing f now (snd p)) as [f1 q].
      destruct N as (N1 & N2 & N3 & N4 & N5 & N6 & N7). destruct q.
      * unfold fc_enqueue. rewrite N4, N5. destruct (Z.geb_spec (f_depth f) (f_maxq f)) as [G|G].
        -- change (- ENOSPC =? 0) with false. cbn. repeat split; rewrite ?N2, ?N4, ?N5, ?N6, ?N7, ?app_nil_r; auto; lia.
        -- change (0 =? 0) with true. cbn [queued dequeued passed refused flat_map app map].
           set (f2 := set_q f1 (u32 (f_depth f + 1)) (f_queue f1 ++ [p])).
           destruct (tc_same f2 now) as (C1 & C2 & C3 & C4 & C5 & C6 & C7 & C8).
           pose proof (zlen_nonneg (f_queue f)) as Z0.
           assert (E : u32 (f_depth f + 1) = f_depth f + 1) by (apply u32_small; lia).
           split; [constructor|].
           ++ rewrite C6, C7. cbn [f2 set_q f_depth f_queue]. rewrite E, N6, zlen_app. change (zlen [p]) with 1. lia.
           ++ rewrite C5, C6. cbn [f2 set_q f_depth f_maxq]. rewrite E, N4. lia.
           ++ rewrite C7, C2. auto.
           ++ split; [rewrite C5; auto|]. split; [rewrite C7; cbn [f2 set_q f_queue]; rewrite N6; auto|auto].
      * cbn [queued dequeued passed refused flat_map app map]. repeat split; cbn [set_last f_depth f_maxq f_queue f_rate f_timer];
          rewrite ?N2, ?N4, ?N5, ?N6, ?N7, ?app_nil_r; auto; lia.
  - unfold fc_timer_cb. cbn [set_tm f_queue f_depth]. destruct (f_queue f) as [|p q] eqn:EQ.
    + cbn. rewrite EQ. repeat split; cbn; rewrite ?EQ; auto; try congruence; lia.
    + pose proof (nq_same (set_tm f None) now (snd p)) as N. destruct (needs_queueing (set_tm f None) now (snd p)) as [f1 b].
      cbn [set_tm f_bmax f_rate f_last f_maxq f_depth f_queue f_timer] in N. destruct N as (N1 & N2 & N3 & N4 & N5 & N6 & N7). destruct b.
      * destruct (tc_same f1 now) as (C1 & C2 & C3 & C4 & C5 & C6 & C7 & C8). cbn [queued dequeued passed refused flat_map app map].
        split; [constructor|].
        -- rewrite C6, C7, N5, N6, EQ. auto.
        -- rewrite C5, C6, N4, N5. auto.
        -- rewrite C7, C2. auto.
        -- rewrite C5, C7, N4, N6, app_nil_r. auto.
      * set (f2 := set_last _ now). destruct (tc_same f2 now) as (C1 & C2 & C3 & C4 & C5 & C6 & C7 & C8).
        cbn [queued dequeued passed refused flat_map app map]. rewrite zlen_cons in D. pose proof (zlen_nonneg q) as Z0.
        assert (E : u32 (f_depth f1 - 1) = zlen q) by (rewrite u32_small; lia).
        split; [constructor|].
        -- rewrite C6, C7. cbn [f2 set_last set_q f_depth f_queue]. auto.
        -- rewrite C5, C6. cbn [f2 set_last set_q f_depth f_maxq]. rewrite E, N4. lia.
        -- rewrite C7, C2. auto.
        -- rewrite C5, C7. cbn [f2 set_last set_q f_maxq f_queue]. rewrite app_nil_r. auto.
  - unfold rx_fc_bvc. set (f2 := mkFc _ _ _ _ _ _ _ _). destruct (tc_same f2 now) as (C1 & C2 & C3 & C4 & C5 & C6 & C7 & C8).
    cbn. rewrite app_nil_r. split; [constructor|].
    + rewrite C6, C7. auto.
    + rewrite C5, C6. auto.
    + rewrite C7, C2. auto.
    + rewrite C5, C7. auto.
Qed.

Lemma perm_mix (A : Type) (a b c a2 b2 c2 : list A) :
  Permutation ((a ++ b ++ c) ++ (a2 ++ b2 ++ c2)) ((a ++ a2) ++ (b ++ b2) ++ (c ++ c2)).
Proof.
  rewrite <- !app_assoc. apply Permutation_app_head.
  rewrite (app_assoc c a2), (app_assoc b). 
  transitivity (a2 ++ (b ++ c) ++ b2 ++ c2).
  - rewrite !app_assoc. do 2 apply Permutation_app_tail. rewrite <- !app_assoc. rewrite (app_assoc b c).
    apply Permutation_app_comm.
  - apply Permutation_app_head. rewrite <- app_assoc. apply Permutation_app_head.
    rewrite !app_assoc. apply Permutation_app_tail. apply Permutation_app_comm.
Qed.

Lemma frun_ok es : forall f, fok f -> let '(f1, l) := frun f es in
  fok f1 /\ f_maxq f1 = f_maxq f /\ f_queue f ++ queued l = dequeued l ++ f_queue f1 /\
  Permutation (offered es) (passed l ++ queued l ++ map fst (refused l)).
Proof.
  induction es as [|e es IH]; intros f K; cbn [frun].
  - cbn. rewrite app_nil_r. auto.
  - pose proof (fstep_ok f e K) as S1. destruct (fstep f e) as [f1 l1]. destruct S1 as (K1 & M1 & Q1 & P1).
    specialize (IH f1 K1). destruct (frun f1 es) as [f2 l2]. destruct IH as (K2 & M2 & Q2 & P2).
    split; auto. split; [congruence|].
    unfold queued, dequeued, passed, refused in *. rewrite !flat_map_app. split.
    + rewrite app_assoc, Q1, <- app_assoc, Q2, app_assoc. auto.
    + change (e :: es) with ([e] ++ es). unfold offered in *. rewrite flat_map_app, map_app.
      eapply perm_trans; [apply Permutation_app; [exact P1|exact P2]|]. apply perm_mix.
Qed.

(* ------------------------------------------------------------------ *)
(* the bucket, as long as nothing wraps                                *)
Definition calm (f : bfc) (now : Z) : Prop :=
  0 <= f_rate f /\ 0 <= f_cnt f <= f_bmax f /\ f_bmax f < 2 ^ 31 /\ f_last f <= now /\ (now - f_last f) / 10000 < 2 ^ 32 /\
  leak (f_rate f) (f_last f) now < 2 ^ 32.

Lemma nq_calm f now len : calm f now -> 0 <= len <= f_bmax f ->
  needs_queueing f now len =
    let rest := f_cnt f - leak (f_rate f) (f_last f) now in
    if rest <? 0 then (f, false) else if rest + len <=? f_bmax f then (set_cnt f (rest + len), false) else (f, true).
Proof.
  intros (H0 & H1 & H2 & H3 & H4 & H5) HL. unfold needs_queueing. cbv zeta.
  assert (C0 : 0 <= (now - f_last f) / 10000) by (apply Z.div_pos; lia).
  assert (R0 : 0 <= f_rate f / 100) by (apply Z.div_pos; lia).
  rewrite (u32_small ((now - f_last f) / 10000)) by lia. unfold leak in *.
  rewrite (Z.mul_comm ((now - f_last f) / 10000)). rewrite (u32_small (f_rate f / 100 * _)) by (split; [apply Z.mul_nonneg_nonneg; auto|auto]).
  set (lk := f_rate f / 100 * ((now - f_last f) / 10000)) in *. assert (0 <= lk) by (unfold lk; apply Z.mul_nonneg_nonneg; auto).
  rewrite (u32_small (f_cnt f + len)) by lia.
  destruct (Z.ltb_spec (f_cnt f + len - lk) len) as [A|A]; destruct (Z.ltb_spec (f_cnt f - lk) 0) as [B|B]; try lia; auto.
  replace (f_cnt f - lk + len) with (f_cnt f + len - lk) by lia.
  destruct (Z.leb_spec (f_cnt f + len - lk) (f_bmax f)); auto. rewrite u32_small by lia. auto.
Qed.

Definition now_of (e : fev) : Z := match e with FIn t _ => t | FTick t => t | FLimits t _ _ => t end.
Definition no_limits (e : fev) : Prop := match e with FLimits _ _ _ => False | _ => True end.
Definition ilen (l : list (Z * pdu)) : sends := map (fun x => (fst x, snd (snd x))) l.

Fixpoint rising (t : Z) (l : sends) : Prop := match l with [] => True | (s, _) :: l' => t <= s /\ rising s l' end.

(* one call, the limits being the same *)
Lemma fstep_bucket f e : fok f -> no_limits e -> calm f (now_of e) -> Forall (fun p => 0 <= snd p <= f_bmax f) (f_queue f) ->
  match e with FIn _ p => 0 <= snd p | _ => True end ->
  let '(f1, l) := fstep f e in
  f_bmax f1 = f_bmax f /\ f_rate f1 = f_rate f /\ Forall (fun p => 0 <= snd p <= f_bmax f) (f_queue f1) /\ 0 <= f_cnt f1 <= f_bmax f /\
  (sent l = [] /\ f_cnt f1 = f_cnt f /\ f_last f1 = f_last f \/
   exists p, sent l = [(now_of e, p)] /\ 0 <= snd p <= f_bmax f /\ f_last f1 = now_of e /\
     let rest := f_cnt f - leak (f_rate f) (f_last f) (now_of e) in
     f_cnt f1 = (if rest <? 0 then f_cnt f else rest + snd p)).
Proof.
  intros K NL CM FQ LP. destruct e as [now p|now|]; [| |destruct NL]; cbn [fstep now_of] in *.
  - unfold bssgp_fc_in. destruct (Z.gtb_spec (snd p) (f_bmax f)) as [G|G].
    + change (- EIO =? 0) with false. cbn. destruct CM as (? & ? & ?). auto 10.
    + rewrite nq_calm by (auto; lia). cbv zeta. pose proof CM as (H0 & H1 & H2 & _).
      destruct (Z.ltb_spec (f_cnt f - leak (f_rate f) (f_last f) now) 0) as [A|A].
      * cbn. split; auto. split; auto. split; auto. split; auto. right. exists p. repeat split; auto; lia.
      * assert (0 <= leak (f_rate f) (f_last f) now).
        { destruct CM as (? & ? & ? & ? & _). unfold leak. apply Z.mul_nonneg_nonneg; apply Z.div_pos; lia. }
        destruct (Z.leb_spec (f_cnt f - leak (f_rate f) (f_last f) now + snd p) (f_bmax f)).
        -- cbn. split; auto. split; auto. split; auto. split; [lia|]. right. exists p. repeat split; auto; lia.
        -- unfold fc_enqueue. destruct (f_depth f >=? f_maxq f).
           ++ change (- ENOSPC =? 0) with false. cbn. auto 10.
           ++ change (0 =? 0) with true. set (f2 := set_q _ _ _). destruct (tc_same f2 now) as (C1 & C2 & C3 & C4 & C5 & C6 & C7 & C8).
              rewrite C1, C2, C3, C4, C7. cbn. split; auto. split; auto. split; [apply Forall_app; split; auto; constructor; auto; lia|]. auto.
  - unfold fc_timer_cb. cbn [set_tm f_queue f_depth]. pose proof CM as (H0 & H1 & H2 & _). destruct (f_queue f) as [|p q] eqn:EQ.
    + cbn. rewrite EQ. auto 10.
    + assert (HP : 0 <= snd p <= f_bmax f) by exact (Forall_inv FQ). pose proof (Forall_inv_tail FQ) as FQ'.
      rewrite nq_calm by (auto; cbn; auto). cbv zeta. cbn [set_tm f_cnt f_rate f_last f_bmax].
      assert (0 <= leak (f_rate f) (f_last f) now).
      { destruct CM as (? & ? & ? & ? & _). unfold leak. apply Z.mul_nonneg_nonneg; apply Z.div_pos; lia. }
      destruct (Z.ltb_spec (f_cnt f - leak (f_rate f) (f_last f) now) 0) as [A|A].
      * set (f2 := set_last _ now). destruct (tc_same f2 now) as (C1 & C2 & C3 & C4 & C5 & C6 & C7 & C8).
        rewrite C1, C2, C3, C4, C7. cbn. split; auto. split; auto. split; auto. split; auto. right. exists p. repeat split; auto; lia.
      * destruct (Z.leb_spec (f_cnt f - leak (f_rate f) (f_last f) now + snd p) (f_bmax f)).
        -- set (f2 := set_last _ now). destruct (tc_same f2 now) as (C1 & C2 & C3 & C4 & C5 & C6 & C7 & C8).
           rewrite C1, C2, C3, C4, C7. cbn. split; auto. split; auto. split; auto. split; [lia|]. right. exists p. repeat split; auto; lia.
        -- destruct (tc_same (set_tm f None) now) as (C1 & C2 & C3 & C4 & C5 & C6 & C7 & C8).
           rewrite C1, C2, C3, C4, C7. cbn. rewrite EQ. split; auto. split; auto. split; [constructor; auto|]. auto.
Qed.

Fixpoint in_order (t : Z) (es : list fev) : Prop :=
  match es with [] => True | e :: es' => t <= now_of e /\ in_order (now_of e) es' end.

Lemma leak_mono rate a b c : 0 <= rate -> a <= b -> b <= c -> leak rate b c <= leak rate a c /\ (c - b) / 10000 <= (c - a) / 10000.
Proof.
  intros. assert ((c - b) / 10000 <= (c - a) / 10000) by (apply Z.div_le_mono; lia). split; auto.
  unfold leak. apply Z.mul_le_mono_nonneg_l; auto. apply Z.div_pos; lia.
Qed.
Lemma leak_mono_r rate a b c : 0 <= rate -> b <= c -> leak rate a b <= leak rate a c /\ (b - a) / 10000 <= (c - a) / 10000.
Proof.
  intros. assert ((b - a) / 10000 <= (c - a) / 10000) by (apply Z.div_le_mono; lia). split; auto.
  unfold leak. apply Z.mul_le_mono_nonneg_l; auto. apply Z.div_pos; lia.
Qed.

Lemma frun_bucket es : forall f hz tm, fok f -> Forall no_limits es -> f_last f <= tm -> in_order tm es ->
  Forall (fun e => now_of e <= hz) es -> 0 <= f_rate f -> 0 <= f_cnt f <= f_bmax f -> f_bmax f < 2 ^ 31 ->
  (hz - f_last f) / 10000 < 2 ^ 32 -> leak (f_rate f) (f_last f) hz < 2 ^ 32 ->
  Forall (fun p => 0 <= snd p <= f_bmax f) (f_queue f) -> Forall (fun p => 0 <= snd p) (offered es) ->
  let '(f1, l) := frun f es in
  f_bmax f1 = f_bmax f /\ 0 <= f_cnt f1 <= f_bmax f /\ Forall (fun x => 0 <= snd (snd x) <= f_bmax f) (sent l) /\
  rising (f_last f) (ilen (sent l)) /\
  (never_empty (f_rate f) (f_cnt f) (f_last f) (ilen (sent l)) ->
   (f_cnt f1, f_last f1) = level (f_rate f) (f_cnt f) (f_last f) (ilen (sent l))).
Proof.
  induction es as [|e es IH]; intros f hz tm K NL LT OD HZ R0 C0 B0 W1 W2 FQ FO; cbn [frun].
  - cbn. auto.
  - assert (Hn : no_limits e) by exact (Forall_inv NL). apply Forall_inv_tail in NL.
    assert (Hz : now_of e <= hz) by exact (Forall_inv HZ). apply Forall_inv_tail in HZ. destruct OD as [O1 O2].
    assert (CM : calm f (now_of e)).
    { destruct (leak_mono_r (f_rate f) (f_last f) (now_of e) hz R0 Hz). repeat split; auto; try lia. }
    assert (LP : match e with FIn _ p => 0 <= snd p | _ => True end).
    { destruct e; auto. cbn in FO. exact (Forall_inv FO). }
    pose proof (fstep_bucket f e K Hn CM FQ LP) as S1. pose proof (fstep_ok f e K) as S2. destruct (fstep f e) as [f1 l1].
    destruct S1 as (E1 & E2 & E3 & E4 & E5). destruct S2 as (K1 & _).
    assert (FO' : Forall (fun p => 0 <= snd p) (offered es)).
    { change (e :: es) with ([e] ++ es) in FO. unfold offered in FO. rewrite flat_map_app in FO. apply Forall_app in FO. tauto. }
    assert (LST : f_last f <= f_last f1 <= now_of e) by (destruct E5 as [(_ & _ & ->)|(p & _ & _ & -> & _)]; lia).
    specialize (IH f1 hz (now_of e) K1 NL ltac:(lia) O2 HZ). rewrite E1, E2 in IH.
    assert (LH : f_last f1 <= hz) by lia.
    destruct (leak_mono (f_rate f) (f_last f) (f_last f1) hz R0 ltac:(lia) LH) as [M1 M2].
    specialize (IH R0 E4 B0 ltac:(lia) ltac:(lia) E3 FO'). destruct (frun f1 es) as [f2 l2].
    destruct IH as (I1 & I2 & I3 & IR & I4). split; auto. split; auto. unfold sent in *. rewrite flat_map_app.
    destruct E5 as [(S0 & CE & LE)|(p & S0 & LP2 & LE & CE)]; rewrite S0.
    + cbn [app]. split; auto. rewrite <- CE, <- LE. split; auto.
    + split; [constructor; auto|]. split; [cbn [app ilen map fst snd rising]; split; [lia|rewrite <- LE; exact IR]|].
      cbn [app ilen map fst snd level never_empty]. fold (ilen (flat_map (fun x : fate => match x with Passed t p0 | Dequeued t p0 => [(t, p0)] | _ => [] end) l2)).
      intros [NE1 NE2]. cbv zeta in CE. destruct (Z.ltb_spec (f_cnt f - leak (f_rate f) (f_last f) (now_of e)) 0); [lia|].
      rewrite <- CE, <- LE in *. apply I4. auto.
Qed.

Lemma leak_le rate t s : 0 <= rate -> t <= s -> 1000000 * leak rate t s <= rate * (s - t).
Proof.
  intros H0 H1. unfold leak. pose proof (Z.div_mod rate 100 ltac:(lia)) as A. pose proof (Z.mod_pos_bound rate 100 ltac:(lia)) as B.
  pose proof (Z.div_mod (s - t) 10000 ltac:(lia)) as C. pose proof (Z.mod_pos_bound (s - t) 10000 ltac:(lia)) as D.
  assert (P : 0 <= rate / 100) by (apply Z.div_pos; lia). assert (Q : 0 <= (s - t) / 10000) by (apply Z.div_pos; lia).
  set (q := rate / 100) in *. set (r := rate mod 100) in *. set (u := (s - t) / 10000) in *. set (v := (s - t) mod 10000) in *.
  rewrite C, A. assert (0 <= 100 * q * v) by (apply Z.mul_nonneg_nonneg; lia). assert (0 <= r * (10000 * u + v)) by (apply Z.mul_nonneg_nonneg; lia).
  replace ((100 * q + r) * (10000 * u + v)) with (1000000 * (q * u) + 100 * q * v + r * (10000 * u + v)) by ring. lia.
Qed.
Lemma level_volume rate l : forall b t, 0 <= rate -> rising t l ->
  t <= snd (level rate b t l) /\
  1000000 * volume l <= 1000000 * (fst (level rate b t l) - b) + rate * (snd (level rate b t l) - t).
Proof.
  induction l as [|[s n] l IH]; intros b t HR RS; cbn [level volume fold_right fst snd].
  - lia.
  - destruct RS as [R1 R2]. destruct (IH (b - leak rate t s + n) s HR R2) as [I1 I2]. fold (volume l). split; [lia|].
    pose proof (leak_le rate t s HR R1).
    set (b1 := fst (level rate (b - leak rate t s + n) s l)) in *. set (t1 := snd (level rate (b - leak rate t s + n) s l)) in *. nia.
Qed.
