(* P_ipa.v - proofs for M_ipa.v *)
From Verif Require Import Base Lib S_ipa M_ipa.

Definition benign (t : tick) : Prop := match t with Avail _ | Intr => True | _ => False end.

(* octets keep coming: every recv() finds at least one as long as any is left *)
Definition flowing (s : sock) : Prop := Forall (fun t => exists n, t = Avail n /\ 1 <= n) (ticks s) /\ zlen (stream s) <= zlen (ticks s).
Definition moves (s s' : sock) : Prop := flowing s -> flowing s' /\ (stream s <> [] -> zlen (stream s') < zlen (stream s)).
Definition stays (s s' : sock) : Prop := flowing s -> flowing s' /\ zlen (stream s') <= zlen (stream s).

Lemma recv_moves s needed : 0 < needed -> let '(a, s') := recv s needed in moves s s'.
Proof.
  intros Hn. unfold recv. destruct (ticks s) as [|[n| | |e] t] eqn:E.
  - intros [F L]. split; [split; auto|]. intros N. rewrite E in L. destruct (stream s); [congruence|]. rewrite zlen_cons in L. pose proof (zlen_nonneg l). rewrite zlen_nil in L. lia.
  - destruct (stream s) as [|x l] eqn:Es.
    { rewrite firstn_nil. intros [F L]. rewrite E in F. split; [split|].
      - cbn [ticks]. now inversion F.
      - cbn [stream ticks]. rewrite zlen_nil. pose proof (zlen_nonneg t). lia.
      - congruence. }
    assert (K : 1 <= n -> firstn (Z.to_nat (Z.min n needed)) (x :: l) = x :: firstn (Z.to_nat (Z.min n needed) - 1) l /\
                skipn (Z.to_nat (Z.min n needed)) (x :: l) = skipn (Z.to_nat (Z.min n needed) - 1) l).
    { intros Hn1. replace (Z.to_nat (Z.min n needed)) with (S (Z.to_nat (Z.min n needed) - 1)) by lia. cbn [firstn skipn Nat.sub]. rewrite Nat.sub_0_r. auto. }
    assert (M : 1 <= n -> flowing s -> flowing (mksock (skipn (Z.to_nat (Z.min n needed)) (x :: l)) t) /\ (stream s <> [] -> zlen (stream (mksock (skipn (Z.to_nat (Z.min n needed)) (x :: l)) t)) < zlen (stream s))).
    { intros Hn1 [F L]. destruct (K Hn1) as [_ ->]. rewrite E, Es in *. inversion_clear F. rewrite !zlen_cons in L. cbn [stream ticks].
      assert (zlen (skipn (Z.to_nat (Z.min n needed) - 1) l) <= zlen l) by (unfold zlen; rewrite skipn_length; lia).
      split; [split; auto; cbn [stream ticks]; lia|]. intros _. rewrite zlen_cons. lia. }
    destruct (firstn (Z.to_nat (Z.min n needed)) (x :: l)) as [|y r] eqn:Fi.
    + intros Fl. exfalso. destruct Fl as [F _]. rewrite E in F. inversion_clear F. destruct H as (n' & H1 & H2). injection H1 as <-. destruct (K H2) as [K1 _]. congruence.
    + intros Fl. apply M; auto. destruct Fl as [F _]. rewrite E in F. inversion_clear F. destruct H as (n' & H1 & H2). injection H1 as <-. auto.
  - intros [F _]. rewrite E in F. inversion_clear F. destruct H as (n' & H1 & H2). discriminate.
  - intros [F _]. rewrite E in F. inversion_clear F. destruct H as (n' & H1 & H2). discriminate.
  - intros [F _]. rewrite E in F. inversion_clear F. destruct H as (n' & H1 & H2). discriminate.
Qed.
Lemma moves_stays s s' : moves s s' -> (exists l, stream s = l ++ stream s') -> stays s s'.
Proof.
  intros M (l & E) F. destruct (M F) as [A B]. split; auto. rewrite E, zlen_app. pose proof (zlen_nonneg l). lia.
Qed.
Lemma moves_then_stays s1 s2 s3 : moves s1 s2 -> stays s2 s3 -> moves s1 s3.
Proof. intros M S F. destruct (M F) as [A B]. destruct (S A) as [C D]. split; auto. intros N. specialize (B N). lia. Qed.
Lemma stays_refl s : stays s s.
Proof. intros F. split; auto. lia. Qed.

Lemma recv_benign s needed : Forall benign (ticks s) -> exists l s', (let '(a, s1) := recv s needed in got a = inl l /\ s1 = s') /\
  stream s = l ++ stream s' /\ zlen l <= Z.max 0 needed /\ Forall benign (ticks s').
Proof.
  intros H. unfold recv. destruct (ticks s) as [|[n| | |e] t] eqn:E.
  - exists [], s. cbn. rewrite E. repeat split; auto; lia.
  - inversion_clear H. destruct (firstn (Z.to_nat (Z.min n needed)) (stream s)) as [|x l] eqn:F.
    + exists [], (mksock (stream s) t). cbn. repeat split; auto; lia.
    + exists (x :: l), (mksock (skipn (Z.to_nat (Z.min n needed)) (stream s)) t). cbn [got stream ticks]. rewrite <- F.
      split; [split; reflexivity|]. rewrite firstn_skipn. repeat split; auto. unfold zlen. rewrite firstn_length. lia.
  - inversion_clear H. exists [], (mksock (stream s) t). cbn. repeat split; auto; lia.
  - inversion_clear H. contradiction.
  - inversion_clear H. contradiction.
Qed.

Definition held (tmp : option imsg) : list Z := match tmp with Some m => idata m | None => [] end.
Definition wf (tmp : option imsg) (todo : list ipa_frame) : Prop :=
  match tmp with
  | None => True
  | Some m => if il2 m then exists f t, todo = f :: t /\ 3 <= zlen (idata m) < zlen (frame f) else 1 <= zlen (idata m) <= 2
  end.
Definition inv (tmp : option imsg) (s : sock) (todo : list ipa_frame) : Prop :=
  held tmp ++ stream s = wire todo /\ wf tmp todo /\ Forall fits todo /\ Forall benign (ticks s).

(* what one call may do to the frames still to come *)
Definition outcome (rc : Z) (r : option imsg) (todo todo' : list ipa_frame) : Prop :=
  (rc = - EAGAIN /\ r = None /\ (todo = todo' \/ exists f, todo = f :: todo' /\ carries f = false)) \/
  (exists f m, r = Some m /\ idata m = frame f /\ carries f = true /\ rc = zlen (snd f) /\ todo = f :: todo').

Lemma zlen_frame f : zlen (frame f) = 3 + zlen (snd f).
Proof. unfold frame. rewrite !zlen_cons. lia. Qed.
Lemma wire_cons f t : wire (f :: t) = frame f ++ wire t.
Proof. reflexivity. Qed.

Lemma body_step m s f todo : idata m ++ stream s = wire (f :: todo) -> 3 <= zlen (idata m) <= zlen (frame f) -> Forall fits (f :: todo) ->
  Forall benign (ticks s) ->
  exists rc r tmp' s' todo', recv_body true m s = Ok (rc, r, tmp', s') /\ inv tmp' s' todo' /\ outcome rc r (f :: todo) todo' /\ stays s s' /\ (zlen (idata m) < zlen (frame f) -> moves s s').
Proof.
  intros W L F B. rewrite wire_cons in W. unfold recv_body.
  destruct (idata m) as [|b0 [|b1 [|b2 t]]] eqn:EM; try (unfold zlen in L; cbn in L; lia).
  pose proof (Forall_inv F) as Ff. red in Ff. pose proof (Forall_inv_tail F) as Ft.
  unfold frame in W at 1. cbn [app] in W. injection W as W0 W1 W2 W.
  rewrite zlen_frame in L. rewrite !zlen_cons in L.
  assert (R0 : rd (b0 :: b1 :: b2 :: t) 0 = Ok b0) by reflexivity. assert (R1 : rd (b0 :: b1 :: b2 :: t) 1 = Ok b1) by reflexivity.
  rewrite R0, R1. cbn [bind]. assert (EL : b0 * 256 + b1 = zlen (snd f)). { subst. pose proof (Z.div_mod (zlen (snd f)) 256). lia. }
  rewrite EL. rewrite !zlen_cons. cbv zeta. unfold IPA_ALLOC_SIZE, HDR, ROOM.
  destruct (1200 <? zlen (snd f) + 3) eqn:E1; [lia|].
  assert (Done : forall l s' mm, idata mm = b0 :: b1 :: b2 :: t ++ l -> t ++ l = snd f -> stream s' = wire todo -> Forall benign (ticks s') -> stays s s' -> (1 + (1 + (1 + zlen t)) < zlen (frame f) -> moves s s') ->
    exists rc r tmp' s'' todo', (if zlen (idata mm) - 3 =? 0 then Ok (- EAGAIN, None, None, s') else
       Ok (zlen (idata mm) - 3, Some mm, None, s')) = Ok (rc, r, tmp', s'') /\
       inv tmp' s'' todo' /\ outcome rc r (f :: todo) todo' /\ stays s s'' /\ (1 + (1 + (1 + zlen t)) < zlen (frame f) -> moves s s'')).
  { intros l s' mm Em El Es Bs ST MV. rewrite Em, El, !zlen_cons. rewrite El in Em.
    assert (I : inv None s' todo) by (repeat split; auto).
    destruct (_ =? 0) eqn:E0.
    - do 5 eexists. split; [reflexivity|]. split; [exact I|]. split; [|split; auto]. left. split; auto. split; auto. right. exists f. split; auto.
      unfold carries. destruct (snd f); auto. rewrite zlen_cons in E0. pose proof (zlen_nonneg l0). lia.
    - do 5 eexists. split; [reflexivity|]. split; [exact I|]. split; [|split; auto]. right. exists f. eexists. split; [reflexivity|]. rewrite Em. unfold frame, carries.
      split; [congruence|]. split; [|split; [lia|auto]]. destruct (snd f); [discriminate E0|reflexivity]. }
  destruct (0 <? zlen (snd f) - _) eqn:E2.
  - clear E1; destruct (1200 <? _) eqn:E3; [lia|].
    destruct (recv_benign s (zlen (snd f) - (1 + (1 + (1 + zlen t)) - 3)) B) as (l & s' & R & Es & Ll & Bs).
    pose proof (recv_moves s) as MV. match type of R with context [recv s ?n] => specialize (MV n ltac:(lia)) end.
    destruct (recv s _) as [a s1]. destruct R as [G ->]. rewrite G. assert (ST : stays s s') by (apply moves_stays; eauto). cbn [app].
    destruct (zlen l <? _) eqn:E4; cbn [negb].
    + do 5 eexists. split; [reflexivity|]. split; [|split; [left; split; [reflexivity|split; [reflexivity|left; reflexivity]]|auto]].
      split; [|split; [|split; [auto|auto]]].
      * cbn [held idata]. rewrite <- !app_comm_cons, <- app_assoc, <- Es, wire_cons. rewrite W, W0, W1, W2. reflexivity.
      * cbn [wf il2 idata]. exists f, todo. split; auto. rewrite zlen_frame, !zlen_cons, zlen_app. pose proof (zlen_nonneg l). pose proof (zlen_nonneg t). lia.
    + rewrite Es, app_assoc in W. apply app_eq_app in W. destruct W as (z & [[W Z]|[W Z]]).
      * assert (zlen z = 0). { assert (zlen (t ++ l) = zlen (snd f ++ z)) by congruence. rewrite !zlen_app in H. pose proof (zlen_nonneg z). lia. }
        destruct z; [|rewrite zlen_cons in H; pose proof (zlen_nonneg z0); lia]. rewrite app_nil_r in W. apply (Done l); auto.
      * assert (zlen z = 0). { assert (zlen (snd f) = zlen ((t ++ l) ++ z)) by congruence. rewrite !zlen_app in H. pose proof (zlen_nonneg z). lia. }
        destruct z; [|rewrite zlen_cons in H; pose proof (zlen_nonneg z0); lia]. rewrite app_nil_r in W. apply (Done l); auto.
  - assert (ET : t = snd f /\ stream s = wire todo).
    { apply app_eq_app in W. destruct W as (z & [[W Z]|[W Z]]).
      - assert (zlen z = 0). { rewrite W in *. rewrite zlen_app in *. pose proof (zlen_nonneg z). lia. }
        destruct z; [|rewrite zlen_cons in H; pose proof (zlen_nonneg z0); lia]. rewrite app_nil_r in W. auto.
      - assert (zlen z = 0). { assert (zlen (snd f) = zlen (t ++ z)) by congruence. rewrite zlen_app in H. pose proof (zlen_nonneg z). lia. }
        destruct z; [|rewrite zlen_cons in H; pose proof (zlen_nonneg z0); lia]. rewrite app_nil_r in W. auto. }
    destruct ET as [ET1 ET2]. specialize (Done [] s m). rewrite app_nil_r in Done. specialize (Done EM ET1 ET2 B (stays_refl s)).
    rewrite EM, !zlen_cons, zlen_frame in Done. specialize (Done ltac:(lia)).
    rewrite zlen_frame. exact Done.
Qed.

Lemma call_step tmp s todo : inv tmp s todo ->
  exists rc r tmp' s' todo', ipa_msg_recv_buffered true tmp s = Ok (rc, r, tmp', s') /\ inv tmp' s' todo' /\ outcome rc r todo todo' /\ moves s s'.
Proof.
  intros (W & F & Fi & B). unfold ipa_msg_recv_buffered.
  set (m := match tmp with Some m => m | None => mkimsg [] false end).
  assert (Hm : idata m = held tmp) by (destruct tmp; reflexivity).
  destruct (il2 m) eqn:E2.
  - destruct tmp as [m'|]; [|discriminate]. subst m. cbn [held wf] in *. rewrite E2 in F. destruct F as (f & t & -> & L). destruct (body_step m' s f t W ltac:(lia) Fi B) as (rc & r & tmp' & s' & todo' & X1 & X2 & X3 & X4 & X5). exists rc, r, tmp', s', todo'. split; [exact X1|split; [exact X2|split; [exact X3|apply X5; lia]]].
  - assert (L2 : 0 <= zlen (idata m) <= 2). { rewrite Hm. destruct tmp as [m'|]; cbn [held]; [|cbn; lia]. subst m. cbn [wf] in F. rewrite E2 in F. lia. }
    unfold HDR, ROOM. destruct ((3 - zlen (idata m) <? 0) || (1200 <? zlen (idata m) + (3 - zlen (idata m)))) eqn:E; [lia|].
    destruct (recv_benign s (3 - zlen (idata m)) B) as (l & s' & R & Es & Ll & Bs).
    pose proof (recv_moves s) as MV. match type of R with context [recv s ?n] => specialize (MV n ltac:(lia)) end.
    destruct (recv s _) as [a s1]. destruct R as [G ->]. rewrite G. assert (ST : stays s s') by (apply moves_stays; eauto). cbv zeta. cbn [idata].
    assert (W' : (idata m ++ l) ++ stream s' = wire todo) by (rewrite <- app_assoc, <- Es, Hm; auto).
    destruct (zlen l <? _) eqn:E4.
    + destruct (zlen (idata m ++ l) =? 0) eqn:E5; cbn [negb].
      * do 5 eexists. split; [reflexivity|]. split; [|split; [left; split; [reflexivity|split; [reflexivity|left; reflexivity]]|auto]].
        assert (idata m ++ l = []). { destruct (idata m ++ l); auto. rewrite zlen_cons in E5. pose proof (zlen_nonneg l0). lia. }
        rewrite H in W'. repeat split; auto.
      * do 5 eexists. split; [reflexivity|]. split; [|split; [left; split; [reflexivity|split; [reflexivity|left; reflexivity]]|auto]].
        repeat split; auto; cbn [il2 idata]; rewrite zlen_app in *; pose proof (zlen_nonneg l); lia.
    + assert (L3 : zlen (idata m ++ l) = 3) by (rewrite zlen_app; lia).
      destruct todo as [|f t]. { apply (f_equal zlen) in W'. rewrite zlen_app in W'. change (zlen (wire [])) with 0 in W'. pose proof (zlen_nonneg (stream s')). lia. }
      destruct (body_step (mkimsg (idata m ++ l) true) s' f t W') as (rc & r & tmp' & s'' & todo' & X1 & X2 & X3 & X4 & X5); auto.
      { cbn [idata]. rewrite L3, zlen_frame. pose proof (zlen_nonneg (snd f)). lia. }
      exists rc, r, tmp', s'', todo'. split; [exact X1|split; [exact X2|split; [exact X3|eapply moves_then_stays; eauto]]].
Qed.

Definition delivered (evs : list (Z * option (list Z))) : list (list Z) := flat_map (fun e => match snd e with Some b => [b] | None => [] end) evs.
Definition reported (e : Z * option (list Z)) : Prop := match snd e with None => fst e = -11 | Some b => fst e = zlen b - 3 end.

Lemma poll_inv n : forall tmp s todo, inv tmp s todo ->
  exists evs tmp' s' done todo', poll n tmp s = Ok (evs, tmp', s') /\ todo = done ++ todo' /\ inv tmp' s' todo' /\
    delivered evs = map frame (filter carries done) /\ Forall reported evs /\ zlen evs = Z.of_nat n.
Proof.
  induction n as [|n IH]; intros tmp s todo I; cbn [poll].
  - exists [], tmp, s, [], todo. cbn. repeat split; auto; apply I.
  - destruct (call_step tmp s todo I) as (rc & r & tmp' & s' & todo' & E & I' & O & _). rewrite E. cbn [bind].
    destruct (IH _ _ _ I') as (evs & tmp2 & s2 & done & todo2 & E2 & T2 & I2 & D2 & R2 & L2).
    destruct O as [(-> & -> & O)|(f & m & -> & Em & C & -> & ->)].
    + change ((- EAGAIN <=? 0) && negb (- EAGAIN =? - EAGAIN)) with false. cbv iota. rewrite E2. cbn [bind].
      destruct O as [->|(f & -> & C)].
      * exists ((-11, None) :: evs), tmp2, s2, done, todo2. split; [auto|]. split; [auto|]. split; [auto|]. split; [auto|]. split; [constructor; [reflexivity|auto]|rewrite zlen_cons; lia].
      * exists ((-11, None) :: evs), tmp2, s2, (f :: done), todo2. split; [auto|]. split; [cbn; congruence|]. split; [auto|]. cbn [filter]. rewrite C.
        split; [auto|]. split; [constructor; [reflexivity|auto]|rewrite zlen_cons; lia].
    + assert (1 <= zlen (snd f)). { unfold carries in C. destruct (snd f); [discriminate|]. rewrite zlen_cons. pose proof (zlen_nonneg l). lia. }
      replace ((zlen (snd f) <=? 0) && negb (zlen (snd f) =? - EAGAIN)) with false by (destruct (zlen (snd f) <=? 0) eqn:X; [lia|reflexivity]).
      rewrite E2. cbn [bind]. exists ((zlen (snd f), Some (idata m)) :: evs), tmp2, s2, (f :: done), todo2.
      split; [auto|]. split; [cbn; congruence|]. split; [auto|]. cbn [filter]. rewrite C. split; [cbn [map delivered flat_map snd app]; rewrite Em; f_equal; auto|].
      split; [constructor; [red; cbn [fst snd]; rewrite Em, zlen_frame; lia|auto]|rewrite zlen_cons; lia].
Qed.

Ltac dif H := match type of H with (if ?b then _ else _) = _ => destruct b end.
Lemma poll_flow n : forall tmp s todo, inv tmp s todo -> flowing s -> zlen (stream s) <= Z.of_nat n ->
  exists evs tmp' s', poll n tmp s = Ok (evs, tmp', s') /\ stream s' = [].
Proof.
  induction n as [|n IH]; intros tmp s todo I F L; cbn [poll].
  - do 3 eexists. split; [reflexivity|]. destruct (stream s); auto. rewrite zlen_cons in L. pose proof (zlen_nonneg l). lia.
  - destruct (call_step tmp s todo I) as (rc & r & tmp' & s' & todo' & E & I' & O & M). rewrite E. cbn [bind]. destruct (M F) as [F' M'].
    assert (L' : zlen (stream s') <= Z.of_nat n).
    { destruct (stream s) eqn:Es; [|specialize (M' ltac:(discriminate)); lia].
      (* nothing left: the call leaves nothing *)
      destruct I as (W & _). destruct I' as (W' & _). rewrite Es, app_nil_r in W.
      assert (X : exists l, stream s = l ++ stream s').
      { clear - E. unfold ipa_msg_recv_buffered in E. set (m := match tmp with Some m => m | None => _ end) in *.
        assert (R : forall s0 k, exists l, stream s0 = l ++ stream (snd (recv s0 k))).
        { intros s0 k. unfold recv. destruct (ticks s0) as [|[a| | |a] t]; try (exists []; reflexivity).
          destruct (firstn (Z.to_nat (Z.min a k)) (stream s0)) eqn:Fi; [exists []; reflexivity|]. exists (z :: l). cbn [snd stream]. rewrite <- Fi. now rewrite firstn_skipn. }
        assert (B : forall m0 s0, recv_body true m0 s0 = Ok (rc, r, tmp', s') -> exists l, stream s0 = l ++ stream s').
        { intros m0 s0 Eb. unfold recv_body in Eb. destruct (rd (idata m0) 0); cbn [bind] in Eb; try discriminate Eb. destruct (rd (idata m0) 1); cbn [bind] in Eb; try discriminate Eb. cbv zeta in Eb.
          dif Eb; [injection Eb as _ _ _ <-; exists []; reflexivity|].
          dif Eb.
          - dif Eb; [congruence|]. match type of Eb with context [recv s0 ?k] => destruct (R s0 k) as (l & El); destruct (recv s0 k) as [a1 s1] end. cbn [snd] in El.
            exists l. rewrite El. f_equal. destruct (got a1); [|injection Eb as _ _ _ <-; reflexivity].
            dif Eb; cbn [negb] in Eb; [injection Eb as _ _ _ <-; reflexivity|]. dif Eb; injection Eb as _ _ _ <-; reflexivity.
          - dif Eb; injection Eb as _ _ _ <-; exists []; reflexivity. }
        dif E; [eapply B; eauto|]. dif E; [congruence|].
        match type of E with context [recv s ?k] => destruct (R s k) as (l & El); destruct (recv s k) as [a1 s1] end. cbn [snd] in El.
        destruct (got a1); [|injection E as _ _ _ <-; eauto]. dif E.
        - cbv zeta in E. dif E; cbn [negb] in E; injection E as _ _ _ <-; eauto.
        - destruct (B _ _ E) as (l' & El'). exists (l ++ l'). rewrite El, El', app_assoc. reflexivity. }
      destruct X as (l & X). rewrite Es in X. symmetry in X. apply app_eq_nil in X. destruct X as [_ ->]. cbn. lia. }
    destruct (IH _ _ _ I' F' L') as (evs & tmp2 & s2 & E2 & R2).
    destruct O as [(-> & _ & _)|(f & m & _ & _ & C & -> & _)].
    + change ((- EAGAIN <=? 0) && negb (- EAGAIN =? - EAGAIN)) with false. cbv iota. rewrite E2. cbn [bind]. eauto.
    + assert (1 <= zlen (snd f)). { unfold carries in C. destruct (snd f); [congruence|]. rewrite zlen_cons. pose proof (zlen_nonneg l). lia. }
      replace ((zlen (snd f) <=? 0) && negb (zlen (snd f) =? - EAGAIN)) with false by (destruct (zlen (snd f) <=? 0) eqn:X; [lia|reflexivity]).
      rewrite E2. cbn [bind]. eauto.
Qed.

Lemma inv_small tmp s todo : inv tmp s todo -> todo = [] /\ held tmp = [] /\ stream s = [] \/ exists f t, todo = f :: t /\ zlen (held tmp) < zlen (frame f).
Proof.
  intros (W & F & _ & _). destruct todo as [|f t].
  - left. split; auto. apply app_eq_nil in W. auto.
  - right. exists f, t. split; auto. rewrite zlen_frame. pose proof (zlen_nonneg (snd f)). destruct tmp as [m|]; cbn [held wf] in *; [|rewrite zlen_nil; lia].
    destruct (il2 m); [|lia]. destruct F as (f' & t' & X & L). injection X as <- <-. rewrite zlen_frame in L. lia.
Qed.

Lemma inv_start fs sched : Forall fits fs -> Forall benign sched -> inv None (mksock (wire fs) sched) fs.
Proof. intros. repeat split; auto. Qed.
