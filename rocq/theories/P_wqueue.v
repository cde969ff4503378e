From Verif Require Import Base S_llist M_llist P_llist S_msgq M_msgq P_msgq S_wqueue M_wqueue.

Ltac sp := repeat match goal with |- _ /\ _ => split end.

(* correspondence between the C structure and the specification state; k is 1 if one message above the limit
   may be queued (re-queued after -EAGAIN), infl the messages being written *)
Definition rel (k head : Z) (infl : list Z) (s : wq) (a : list Z * Z * bool) : Prop :=
  let '(q, max, want) := a in
  ring (mq_heap (wq_q s)) head q /\ NoDup (head :: q) /\ ~ In 0 q /\ mq_count (wq_q s) = zlen q /\
  wq_max s = max /\ 0 <= max < 4294967295 /\ zlen q <= max + k /\
  Z.testbit (wq_when s) 1 = want /\ (forall x, In x infl -> ~ In x q).

Lemma when_set w : Z.testbit (fd_set w OSMO_FD_WRITE) 1 = true.
Proof. unfold fd_set. rewrite Z.lor_spec. apply orb_true_r. Qed.
Lemma when_clr w : Z.testbit (fd_clr w OSMO_FD_WRITE) 1 = false.
Proof. unfold fd_clr. rewrite Z.land_spec, Z.lnot_spec by lia. apply andb_false_r. Qed.

Lemma NoDup_tl h (x : Z) l : NoDup (h :: x :: l) -> NoDup (h :: l).
Proof. intros H. inversion H; subst. inversion H3; subst. constructor; auto. intros Hi; apply H2; right; auto. Qed.

Lemma clear_loop_ok l : forall h head, ring h head l -> NoDup (head :: l) -> ~ In 0 l ->
  exists h', clear_loop (length l) head h = Some (h', l) /\ ring h' head [].
Proof.
  induction l as [|x l IH]; intros h head R ND NZ; cbn [length clear_loop]; rewrite (empty_iff _ _ _ R ND).
  - eauto.
  - pose proof (deq_ok h head (x :: l) R ND NZ) as G. destruct (msgb_dequeue h head) as [h1 m]. destruct G as [R1 E]. cbn in E, R1. subst m.
    destruct (IH h1 head R1) as (h2 & E2 & R2); [eapply NoDup_tl; eauto|intros Hi; apply NZ; right; auto|].
    rewrite E2. eauto.
Qed.

Lemma deqc_ok head s l : ring (mq_heap s) head l -> NoDup (head :: l) -> ~ In 0 l -> mq_count s = zlen l -> zlen l < 4294967296 ->
  exists s', msgb_dequeue_count head s = (s', hd 0 l) /\ ring (mq_heap s') head (tl l) /\ mq_count s' = zlen (tl l).
Proof.
  intros R ND NZ C B. unfold msgb_dequeue_count. pose proof (deq_ok (mq_heap s) head l R ND NZ) as G.
  destruct (msgb_dequeue (mq_heap s) head) as [h1 m]. destruct G as [R1 ->]. eexists. split; [reflexivity|]. split; auto. cbn [mq_count].
  destruct l as [|x l]; cbn [hd tl].
  - rewrite C. reflexivity.
  - destruct (Z.eqb_spec x 0); [exfalso; apply NZ; left; auto|]. rewrite C, zlen_cons in *. pose proof (zlen_nonneg l).
    rewrite u32_small by (unfold is_u32; lia). lia.
Qed.

Lemma maxlen_loop_ok max fuel : 0 <= max -> forall l s head dropped, ring (mq_heap s) head l -> NoDup (head :: l) -> ~ In 0 l ->
  mq_count s = zlen l -> zlen l < 4294967296 -> (length l <= fuel)%nat ->
  let d := zlen l - Z.min (zlen l) max in
  exists s', maxlen_loop fuel head s max dropped = Some (s', firstn (Z.to_nat d) l, dropped + d) /\
    ring (mq_heap s') head (skipn (Z.to_nat d) l) /\ mq_count s' = zlen (skipn (Z.to_nat d) l).
Proof.
  intros Hm. induction fuel; intros l s head dropped R ND NZ C B Hf; cbv zeta; cbn [maxlen_loop]; rewrite C.
  - destruct l; [|cbn in Hf; lia]. change (zlen (@nil Z)) with 0. replace (max <? 0) with false by lia. cbn [negb].
    replace (0 - Z.min 0 max) with 0 by lia. cbn. exists s. rewrite Z.add_0_r. auto.
  - destruct (Z.ltb_spec max (zlen l)); cbn [negb].
    + destruct (deqc_ok head s l) as (s1 & E1 & R1 & C1); auto. rewrite E1.
      destruct l as [|x l]; [change (zlen (@nil Z)) with 0 in *; lia|]. cbn [hd tl] in *. rewrite zlen_cons in *. cbn [length] in Hf.
      destruct (IHfuel l s1 head (dropped + 1)) as (s2 & E2 & R2 & C2); auto; [eapply NoDup_tl; eauto|intros Hi; apply NZ; right; auto|lia|lia|].
      rewrite E2. exists s2.
      replace (Z.to_nat (1 + zlen l - Z.min (1 + zlen l) max)) with (S (Z.to_nat (zlen l - Z.min (zlen l) max))) by lia.
      cbn [firstn skipn]. split; [|auto]. do 2 f_equal. lia.
    + replace (zlen l - Z.min (zlen l) max) with 0 by lia. exists s. cbn. rewrite Z.add_0_r. auto.
Qed.

Lemma in_skipn {A} n (l : list A) x : In x (skipn n l) -> In x l.
Proof. revert l; induction n; intros [|y l]; cbn; auto. Qed.
Lemma NoDup_skipn {A} n (l : list A) : NoDup l -> NoDup (skipn n l).
Proof. revert l; induction n; intros [|y l] H; cbn; auto. inversion H; auto. Qed.

Lemma call_rel k head infl s a c : rel k head infl s a -> 0 <= k <= 1 -> call_ok head infl a c ->
  exists s', m_call head s c = Ok (s', snd (s_call a c)) /\ rel k head infl s' (fst (s_call a c)).
Proof.
  destruct a as [[q max] want]. intros (R & ND & NZ & C & M & MB & L & W & I) Hk Hc.
  destruct c as [m| |n]; cbn [m_call s_call call_ok fst snd] in *.
  - unfold osmo_wqueue_enqueue, osmo_wqueue_enqueue_quiet. rewrite M, C.
    destruct (Z.leb_spec max (zlen q)).
    + exists s. cbn [fst snd]. split; auto. unfold rel. sp; auto; lia.
    + eexists. split; [reflexivity|]. cbn [fst]. unfold rel. cbn [wq_q wq_max wq_when]. destruct Hc as (H0 & H1 & H2 & H3).
      unfold msgb_enqueue_count, msgb_enqueue. cbn [mq_heap mq_count].
      split; [apply add_tail; auto; intros [E|E]; auto|]. split.
      { change (head :: q ++ [m]) with ((head :: q) ++ [m]). apply NoDup_app_intro; auto; [constructor; [intros []|constructor]|].
        intros x Hx [<-|[]]. destruct Hx; auto. }
      split; [intros Hi; apply in_app_or in Hi; destruct Hi as [Hi|[Hi|[]]]; auto|].
      rewrite zlen_app. change (zlen [m]) with 1. pose proof (zlen_nonneg q).
      rewrite C, u32_small by (unfold is_u32; lia). rewrite when_set.
      sp; auto; try lia. intros x Hx Hi. apply in_app_or in Hi. destruct Hi as [Hi|[Hi|[]]]; [eapply I; eauto|subst; auto].
  - unfold osmo_wqueue_clear. rewrite C. replace (Z.to_nat (zlen q)) with (length q) by (unfold zlen; lia).
    destruct (clear_loop_ok q _ head R ND NZ) as (h' & E & R'). rewrite E. cbn [bind]. eexists. split; [reflexivity|].
    unfold rel. cbn [wq_q wq_max wq_when mq_heap mq_count]. rewrite when_clr. change (zlen (@nil Z)) with 0.
    sp; auto; try lia; try (constructor; [intros []|constructor]).
  - unfold osmo_wqueue_set_maxlen. rewrite C.
    destruct (maxlen_loop_ok n (Z.to_nat (zlen q)) ltac:(lia) q (wq_q s) head 0 R ND NZ C) as (s' & E & R' & C'); [lia|unfold zlen; lia|].
    rewrite E. cbn [bind]. set (d := zlen q - Z.min (zlen q) n) in *. eexists. split; [reflexivity|]. cbn [fst].
    unfold rel. cbn [wq_q wq_max wq_when]. split; auto. split.
    { inversion ND; subst. constructor; [intros Hi; apply in_skipn in Hi; auto|apply NoDup_skipn; auto]. }
    split; [intros Hi; apply in_skipn in Hi; auto|]. split; auto. rewrite zlen_skipn'. pose proof (zlen_nonneg q).
    sp; auto; try lia. intros x Hx Hi. apply in_skipn in Hi. eapply I; eauto.
Qed.

Lemma calls_rel k head infl cs : forall s a, rel k head infl s a -> 0 <= k <= 1 -> calls_ok head infl a cs ->
  exists s', m_calls head s cs = Ok (s', snd (s_calls a cs)) /\ rel k head infl s' (fst (s_calls a cs)).
Proof.
  induction cs as [|c t IH]; intros s a R Hk Hc; cbn [m_calls s_calls calls_ok] in *.
  - exists s. auto.
  - destruct Hc as [H1 H2]. destruct (call_rel k head infl s a c R Hk H1) as (s1 & E1 & R1). rewrite E1. cbn [bind].
    destruct (s_call a c) as [a1 o1]. cbn [fst snd] in *.
    destruct (IH s1 a1 R1 Hk H2) as (s2 & E2 & R2). rewrite E2. cbn [bind]. destruct (s_calls a1 t) as [a2 o2]. cbn [fst snd] in *. eauto.
Qed.

Definition rels (head : Z) (s : option wq) (a : wspec) : Prop :=
  match s, a with
  | Some s, Qalive q m w => rel 1 head [] s (q, m, w)
  | None, Qdead => True
  | _, _ => False
  end.

Lemma other_rel head s a (on : bool) c : rel 1 head [] s a -> (if on then calls_ok head [] a (cb_calls c) else True) ->
  exists s', (if on then do ' (s, o) <- m_calls head s (cb_calls c) ;; Ok (if cb_rc c =? - EBADF then None else Some s, o)
              else Ok (Some s, [])) = Ok (s', snd (s_other on a c)) /\ rels head s' (fst (s_other on a c)).
Proof.
  intros R Hc. unfold s_other. destruct on.
  - destruct (calls_rel 1 head [] (cb_calls c) s a R ltac:(lia) Hc) as (s1 & E1 & R1). rewrite E1. cbn [bind].
    destruct (s_calls a (cb_calls c)) as [[[q m] w] o]. cbn [fst snd] in *. destruct (cb_rc c =? - EBADF); eexists; split; try reflexivity; auto.
  - destruct a as [[q m] w]. eexists. split; [reflexivity|]. exact R.
Qed.

Lemma write_rel head s q max want w : rel 1 head [] s (q, max, want) ->
  match q with [] => True | x :: rest => calls_ok head [x] (rest, max, false) (cb_calls w) end ->
  exists s', (let '(q, msg) := msgb_dequeue_count head (wq_q s) in
        let s := Wq q (wq_max s) (fd_clr (wq_when s) OSMO_FD_WRITE) in
        if negb (msg =? 0) then
          do ' (s, o3) <- m_calls head s (cb_calls w) ;;
          if cb_rc w =? - EBADF then Ok (None, o3 ++ [OWrite msg (cb_rc w); OFree msg])
          else
            let '(s, o4) := (if cb_rc w =? - EAGAIN
                             then (Wq (Mq (llist_add (mq_heap (wq_q s)) msg head) (u32 (mq_count (wq_q s) + 1))) (wq_max s) (wq_when s), [])
                             else (s, [OFree msg])) in
            let s := if negb (llist_empty (mq_heap (wq_q s)) head)
                     then Wq (wq_q s) (wq_max s) (fd_set (wq_when s) OSMO_FD_WRITE) else s in
            Ok (Some s, o3 ++ [OWrite msg (cb_rc w)] ++ o4)
        else Ok (Some s, [])) = Ok (s', snd (s_write (q, max, want) w)) /\ rels head s' (fst (s_write (q, max, want) w)).
Proof.
  intros (R & ND & NZ & C & M & MB & L & W & _) Hc.
  destruct (deqc_ok head (wq_q s) q R ND NZ C) as (s1 & E1 & R1 & C1); [lia|]. rewrite E1.
  destruct q as [|x q]; cbn [hd tl s_write] in *.
  - change (negb (0 =? 0)) with false. cbv iota. eexists. split; [reflexivity|]. cbn [rels fst]. unfold rel. cbn [wq_q wq_max wq_when]. rewrite when_clr. change (zlen (@nil Z)) with 0 in *. sp; auto; lia.
  - destruct (Z.eqb_spec x 0); [exfalso; apply NZ; left; auto|]. cbn [negb]. rewrite zlen_cons in *.
    assert (NDt : NoDup (head :: q)) by (eapply NoDup_tl; eauto).
    assert (Hx : ~ In x (head :: q)). { inversion ND; subst. inversion H2; subst. intros [->|Hi]; [apply H1; left; auto|auto]. }
    assert (NZt : ~ In 0 q) by (intros Hi; apply NZ; right; auto).
    destruct (calls_rel 0 head [x] (cb_calls w) (Wq s1 (wq_max s) (fd_clr (wq_when s) OSMO_FD_WRITE)) (q, max, false)) as (s2 & E2 & R2); auto; [|lia|].
    { unfold rel. cbn [wq_q wq_max wq_when]. rewrite when_clr. sp; auto; try lia. intros y [<-|[]]. intros Hi; apply Hx; right; auto. }
    rewrite E2. cbn [bind]. destruct (s_calls (q, max, false) (cb_calls w)) as [[[q' max'] want'] o]. cbn [fst snd] in *.
    destruct (cb_rc w =? - EBADF). { eexists. split; [reflexivity|]. exact I. }
    destruct R2 as (R2 & ND2 & NZ2 & C2 & M2 & MB2 & L2 & W2 & I2).
    assert (Hx2 : ~ In x (head :: q')). { intros [E|Hi]; [subst; inversion ND; subst; apply H1; left; auto|apply (I2 x); [left; auto|auto]]. }
    assert (ND3 : NoDup (head :: x :: q')).
    { inversion ND2; subst. constructor; [intros [E|Hi]; [apply Hx2; left; auto|auto]|]. constructor; auto. intros Hi; apply Hx2; right; auto. }
    destruct (cb_rc w =? - EAGAIN).
    + cbn [wq_q mq_heap]. rewrite (empty_iff _ _ (x :: q') (add_head _ _ _ _ R2 ND2 Hx2) ND3). cbn [negb].
      eexists. split; [cbn [snd app]; reflexivity|]. cbn [rels fst]. unfold rel. cbn [wq_q wq_max wq_when mq_heap mq_count].
      split; [apply add_head; auto|]. split; [auto|]. split; [intros [E|Hi]; auto|].
      rewrite zlen_cons, C2, when_set. pose proof (zlen_nonneg q'). rewrite u32_small by (unfold is_u32; lia). sp; auto; lia.
    + rewrite (empty_iff _ _ _ R2 ND2). destruct q' as [|y q']; cbn [negb].
      * eexists. split; [cbn [snd app]; reflexivity|]. cbn [rels fst]. unfold rel. rewrite orb_false_r. sp; auto; lia.
      * eexists. split; [cbn [snd app]; reflexivity|]. cbn [rels fst]. unfold rel. cbn [wq_q wq_max wq_when]. rewrite orb_true_r, when_set. sp; auto; lia.
Qed.

Lemma event_rel head s a e : rels head s a -> event_ok head a e ->
  exists s', m_event head s e = Ok (s', snd (s_event a e)) /\ rels head s' (fst (s_event a e)).
Proof.
  intros R Ho. destruct s as [s|], a as [q max want|]; try destruct R; cbn [m_event s_event event_ok] in *.
  2:{ exists None. auto. }
  destruct e as [c|r e w rcb ecb wcb].
  - destruct (call_rel 1 head [] s (q, max, want) c) as (s' & E & R'); auto; [split; auto|lia|].
    rewrite E. cbn [bind]. destruct (s_call (q, max, want) c) as [[[q' m'] w'] o]. cbn [fst snd] in *. eexists. split; [reflexivity|]. exact R'.
  - assert (Rl : rel 1 head [] s (q, max, want)) by (split; auto). destruct Ho as [Ho1 Ho2].
    unfold osmo_wqueue_bfd_cb.
    assert (B1 : negb (Z.land (b2f r OSMO_FD_READ + b2f e OSMO_FD_EXCEPT + b2f w OSMO_FD_WRITE) OSMO_FD_READ =? 0) = r) by (destruct r, e, w; reflexivity).
    assert (B2 : negb (Z.land (b2f r OSMO_FD_READ + b2f e OSMO_FD_EXCEPT + b2f w OSMO_FD_WRITE) OSMO_FD_EXCEPT =? 0) = e) by (destruct r, e, w; reflexivity).
    assert (B3 : negb (Z.land (b2f r OSMO_FD_READ + b2f e OSMO_FD_EXCEPT + b2f w OSMO_FD_WRITE) OSMO_FD_WRITE =? 0) = w) by (destruct r, e, w; reflexivity).
    rewrite B1, B2, B3. clear B1 B2 B3.
    destruct (other_rel head s (q, max, want) r rcb Rl Ho1) as (s1 & E1 & R1). rewrite E1. clear E1. cbn [bind].
    unfold andthen. unfold ok_then in Ho2.
    destruct (s_other r (q, max, want) rcb) as [a1 o1]. cbn [fst snd] in R1 |- *.
    destruct s1 as [s1|], a1 as [q1 max1 want1|]; try destruct R1; [|exists None; split; [reflexivity|exact I]].
    assert (Rl1 : rel 1 head [] s1 (q1, max1, want1)) by (split; auto). destruct Ho2 as [Ho2 Ho3].
    destruct (other_rel head s1 (q1, max1, want1) e ecb Rl1 Ho2) as (s2 & E2 & R2). rewrite E2. clear E2. cbn [bind].
    destruct (s_other e (q1, max1, want1) ecb) as [a2 o2]. cbn [fst snd] in R2 |- *.
    destruct s2 as [s2|], a2 as [q2 max2 want2|]; try destruct R2; [|exists None; split; [reflexivity|exact I]].
    assert (Rl2 : rel 1 head [] s2 (q2, max2, want2)) by (split; auto).
    destruct w.
    + destruct (write_rel head s2 q2 max2 want2 wcb Rl2) as (s3 & E3 & R3); [destruct q2; auto|].
      destruct (s_write (q2, max2, want2) wcb) as [a3 o3]. cbn [fst snd] in *. exists s3. split; [|exact R3].
      destruct (msgb_dequeue_count head (wq_q s2)) as [qq msg]. destruct (negb (msg =? 0)).
      2:{ injection E3 as E3a E3b. rewrite <- E3a, <- E3b, app_nil_r. reflexivity. }
      destruct (m_calls head _ (cb_calls wcb)) as [[sx ox]| | |]; cbn [bind] in *; try discriminate.
      destruct (cb_rc wcb =? - EBADF); [injection E3 as E3a E3b; rewrite <- E3a, <- E3b; reflexivity|].
      destruct (if cb_rc wcb =? - EAGAIN then _ else _) as [sy oy]. injection E3 as E3a E3b. rewrite <- E3a, <- E3b. reflexivity.
    + exists (Some s2). cbn [fst snd]. rewrite app_nil_r. split; [reflexivity|exact Rl2].
Qed.

Lemma run_rel head es : forall s a, rels head s a -> events_ok head a es ->
  exists s', m_run head s es = Ok (s', snd (s_run a es)) /\ rels head s' (fst (s_run a es)).
Proof.
  induction es as [|e t IH]; intros s a R Ho; cbn [m_run s_run events_ok] in *.
  - exists s; auto.
  - destruct Ho as [H1 H2]. destruct (event_rel head s a e R H1) as (s1 & E1 & R1). rewrite E1. cbn [bind].
    destruct (s_event a e) as [a1 o1]. cbn [fst snd] in *. destruct (IH s1 a1 R1 H2) as (s2 & E2 & R2). rewrite E2. cbn [bind].
    destruct (s_run a1 t) as [a2 o2]. cbn [fst snd] in *. eauto.
Qed.

Lemma wqueue_refines h head max when es : 0 <= max < 4294967295 ->
  events_ok head (Qalive [] max (Z.testbit when 1)) es ->
  exists s', m_run head (Some (osmo_wqueue_init h head max when)) es = Ok (s', snd (s_run (Qalive [] max (Z.testbit when 1)) es)) /\
    match s', fst (s_run (Qalive [] max (Z.testbit when 1)) es) with
    | Some s, Qalive q mx want =>
        mq_count (wq_q s) = zlen q /\ wq_max s = mx /\ Z.testbit (wq_when s) 1 = want /\ zlen q <= mx + 1 /\
        llist_walk (length q) (mq_heap (wq_q s)) (nxt (mq_heap (wq_q s)) head) head = Some q
    | None, Qdead => True
    | _, _ => False
    end.
Proof.
  intros Hm Ho. destruct (run_rel head es (Some (osmo_wqueue_init h head max when)) (Qalive [] max (Z.testbit when 1))) as (s' & E & R); auto.
  - unfold rels, rel, osmo_wqueue_init. cbn [wq_q wq_max wq_when mq_heap mq_count]. change (zlen (@nil Z)) with 0.
    rewrite u32_small by (unfold is_u32; lia). split; [unfold ring; cbn; rewrite Z.eqb_refl; auto|].
    sp; auto; try lia. constructor; [intros []|constructor].
  - exists s'. split; auto. destruct s' as [s'|], (fst (s_run _ es)) as [q mx want|]; try destruct R; auto.
    destruct H0 as (ND & NZ & C & M & MB & L & W & _). sp; auto.
    apply walk_path; auto. inversion ND; auto.
Qed.

(* ---------- consequences on the specification ---------- *)
Definition armed (s : wspec) : Prop := match s with Qalive q _ want => q <> [] -> want = true | Qdead => True end.
Definition armed3 (s : list Z * Z * bool) : Prop := let '(q, _, want) := s in q <> [] -> want = true.
Lemma call_armed s c : armed3 s -> armed3 (fst (s_call s c)).
Proof.
  destruct s as [[q m] w]. intros H. destruct c; cbn [s_call].
  - destruct (m <=? zlen q); cbn; auto.
  - cbn. congruence.
  - cbn. intros Hn. apply H. intros ->. apply Hn. apply skipn_nil.
Qed.
Lemma calls_armed cs : forall s, armed3 s -> armed3 (fst (s_calls s cs)).
Proof.
  induction cs as [|c t IH]; intros s H; cbn [s_calls]; auto. pose proof (call_armed s c H) as A. destruct (s_call s c) as [s1 o1].
  pose proof (IH s1 A). destruct (s_calls s1 t). auto.
Qed.
Lemma other_armed on s c : armed3 s -> armed (fst (s_other on s c)).
Proof.
  intros H. unfold s_other. destruct on.
  - pose proof (calls_armed (cb_calls c) s H). destruct (s_calls s (cb_calls c)) as [[[q m] w] o]. destruct (_ =? _); cbn; auto.
  - destruct s as [[q m] w]. exact H.
Qed.
Lemma write_armed s w : armed (fst (s_write s w)).
Proof.
  destruct s as [[q m] want]. cbn [s_write]. destruct q as [|x q]; [cbn; congruence|].
  destruct (s_calls (q, m, false) (cb_calls w)) as [[[q' m'] w'] o]. destruct (cb_rc w =? - EBADF); [exact I|].
  destruct (cb_rc w =? - EAGAIN); cbn; auto. destruct q'; [congruence|]. intros _. apply orb_true_r.
Qed.
Lemma andthen_armed x f : armed (fst x) -> (forall s, armed3 s -> armed (fst (f s))) -> armed (fst (andthen x f)).
Proof.
  destruct x as [[q m w|] o]; cbn [fst andthen]; intros H F; auto. specialize (F (q, m, w) H). destruct (f (q, m, w)). auto.
Qed.
Lemma event_armed s e : armed s -> armed (fst (s_event s e)).
Proof.
  destruct s as [q m w|]; cbn [s_event]; auto. intros H. destruct e as [c|r e wr rcb ecb wcb].
  - pose proof (call_armed (q, m, w) c H). destruct (s_call (q, m, w) c) as [[[q' m'] w'] o]. auto.
  - apply andthen_armed; [apply other_armed; exact H|]. intros s Hs. apply andthen_armed; [apply other_armed; auto|].
    intros [[q2 m2] w2] Hs2. destruct wr; [apply write_armed|exact Hs2].
Qed.
Lemma run_armed es : forall s, armed s -> armed (fst (s_run s es)).
Proof.
  induction es as [|e t IH]; intros s H; cbn [s_run]; auto. pose proof (event_armed s e H) as A. destruct (s_event s e) as [s1 o1].
  pose proof (IH s1 A). destruct (s_run s1 t). auto.
Qed.

(* order: completed ++ queued is a subsequence of accepted *)
Lemma subseq_refl l : subseq l l. Proof. induction l; [constructor|apply sub_take; auto]. Qed.
Lemma subseq_app a b c d : subseq a b -> subseq c d -> subseq (a ++ c) (b ++ d).
Proof. induction 1; cbn; intros; try (constructor; auto; fail). induction l; cbn; auto. constructor; auto. Qed.
Lemma subseq_trans a b c : subseq a b -> subseq b c -> subseq a c.
Proof.
  intros H1 H2. revert a H1. induction H2; intros a0 H1.
  - inversion H1; subst; constructor.
  - constructor; auto.
  - inversion H1; subst; [constructor|constructor; auto|]. apply sub_take; auto.
Qed.
Lemma subseq_skipn n l : subseq (skipn n l) l.
Proof. revert l; induction n; intros [|x l]; cbn; auto using subseq_refl; constructor. auto. Qed.

Lemma acc_app a b : accepted (a ++ b) = accepted a ++ accepted b. Proof. apply flat_map_app. Qed.
Lemma comp_app a b : completed (a ++ b) = completed a ++ completed b. Proof. apply flat_map_app. Qed.
Lemma att_app a b : attempts (a ++ b) = attempts a ++ attempts b. Proof. apply flat_map_app. Qed.
Lemma acc_free l : accepted (map OFree l) = []. Proof. induction l; auto. Qed.
Lemma comp_free l : completed (map OFree l) = []. Proof. induction l; auto. Qed.
Lemma att_free l : attempts (map OFree l) = []. Proof. induction l; auto. Qed.

Definition q_of (s : list Z * Z * bool) : list Z := fst (fst s).
Lemma call_order s c : completed (snd (s_call s c)) = [] /\ subseq (q_of (fst (s_call s c))) (q_of s ++ accepted (snd (s_call s c))).
Proof.
  destruct s as [[q m] w]. unfold q_of. destruct c; cbn [s_call].
  - destruct (m <=? zlen q); cbn; split; auto; rewrite ?app_nil_r; apply subseq_refl.
  - cbn [fst snd]. rewrite comp_free, acc_free. split; auto. constructor.
  - cbn [fst snd]. rewrite comp_app, acc_app, comp_free, acc_free. split; auto. cbn. rewrite app_nil_r. apply subseq_skipn.
Qed.
Lemma calls_order cs : forall s, completed (snd (s_calls s cs)) = [] /\ subseq (q_of (fst (s_calls s cs))) (q_of s ++ accepted (snd (s_calls s cs))).
Proof.
  induction cs as [|c t IH]; intros s; cbn [s_calls].
  - cbn [fst snd]. split; auto. cbn. rewrite app_nil_r. apply subseq_refl.
  - destruct (call_order s c) as [C1 S1]. destruct (s_call s c) as [s1 o1]. cbn [fst snd] in *. destruct (IH s1) as [C2 S2].
    destruct (s_calls s1 t) as [s2 o2]. cbn [fst snd] in *. rewrite comp_app, acc_app, C1, C2. split; auto.
    eapply subseq_trans; [exact S2|]. rewrite app_assoc. apply subseq_app; auto. apply subseq_refl.
Qed.

Definition pend (s : wspec) : list Z := match s with Qalive q _ _ => q | Qdead => [] end.
Definition ordered (q0 : list Z) (x : wspec * list wout) : Prop := subseq (completed (snd x) ++ pend (fst x)) (q0 ++ accepted (snd x)).
Lemma other_order on s c : completed (snd (s_other on s c)) = [] /\ subseq (pend (fst (s_other on s c))) (q_of s ++ accepted (snd (s_other on s c))).
Proof.
  unfold s_other. destruct on.
  - destruct (calls_order (cb_calls c) s) as [C S]. destruct (s_calls s (cb_calls c)) as [[[q m] w] o]. cbn [fst snd] in *.
    destruct (_ =? _); cbn [fst snd pend]; split; auto. constructor.
  - destruct s as [[q m] w]. cbn. rewrite app_nil_r. split; auto. apply subseq_refl.
Qed.
Lemma write_order s w : ordered (q_of s) (s_write s w).
Proof.
  destruct s as [[q m] want]. unfold ordered, q_of. cbn [s_write fst]. destruct q as [|x q]; [cbn; constructor|].
  destruct (calls_order (cb_calls w) (q, m, false)) as [C S]. destruct (s_calls (q, m, false) (cb_calls w)) as [[[q' m'] w'] o]. unfold q_of in S. cbn [fst snd] in *.
  destruct (Z.eqb_spec (cb_rc w) (- EBADF)) as [E|E].
  - cbn [fst snd pend]. rewrite comp_app, acc_app, C. cbn. rewrite E. cbn. rewrite app_nil_r. apply sub_take. constructor.
  - destruct (Z.eqb_spec (cb_rc w) (- EAGAIN)) as [E2|E2].
    + cbn [fst snd pend]. rewrite comp_app, acc_app, C. cbn. rewrite E2. cbn. rewrite app_nil_r. apply sub_take. auto.
    + cbn [fst snd pend]. rewrite comp_app, acc_app, C. cbn. replace (cb_rc w =? _) with false by (symmetry; apply Z.eqb_neq; exact E2).
      cbn. rewrite app_nil_r. apply sub_take. auto.
Qed.
Lemma andthen_order s0 x f : completed (snd x) = [] -> subseq (pend (fst x)) (q_of s0 ++ accepted (snd x)) ->
  (forall s, ordered (q_of s) (f s)) -> ordered (q_of s0) (andthen x f).
Proof.
  destruct x as [[q m w|] o]; cbn [fst snd pend andthen]; intros C S F; unfold ordered.
  - specialize (F (q, m, w)). unfold ordered in F. destruct (f (q, m, w)) as [s2 o2]. cbn [fst snd] in *. rewrite comp_app, acc_app, C. cbn [app].
    eapply subseq_trans; [exact F|]. unfold q_of at 1. cbn [fst]. rewrite app_assoc. apply subseq_app; auto. apply subseq_refl.
  - cbn [fst snd pend]. rewrite C. constructor.
Qed.
Lemma event_order s e : ordered (pend s) (s_event s e).
Proof.
  destruct s as [q m w|]; cbn [s_event pend]; [|constructor]. destruct e as [c|r e wr rcb ecb wcb].
  - destruct (call_order (q, m, w) c) as [C S]. destruct (s_call (q, m, w) c) as [[[q' m'] w'] o]. unfold ordered, q_of in *. cbn [fst snd pend] in *.
    rewrite C. exact S.
  - change q with (q_of (q, m, w)). destruct (other_order r (q, m, w) rcb). apply andthen_order; auto.
    intros s. destruct (other_order e s ecb). apply andthen_order; auto. intros [[q2 m2] w2]. destruct wr; [apply write_order|].
    unfold ordered, q_of. cbn. rewrite app_nil_r. apply subseq_refl.
Qed.
Lemma run_order es : forall s, ordered (pend s) (s_run s es).
Proof.
  induction es as [|e t IH]; intros s; cbn [s_run].
  - unfold ordered. cbn. rewrite app_nil_r. apply subseq_refl.
  - pose proof (event_order s e) as O1. destruct (s_event s e) as [s1 o1]. pose proof (IH s1) as O2. destruct (s_run s1 t) as [s2 o2].
    unfold ordered in *. cbn [fst snd] in *. rewrite comp_app, acc_app, <- app_assoc.
    eapply subseq_trans; [apply subseq_app; [apply subseq_refl|exact O2]|].
    rewrite !app_assoc. apply subseq_app; [auto|apply subseq_refl].
Qed.

(* without clear and set_maxlen: nothing is lost *)
Lemma call_exact s c : pure_call c -> completed (snd (s_call s c)) = [] /\ q_of (fst (s_call s c)) = q_of s ++ accepted (snd (s_call s c)).
Proof.
  destruct s as [[q m] w]. unfold q_of. destruct c; cbn [s_call pure_call]; try contradiction. intros _.
  destruct (m <=? zlen q); cbn; split; auto; rewrite ?app_nil_r; auto.
Qed.
Lemma calls_exact cs : Forall pure_call cs -> forall s, completed (snd (s_calls s cs)) = [] /\ q_of (fst (s_calls s cs)) = q_of s ++ accepted (snd (s_calls s cs)).
Proof.
  induction 1 as [|c t Hc Ht IH]; intros s; cbn [s_calls].
  - cbn [fst snd]. split; auto. cbn. rewrite app_nil_r. auto.
  - destruct (call_exact s c Hc) as [C1 S1]. destruct (s_call s c) as [s1 o1]. cbn [fst snd] in *. destruct (IH s1) as [C2 S2].
    destruct (s_calls s1 t) as [s2 o2]. cbn [fst snd] in *. rewrite comp_app, acc_app, C1, C2. split; auto.
    rewrite S2, S1, app_assoc. reflexivity.
Qed.
Definition exact_ (q0 : list Z) (x : wspec * list wout) : Prop := completed (snd x) ++ pend (fst x) = q0 ++ accepted (snd x) /\ fst x <> Qdead.
Lemma other_exact on s c : Forall pure_call (cb_calls c) -> cb_rc c <> - EBADF ->
  completed (snd (s_other on s c)) = [] /\ exact_ (q_of s) (s_other on s c).
Proof.
  intros Hp Hr. unfold s_other, exact_. destruct on.
  - destruct (calls_exact (cb_calls c) Hp s) as [C S]. destruct (s_calls s (cb_calls c)) as [[[q m] w] o]. cbn [fst snd] in *.
    destruct (Z.eqb_spec (cb_rc c) (- EBADF)); [congruence|]. cbn [fst snd pend]. rewrite C. sp; auto. discriminate.
  - destruct s as [[q m] w]. cbn. rewrite app_nil_r. sp; auto. discriminate.
Qed.
Lemma write_exact s w : Forall pure_call (cb_calls w) -> cb_rc w <> - EBADF -> exact_ (q_of s) (s_write s w).
Proof.
  intros Hp Hr. destruct s as [[q m] want]. unfold exact_, q_of. cbn [s_write fst]. destruct q as [|x q]; [cbn; split; auto; discriminate|].
  destruct (calls_exact (cb_calls w) Hp (q, m, false)) as [C S]. destruct (s_calls (q, m, false) (cb_calls w)) as [[[q' m'] w'] o]. unfold q_of in S. cbn [fst snd] in *.
  destruct (Z.eqb_spec (cb_rc w) (- EBADF)) as [E|E]; [congruence|].
  destruct (Z.eqb_spec (cb_rc w) (- EAGAIN)) as [E2|E2].
  - cbn [fst snd pend]. rewrite comp_app, acc_app, C. cbn. rewrite E2. cbn. rewrite app_nil_r, S. split; auto. discriminate.
  - cbn [fst snd pend]. rewrite comp_app, acc_app, C. cbn. replace (cb_rc w =? _) with false by (symmetry; apply Z.eqb_neq; exact E2).
    cbn. rewrite app_nil_r, S. split; auto. discriminate.
Qed.
Lemma andthen_exact s0 x f : completed (snd x) = [] -> exact_ (q_of s0) x ->
  (forall s, exact_ (q_of s) (f s)) -> exact_ (q_of s0) (andthen x f).
Proof.
  destruct x as [[q m w|] o]; cbn [fst snd pend andthen]; intros C [S N] F; unfold exact_.
  - specialize (F (q, m, w)). unfold exact_ in F. destruct (f (q, m, w)) as [s2 o2]. cbn [fst snd] in *. destruct F as [F1 F2].
    rewrite comp_app, acc_app, C. cbn [app]. split; auto. rewrite F1, C in *. cbn [app] in S. unfold q_of at 1. cbn [fst]. cbn [pend] in S. rewrite S, app_assoc. reflexivity.
  - cbn in N. congruence.
Qed.
Lemma event_exact s e : s <> Qdead -> pure_event e -> exact_ (pend s) (s_event s e).
Proof.
  destruct s as [q m w|]; cbn [s_event pend]; [|congruence]. intros _ Hp. destruct e as [c|r e wr rcb ecb wcb].
  - destruct (call_exact (q, m, w) c Hp) as [C S]. destruct (s_call (q, m, w) c) as [[[q' m'] w'] o]. unfold exact_, q_of in *. cbn [fst snd pend] in *.
    rewrite C. split; [exact S|discriminate].
  - destruct Hp as (P1 & P2 & P3 & P4 & P5 & P6).
    change q with (q_of (q, m, w)). destruct (other_exact r (q, m, w) rcb); auto. apply andthen_exact; auto.
    intros s. destruct (other_exact e s ecb); auto. apply andthen_exact; auto. intros [[q2 m2] w2]. destruct wr; [apply write_exact; auto|].
    unfold exact_, q_of. cbn. rewrite app_nil_r. split; auto. discriminate.
Qed.
Lemma run_exact es : Forall pure_event es -> forall s, s <> Qdead -> exact_ (pend s) (s_run s es).
Proof.
  induction 1 as [|e t He Ht IH]; intros s Hs; cbn [s_run].
  - unfold exact_. cbn. rewrite app_nil_r. auto.
  - pose proof (event_exact s e Hs He) as [O1 N1]. destruct (s_event s e) as [s1 o1]. cbn [fst] in N1. pose proof (IH s1 N1) as [O2 N2]. destruct (s_run s1 t) as [s2 o2].
    unfold exact_ in *. cbn [fst snd] in *. rewrite comp_app, acc_app, <- app_assoc. split; auto. rewrite O2, !app_assoc. f_equal. exact O1.
Qed.

Lemma in_turn_app o1 : forall l o2 r, l = completed o1 ++ r -> in_turn l o1 -> in_turn r o2 -> in_turn l (o1 ++ o2).
Proof.
  induction o1 as [|x t IH]; intros l o2 r E H1 H2; cbn [app].
  - cbn in E. subst. auto.
  - destruct x; cbn [in_turn] in *; try (eapply IH; eauto; fail).
    destruct H1 as (l' & El & H1). exists l'. split; auto. rewrite El in *.
    change (completed (OWrite m rc :: t)) with ((if rc =? - EAGAIN then [] else [m]) ++ completed t) in E. destruct (rc =? - EAGAIN).
    + apply (IH _ o2 r); auto.
    + cbn [app] in E. injection E as E. apply (IH _ o2 r); auto.
Qed.
Lemma in_turn_none l o : attempts o = [] -> in_turn l o.
Proof. induction o as [|x t IH]; cbn; auto. destruct x; cbn; auto. discriminate. Qed.
Lemma in_turn_ext o : forall l r, in_turn l o -> in_turn (l ++ r) o.
Proof.
  induction o as [|x t IH]; intros l r; cbn [in_turn]; auto. destruct x; auto. intros (l' & -> & H).
  exists (l' ++ r). split; auto. destruct (rc =? - EAGAIN); [change (m :: l' ++ r) with ((m :: l') ++ r)|]; apply IH; auto.
Qed.
Lemma call_att s c : attempts (snd (s_call s c)) = [].
Proof.
  destruct s as [[q m] w]. destruct c; cbn [s_call snd].
  - destruct (m <=? zlen q); reflexivity.
  - apply att_free.
  - rewrite att_app, att_free. reflexivity.
Qed.
Lemma calls_att cs : forall s, attempts (snd (s_calls s cs)) = [].
Proof.
  induction cs as [|c t IH]; intros s; cbn [s_calls]; auto. pose proof (call_att s c) as A. destruct (s_call s c) as [s1 o1].
  pose proof (IH s1) as B. destruct (s_calls s1 t). cbn [snd] in *. rewrite att_app, A, B. reflexivity.
Qed.
Lemma other_att on s c : attempts (snd (s_other on s c)) = [].
Proof.
  unfold s_other. destruct on; [|destruct s as [[? ?] ?]; reflexivity]. pose proof (calls_att (cb_calls c) s) as A.
  destruct (s_calls s (cb_calls c)) as [[[q m] w] o]. destruct (_ =? _); exact A.
Qed.
Lemma write_turn s w : in_turn (q_of s) (snd (s_write s w)).
Proof.
  destruct s as [[q m] want]. unfold q_of. cbn [s_write fst]. destruct q as [|x q]; [exact I|].
  pose proof (calls_att (cb_calls w) (q, m, false)) as A. destruct (calls_order (cb_calls w) (q, m, false)) as [C _].
  destruct (s_calls (q, m, false) (cb_calls w)) as [[[q' m'] w'] o]. cbn [snd] in *.
  assert (G : forall t, in_turn (if cb_rc w =? - EAGAIN then x :: q else q) t -> in_turn (x :: q) (o ++ OWrite x (cb_rc w) :: t)).
  { intros t Ht. apply in_turn_app with (r := x :: q); [rewrite C; reflexivity|apply in_turn_none; auto|]. cbn [in_turn]. eauto. }
  destruct (cb_rc w =? - EBADF); [apply G; exact I|]. destruct (cb_rc w =? - EAGAIN); apply G; exact I.
Qed.
Lemma andthen_turn s0 x f : completed (snd x) = [] -> attempts (snd x) = [] -> exact_ (q_of s0) x ->
  (forall s, in_turn (q_of s ++ accepted (snd (f s))) (snd (f s))) -> in_turn (q_of s0 ++ accepted (snd (andthen x f))) (snd (andthen x f)).
Proof.
  destruct x as [[q m w|] o]; cbn [fst snd pend andthen]; intros C A [S N] F.
  - specialize (F (q, m, w)). destruct (f (q, m, w)) as [s2 o2]. cbn [fst snd] in *. rewrite acc_app, app_assoc. rewrite <- S, C. cbn [app pend].
    eapply in_turn_app; [rewrite C; reflexivity|apply in_turn_none; auto|exact F].
  - cbn in N. congruence.
Qed.
Lemma event_turn s e : s <> Qdead -> pure_event e -> in_turn (pend s ++ accepted (snd (s_event s e))) (snd (s_event s e)).
Proof.
  destruct s as [q m w|]; cbn [s_event pend]; [|congruence]. intros _ Hp. destruct e as [c|r e wr rcb ecb wcb].
  - pose proof (call_att (q, m, w) c) as A. destruct (s_call (q, m, w) c) as [[[q' m'] w'] o]. apply in_turn_none. exact A.
  - destruct Hp as (P1 & P2 & P3 & P4 & P5 & P6).
    change q with (q_of (q, m, w)). destruct (other_exact r (q, m, w) rcb); auto. apply andthen_turn; auto using other_att.
    intros s. destruct (other_exact e s ecb); auto. apply andthen_turn; auto using other_att. intros [[q2 m2] w2]. destruct wr; [|exact I].
    apply in_turn_ext. apply write_turn.
Qed.
Lemma run_turn es : Forall pure_event es -> forall s, s <> Qdead -> in_turn (pend s ++ accepted (snd (s_run s es))) (snd (s_run s es)).
Proof.
  induction 1 as [|e t He Ht IH]; intros s Hs; cbn [s_run]; [exact I|].
  pose proof (event_exact s e Hs He) as [O1 N1]. pose proof (event_turn s e Hs He) as T1. destruct (s_event s e) as [s1 o1]. cbn [fst snd] in *.
  pose proof (IH s1 N1) as T2. destruct (s_run s1 t) as [s2 o2]. cbn [fst snd] in *. rewrite acc_app, app_assoc.
  eapply in_turn_app; [rewrite <- O1, <- app_assoc; reflexivity|apply in_turn_ext; exact T1|exact T2].
Qed.
