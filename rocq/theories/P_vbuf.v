From Verif Require Import Base M_vbuf S_vbuf.

Definition out (d : chunk) : list Z := zslice (k_data d) (k_sp d) (k_cp d - k_sp d).
Definition outs (cs : list chunk) : list Z := concat (map out cs).
Definition okc (size : Z) (d : chunk) : Prop := 0 <= k_sp d <= k_cp d /\ k_cp d <= size /\ zlen (k_data d) = size.
Definition ok1 (size : Z) (d : chunk) : Prop := okc size d /\ k_sp d < k_cp d.
(** all but the last chunk are full; all but the first untouched *)
Fixpoint full (size : Z) (cs : list chunk) : Prop :=
  match cs with [] => True | d :: r => match r with [] => True | _ => k_cp d = size /\ full size r end end.
Definition untouched (cs : list chunk) : Prop := match cs with [] => True | _ :: r => Forall (fun d => k_sp d = 0) r end.
Definition wf (b : vbuf) : Prop := 0 < v_size b /\ Forall (ok1 (v_size b)) (v_chunks b) /\ full (v_size b) (v_chunks b) /\ untouched (v_chunks b).

Lemma out_len size d : okc size d -> zlen (out d) = k_cp d - k_sp d.
Proof. intros ((A & B) & C & D). unfold out, zslice, slice. unfold zlen in *. rewrite firstn_length, skipn_length. lia. Qed.
Lemma chunk_out_ok size d : okc size d -> chunk_out d = Ok (out d).
Proof.
  intros ((A & B) & C & D). unfold chunk_out.
  replace (0 <=? k_sp d) with true by (symmetry; apply Z.leb_le; lia).
  replace (k_sp d <=? k_cp d) with true by (symmetry; apply Z.leb_le; lia).
  replace (k_cp d <=? zlen (k_data d)) with true by (symmetry; apply Z.leb_le; lia). reflexivity.
Qed.
Lemma outs_app a b : outs (a ++ b) = outs a ++ outs b.
Proof. unfold outs. rewrite map_app, concat_app. reflexivity. Qed.
Lemma getstr_ok size cs : Forall (ok1 size) cs -> getstr_loop cs = Ok (outs cs ++ [0]).
Proof.
  induction 1 as [|d r [H _] _ IH]; [reflexivity|]. cbn [getstr_loop]. rewrite (chunk_out_ok size d H). cbn [bind]. rewrite IH.
  cbn [bind]. unfold outs. cbn [map concat]. rewrite app_assoc. reflexivity.
Qed.
Lemma holds_outs b p : wf b -> holds b p <-> p = outs (v_chunks b).
Proof.
  intros (_ & F & _). unfold holds, buffer_getstr. rewrite (getstr_ok _ _ F). split; [|intros ->; reflexivity].
  intros H. inversion H as [E]. apply app_inj_tail in E. symmetry. apply E.
Qed.
Lemma nonempty_out size d : ok1 size d -> out d <> [].
Proof. intros [H L] E. pose proof (out_len size d H) as Q. rewrite E in Q. change (zlen (@nil Z)) with 0 in Q. lia. Qed.
Lemma outs_nil size cs : Forall (ok1 size) cs -> outs cs = [] -> cs = [].
Proof.
  intros F E. destruct cs as [|d r]; auto. apply Forall_inv in F. unfold outs in E. cbn in E. apply app_eq_nil in E.
  destruct E as [E _]. apply nonempty_out in F. contradiction.
Qed.

(** Copying into a chunk appends to what it holds. *)
Lemma chunk_put size d p n : okc size d -> 0 <= n <= zlen p -> k_cp d + n <= size ->
  exists dat, memcpy (k_data d) (k_cp d) p 0 n = Ok dat /\
    okc size (Chunk (k_sp d) (k_cp d + n) dat) /\ out (Chunk (k_sp d) (k_cp d + n) dat) = out d ++ firstn (Z.to_nat n) p.
Proof.
  intros ((A & B) & C & D) N L. unfold memcpy.
  replace ((0 <=? n) && (0 <=? k_cp d) && (k_cp d + n <=? zlen (k_data d)) && (0 <=? 0) && (0 + n <=? zlen p)) with true by lia.
  eexists. split; [reflexivity|].
  assert (S0 : slice p (Z.to_nat 0) (Z.to_nat n) = firstn (Z.to_nat n) p) by reflexivity. rewrite S0.
  assert (SL : length (firstn (Z.to_nat n) p) = Z.to_nat n) by (rewrite firstn_length; unfold zlen in *; lia).
  split.
  - repeat split; cbn [k_sp k_cp k_data]; try lia. unfold zlen in *. rewrite blit_length by lia. exact D.
  - unfold out, zslice, slice, blit. cbn [k_sp k_cp k_data].
    rewrite skipn_app, firstn_app. rewrite skipn_length, firstn_length, SL.
    assert (LL : (length (k_data d) = Z.to_nat size)%nat) by (unfold zlen in D; lia).
    replace (Nat.min (Z.to_nat (k_cp d)) (length (k_data d))) with (Z.to_nat (k_cp d)) by lia.
    rewrite (firstn_all2 (n := Z.to_nat (k_cp d + n - k_sp d))) by (rewrite skipn_length, firstn_length; lia).
    f_equal.
    + rewrite skipn_firstn_comm. f_equal. lia.
    + replace (Z.to_nat (k_sp d) - Z.to_nat (k_cp d))%nat with 0%nat by lia. cbn [skipn].
      replace (Z.to_nat (k_cp d + n - k_sp d) - (Z.to_nat (k_cp d) - Z.to_nat (k_sp d)))%nat with (Z.to_nat n) by lia.
      apply firstn_app_exact. lia.
Qed.

Lemma full_snoc size cs d : full size (cs ++ [d]) <-> Forall (fun x => k_cp x = size) cs.
Proof.
  induction cs as [|x r IH]; cbn; [split; constructor|].
  destruct (r ++ [d]) eqn:E; [destruct r; discriminate|]. rewrite <- E in *. rewrite IH. rewrite Forall_cons_iff. tauto.
Qed.
Lemma untouched_snoc cs d : untouched (cs ++ [d]) <-> untouched cs /\ (cs <> [] -> k_sp d = 0).
Proof.
  destruct cs as [|x r]; cbn; [split; [split; [auto|intros []; auto]|auto]|].
  rewrite Forall_app. split; intros [H K]; split; auto.
  - intros _. apply Forall_inv in K. exact K.
  - constructor; auto. apply K. discriminate.
Qed.

Lemma put_ok size : 0 < size -> forall fuel cs p, (length p <= fuel)%nat ->
  Forall (ok1 size) cs -> full size cs -> untouched cs ->
  exists cs', put_loop fuel size cs p = Ok cs' /\ Forall (ok1 size) cs' /\ full size cs' /\ untouched cs' /\ outs cs' = outs cs ++ p.
Proof.
  intros S. induction fuel as [|fuel IH]; intros cs p L F U V.
  - destruct p; [|cbn in L; lia]. exists cs. cbn. rewrite app_nil_r. auto.
  - destruct p as [|x p0]; [exists cs; cbn; rewrite app_nil_r; auto|].
    remember (x :: p0) as p eqn:Ep. assert (Lp : 0 < zlen p) by (subst; unfold zlen; cbn; lia).
    assert (R : put_loop (Datatypes.S fuel) size cs p =
      match rev (match rev cs with [] => buffer_add cs size | d :: _ => if k_cp d =? size then buffer_add cs size else cs end) with
      | [] => UB
      | d :: r =>
        let n := if zlen p <=? size - k_cp d then zlen p else size - k_cp d in
        do dat <- memcpy (k_data d) (k_cp d) p 0 n ;;
        put_loop fuel size (rev r ++ [Chunk (k_sp d) (k_cp d + n) dat]) (skipn (Z.to_nat n) p)
      end) by (subst; reflexivity).
    assert (Q : exists l d, rev (match rev cs with [] => buffer_add cs size | d :: _ => if k_cp d =? size then buffer_add cs size else cs end) = d :: rev l /\
      okc size d /\ k_cp d < size /\ Forall (ok1 size) l /\ Forall (fun x => k_cp x = size) l /\ untouched l /\ (l <> [] -> k_sp d = 0) /\ outs cs = outs l ++ out d).
    { set (nw := Chunk 0 0 (repeat 0 (Z.to_nat size))).
      assert (NW : okc size nw) by (repeat split; cbn; try lia; unfold zlen; rewrite repeat_length; lia).
      assert (ON : out nw = []) by reflexivity.
      destruct (rev cs) as [|d r] eqn:E.
      - assert (cs = []) by (rewrite <- (rev_involutive cs), E; reflexivity). subst cs.
        exists [], nw. split; [reflexivity|]. split; [exact NW|]. split; [cbn; lia|]. split; [constructor|]. split; [constructor|].
        split; [exact Logic.I|]. split; [intros K; contradiction K; reflexivity|]. rewrite ON. reflexivity.
      - assert (C : cs = rev r ++ [d]) by (rewrite <- (rev_involutive cs), E; reflexivity).
        assert (Fd : ok1 size d /\ Forall (ok1 size) (rev r)) by (rewrite C in F; apply Forall_app in F; destruct F as [A B]; apply Forall_inv in B; auto).
        rewrite C in U, V. apply full_snoc in U. apply untouched_snoc in V.
        destruct (Z.eqb_spec (k_cp d) size) as [Ed|Ed].
        + exists cs, nw. unfold buffer_add. rewrite rev_app_distr. cbn [rev app]. split; [reflexivity|].
          split; [exact NW|]. split; [cbn; lia|]. split; [exact F|]. split.
          * rewrite C. apply Forall_app. split; auto.
          * split; [rewrite C; apply untouched_snoc; exact V|]. split; [reflexivity|]. rewrite ON, app_nil_r. reflexivity.
        + exists (rev r), d. rewrite E, rev_involutive. destruct Fd as [[Fd Fl] Fr]. split; [reflexivity|].
          split; [exact Fd|]. split; [destruct Fd as (? & ? & ?); lia|]. split; [exact Fr|]. split; [exact U|].
          split; [apply V|]. split; [apply V|]. rewrite C, outs_app. unfold outs. cbn [map concat]. rewrite app_nil_r. reflexivity. }
    destruct Q as (l & d & Q1 & Q2 & Q3 & Q4 & Q5 & Q6 & Q7 & Q8). rewrite R, Q1. cbv zeta.
    set (n := if zlen p <=? size - k_cp d then zlen p else size - k_cp d).
    assert (N : 0 < n /\ n <= zlen p /\ k_cp d + n <= size) by (subst n; destruct (Z.leb_spec (zlen p) (size - k_cp d)); lia).
    destruct (chunk_put size d p n Q2 ltac:(lia) ltac:(lia)) as (dat & M & O & P). rewrite M. cbn [bind]. rewrite rev_involutive.
    destruct (IH (l ++ [Chunk (k_sp d) (k_cp d + n) dat]) (skipn (Z.to_nat n) p)) as (cs' & G & G1 & G2 & G3 & G4).
    + rewrite skipn_length. unfold zlen in *. lia.
    + apply Forall_app. split; auto. constructor; auto. split; [exact O|]. cbn. destruct Q2 as ((? & ?) & ?). lia.
    + apply full_snoc. exact Q5.
    + apply untouched_snoc. split; auto.
    + exists cs'. split; [exact G|]. repeat split; auto. rewrite G4, outs_app, Q8. unfold outs at 2. cbn [map concat]. rewrite app_nil_r, P.
      rewrite <- !app_assoc. rewrite firstn_skipn. reflexivity.
Qed.

Lemma bput b p : wf b -> exists b', buffer_put b p = Ok b' /\ wf b' /\ v_size b' = v_size b /\ outs (v_chunks b') = outs (v_chunks b) ++ p.
Proof.
  intros (S & F & U & V). destruct (put_ok (v_size b) S (length p) (v_chunks b) p (le_n _) F U V) as (cs & E & A & B & C & D).
  unfold buffer_put. rewrite E. cbn [bind]. eexists. split; [reflexivity|]. repeat split; auto.
Qed.

(** Flushing. *)
Lemma gather_ok size cs : Forall (ok1 size) cs -> forall i n, exists g rest, gather cs i n = Ok g /\ outs cs = g ++ rest.
Proof.
  induction 1 as [|d r [H L] _ IH]; intros i n; [exists [], []; auto|]. cbn [gather].
  destruct ((i <? 16) && (n <? 131072)); [|exists [], (outs (d :: r)); auto].
  rewrite (chunk_out_ok size d H). cbn [bind]. destruct (IH (i + 1) (n + (k_cp d - k_sp d))) as (g & rest & E & O).
  rewrite E. cbn [bind]. exists (out d ++ g), rest. split; auto. unfold outs in *. cbn [map concat]. rewrite O, app_assoc. reflexivity.
Qed.
Lemma gather_ne size d cs g : Forall (ok1 size) (d :: cs) -> gather (d :: cs) 0 0 = Ok g -> g <> [].
Proof.
  intros F E. apply Forall_inv in F. cbn -[chunk_out] in E. rewrite (chunk_out_ok size d (proj1 F)) in E. cbn [bind] in E.
  destruct (gather cs 1 _); cbn [bind] in E; inversion E; subst. intros K. apply app_eq_nil in K. destruct K as [K _].
  exact (nonempty_out size d F K).
Qed.
Lemma consume_ok size : forall cs n, Forall (ok1 size) cs -> full size cs -> untouched cs -> 0 <= n <= zlen (outs cs) ->
  Forall (ok1 size) (fst (consume cs n)) /\ full size (fst (consume cs n)) /\ untouched (fst (consume cs n)) /\
  outs (fst (consume cs n)) = skipn (Z.to_nat n) (outs cs) /\ (snd (consume cs n) = true -> fst (consume cs n) <> []).
Proof.
  induction cs as [|d r IH]; intros n F U V N.
  - cbn. repeat split; auto; [symmetry; apply skipn_nil|discriminate].
  - cbn [consume]. destruct (Z.leb_spec n 0) as [Z0|Z0].
    { cbn [fst snd]. replace n with 0 by lia. repeat split; auto. discriminate. }
    pose proof F as F0. apply Forall_cons_iff in F. destruct F as [[Fd Fl] Fr].
    pose proof (out_len size d Fd) as OL.
    destruct (Z.ltb_spec n (k_cp d - k_sp d)) as [L|L]; cbn [fst snd].
    + split; [constructor; auto; destruct Fd as ((? & ?) & ? & ?); repeat split; cbn; lia|].
      split; [destruct r; auto|]. split; [exact V|]. split; [|discriminate].
      unfold outs. cbn [map concat]. rewrite skipn_app. unfold zlen in OL.
      replace (Z.to_nat n - length (out d))%nat with 0%nat by lia. cbn [skipn]. f_equal.
      unfold out, zslice, slice. cbn [k_sp k_cp k_data]. rewrite skipn_firstn_comm. rewrite skipn_skipn.
      destruct Fd as ((? & ?) & ? & ?).
      replace (Z.to_nat n + Z.to_nat (k_sp d))%nat with (Z.to_nat (k_sp d + n)) by lia.
      replace (Z.to_nat (k_cp d - k_sp d) - Z.to_nat n)%nat with (Z.to_nat (k_cp d - (k_sp d + n))) by lia. reflexivity.
    + assert (Ur : full size r) by (destruct r; [exact Logic.I|apply U]).
      assert (Vr : untouched r) by (destruct r as [|y r']; [exact Logic.I|cbn in V; apply Forall_cons_iff in V; apply V]).
      assert (OA : outs (d :: r) = out d ++ outs r) by reflexivity.
      assert (ZA : zlen (outs (d :: r)) = zlen (out d) + zlen (outs r)) by (rewrite OA; apply zlen_app).
      destruct (IH (n - (k_cp d - k_sp d)) Fr Ur Vr ltac:(lia)) as (A & B & C & D & E).
      repeat split; auto. rewrite D, OA, skipn_app. unfold zlen in OL.
      rewrite (skipn_all2 (n := Z.to_nat n) (out d)) by lia. cbn [app]. f_equal. lia.
Qed.

Lemma consume_len : forall cs n, (length (fst (consume cs n)) <= length cs)%nat.
Proof.
  induction cs as [|d r IH]; intros n; cbn [consume]; [auto|]. destruct (n <=? 0); auto. destruct (n <? _); auto.
  specialize (IH (n - (k_cp d - k_sp d))). cbn [length]. lia.
Qed.
Lemma consume_prog d r n : 0 < n -> (length (fst (consume (d :: r) n)) < length (d :: r))%nat \/
  exists d' r', fst (consume (d :: r) n) = d' :: r' /\ k_sp d <> k_sp d'.
Proof.
  intros N. cbn [consume]. destruct (Z.leb_spec n 0); [lia|]. destruct (n <? _).
  - right. do 2 eexists. split; [reflexivity|]. cbn. lia.
  - left. pose proof (consume_len r (n - (k_cp d - k_sp d))). cbn [length]. lia.
Qed.
Lemma flush_ok b en k : wf b -> exists st b' en' w, flush_available b en k = Ok (st, b', en', w) /\ wf b' /\ v_size b' = v_size b /\
  outs (v_chunks b) = w ++ outs (v_chunks b') /\
  match v_chunks b with
  | [] => st = BUFFER_EMPTY /\ b' = b /\ en' = en
  | _ => match k with
         | Fail e => st = (if ERRNO_IO_RETRY e then BUFFER_PENDING else BUFFER_ERROR) /\ b' = b /\ w = [] /\ en' = e
         | Wrote n => st = (match v_chunks b' with [] => BUFFER_EMPTY | _ => BUFFER_PENDING end) /\ en' = en /\
                      (n <= 0 -> w = [] /\ b' = b) /\
                      (0 < n -> w <> [] /\ ((length (v_chunks b') < length (v_chunks b))%nat \/
                                            exists d d' r r', v_chunks b = d :: r /\ v_chunks b' = d' :: r' /\ k_sp d <> k_sp d'))
         end
  end.
Proof.
  intros W. pose proof W as (S & F & U & V). unfold flush_available.
  destruct (gather_ok (v_size b) (v_chunks b) F 0 0) as (g & rest & G & O). rewrite G. cbn [bind].
  destruct (v_chunks b) as [|d r] eqn:EC.
  { cbn in G. inversion G; subst g. cbn. exists BUFFER_EMPTY, b, en, []. rewrite EC. repeat split; auto; rewrite ?EC; auto. }
  pose proof (gather_ne _ _ _ _ F G) as GN.
  assert (GL : 0 < zlen g) by (destruct g; [contradiction|rewrite zlen_cons; pose proof (zlen_nonneg g); lia]).
  replace (zlen g =? 0) with false by (symmetry; apply Z.eqb_neq; lia).
  destruct k as [n|e].
  - set (t := took n g). assert (T : 0 <= t <= zlen g) by (unfold t, took; lia).
    assert (TL : 0 <= t <= zlen (outs (d :: r))) by (rewrite O, zlen_app; pose proof (zlen_nonneg rest); lia).
    pose proof (consume_ok (v_size b) (d :: r) t F U V TL) as (A & B & C & D & E).
    destruct (consume (d :: r) t) as [cs pend] eqn:EQ. cbn [fst snd] in *.
    do 4 eexists. split; [reflexivity|]. cbn [v_size v_chunks]. split; [repeat split; auto|]. split; [reflexivity|]. split.
    + rewrite D, O. rewrite skipn_app. unfold zlen in T. replace (Z.to_nat t - length g)%nat with 0%nat by lia. cbn [skipn].
      rewrite app_assoc, firstn_skipn. reflexivity.
    + split; [destruct pend; [destruct cs; [exfalso; apply E; auto|reflexivity]|reflexivity]|]. split; [reflexivity|]. split.
      * intros N. assert (T0 : t = 0) by (unfold t, took; lia). rewrite T0 in *. split; [reflexivity|].
        cbn in EQ. inversion EQ. destruct b; cbn in *; subst; reflexivity.
      * intros N. assert (T0 : 0 < t) by (unfold t, took; lia).
        split; [|pose proof (consume_prog d r t T0) as PR; rewrite EQ in PR; cbn [fst] in PR; destruct PR as [PR|(d' & r' & P1 & P2)]; [left; exact PR|right; exists d, d', r, r'; auto]].
        intros K. apply (f_equal (@length Z)) in K. rewrite firstn_length in K. cbn in K. unfold zlen in *. lia.
  - do 4 eexists. split; [reflexivity|]. split; [exact W|]. rewrite EC. repeat split; auto.
Qed.

Lemma loop_ok : forall ks b en d r, wf b -> v_chunks b = d :: r ->
  exists st b' en' w, flush_loop b en ks (length (v_chunks b)) (k_sp d) = Ok (st, b', en', w) /\ wf b' /\ v_size b' = v_size b /\
    outs (v_chunks b) = w ++ outs (v_chunks b') /\
    match st with
    | Some BUFFER_EMPTY => v_chunks b' = []
    | Some BUFFER_PENDING => v_chunks b' <> [] /\ exists k, In k ks /\ (k = Fail EAGAIN \/ exists n, k = Wrote n /\ n <= 0)
    | Some BUFFER_ERROR => v_chunks b' <> [] /\ exists e, In (Fail e) ks /\ e <> EAGAIN /\ e <> EINTR
    | None => v_chunks b' <> []
    end.
Proof.
  induction ks as [|k ks IH]; intros b en d r W EC; cbn [flush_loop].
  - do 4 eexists. split; [reflexivity|]. repeat split; try apply W; auto. rewrite EC; discriminate.
  - destruct (flush_ok b en k W) as (st & b1 & en1 & w & E & W1 & S1 & O & P). rewrite E. cbn [bind].
    rewrite EC in P. destruct k as [n|e].
    + destruct P as (P1 & P2 & P3 & P4). subst st.
      destruct (v_chunks b1) as [|d1 r1] eqn:E1.
      { do 4 eexists. split; [reflexivity|]. split; [exact W1|]. split; [exact S1|]. rewrite E1. split; auto. }
      destruct (((length (d1 :: r1) =? length (v_chunks b))%nat && (k_sp d =? k_sp d1) && negb (en1 =? EINTR))) eqn:C.
      * do 4 eexists. split; [reflexivity|]. split; [exact W1|]. split; [exact S1|]. rewrite E1. split; [exact O|].
        split; [discriminate|]. exists (Wrote n). split; [left; reflexivity|]. right. exists n. split; auto.
        destruct (Z_le_gt_dec n 0) as [|G]; auto. exfalso.
        apply andb_prop in C. destruct C as [C _]. apply andb_prop in C. destruct C as [C1 C2].
        apply Nat.eqb_eq in C1. apply Z.eqb_eq in C2.
        destruct (P4 ltac:(lia)) as [_ [Q|(x & x' & y & y' & Q1 & Q2 & Q3)]].
        { rewrite EC in C1. lia. }
        { inversion Q2; subst. inversion Q1; subst. contradiction. }
      * destruct (IH b1 en1 d1 r1 W1 E1) as (st2 & b2 & en2 & w2 & F & W2 & S2 & O2 & P5). rewrite E1 in F. rewrite F. cbn [bind].
        do 4 eexists. split; [reflexivity|]. split; [exact W2|]. split; [congruence|].
        rewrite E1 in O2. split; [rewrite O, O2, app_assoc; reflexivity|].
        destruct st2 as [[| |]|]; auto.
        { destruct P5 as (Q & e & Q1 & Q2). split; auto. exists e. split; auto. right; auto. }
        { destruct P5 as (Q & k & Q1 & Q2). split; auto. exists k. split; auto. right; auto. }
    + destruct P as (P1 & -> & -> & P4). subst st. rewrite EC in O.
      unfold ERRNO_IO_RETRY. destruct (Z.eqb_spec e EAGAIN) as [Ea|Ea]; cbn [orb].
      { rewrite EC. rewrite Nat.eqb_refl, Z.eqb_refl. subst e en1. change (negb (EAGAIN =? EINTR)) with true. cbn [andb].
        do 4 eexists. split; [reflexivity|]. split; [exact W|]. split; [reflexivity|]. rewrite EC. split; [reflexivity|]. split; [discriminate|].
        exists (Fail EAGAIN). split; [left; auto|left; auto]. }
      destruct (Z.eqb_spec e EINTR) as [Ei|Ei].
      { rewrite EC. subst en1. rewrite Ei. change (negb (EINTR =? EINTR)) with false. rewrite !andb_false_r.
        destruct (IH b EINTR d r W EC) as (st2 & b2 & en2 & w2 & F & W2 & S2 & O2 & P5). rewrite EC in F. rewrite F. cbn [bind].
        do 4 eexists. split; [reflexivity|]. split; [exact W2|]. split; [exact S2|].
        split; [rewrite <- EC, O2; reflexivity|].
        destruct st2 as [[| |]|]; auto.
        { destruct P5 as (Q & e' & Q1 & Q2). split; auto. exists e'. split; auto. right; auto. }
        { destruct P5 as (Q & k & Q1 & Q2). split; auto. exists k. split; auto. right; auto. } }
      do 4 eexists. split; [reflexivity|]. split; [exact W|]. split; [reflexivity|]. rewrite EC. split; [reflexivity|]. split; [discriminate|].
      exists e. split; [left; auto|auto].
Qed.

Lemma all_ok b en ks : wf b -> exists st b' en' w, flush_all b en ks = Ok (st, b', en', w) /\ wf b' /\ v_size b' = v_size b /\
    outs (v_chunks b) = w ++ outs (v_chunks b') /\
    match st with
    | Some BUFFER_EMPTY => v_chunks b' = []
    | Some BUFFER_PENDING => v_chunks b' <> [] /\ exists k, In k ks /\ (k = Fail EAGAIN \/ exists n, k = Wrote n /\ n <= 0)
    | Some BUFFER_ERROR => v_chunks b' <> [] /\ exists e, In (Fail e) ks /\ e <> EAGAIN /\ e <> EINTR
    | None => v_chunks b' <> []
    end.
Proof.
  intros W. unfold flush_all. destruct (v_chunks b) as [|d r] eqn:EC.
  - do 4 eexists. split; [reflexivity|]. repeat split; try apply W; auto. rewrite EC. reflexivity.
  - pose proof (loop_ok ks b en d r W EC) as H. rewrite EC in H. exact H.
Qed.

Lemma loop_done : forall ks b en d r, wf b -> v_chunks b = d :: r -> Forall (fun k => exists n, k = Wrote n /\ 0 < n) ks ->
  (length (outs (v_chunks b)) <= length ks)%nat ->
  exists b' en', flush_loop b en ks (length (v_chunks b)) (k_sp d) = Ok (Some BUFFER_EMPTY, b', en', outs (v_chunks b)) /\ v_chunks b' = [].
Proof.
  induction ks as [|k ks IH]; intros b en d r W EC F L.
  - exfalso. assert (N : outs (v_chunks b) <> []) by (intros K; apply (outs_nil (v_size b)) in K; [congruence|apply W]).
    destruct (outs (v_chunks b)); [contradiction|cbn in L; lia].
  - apply Forall_cons_iff in F. destruct F as [(n & -> & N) F]. cbn [flush_loop].
    destruct (flush_ok b en (Wrote n) W) as (st & b1 & en1 & w & E & W1 & S1 & O & P). rewrite E. cbn [bind].
    rewrite EC in P. destruct P as (-> & _ & _ & P4). destruct (P4 N) as [Wn Pr].
    destruct (v_chunks b1) as [|d1 r1] eqn:E1.
    { exists b1, en1. split; [|exact E1]. rewrite O. cbn. rewrite app_nil_r. reflexivity. }
    replace ((length (d1 :: r1) =? length (v_chunks b))%nat && (k_sp d =? k_sp d1)) with false.
    2:{ symmetry. destruct Pr as [Q|(x & x' & y & y' & Q1 & Q2 & Q3)].
        - replace (length (d1 :: r1) =? length (v_chunks b))%nat with false by (symmetry; apply Nat.eqb_neq; rewrite ?E1 in Q; rewrite EC; lia). reflexivity.
        - rewrite ?E1 in Q2. inversion Q2; subst. inversion Q1; subst. apply Z.eqb_neq in Q3. rewrite Q3. apply andb_false_r. }
    cbn [andb].
    destruct (IH b1 en1 d1 r1 W1 E1 F) as (b2 & en2 & G & H).
    { rewrite E1. rewrite O in L. rewrite app_length in L. destruct w as [|w0 w]; [contradiction|]. cbn [length] in L. lia. }
    rewrite E1 in G. rewrite G. cbn [bind]. exists b2, en2. split; auto. rewrite O. rewrite ?E1. reflexivity.
Qed.
Lemma loop_block : forall ks1 ks2 b en hd sp,
  wf b -> v_chunks b <> [] -> (exists d r, v_chunks b = d :: r /\ sp = k_sp d) -> hd = length (v_chunks b) ->
  flush_loop b en (ks1 ++ Fail EAGAIN :: ks2) hd sp = flush_loop b en (ks1 ++ [Fail EAGAIN]) hd sp.
Proof.
  induction ks1 as [|k ks1 IH]; intros ks2 b en hd sp W NE (d & r & EC & ->) ->; cbn [app flush_loop].
  - destruct (flush_ok b en (Fail EAGAIN) W) as (st & b1 & en1 & w & E & W1 & S1 & O & P). rewrite E. cbn [bind].
    rewrite EC in P. destruct P as (-> & -> & -> & ->). change (ERRNO_IO_RETRY EAGAIN) with true. cbn iota. rewrite EC.
    rewrite Nat.eqb_refl, Z.eqb_refl. reflexivity.
  - destruct (flush_ok b en k W) as (st & b1 & en1 & w & E & W1 & S1 & O & P). rewrite E. cbn [bind].
    destruct st; auto. destruct (v_chunks b1) as [|d1 r1] eqn:E1; auto. destruct (_ && _); auto.
    rewrite (IH ks2 b1 en1 (length (d1 :: r1)) (k_sp d1)); auto; [rewrite E1; discriminate|exists d1, r1; auto|rewrite E1; reflexivity].
Qed.

Lemma write_ok b p en k : wf b -> exists st b' en' w, buffer_write b p en k = Ok (st, b', en', w) /\ wf b' /\ v_size b' = v_size b /\
  match st with
  | BUFFER_ERROR => b' = b /\ w = [] /\ v_chunks b = [] /\ exists e, k = Fail e /\ e <> EAGAIN /\ e <> EINTR
  | BUFFER_EMPTY => v_chunks b' = [] /\ outs (v_chunks b) ++ p = w ++ outs (v_chunks b')
  | BUFFER_PENDING => v_chunks b' <> [] /\ outs (v_chunks b) ++ p = w ++ outs (v_chunks b')
  end /\ (v_chunks b <> [] -> w = []).
Proof.
  intros W. unfold buffer_write.
  assert (X : forall (b1 x : vbuf) (en0 : Z) (w0 : list Z), wf b1 -> outs (v_chunks b) ++ p = w0 ++ outs (v_chunks b1) -> v_size b1 = v_size b -> x = b1 -> (v_chunks b <> [] -> w0 = []) ->
    exists st b' en' w, Ok (if buffer_empty b1 then BUFFER_EMPTY else BUFFER_PENDING, x, en0, w0) = Ok (st, b', en', w) /\ wf b' /\ v_size b' = v_size b /\
    match st with
    | BUFFER_ERROR => b' = b /\ w = [] /\ v_chunks b = [] /\ exists e, k = Fail e /\ e <> EAGAIN /\ e <> EINTR
    | BUFFER_EMPTY => v_chunks b' = [] /\ outs (v_chunks b) ++ p = w ++ outs (v_chunks b')
    | BUFFER_PENDING => v_chunks b' <> [] /\ outs (v_chunks b) ++ p = w ++ outs (v_chunks b')
    end /\ (v_chunks b <> [] -> w = [])).
  { intros b1 x en0 w0 W1 O S -> WN. do 4 eexists. split; [reflexivity|]. split; [exact W1|]. split; [exact S|]. split; [|exact WN].
    unfold buffer_empty. destruct (v_chunks b1) eqn:E; cbn; split; auto; discriminate. }
  destruct (bput b p W) as (b1 & E & W1 & S1 & O1).
  destruct (v_chunks b) as [|d r] eqn:EC; [destruct k as [n|e]|].
  - cbv zeta. set (t := took n p). assert (T : 0 <= t <= zlen p) by (unfold t, took; pose proof (zlen_nonneg p); lia).
    destruct (Z.ltb_spec t (zlen p)).
    + destruct (bput b (skipn (Z.to_nat t) p) W) as (b2 & E2 & W2 & S2 & O2). rewrite E2. cbn [bind].
      apply X; auto; [|intros K; contradiction K; reflexivity]. rewrite O2, EC. cbn. symmetry. apply firstn_skipn.
    + cbn [bind]. apply X; auto; [|intros K; contradiction K; reflexivity]. rewrite EC. cbn. rewrite app_nil_r. symmetry. apply firstn_all2. unfold zlen in *. lia.
  - unfold ERRNO_IO_RETRY. destruct (Z.eqb_spec e EAGAIN); cbn [orb]; [|destruct (Z.eqb_spec e EINTR)].
    1,2: rewrite E; cbn [bind]; apply X; auto; rewrite O1; reflexivity.
    do 4 eexists. split; [reflexivity|]. split; [exact W|]. split; [reflexivity|]. split; [repeat split; auto; exists e; auto|auto].
  - rewrite E. cbn [bind]. apply X; auto.
Qed.

(** Runs. *)
Definition vinv (s : run_st) : Prop := wf (r_buf s) /\ r_in s = r_out s ++ outs (v_chunks (r_buf s)).
Definition terminated (o : vop) : Prop := match o with Putstr c => In 0 c | _ => True end.
Lemma c_str_ok c : In 0 c -> exists t, c_str c = Ok t.
Proof.
  induction c as [|x r IH]; [intros []|]. intros H. cbn. destruct (Z.eqb_spec x 0); [eauto|].
  destruct H as [H|H]; [congruence|]. destruct (IH H) as (t & ->). cbn. eauto.
Qed.
Lemma vstep_ok s o : vinv s -> terminated o -> exists s', vstep s o = Ok s' /\ vinv s' /\ v_size (r_buf s') = v_size (r_buf s).
Proof.
  intros [W I] T. destruct o as [p|c|c|k|ks|p k|]; cbn [vstep].
  - destruct (bput _ p W) as (b1 & E & W1 & S1 & O1). rewrite E. cbn [bind]. eexists. split; [reflexivity|]. split; [|exact S1].
    split; [exact W1|]. cbn. rewrite O1, I, app_assoc. reflexivity.
  - unfold buffer_putc. destruct (bput _ [u8 c] W) as (b1 & E & W1 & S1 & O1). rewrite E. cbn [bind]. eexists. split; [reflexivity|]. split; [|exact S1].
    split; [exact W1|]. cbn. rewrite O1, I, app_assoc. reflexivity.
  - destruct (c_str_ok c T) as (t & Et). unfold buffer_putstr. rewrite Et. cbn [bind].
    destruct (bput _ t W) as (b1 & E & W1 & S1 & O1). rewrite E. cbn [bind]. eexists. split; [reflexivity|]. split; [|exact S1].
    split; [exact W1|]. cbn. rewrite O1, I, app_assoc. reflexivity.
  - destruct (flush_ok _ (r_errno s) k W) as (st & b1 & en1 & w & E & W1 & S1 & O & P). rewrite E. cbn [bind]. eexists. split; [reflexivity|]. split; [|exact S1].
    split; [exact W1|]. cbn. rewrite I, O, app_assoc. reflexivity.
  - destruct (all_ok _ (r_errno s) ks W) as (st & b1 & en1 & w & E & W1 & S1 & O & P). rewrite E. cbn [bind]. eexists. split; [reflexivity|]. split; [|exact S1].
    split; [exact W1|]. cbn. rewrite I, O, app_assoc. reflexivity.
  - destruct (write_ok _ p (r_errno s) k W) as (st & b1 & en1 & w & E & W1 & S1 & P & P2). rewrite E. cbn [bind]. eexists. split; [reflexivity|]. split; [|exact S1].
    split; [exact W1|]. cbn. destruct st.
    + destruct P as (-> & -> & _). rewrite !app_nil_r. exact I.
    + destruct P as [_ P]. rewrite I, <- app_assoc, P, app_assoc. reflexivity.
    + destruct P as [_ P]. rewrite I, <- app_assoc, P, app_assoc. reflexivity.
  - eexists. split; [reflexivity|]. split; [|reflexivity]. split; cbn; [|rewrite app_nil_r; reflexivity].
    destruct W as (S & _). repeat split; cbn; auto.
Qed.
Lemma vrun_ok os : forall s, vinv s -> Forall terminated os -> exists s', vrun s os = Ok s' /\ vinv s' /\ v_size (r_buf s') = v_size (r_buf s).
Proof.
  induction os as [|o os IH]; intros s I T; [exists s; repeat split; try apply I; auto|].
  apply Forall_cons_iff in T. destruct T as [To T]. destruct (vstep_ok s o I To) as (s1 & E & I1 & S1).
  destruct (IH s1 I1 T) as (s2 & E2 & I2 & S2). exists s2. cbn [vrun]. rewrite E. cbn [bind]. split; [exact E2|]. split; auto. congruence.
Qed.
Lemma vrun_term os : forall s s', vrun s os = Ok s' -> Forall terminated os.
Proof.
  induction os as [|o os IH]; intros s s' E; constructor.
  - destruct o; cbn [terminated]; auto. cbn [vrun vstep] in E. unfold buffer_putstr in E.
    destruct (c_str c) eqn:K; cbn [bind] in E; try discriminate.
    clear -K. revert a K. induction c as [|x r IHc]; cbn; intros a K; [discriminate|].
    destruct (Z.eqb_spec x 0); [left; auto|]. destruct (c_str r); cbn in K; try discriminate. right. eapply IHc. reflexivity.
  - cbn [vrun] in E. destruct (vstep s o) eqn:K; cbn [bind] in E; try discriminate. eapply IH; eauto.
Qed.
Lemma new_inv size pg en : 0 <= size -> 0 < pg -> vinv (Run (buffer_new size pg) en [] []).
Proof.
  intros S P. split; [|reflexivity]. cbn. unfold buffer_new. repeat split; cbn; auto.
  destruct (Z.eqb_spec size 0); cbn [negb]; [|lia]. pose proof (Z.quot_pos (4096 - 1) pg). nia.
Qed.

(** Storage. *)
Lemma mem_bound size cs : 0 < size -> Forall (ok1 size) cs -> full size cs -> untouched cs ->
  size * zlen cs <= zlen (outs cs) + 2 * (size - 1).
Proof.
  intros S F U V. destruct cs as [|d r]; [unfold zlen, outs; cbn [map concat length]; lia|].
  assert (R : forall r, Forall (ok1 size) r -> full size r -> Forall (fun d => k_sp d = 0) r -> size * zlen r <= zlen (outs r) + (size - 1)).
  { clear -S. induction r as [|x r IH]; intros F U V; [unfold zlen, outs; cbn [map concat length]; lia|].
    apply Forall_cons_iff in F. destruct F as [[Fx Fl] Fr]. apply Forall_cons_iff in V. destruct V as [Vx Vr].
    unfold outs in *. cbn [map concat]. rewrite zlen_app, zlen_cons, (out_len size x Fx).
    destruct r as [|y r']; [change (zlen (@nil chunk)) with 0; change (zlen (concat (map out []))) with 0; lia|]. destruct U as [Ux Ur]. specialize (IH Fr Ur Vr). lia. }
  apply Forall_cons_iff in F. destruct F as [[Fx Fl] Fr]. cbn in V.
  assert (Ur : full size r) by (destruct r; [exact Logic.I|apply U]).
  specialize (R r Fr Ur V). unfold outs in *. cbn [map concat]. rewrite zlen_app, zlen_cons, (out_len size d Fx). lia.
Qed.
