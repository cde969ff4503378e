(* P_lapd.v - proofs about the LAPD data transfer model *)
From Verif Require Import Base Lib M_lapd.

(* div and mod by symbolic numbers are handled by lemmas here, not by lia *)
Ltac Zify.zify_post_hook ::= idtac.

(* ------------------------------------------------------------------ *)
(* modular arithmetic                                                  *)

Lemma mod_inj M a b : 0 < M -> a mod M = b mod M -> - M < a - b < M -> a = b.
Proof.
  intros HM E H.
  pose proof (Z.div_mod a M ltac:(lia)) as Ha. pose proof (Z.div_mod b M ltac:(lia)) as Hb.
  rewrite E in Ha. assert (a - b = M * (a / M - b / M)) by lia.
  assert (a / M - b / M = 0) by nia. nia.
Qed.

Ltac modinj M E := apply (mod_inj M); [clear E; lia | exact E | clear E; lia].

Record cok (c : lcfg) : Prop := {
  ok_vr : exists j, 1 <= j <= 7 /\ c_vrange c = 2 ^ j;
  ok_rh : exists i, 0 <= i <= 7 /\ c_rhist c = 2 ^ i;
  ok_div : (c_rhist c | c_vrange c);
  ok_k : 0 <= c_k c < c_rhist c;
  ok_n201 : 0 < c_n201 c }.

Lemma pow_le128 j : 0 <= j <= 7 -> 1 <= 2 ^ j <= 128.
Proof.
  intros. split. { pose proof (Z.pow_pos_nonneg 2 j); lia. }
  change 128 with (2 ^ 7). apply Z.pow_le_mono_r; lia.
Qed.

Lemma land_pow x j : 0 <= j <= 7 -> u8 (Z.land x (2 ^ j - 1)) = x mod 2 ^ j.
Proof.
  intros. replace (2 ^ j - 1) with (Z.ones j) by (rewrite Z.ones_equiv; lia).
  rewrite Z.land_ones by lia. unfold u8. apply Z.mod_small.
  pose proof (pow_le128 j H). pose proof (Z.mod_pos_bound x (2 ^ j)). lia.
Qed.

Lemma M_bound c : cok c -> 2 <= c_vrange c <= 128.
Proof.
  intros K. destruct (ok_vr _ K) as (j & Hj & ->). split; [|apply pow_le128; lia].
  change 2 with (2 ^ 1) at 1. apply Z.pow_le_mono_r; lia.
Qed.
Lemma R_bound c : cok c -> 1 <= c_rhist c <= c_vrange c.
Proof.
  intros K. destruct (ok_rh _ K) as (i & Hi & E). pose proof (pow_le128 i Hi).
  split; [lia|]. apply Z.divide_pos_le; [pose proof (M_bound _ K); lia| exact (ok_div _ K)].
Qed.
Lemma k_lt_M c : cok c -> 0 <= c_k c < c_vrange c.
Proof. intros K. pose proof (ok_k _ K). pose proof (R_bound _ K). lia. Qed.

Lemma inc_mod_M c x : cok c -> inc_mod x (c_vrange c) = (x + 1) mod c_vrange c.
Proof. intros K. destruct (ok_vr _ K) as (j & Hj & ->). unfold inc_mod. apply land_pow; lia. Qed.
Lemma add_mod_M c x y : cok c -> add_mod x y (c_vrange c) = (x + y) mod c_vrange c.
Proof. intros K. destruct (ok_vr _ K) as (j & Hj & ->). unfold add_mod. apply land_pow; lia. Qed.
Lemma sub_mod_M c x y : cok c -> sub_mod x y (c_vrange c) = (x - y) mod c_vrange c.
Proof. intros K. destruct (ok_vr _ K) as (j & Hj & ->). unfold sub_mod. apply land_pow; lia. Qed.
Lemma sub_mod_R c x y : cok c -> sub_mod x y (c_rhist c) = (x - y) mod c_rhist c.
Proof. intros K. destruct (ok_rh _ K) as (j & Hj & ->). unfold sub_mod. apply land_pow; lia. Qed.
Lemma do_mod_R c x : cok c -> do_mod x (c_rhist c) = x mod c_rhist c.
Proof. intros K. destruct (ok_rh _ K) as (j & Hj & ->). unfold do_mod. apply land_pow; lia. Qed.

Lemma mod_mod_R c x : cok c -> (x mod c_vrange c) mod c_rhist c = x mod c_rhist c.
Proof.
  intros K. pose proof (R_bound _ K). symmetry.
  pose proof (M_bound _ K).
  rewrite (Z.div_mod x (c_vrange c)) at 1 by lia.
  destruct (ok_div _ K) as (q & E). rewrite E at 1.
  replace (q * c_rhist c * (x / c_vrange c) + x mod c_vrange c)
    with (x mod c_vrange c + (q * (x / c_vrange c)) * c_rhist c) by ring.
  apply Z.mod_add. lia.
Qed.

Lemma inc_abs c x : cok c -> inc_mod (x mod c_vrange c) (c_vrange c) = (x + 1) mod c_vrange c.
Proof. intros K. rewrite inc_mod_M by auto. apply Zplus_mod_idemp_l. Qed.
Lemma add_abs c x y : cok c -> add_mod (x mod c_vrange c) y (c_vrange c) = (x + y) mod c_vrange c.
Proof. intros K. rewrite add_mod_M by auto. apply Zplus_mod_idemp_l. Qed.
Lemma sub1_abs c x : cok c -> sub_mod (x mod c_vrange c) 1 (c_vrange c) = (x - 1) mod c_vrange c.
Proof. intros K. rewrite sub_mod_M by auto. apply Zminus_mod_idemp_l. Qed.
Lemma sub_abs c x y : cok c -> 0 <= x - y < c_vrange c ->
  sub_mod (x mod c_vrange c) (y mod c_vrange c) (c_vrange c) = x - y.
Proof. intros K H. rewrite sub_mod_M, <- Zminus_mod by auto. apply Z.mod_small; auto. Qed.

(* ------------------------------------------------------------------ *)
(* segmentation                                                        *)

Notation seg := (list Z * bool)%type.

Fixpoint segs_f (n : nat) (n201 : Z) (m : list Z) : list seg :=
  match n with
  | O => []
  | S n' => if zlen m =? 0 then []
            else if zlen m <=? n201 then [(m, false)]
            else (firstn (Z.to_nat n201) m, true) :: segs_f n' n201 (skipn (Z.to_nat n201) m)
  end.
Definition segs (n201 : Z) (m : list Z) : list seg := segs_f (length m) n201 m.
Definition segs_all (n201 : Z) (ms : list (list Z)) : list seg := concat (map (segs n201) ms).

Lemma segs_f_more n201 : 0 < n201 -> forall n m, (length m <= n)%nat -> segs_f n n201 m = segs n201 m.
Proof.
  intros H n. unfold segs. induction n as [n IH] using lt_wf_ind. intros m L.
  destruct n; [destruct m; [reflexivity|simpl in L; lia]|].
  destruct m as [|x m]; [reflexivity|]. cbn [length]. cbn [segs_f].
  destruct (zlen (x :: m) =? 0); auto. destruct (Z.leb_spec (zlen (x :: m)) n201); auto.
  f_equal.
  assert (Hs : (length (skipn (Z.to_nat n201) (x :: m)) <= length m)%nat) by (rewrite skipn_length; cbn [length]; lia).
  cbn [length] in L.
  transitivity (segs_f (length (skipn (Z.to_nat n201) (x :: m))) n201 (skipn (Z.to_nat n201) (x :: m))).
  - apply IH; lia.
  - symmetry. apply IH; lia.
Qed.

Lemma segs_cons n201 m : 0 < n201 -> 0 < zlen m ->
  segs n201 m =
  (let len := if zlen m >? n201 then n201 else zlen m in
   (firstn (Z.to_nat len) m, zlen m >? len) :: segs n201 (skipn (Z.to_nat len) m)).
Proof.
  intros H Hm. unfold segs at 1. destruct m as [|x m]; [unfold zlen in Hm; simpl in Hm; lia|].
  cbn [length segs_f]. destruct (Z.eqb_spec (zlen (x :: m)) 0); [lia|].
  destruct (Z.leb_spec (zlen (x :: m)) n201).
  - destruct (Z.gtb_spec (zlen (x :: m)) n201); [lia|]. cbv zeta.
    assert (E : Z.to_nat (zlen (x :: m)) = length (x :: m)) by (unfold zlen; lia).
    rewrite E, firstn_all, skipn_all.
    destruct (Z.gtb_spec (zlen (x :: m)) (zlen (x :: m))); [lia|]. reflexivity.
  - destruct (Z.gtb_spec (zlen (x :: m)) n201); [|lia]. cbv zeta.
    destruct (Z.gtb_spec (zlen (x :: m)) n201); [|lia].
    f_equal. apply segs_f_more; auto. rewrite skipn_length. cbn [length]. lia.
Qed.

Lemma segs_nil n201 : segs n201 [] = [].
Proof. reflexivity. Qed.

Definition wfseg (n201 : Z) (s : seg) : Prop :=
  0 < zlen (fst s) <= n201 /\ (snd s = true -> zlen (fst s) = n201).

Lemma zlen_firstn_le {A} (l : list A) n : 0 <= n <= zlen l -> zlen (firstn (Z.to_nat n) l) = n.
Proof. intros. unfold zlen in *. rewrite firstn_length. lia. Qed.
Lemma zlen_skipn_le {A} (l : list A) n : 0 <= n <= zlen l -> zlen (skipn (Z.to_nat n) l) = zlen l - n.
Proof. intros. unfold zlen in *. rewrite skipn_length. lia. Qed.

Lemma segs_ind (Q : list Z -> Prop) n201 : 0 < n201 -> Q [] ->
  (forall m, 0 < zlen m <= n201 -> Q m) ->
  (forall m, n201 < zlen m -> Q (skipn (Z.to_nat n201) m) -> Q m) ->
  forall m, Q m.
Proof.
  intros H Q0 Q1 Q2 m. remember (length m) as n eqn:E. revert m E.
  induction n as [n IH] using lt_wf_ind. intros m E.
  destruct m as [|x m]; auto. pose proof (zlen_cons x m). pose proof (zlen_nonneg m).
  destruct (Z_le_gt_dec (zlen (x :: m)) n201); [apply Q1; lia|].
  apply Q2; [lia|]. eapply IH; [|reflexivity]. rewrite skipn_length. subst n. cbn [length]. lia.
Qed.

Lemma segs_small n201 m : 0 < n201 -> 0 < zlen m <= n201 -> segs n201 m = [(m, false)].
Proof.
  intros H Hm. rewrite segs_cons by lia. destruct (Z.gtb_spec (zlen m) n201); [lia|]. cbv zeta.
  assert (E : Z.to_nat (zlen m) = length m) by (unfold zlen; lia).
  rewrite E, firstn_all, skipn_all. destruct (Z.gtb_spec (zlen m) (zlen m)); [lia|]. reflexivity.
Qed.
Lemma segs_big n201 m : 0 < n201 -> n201 < zlen m ->
  segs n201 m = (firstn (Z.to_nat n201) m, true) :: segs n201 (skipn (Z.to_nat n201) m).
Proof.
  intros H Hm. rewrite segs_cons by lia. destruct (Z.gtb_spec (zlen m) n201); [|lia]. cbv zeta.
  destruct (Z.gtb_spec (zlen m) n201); [|lia]. reflexivity.
Qed.

Lemma segs_wf n201 : 0 < n201 -> forall m, Forall (wfseg n201) (segs n201 m).
Proof.
  intros H. apply (segs_ind _ n201); auto.
  - rewrite segs_nil. auto.
  - intros m Hm. rewrite segs_small by auto. constructor; auto. split; cbn [fst snd]; [lia|discriminate].
  - intros m Hm IH. rewrite segs_big by auto. constructor; auto.
    split; cbn [fst snd]; rewrite zlen_firstn_le by lia; lia.
Qed.

(* ------------------------------------------------------------------ *)
(* reassembly                                                          *)

Definition rstep (maxf : Z) (s : list (list Z) * option (list Z)) (x : seg) : list (list Z) * option (list Z) :=
  let '(del, rb) := s in let '(data, more) := x in
  match rb with
  | None => if negb more then (del ++ [data], None)
            else (del, Some (if zlen data >? maxf then [] else data))
  | Some b => let b := if zlen b + zlen data >? maxf then b else b ++ data in
              if more then (del, Some b) else (del ++ [b], None)
  end.
Definition reasm (maxf : Z) (l : list seg) (s : list (list Z) * option (list Z)) := fold_left (rstep maxf) l s.

Lemma rstep_del maxf s x : exists e, fst (rstep maxf s x) = fst s ++ e.
Proof.
  destruct s as [del rb], x as [data more]. unfold rstep.
  destruct rb, more; cbn [negb fst]; eauto; exists []; rewrite app_nil_r; reflexivity.
Qed.
Lemma reasm_del maxf l : forall s, exists e, fst (reasm maxf l s) = fst s ++ e.
Proof.
  induction l; intros s; cbn [reasm fold_left].
  - exists []. rewrite app_nil_r; auto.
  - destruct (rstep_del maxf s a) as (e & E). destruct (IHl (rstep maxf s a)) as (e' & E').
    unfold reasm in E'. rewrite E', E. exists (e ++ e'). rewrite app_assoc. auto.
Qed.

Lemma reasm_some maxf n201 : 0 < n201 -> forall m b del, 0 < zlen m -> zlen b + zlen m <= maxf ->
  reasm maxf (segs n201 m) (del, Some b) = (del ++ [b ++ m], None).
Proof.
  intros H. apply (segs_ind (fun m => forall b del, 0 < zlen m -> zlen b + zlen m <= maxf ->
    reasm maxf (segs n201 m) (del, Some b) = (del ++ [b ++ m], None)) n201); auto.
  - intros b del Hm. unfold zlen in Hm; simpl in Hm; lia.
  - intros m Hm b del _ L. rewrite segs_small by auto. cbn [reasm fold_left rstep].
    destruct (Z.gtb_spec (zlen b + zlen m) maxf); [lia|]. reflexivity.
  - intros m Hm IH b del _ L. rewrite segs_big by auto. unfold reasm. cbn [fold_left rstep].
    rewrite zlen_firstn_le by lia. destruct (Z.gtb_spec (zlen b + n201) maxf); [lia|].
    fold (reasm maxf (segs n201 (skipn (Z.to_nat n201) m)) (del, Some (b ++ firstn (Z.to_nat n201) m))).
    rewrite IH; rewrite ?zlen_app, ?zlen_skipn_le, ?zlen_firstn_le by lia; try lia.
    rewrite <- app_assoc, firstn_skipn. reflexivity.
Qed.

Lemma reasm_msg maxf n201 m del : 0 < n201 -> 0 < zlen m <= maxf ->
  reasm maxf (segs n201 m) (del, None) = (del ++ [m], None).
Proof.
  intros H Hm. destruct (Z_le_gt_dec (zlen m) n201).
  - rewrite segs_small by lia. reflexivity.
  - rewrite segs_big by lia. unfold reasm. cbn [fold_left rstep negb].
    rewrite zlen_firstn_le by lia. destruct (Z.gtb_spec n201 maxf); [lia|].
    fold (reasm maxf (segs n201 (skipn (Z.to_nat n201) m)) (del, Some (firstn (Z.to_nat n201) m))).
    rewrite (reasm_some maxf n201); rewrite ?zlen_skipn_le, ?zlen_firstn_le by lia; try lia.
    rewrite firstn_skipn. reflexivity.
Qed.

Lemma reasm_app maxf a b s : reasm maxf (a ++ b) s = reasm maxf b (reasm maxf a s).
Proof. apply fold_left_app. Qed.

Lemma reasm_all maxf n201 : 0 < n201 -> forall ms del, Forall (fun m => 0 < zlen m <= maxf) ms ->
  reasm maxf (segs_all n201 ms) (del, None) = (del ++ ms, None).
Proof.
  intros H ms. induction ms; intros del F; cbn [segs_all map concat].
  - rewrite app_nil_r. reflexivity.
  - assert (Ha : 0 < zlen a <= maxf) by exact (Forall_inv F). apply Forall_inv_tail in F.
    rewrite reasm_app, reasm_msg by auto. fold (segs_all n201 ms). rewrite IHms by auto.
    rewrite <- app_assoc. reflexivity.
Qed.

(* what has been reassembled from a part of the segments of ms is a part of ms *)
Lemma reasm_prefix maxf n201 ms p q : 0 < n201 -> Forall (fun m => 0 < zlen m <= maxf) ms ->
  segs_all n201 ms = p ++ q -> exists e, ms = fst (reasm maxf p ([], None)) ++ e.
Proof.
  intros H F E. pose proof (reasm_all maxf n201 H ms [] F) as R. rewrite E, reasm_app in R.
  destruct (reasm_del maxf q (reasm maxf p ([], None))) as (e & X). rewrite R in X. cbn [fst app] in X. eauto.
Qed.

Lemma segs_all_app n201 a b : segs_all n201 (a ++ b) = segs_all n201 a ++ segs_all n201 b.
Proof. unfold segs_all. rewrite map_app, concat_app. auto. Qed.

(* ------------------------------------------------------------------ *)
(* the sending half of a data link                                     *)

(* what has still to be cut into I frames *)
Definition rest (d : ldl) : list seg :=
  match d_sbuf d with Some m => segs (c_n201 (d_cfg d)) (skipn (Z.to_nat (d_sout d)) m) | None => [] end
  ++ segs_all (c_n201 (d_cfg d)) (d_squeue d).

(* P: the segments sent at least once, in order; the absolute numbers of V(A) and V(S) *)
Record Snd (d : ldl) (sub : list (list Z)) (P : list seg) (VA VS : Z) : Prop := {
  sn_ok : cok (d_cfg d);
  sn_va : d_va d = VA mod c_vrange (d_cfg d);
  sn_vs : d_vs d = VS mod c_vrange (d_cfg d);
  sn_rng : 0 <= VA <= zlen P;
  sn_win : zlen P <= VA + c_k (d_cfg d);
  sn_h1 : forall n, VA <= n < zlen P -> d_hist d (n mod c_rhist (d_cfg d)) = nth_error P (Z.to_nat n);
  sn_h0 : forall h, (forall n, VA <= n < zlen P -> n mod c_rhist (d_cfg d) <> h) -> d_hist d h = None;
  sn_sub : segs_all (c_n201 (d_cfg d)) sub = P ++ rest d;
  sn_wf : Forall (wfseg (c_n201 (d_cfg d))) P;
  sn_buf : match d_sbuf d with Some m => 0 <= d_sout d <= zlen m | None => True end;
  sn_peer : d_peer_busy d = false;
  sn_own : d_own_busy d = false }.

(* what sending leaves alone *)
Record same (d d' : ldl) : Prop := {
  sm_cfg : d_cfg d' = d_cfg d; sm_va : d_va d' = d_va d; sm_vr : d_vr d' = d_vr d; sm_st : d_st d' = d_st d;
  sm_seq : d_seq_err d' = d_seq_err d; sm_retr : d_retr d' = d_retr d; sm_rbuf : d_rbuf d' = d_rbuf d }.
Lemma same_refl d : same d d.
Proof. constructor; auto. Qed.
Lemma same_trans a b c : same a b -> same b c -> same a c.
Proof. intros [] []. constructor; congruence. Qed.

(* a frame fit to be sent by a data link with settings c that has sent P, been acknowledged VA and expects
   segment number nr (modulo v_range) of the peer *)
Record okf (c : lcfg) (P : list seg) (VA : Z) (nr : Z) (f : frame) : Prop := {
  of_nr : f_nr f = nr;
  of_kind : match f_fmt f with
            | FmtI => f_cr f = (if c_net c then 1 else 0) /\ wfseg (c_n201 c) (f_data f, f_more f) /\
                      forall v, VA <= v <= zlen P -> v mod c_vrange c = f_ns f ->
                                nth_error P (Z.to_nat v) = Some (f_data f, f_more f)
            | FmtS => f_data f = [] /\ f_more f = false /\
                      (f_su f = LAPD_S_RR \/ (f_su f = LAPD_S_REJ /\ f_cr f = (if c_net c then 0 else 1)))
            | FmtU => False
            end }.

Lemma get_msg_spec n201 q : match get_msg q with
  | (Some m, q') => 0 < zlen m /\ segs_all n201 q = segs n201 m ++ segs_all n201 q'
  | (None, q') => q' = [] /\ segs_all n201 q = []
  end.
Proof.
  induction q; cbn [get_msg]; auto.
  destruct (Z.eqb_spec (zlen a) 0).
  - assert (E : segs_all n201 (a :: q) = segs_all n201 q).
    { destruct a; [reflexivity|]. pose proof (zlen_cons z a). pose proof (zlen_nonneg a). lia. }
    rewrite E. exact IHq.
  - split; [pose proof (zlen_nonneg a); lia|reflexivity].
Qed.

Lemma load_spec d : match d_sbuf d with Some m => 0 <= d_sout d <= zlen m | None => True end ->
  match load_msg d with
  | (Some m, so, q) => 0 <= so < zlen m /\
      rest d = segs (c_n201 (d_cfg d)) (skipn (Z.to_nat so) m) ++ segs_all (c_n201 (d_cfg d)) q
  | (None, so, q) => q = [] /\ rest d = []
  end.
Proof.
  intros Hb. unfold load_msg, rest. destruct (d_sbuf d) as [m|].
  - destruct (Z.eqb_spec (zlen m - d_sout d) 0).
    + assert (E : skipn (Z.to_nat (d_sout d)) m = []) by (apply skipn_all2; unfold zlen in *; lia).
      rewrite E, segs_nil, app_nil_l.
      pose proof (get_msg_spec (c_n201 (d_cfg d)) (d_squeue d)) as G.
      destruct (get_msg (d_squeue d)) as [[m'|] q]; [|exact G].
      destruct G as [G1 G2]. split; [lia|]. rewrite G2. reflexivity.
    + split; [lia|reflexivity].
  - rewrite app_nil_l. pose proof (get_msg_spec (c_n201 (d_cfg d)) (d_squeue d)) as G.
    destruct (get_msg (d_squeue d)) as [[m'|] q]; [|exact G].
    destruct G as [G1 G2]. split; [lia|]. rewrite G2. reflexivity.
Qed.

Lemma skipn_skipn' {A} a b (l : list A) : skipn a (skipn b l) = skipn (b + a) l.
Proof. revert l. induction b; intros l; [reflexivity|]. destruct l; [rewrite !skipn_nil; auto|]. cbn. apply IHb. Qed.

Lemma slot_inj c a b : cok c -> a mod c_rhist c = b mod c_rhist c -> - c_k c <= a - b <= c_k c -> a = b.
Proof. intros K E H. pose proof (ok_k _ K). modinj (c_rhist c) E. Qed.

Lemma nth_app_l {A} (l l' : list A) n : 0 <= n < zlen l -> nth_error (l ++ l') (Z.to_nat n) = nth_error l (Z.to_nat n).
Proof. intros. apply nth_error_app1. unfold zlen in *. lia. Qed.
Lemma nth_app_at {A} (l : list A) x : nth_error (l ++ [x]) (Z.to_nat (zlen l)) = Some x.
Proof. unfold zlen. rewrite nth_error_app2 by lia. replace (Z.to_nat (Z.of_nat (length l)) - length l)%nat with 0%nat by lia. reflexivity. Qed.

(* the same for a frame numbered within the window: stays so when more is sent *)
Record okn (c : lcfg) (P : list seg) (VA : Z) (nr : Z) (f : frame) : Prop := {
  on_nr : f_nr f = nr;
  on_kind : match f_fmt f with
            | FmtI => f_cr f = (if c_net c then 1 else 0) /\ wfseg (c_n201 c) (f_data f, f_more f) /\
                      exists n, VA <= n < zlen P /\ f_ns f = n mod c_vrange c /\
                                nth_error P (Z.to_nat n) = Some (f_data f, f_more f)
            | FmtS => f_data f = [] /\ f_more f = false /\
                      (f_su f = LAPD_S_RR \/ (f_su f = LAPD_S_REJ /\ f_cr f = (if c_net c then 0 else 1)))
            | FmtU => False
            end }.

Lemma okn_okf c P VA nr f : cok c -> zlen P <= VA + c_k c -> okn c P VA nr f -> okf c P VA nr f.
Proof.
  intros K HW [E H]. constructor; auto. destruct (f_fmt f); auto. destruct H as (H1 & H2 & n & Hn & En & Hd).
  split; auto. split; auto. intros v Hv Ev. rewrite En in Ev. pose proof (k_lt_M _ K).
  assert (v = n) by (modinj (c_vrange c) Ev). subst; auto.
Qed.
Lemma okn_app c P P' VA nr f : 0 <= VA -> okn c P VA nr f -> okn c (P ++ P') VA nr f.
Proof.
  intros HA [E H]. constructor; auto. destruct (f_fmt f); auto. destruct H as (H1 & H2 & n & Hn & En & Hd).
  split; auto. split; auto. exists n. rewrite zlen_app. pose proof (zlen_nonneg P'). split; [lia|]. split; auto.
  rewrite nth_app_l by lia. auto.
Qed.
Lemma okn_iframe c P VA nr cr ns pf n data more :
  VA <= n < zlen P -> ns = n mod c_vrange c ->
  nth_error P (Z.to_nat n) = Some (data, more) -> Forall (wfseg (c_n201 c)) P ->
  cr = (if c_net c then 1 else 0) ->
  okn c P VA nr (mkFrame cr FmtI 0 pf ns nr more data).
Proof.
  intros Hn -> Hd HF ->. constructor; cbn; auto. split; auto. split; eauto.
  rewrite Forall_forall in HF. apply HF. eapply nth_error_In; eauto.
Qed.

Lemma frames_cons o os : frames_of (o :: os) = match o with OFrame f => [f] | _ => [] end ++ frames_of os.
Proof. reflexivity. Qed.
Lemma frames_app a b : frames_of (a ++ b) = frames_of a ++ frames_of b.
Proof. unfold frames_of. rewrite map_app, concat_app; auto. Qed.
Lemma datas_app a b : datas_of (a ++ b) = datas_of a ++ datas_of b.
Proof. unfold datas_of. rewrite map_app, concat_app; auto. Qed.
Lemma errs_app a b : errs_of (a ++ b) = errs_of a ++ errs_of b.
Proof. unfold errs_of. rewrite map_app, concat_app; auto. Qed.

(* the state in which a new segment has been stored *)
Lemma Snd_new d sub P VA VS m so q :
  Snd d sub P VA VS -> VS = zlen P -> VS < VA + c_k (d_cfg d) ->
  load_msg d = (Some m, so, q) ->
  let left := zlen m - so in
  let len := if left >? c_n201 (d_cfg d) then c_n201 (d_cfg d) else left in
  let data := firstn (Z.to_nat len) (skipn (Z.to_nat so) m) in
  let d1 := set_send d q (Some m) (so + len) in
  let d2 := set_hist d1 (hupd (d_hist d1) (do_mod (d_vs d) (c_rhist (d_cfg d))) (Some (data, left >? len))) in
  Snd d2 sub (P ++ [(data, left >? len)]) VA VS.
Proof.
  intros S EV HW L left len data d1 d2.
  pose proof (load_spec d (sn_buf _ _ _ _ _ S)) as LS. rewrite L in LS. destruct LS as [Hso HR].
  pose proof (sn_ok _ _ _ _ _ S) as K. pose proof (ok_n201 _ K) as H201.
  assert (Hsk : zlen (skipn (Z.to_nat so) m) = left) by (apply zlen_skipn_le; lia).
  assert (Hlen : 0 < len <= left) by (subst left; unfold len; destruct (Z.gtb_spec (zlen m - so) (c_n201 (d_cfg d))); lia).
  rewrite segs_cons in HR by (auto; lia). rewrite Hsk in HR. cbv zeta in HR. fold len in HR.
  assert (Hl2 : len <= c_n201 (d_cfg d)) by (unfold len; destruct (Z.gtb_spec left (c_n201 (d_cfg d))); lia).
  assert (Hl3 : (left >? len) = true -> len = c_n201 (d_cfg d)).
  { unfold len. destruct (Z.gtb_spec left (c_n201 (d_cfg d))); auto.
    destruct (Z.gtb_spec left left); [lia|discriminate]. }
  assert (Hlm : so + len <= zlen m) by (unfold left in Hlen; lia).
  assert (Hda : zlen data = len) by (apply zlen_firstn_le; lia).
  change (firstn (Z.to_nat len) (skipn (Z.to_nat so) m)) with data in HR.
  subst d1 d2. clearbody data. clearbody len. clearbody left.
  set (more := left >? len) in *. clearbody more.
  assert (Hh : do_mod (d_vs d) (c_rhist (d_cfg d)) = VS mod c_rhist (d_cfg d)).
  { rewrite do_mod_R, (sn_vs _ _ _ _ _ S), mod_mod_R by auto. auto. }
  assert (ZP : zlen (P ++ [(data, more)]) = zlen P + 1) by (rewrite zlen_app; reflexivity).
  destruct S as [_ Sva Svs Srng Swin Sh1 Sh0 Ssub Swf Sbuf Speer Sown].
  constructor; cbn [set_hist set_send d_cfg d_va d_vs d_hist d_sbuf d_sout d_squeue d_peer_busy d_own_busy]; auto.
  - lia.
  - lia.
  - intros n Hn. rewrite ZP in Hn. unfold hupd. rewrite Hh.
    destruct (Z.eqb_spec (n mod c_rhist (d_cfg d)) (VS mod c_rhist (d_cfg d))) as [E|E].
    + assert (n = VS) by (apply (slot_inj (d_cfg d)); [auto|exact E|clear E; lia]). subst n VS. rewrite nth_app_at. auto.
    + assert (n <> VS) by congruence. clear E. rewrite nth_app_l by lia. apply Sh1. lia.
  - intros h Hn. rewrite ZP in Hn. unfold hupd. rewrite Hh.
    destruct (Z.eqb_spec h (VS mod c_rhist (d_cfg d))) as [E|E].
    + exfalso. refine (Hn VS _ _); [clear - Srng Swin EV HW; lia|symmetry; exact E].
    + clear E. apply Sh0. intros n Hn'. apply Hn. lia.
  - rewrite Ssub, HR. unfold rest. cbn [set_hist set_send d_cfg d_sbuf d_sout d_squeue].
    rewrite skipn_skipn'. replace (Z.to_nat so + Z.to_nat len)%nat with (Z.to_nat (so + len)) by (clear - Hso Hlen; lia).
    rewrite <- app_assoc. reflexivity.
  - apply Forall_app; split; auto. constructor; auto. split; cbn [fst snd]; [clear - Hda Hlen Hl2; lia|].
    intros G. rewrite Hda. auto.
  - clear - Hso Hlen Hlm; lia.
Qed.

Lemma sent_same d : same d (sent_i d).
Proof. unfold sent_i. destruct (d_t200 _); constructor; reflexivity. Qed.
Lemma sent_t200 d : d_t200 (sent_i d) = true.
Proof. unfold sent_i. destruct (d_t200 (set_vs d (inc_mod (d_vs d) (c_vrange (d_cfg d))))) eqn:E; auto. Qed.
Lemma Snd_sent d sub P VA VS : Snd d sub P VA VS -> Snd (sent_i d) sub P VA (VS + 1).
Proof.
  intros S. pose proof (sn_ok _ _ _ _ _ S) as K.
  assert (E : inc_mod (d_vs d) (c_vrange (d_cfg d)) = (VS + 1) mod c_vrange (d_cfg d)).
  { rewrite (sn_vs _ _ _ _ _ S). apply inc_abs; auto. }
  destruct S. unfold sent_i. destruct (d_t200 _); constructor; auto.
Qed.

Lemma st_eqb_eq a b : st_eqb a b = true <-> a = b.
Proof. destruct a, b; cbn; split; congruence. Qed.

Lemma send_i_loop_spec sub VA : forall n d rc P VS,
  Snd d sub P VA VS -> d_st d = L_MF_EST -> VA <= VS <= zlen P ->
  (VA < VS -> d_t200 d = true) ->
  Z.of_nat n = VA + c_k (d_cfg d) - VS ->
  exists d' rc' os P', send_i_loop n d rc = (d', rc', os) /\
    Snd d' sub (P ++ P') VA (zlen (P ++ P')) /\ same d d' /\
    (VA < zlen (P ++ P') -> d_t200 d' = true) /\
    Forall (okn (d_cfg d) (P ++ P') VA (d_vr d)) (frames_of os) /\
    datas_of os = [] /\ errs_of os = [].
Proof.
  induction n; intros d rc P VS Sn St HV HT Hn.
  - exists d, rc, [], []. cbn [send_i_loop]. rewrite app_nil_r.
    pose proof (sn_win _ _ _ _ _ Sn). assert (VS = zlen P) by lia. subst VS.
    repeat split; auto; try apply same_refl; try constructor; apply Sn.
  - cbn [send_i_loop]. rewrite (sn_peer _ _ _ _ _ Sn). rewrite St. cbn [st_eqb].
    pose proof (sn_ok _ _ _ _ _ Sn) as K. pose proof (k_lt_M _ K).
    rewrite (sn_va _ _ _ _ _ Sn), add_abs by auto.
    destruct (Z.eqb_spec (d_vs d) ((VA + c_k (d_cfg d)) mod c_vrange (d_cfg d))) as [E|_].
    { exfalso. rewrite (sn_vs _ _ _ _ _ Sn) in E.
      assert (VS = VA + c_k (d_cfg d)) by (modinj (c_vrange (d_cfg d)) E). clear E. lia. }
    assert (Hh : do_mod (d_vs d) (c_rhist (d_cfg d)) = VS mod c_rhist (d_cfg d)).
    { rewrite do_mod_R, (sn_vs _ _ _ _ _ Sn), mod_mod_R by auto. auto. }
    destruct (d_hist d (do_mod (d_vs d) (c_rhist (d_cfg d)))) as [[data more]|] eqn:Eh.
    + (* resend *)
      rewrite Hh in Eh.
      assert (HVS : VS < zlen P).
      { destruct (Z_lt_ge_dec VS (zlen P)); auto. exfalso.
        rewrite (sn_h0 _ _ _ _ _ Sn) in Eh; [discriminate|]. intros m Hm Em.
        pose proof (sn_win _ _ _ _ _ Sn).
        assert (m = VS) by (apply (slot_inj (d_cfg d)); [auto|exact Em|clear Em; lia]). clear Em. lia. }
      assert (Hd : nth_error P (Z.to_nat VS) = Some (data, more)).
      { rewrite <- (sn_h1 _ _ _ _ _ Sn) by lia. auto. }
      pose proof (sent_same d) as SS.
      destruct (IHn (sent_i d) 0 P (VS + 1)) as (d' & rc' & os & P' & E & S' & SM & T' & F' & D' & R').
      * apply Snd_sent; auto.
      * rewrite (sm_st _ _ SS); auto.
      * lia.
      * intros _. apply sent_t200.
      * rewrite (sm_cfg _ _ SS). lia.
      * rewrite E. exists d', rc', (mk_iframe d false (d_vs d) data more :: os), P'. split; auto. split; auto.
        split; [eapply same_trans; eauto|]. split; auto. split; [|split; auto].
        rewrite (sm_cfg _ _ SS), (sm_vr _ _ SS) in F'.
        rewrite frames_cons. cbn [mk_iframe app]. constructor; auto.
        pose proof (sn_win _ _ _ _ _ S') as W'. rewrite (sm_cfg _ _ SM), (sm_cfg _ _ SS) in W'.
        pose proof (sn_rng _ _ _ _ _ S') as R0. pose proof (zlen_app P P') as ZA. pose proof (zlen_nonneg P').
        pose proof (sn_wf _ _ _ _ _ S') as W2. rewrite (sm_cfg _ _ SM), (sm_cfg _ _ SS) in W2.
        apply okn_iframe with (n := VS); auto; try lia.
        -- apply Sn.
        -- rewrite nth_app_l by lia. auto.
    + rewrite Hh in Eh.
      assert (HVS : VS = zlen P).
      { destruct (Z_lt_ge_dec VS (zlen P)); [|lia]. exfalso.
        rewrite (sn_h1 _ _ _ _ _ Sn) in Eh by lia. apply nth_error_None in Eh.
        pose proof (sn_rng _ _ _ _ _ Sn) as R0. clear - Eh l R0 HV. unfold zlen in *. lia. }
      destruct (load_msg d) as [[[m|] so] q] eqn:EL.
      * (* a new segment *)
        pose proof (Snd_new d sub P VA VS m so q Sn HVS ltac:(lia) EL) as S2. cbv zeta in S2. cbv zeta.
        set (left := zlen m - so) in *.
        set (len := if left >? c_n201 (d_cfg d) then c_n201 (d_cfg d) else left) in *.
        set (data := firstn (Z.to_nat len) (skipn (Z.to_nat so) m)) in *.
        match type of S2 with Snd ?x _ _ _ _ => set (d2 := x) in * end.
        match goal with |- context [sent_i ?x] => change x with d2 end.
        set (more := left >? len) in *.
        pose proof (sent_same d2) as SS.
        assert (SS0 : same d d2) by (constructor; reflexivity).
        assert (ZP : zlen (P ++ [(data, more)]) = zlen P + 1) by (rewrite zlen_app; reflexivity).
        destruct (IHn (sent_i d2) 0 (P ++ [(data, more)]) (VS + 1)) as (d' & rc' & os & P' & E & S' & SM & T' & F' & D' & R').
        -- apply Snd_sent; auto.
        -- rewrite (sm_st _ _ SS); auto.
        -- lia.
        -- intros _. apply sent_t200.
        -- rewrite (sm_cfg _ _ SS), (sm_cfg _ _ SS0). lia.
        -- rewrite E. exists d', rc', (mk_iframe d false (d_vs d) data more :: os), ((data, more) :: P').
           replace (P ++ (data, more) :: P') with ((P ++ [(data, more)]) ++ P') by (rewrite <- app_assoc; reflexivity).
           split; auto. split; auto.
           split; [eapply same_trans; [|eauto]; eapply same_trans; eauto|]. split; auto. split; [|split; auto].
           rewrite (sm_cfg _ _ SS), (sm_vr _ _ SS), (sm_cfg _ _ SS0), (sm_vr _ _ SS0) in F'.
           rewrite frames_cons. cbn [mk_iframe app]. constructor; auto.
           pose proof (sn_win _ _ _ _ _ S') as W'. rewrite (sm_cfg _ _ SM), (sm_cfg _ _ SS), (sm_cfg _ _ SS0) in W'.
           pose proof (sn_wf _ _ _ _ _ S') as W2. rewrite (sm_cfg _ _ SM), (sm_cfg _ _ SS), (sm_cfg _ _ SS0) in W2.
           pose proof (zlen_app (P ++ [(data, more)]) P') as ZA. pose proof (zlen_nonneg P').
           pose proof (sn_rng _ _ _ _ _ Sn) as R0.
           apply okn_iframe with (n := VS); auto; try lia.
           ++ apply Sn.
           ++ rewrite nth_app_l by lia. subst VS. apply nth_app_at.
      * (* nothing left to send *)
        exists (set_send d q None so), rc, [], []. rewrite app_nil_r. subst VS.
        pose proof (load_spec d (sn_buf _ _ _ _ _ Sn)) as LS. rewrite EL in LS. destruct LS as [-> HR].
        split; auto. split.
        -- destruct Sn. constructor; auto; cbn [set_send d_sbuf]; auto.
           cbn [set_send d_cfg]. rewrite sn_sub0, HR. reflexivity.
        -- split; [constructor; reflexivity|]. repeat split; auto. constructor.
Qed.

Lemma send_i_rounds_spec d sub P VA VS : Snd d sub P VA VS -> VA <= VS <= VA + c_k (d_cfg d) ->
  Z.of_nat (send_i_rounds d) = VA + c_k (d_cfg d) - VS.
Proof.
  intros S H. pose proof (sn_ok _ _ _ _ _ S) as K. pose proof (k_lt_M _ K). unfold send_i_rounds.
  rewrite (sn_va _ _ _ _ _ S), (sn_vs _ _ _ _ _ S), add_abs, sub_abs by (auto; lia). lia.
Qed.

(* the settled state of a data link between two events *)
Definition settled (d : ldl) (P : list seg) (VA VS : Z) : Prop :=
  (d_st d = L_MF_EST /\ VS = zlen P /\ (VA < zlen P -> d_t200 d = true)) \/
  (d_st d = L_TIMER_RECOV /\ zlen P - c_k (d_cfg d) <= VS <= zlen P /\ d_t200 d = true).

Lemma send_i_est d sub P VA VS : Snd d sub P VA VS -> d_st d = L_MF_EST -> VA <= VS <= zlen P ->
  (VA < VS -> d_t200 d = true) ->
  exists d' rc os P', lapd_send_i d = (d', rc, os) /\
    Snd d' sub (P ++ P') VA (zlen (P ++ P')) /\ settled d' (P ++ P') VA (zlen (P ++ P')) /\ same d d' /\
    Forall (okn (d_cfg d) (P ++ P') VA (d_vr d)) (frames_of os) /\ datas_of os = [] /\ errs_of os = [].
Proof.
  intros S St H T. pose proof (sn_win _ _ _ _ _ S).
  destruct (send_i_loop_spec sub VA (send_i_rounds d) d (-1) P VS S St H T
             (send_i_rounds_spec _ _ _ _ _ S ltac:(lia))) as (d' & rc & os & P' & E & S' & SM & T' & F & D & R).
  exists d', rc, os, P'. split; auto. split; auto. split; [|auto].
  left. split; [rewrite (sm_st _ _ SM); auto|]. split; auto.
Qed.

Lemma send_i_recov d : d_st d = L_TIMER_RECOV -> lapd_send_i d = (d, -1, []).
Proof.
  intros St. unfold lapd_send_i. destruct (send_i_rounds d); cbn [send_i_loop]; auto.
  destruct (d_peer_busy d); auto. rewrite St. reflexivity.
Qed.

(* lapd_send_i at the end of an event *)
Lemma send_i_any d sub P VA VS : Snd d sub P VA VS ->
  (d_st d = L_MF_EST /\ VA <= VS <= zlen P /\ (VA < VS -> d_t200 d = true)) \/
  (d_st d = L_TIMER_RECOV /\ zlen P - c_k (d_cfg d) <= VS <= zlen P /\ d_t200 d = true) ->
  exists d' rc os P' VS', lapd_send_i d = (d', rc, os) /\
    Snd d' sub (P ++ P') VA VS' /\ settled d' (P ++ P') VA VS' /\ same d d' /\
    Forall (okn (d_cfg d) (P ++ P') VA (d_vr d)) (frames_of os) /\ datas_of os = [] /\ errs_of os = [].
Proof.
  intros S [(St & H & T)|(St & H & T)].
  - destruct (send_i_est d sub P VA VS S St H T) as (d' & rc & os & P' & X).
    exists d', rc, os, P', (zlen (P ++ P')). exact X.
  - exists d, (-1), [], [], VS. rewrite app_nil_r. split; [apply send_i_recov; auto|]. split; auto.
    split; [right; auto|]. split; [apply same_refl|]. repeat split; auto. constructor.
Qed.

(* ------------------------------------------------------------------ *)
(* acknowledgement                                                     *)

Lemma hupd_eq h i v : hupd h i v i = v.
Proof. unfold hupd. rewrite Z.eqb_refl. auto. Qed.
Lemma hupd_ne h i v j : j <> i -> hupd h i v j = h j.
Proof. unfold hupd. intros. destruct (Z.eqb_spec j i); congruence. Qed.

Lemma existsb_map' {A B} (f : B -> bool) (g : A -> B) l : existsb f (map g l) = existsb (fun x => f (g x)) l.
Proof. induction l; cbn; congruence. Qed.
Lemma existsb_ext' {A} (f g : A -> bool) l : (forall x, f x = g x) -> existsb f l = existsb g l.
Proof. intros E. induction l; cbn; congruence. Qed.

Lemma ack_free_spec c : cok c -> forall n VA h j,
  ack_free n (VA mod c_vrange c) (c_rhist c) (c_vrange c) h j =
  if existsb (fun i => (VA + Z.of_nat i) mod c_rhist c =? j) (seq 0 n) then None else h j.
Proof.
  intros K. induction n; intros VA h j; cbn [ack_free]; [reflexivity|].
  rewrite inc_abs, do_mod_R, mod_mod_R by auto. rewrite IHn.
  cbn [seq existsb]. rewrite <- seq_shift, existsb_map'.
  replace (VA + Z.of_nat 0) with VA by lia.
  assert (E : existsb (fun i => (VA + 1 + Z.of_nat i) mod c_rhist c =? j) (seq 0 n) =
              existsb (fun i => (VA + Z.of_nat (S i)) mod c_rhist c =? j) (seq 0 n)).
  { apply existsb_ext'. intros i. f_equal. f_equal. lia. }
  rewrite E; clear E. unfold hupd. rewrite (Z.eqb_sym j).
  destruct (VA mod c_rhist c =? j); cbn [orb]; destruct (existsb _ _); reflexivity.
Qed.

Definition is_rej (f : frame) : bool := match f_fmt f with FmtS => f_su f =? LAPD_S_REJ | _ => false end.

Definition acked_hist (d : ldl) (nr : Z) : Z -> option (list Z * bool) :=
  ack_free (Z.to_nat (sub_mod nr (d_va d) (c_vrange (d_cfg d)))) (d_va d) (c_rhist (d_cfg d))
           (c_vrange (d_cfg d)) (d_hist d).

Lemma acked_hist_spec d sub P VA VS nr n : Snd d sub P VA VS -> VA <= n <= zlen P -> nr = n mod c_vrange (d_cfg d) ->
  (forall m, n <= m < zlen P -> acked_hist d nr (m mod c_rhist (d_cfg d)) = nth_error P (Z.to_nat m)) /\
  (forall h, (forall m, n <= m < zlen P -> m mod c_rhist (d_cfg d) <> h) -> acked_hist d nr h = None).
Proof.
  intros S Hn Hnr. pose proof (sn_ok _ _ _ _ _ S) as K. pose proof (k_lt_M _ K) as HK. pose proof (ok_k _ K) as HKR.
  pose proof (sn_win _ _ _ _ _ S) as HW. pose proof (sn_rng _ _ _ _ _ S) as HR.
  assert (EN : sub_mod nr (d_va d) (c_vrange (d_cfg d)) = n - VA).
  { rewrite Hnr, (sn_va _ _ _ _ _ S). apply sub_abs; auto. lia. }
  assert (Hh : forall j, acked_hist d nr j = if existsb (fun i => (VA + Z.of_nat i) mod c_rhist (d_cfg d) =? j) (seq 0 (Z.to_nat (n - VA))) then None else d_hist d j).
  { intros j. unfold acked_hist. rewrite EN, (sn_va _ _ _ _ _ S). apply ack_free_spec; auto. }
  split.
  - intros m Hm. rewrite Hh. destruct (existsb _ _) eqn:E.
    + exfalso. apply existsb_exists in E. destruct E as (i & Hi & Ei). apply in_seq in Hi. apply Z.eqb_eq in Ei.
      apply (slot_inj (d_cfg d)) in Ei; [clear - Hi Ei Hm Hn; lia|auto|clear Ei; clear - Hi Hm Hn HW; lia].
    + apply (sn_h1 _ _ _ _ _ S). lia.
  - intros h Hf. rewrite Hh. destruct (existsb _ _) eqn:E; auto.
    apply (sn_h0 _ _ _ _ _ S). intros m Hm Em.
    destruct (Z_lt_ge_dec m n).
    + assert (X : existsb (fun i => (VA + Z.of_nat i) mod c_rhist (d_cfg d) =? h) (seq 0 (Z.to_nat (n - VA))) = true).
      { apply existsb_exists. exists (Z.to_nat (m - VA)). split; [apply in_seq; clear - l Hm; lia|].
        replace (VA + Z.of_nat (Z.to_nat (m - VA))) with m by (clear - Hm; lia). apply Z.eqb_eq; auto. }
      congruence.
    + apply (Hf m); [clear - g Hm; lia|auto].
Qed.

(* the last part of lapd_acknowledge *)
Definition ack_finish (d : ldl) (nr : Z) (rej reset : bool) : ldl :=
  let d := set_va d nr in
  let d := if reset && negb rej then
             match d_hist d (sub_mod (d_vs d) 1 (c_rhist (d_cfg d))) with
             | Some _ => start_t200 d
             | None => d
             end
           else d in
  let d := stop_t203 d in
  if negb (d_t200 d) && c_t203 (d_cfg d) && st_eqb (d_st d) L_MF_EST then start_t203 d else d.

Lemma acknowledge_eq d f :
  lapd_acknowledge d f =
  let d0 := set_hist d (acked_hist d (f_nr f)) in
  if negb (st_eqb (d_st d) L_TIMER_RECOV) then
    let reset := (negb (is_rej f) && negb (f_nr f =? d_va d)) || (is_rej f && (f_nr f =? d_va d)) in
    let d1 := if reset then stop_t200 d0 else d0 in
    if sub_mod (f_nr f) (d_va d) (c_vrange (d_cfg d)) >? sub_mod (d_vs d) (d_va d) (c_vrange (d_cfg d))
    then (d1, - MDL_CAUSE_SEQ_ERR)
    else (ack_finish d1 (f_nr f) (is_rej f) reset, 0)
  else (ack_finish d0 (f_nr f) (is_rej f) false, 0).
Proof.
  unfold lapd_acknowledge. fold (is_rej f). cbv zeta. cbn [set_hist d_st d_va d_vs d_cfg].
  destruct (st_eqb (d_st d) L_TIMER_RECOV); cbn [negb]; [reflexivity|].
  destruct (negb (is_rej f) && negb (f_nr f =? d_va d) || is_rej f && (f_nr f =? d_va d)); reflexivity.
Qed.

(* everything but the timers after an acknowledgement *)
Record acked (d d' : ldl) (n : Z) : Prop := {
  ak_cfg : d_cfg d' = d_cfg d; ak_va : d_va d' = n; ak_vs : d_vs d' = d_vs d; ak_vr : d_vr d' = d_vr d;
  ak_st : d_st d' = d_st d; ak_seq : d_seq_err d' = d_seq_err d; ak_rbuf : d_rbuf d' = d_rbuf d;
  ak_hist : d_hist d' = acked_hist d n; ak_sbuf : d_sbuf d' = d_sbuf d; ak_sout : d_sout d' = d_sout d;
  ak_sq : d_squeue d' = d_squeue d; ak_own : d_own_busy d' = d_own_busy d; ak_peer : d_peer_busy d' = d_peer_busy d;
  ak_retr : d_retr d' = d_retr d }.

Lemma ack_finish_acked d nr rej reset t : acked d (ack_finish (set_t200 (set_hist d (acked_hist d nr)) t) nr rej reset) nr.
Proof.
  unfold ack_finish. cbv zeta.
  destruct (reset && negb rej); [destruct (d_hist _ _)|];
  match goal with |- context [if ?b then _ else _] => destruct b end; constructor; reflexivity.
Qed.
Lemma ack_finish_acked' d nr rej reset : acked d (ack_finish (set_hist d (acked_hist d nr)) nr rej reset) nr.
Proof.
  unfold ack_finish. cbv zeta.
  destruct (reset && negb rej); [destruct (d_hist _ _)|];
  match goal with |- context [if ?b then _ else _] => destruct b end; constructor; reflexivity.
Qed.
Lemma ack_finish_t200 d nr rej reset : d_t200 (ack_finish d nr rej reset) =
  if reset && negb rej then match d_hist d (sub_mod (d_vs d) 1 (c_rhist (d_cfg d))) with Some _ => true | None => d_t200 d end
  else d_t200 d.
Proof.
  unfold ack_finish. cbv zeta. destruct (reset && negb rej).
  - cbn [set_va d_hist d_vs d_cfg]. destruct (d_hist d _);
    match goal with |- context [if ?b then start_t203 _ else _] => destruct b end; reflexivity.
  - match goal with |- context [if ?b then start_t203 _ else _] => destruct b end; reflexivity.
Qed.

Lemma acked_Snd d d' sub P VA VS n : Snd d sub P VA VS -> VA <= n <= zlen P ->
  acked d d' (n mod c_vrange (d_cfg d)) -> Snd d' sub P n VS.
Proof.
  intros S Hn A. destruct (acked_hist_spec d sub P VA VS _ n S Hn eq_refl) as [H1 H0].
  destruct S, A. constructor; try rewrite ak_cfg0; auto; try congruence.
  - lia.
  - lia.
  - intros m Hm. rewrite ak_hist0. auto.
  - intros h Hm. rewrite ak_hist0. auto.
  - unfold rest in *. rewrite ak_cfg0, ak_sbuf0, ak_sout0, ak_sq0. auto.
  - rewrite ak_sbuf0, ak_sout0. auto.
Qed.

(* a frame that acknowledges up to n, all of it sent *)
Lemma ack_spec d sub P VA VS f n : Snd d sub P VA VS -> settled d P VA VS ->
  VA <= n <= zlen P -> f_nr f = n mod c_vrange (d_cfg d) ->
  exists d', lapd_acknowledge d f = (d', 0) /\ Snd d' sub P n VS /\ acked d d' (f_nr f) /\
    (is_rej f = false -> settled d' P n VS) /\ (d_st d = L_TIMER_RECOV -> settled d' P n VS).
Proof.
  intros S HS Hn Hnr. pose proof (sn_ok _ _ _ _ _ S) as K. pose proof (k_lt_M _ K) as HK. pose proof (ok_k _ K) as HKR.
  pose proof (sn_win _ _ _ _ _ S) as HW. pose proof (sn_rng _ _ _ _ _ S) as HR.
  rewrite acknowledge_eq. cbv zeta. destruct HS as [(St & EV & T)|(St & EV & T)]; rewrite St; cbn [st_eqb negb].
  - rewrite Hnr, (sn_va _ _ _ _ _ S), (sn_vs _ _ _ _ _ S), !sub_abs by (auto; lia).
    destruct (Z.gtb_spec (n - VA) (VS - VA)); [lia|].
    rewrite <- (sn_va _ _ _ _ _ S), <- Hnr.
    set (reset := (negb (is_rej f) && negb (f_nr f =? d_va d)) || (is_rej f && (f_nr f =? d_va d))).
    eexists. split; [reflexivity|].
    assert (A : acked d (ack_finish (if reset then stop_t200 (set_hist d (acked_hist d (f_nr f)))
                  else set_hist d (acked_hist d (f_nr f))) (f_nr f) (is_rej f) reset) (f_nr f)).
    { destruct reset; [apply ack_finish_acked|apply ack_finish_acked']. }
    match type of A with acked _ ?x _ => set (d' := x) in * end.
    assert (S' : Snd d' sub P n VS) by (eapply acked_Snd; eauto; rewrite <- Hnr; auto).
    split; auto. split; auto. split; [|intros X; discriminate X].
    intros RJ. left. split; [rewrite (ak_st _ _ _ A); auto|]. split; auto.
    intros L. unfold d'. rewrite ack_finish_t200, RJ. cbn [negb]. rewrite andb_true_r.
    destruct reset eqn:RS.
    + cbn [stop_t200 set_t200 set_hist d_hist d_vs d_cfg].
      rewrite sub_mod_R, (sn_vs _ _ _ _ _ S), <- Zminus_mod_idemp_l, mod_mod_R, Zminus_mod_idemp_l by auto.
      destruct (acked_hist_spec d sub P VA VS _ n S Hn Hnr) as [H1 _]. rewrite H1 by lia.
      destruct (nth_error P (Z.to_nat (VS - 1))) eqn:NE; auto.
      apply nth_error_None in NE. unfold zlen in *. lia.
    + cbn [set_hist d_t200]. apply T. lia.
  - eexists. split; [reflexivity|].
    pose proof (ack_finish_acked' d (f_nr f) (is_rej f) false) as A.
    match type of A with acked _ ?x _ => set (d' := x) in * end.
    assert (S' : Snd d' sub P n VS) by (eapply acked_Snd; eauto; rewrite <- Hnr; auto).
    assert (G : settled d' P n VS).
    { right. rewrite (ak_st _ _ _ A), (ak_cfg _ _ _ A). split; auto. split; auto.
      unfold d'. rewrite ack_finish_t200. cbn [andb]. auto. }
    auto.
Qed.

(* ------------------------------------------------------------------ *)
(* the event handlers                                                  *)

Lemma Snd_upd d d' sub P VA VS VS' : Snd d sub P VA VS ->
  d_cfg d' = d_cfg d -> d_va d' = d_va d -> d_vs d' = VS' mod c_vrange (d_cfg d) -> d_hist d' = d_hist d ->
  d_sbuf d' = d_sbuf d -> d_sout d' = d_sout d -> d_squeue d' = d_squeue d ->
  d_peer_busy d' = false -> d_own_busy d' = false -> Snd d' sub P VA VS'.
Proof.
  intros [] Ec Ea Es Eh Eb Eo Eq Ep Ew. constructor; rewrite ?Ec, ?Ea, ?Es, ?Eh, ?Eb, ?Eo; auto.
  unfold rest in *. rewrite Ec, Eb, Eo, Eq. auto.
Qed.

(* what an event handler of a data link must achieve for the sending half; okp: okf or okn *)
Definition good (okp : lcfg -> list seg -> Z -> Z -> frame -> Prop) (d d' : ldl) (os : list lout)
    (sub : list (list Z)) (P : list seg) (VA : Z) : Prop :=
  exists P' VS, Snd d' sub (P ++ P') VA VS /\ settled d' (P ++ P') VA VS /\ d_cfg d' = d_cfg d /\
    Forall (okp (d_cfg d) (P ++ P') VA (d_vr d')) (frames_of os).

Lemma good_okf d d' os sub P VA : good okn d d' os sub P VA -> good okf d d' os sub P VA.
Proof.
  intros (P' & VS & S & G & C & F). exists P', VS. split; auto. split; auto. split; auto.
  eapply Forall_impl; [|exact F]. intros f. apply okn_okf; rewrite <- C; apply S.
Qed.

Lemma data_req_good d sub P VA VS m d' os : Snd d sub P VA VS -> settled d P VA VS ->
  data_req d m = (d', os) ->
  good okn d d' os (sub ++ accepted [m]) P VA /\ same d d' /\ datas_of os = [] /\ errs_of os = [].
Proof.
  intros S G. unfold data_req.
  assert (Est : (st_eqb (d_st d) L_MF_EST || st_eqb (d_st d) L_TIMER_RECOV) = true).
  { destruct G as [(-> & _)|(-> & _)]; reflexivity. }
  rewrite Est. unfold accepted. cbn [filter].
  destruct (Z.eqb_spec (zlen m) 0); cbn [negb].
  - intros E. injection E as <- <-. rewrite app_nil_r. split; [|split; [apply same_refl|auto]].
    exists [], VS. rewrite app_nil_r. split; auto. split; auto. split; auto. constructor.
  - set (d1 := set_send d (d_squeue d ++ [m]) (d_sbuf d) (d_sout d)).
    assert (S1 : Snd d1 (sub ++ [m]) P VA VS).
    { destruct S. constructor; auto. cbn [d1 set_send d_cfg]. rewrite segs_all_app, sn_sub0. unfold rest.
      cbn [d1 set_send d_cfg d_sbuf d_sout d_squeue]. rewrite segs_all_app, <- !app_assoc. reflexivity. }
    destruct (send_i_any d1 (sub ++ [m]) P VA VS S1) as (d2 & rc & o2 & P' & VS' & E2 & S2 & G2 & SM & F2 & D2 & R2).
    { destruct G as [(G1 & G2 & G3)|G]; [left|right; exact G].
      split; auto. pose proof (sn_rng _ _ _ _ _ S). subst VS. split; [lia|]. auto. }
    rewrite E2. intros E. injection E as <- <-. split; [|split; auto].
    + exists P', VS'. split; auto. split; auto. split; [rewrite (sm_cfg _ _ SM); reflexivity|].
      rewrite (sm_vr _ _ SM). exact F2.
    + destruct SM. constructor; auto.
Qed.

Lemma data_reqs_good : forall ms d sub P VA VS d' os, Snd d sub P VA VS -> settled d P VA VS ->
  data_reqs d ms = (d', os) ->
  good okn d d' os (sub ++ accepted ms) P VA /\ same d d' /\ datas_of os = [] /\ errs_of os = [].
Proof.
  induction ms; intros d sub P VA VS d' os S G; cbn [data_reqs].
  - intros E. injection E as <- <-. cbn [accepted filter]. rewrite app_nil_r. split; [|split; [apply same_refl|auto]].
    exists [], VS. rewrite app_nil_r. split; auto. split; auto. split; auto. constructor.
  - destruct (data_req d a) as [d1 o1] eqn:E1. destruct (data_reqs d1 ms) as [d2 o2] eqn:E2.
    intros E. injection E as <- <-.
    destruct (data_req_good d sub P VA VS a d1 o1 S G E1) as ((P1 & VS1 & S1 & G1 & C1 & F1) & M1 & D1 & R1).
    destruct (IHms d1 (sub ++ accepted [a]) (P ++ P1) VA VS1 d2 o2 S1 G1 E2) as ((P2 & VS2 & S2 & G2 & C2 & F2) & M2 & D2 & R2).
    split; [|split; [eapply same_trans; eauto|]].
    + assert (EA : sub ++ accepted (a :: ms) = (sub ++ accepted [a]) ++ accepted ms).
      { rewrite <- app_assoc. f_equal. unfold accepted. cbn [filter]. destruct (negb (zlen a =? 0)); reflexivity. }
      rewrite EA. exists (P1 ++ P2), VS2. rewrite app_assoc. split; auto. split; auto. split; [congruence|].
      rewrite frames_app. apply Forall_app; split.
      * rewrite (sm_vr _ _ M2). eapply Forall_impl; [|exact F1]. intros f. apply okn_app. apply S1.
      * rewrite <- C1. exact F2.
    + rewrite datas_app, errs_app, D1, D2, R1, R2. auto.
Qed.

Lemma okn_s c P VA nr cr su pf : su = LAPD_S_RR \/ (su = LAPD_S_REJ /\ cr = (if c_net c then 0 else 1)) ->
  okn c P VA nr (mkFrame cr FmtS su pf 0 nr false []).
Proof. intros H. constructor; cbn; auto. Qed.

(* the frames of a peer with settings of the opposite role *)
Definition from_peer (d : ldl) (f : frame) : Prop :=
  match f_fmt f with
  | FmtI => f_cr f = rem_cmd d /\ wfseg (c_n201 (d_cfg d)) (f_data f, f_more f)
  | FmtS => f_data f = [] /\ f_more f = false /\
            (f_su f = LAPD_S_RR \/ (f_su f = LAPD_S_REJ /\ f_cr f = rem_resp d))
  | FmtU => False
  end.

Lemma rem_ne d : rem_cmd d <> rem_resp d.
Proof. unfold rem_cmd, rem_resp. destruct (c_net (d_cfg d)); discriminate. Qed.

Lemma newstate_est d : let d' := newstate d L_MF_EST in
  d_cfg d' = d_cfg d /\ d_va d' = d_va d /\ d_vs d' = d_vs d /\ d_hist d' = d_hist d /\ d_sbuf d' = d_sbuf d /\
  d_sout d' = d_sout d /\ d_squeue d' = d_squeue d /\ d_peer_busy d' = d_peer_busy d /\
  d_own_busy d' = d_own_busy d /\ d_vr d' = d_vr d /\ d_rbuf d' = d_rbuf d /\ d_st d' = L_MF_EST /\ d_t200 d' = d_t200 d.
Proof.
  cbv zeta. unfold newstate. cbn [st_eqb negb andb].
  match goal with |- context [if ?b then start_t203 _ else _] => destruct b end; repeat split; reflexivity.
Qed.
Lemma newstate_other d st : st <> L_MF_EST -> let d' := newstate d st in
  d_cfg d' = d_cfg d /\ d_va d' = d_va d /\ d_vs d' = d_vs d /\ d_hist d' = d_hist d /\ d_sbuf d' = d_sbuf d /\
  d_sout d' = d_sout d /\ d_squeue d' = d_squeue d /\ d_peer_busy d' = d_peer_busy d /\
  d_own_busy d' = d_own_busy d /\ d_vr d' = d_vr d /\ d_rbuf d' = d_rbuf d /\ d_st d' = st /\ d_t200 d' = d_t200 d /\
  d_retr d' = d_retr d /\ d_seq_err d' = d_seq_err d.
Proof.
  intros N. cbv zeta. unfold newstate.
  assert (E : st_eqb st L_MF_EST = false) by (destruct st; auto; congruence). rewrite E.
  rewrite andb_false_r. cbn [negb andb].
  destruct (st_eqb (d_st d) L_MF_EST); repeat split; reflexivity.
Qed.

(* from an acknowledged state with V(S) put back to N(R), in MF_EST, to the end of the handler *)
Lemma finish_send d0 d1 os0 sub P n VS : Snd d1 sub P n VS -> d_cfg d1 = d_cfg d0 ->
  (d_st d1 = L_MF_EST /\ n <= VS <= zlen P /\ (n < VS -> d_t200 d1 = true)) \/
  (d_st d1 = L_TIMER_RECOV /\ zlen P - c_k (d_cfg d1) <= VS <= zlen P /\ d_t200 d1 = true) ->
  Forall (fun f => forall Q VA, okn (d_cfg d0) Q VA (d_vr d1) f) (frames_of os0) ->
  exists d2 rc o2, lapd_send_i d1 = (d2, rc, o2) /\ good okn d0 d2 (os0 ++ o2) sub P n /\ same d1 d2 /\
    datas_of o2 = [] /\ errs_of o2 = [].
Proof.
  intros S C H F0.
  destruct (send_i_any d1 sub P n VS S H) as (d2 & rc & o2 & P' & VS' & E2 & S2 & G2 & SM & F2 & D2 & R2).
  exists d2, rc, o2. split; auto. split.
  - exists P', VS'. split; auto. split; auto. split; [rewrite (sm_cfg _ _ SM); auto|].
    rewrite (sm_vr _ _ SM), frames_app. apply Forall_app; split.
    + eapply Forall_impl; [|exact F0]. cbv beta. auto.
    + rewrite <- C. exact F2.
  - auto.
Qed.

Definition erronly (os : list lout) : Prop := Forall (fun e => e = MDL_CAUSE_UNSOL_SPRV_RESP) (errs_of os).

Lemma poll_reply_spec d : d_own_busy d = false ->
  Forall (fun f => forall c Q VA, c = d_cfg d -> okn c Q VA (d_vr d) f) (frames_of (poll_reply d)) /\
  datas_of (poll_reply d) = [] /\ errs_of (poll_reply d) = [].
Proof.
  intros E. unfold poll_reply. rewrite E. cbn [negb andb].
  destruct (d_seq_err d =? 0); (split; [|split; reflexivity]); [|constructor].
  constructor; [|constructor]. intros c Q VA ->. apply okn_s. auto.
Qed.

Lemma rx_s_good d sub P VA VS f n d' os : Snd d sub P VA VS -> settled d P VA VS ->
  from_peer d f -> f_fmt f = FmtS -> VA <= n <= zlen P -> f_nr f = n mod c_vrange (d_cfg d) ->
  rx_s d f = (d', os) ->
  good okn d d' os sub P n /\ d_vr d' = d_vr d /\ d_rbuf d' = d_rbuf d /\ datas_of os = [] /\ erronly os.
Proof.
  intros S G FP Ff Hn Hnr. unfold from_peer in FP. rewrite Ff in FP. destruct FP as (Fd & Fm & FS).
  unfold rx_s. rewrite Fd, Fm. change (zlen (@nil Z) >? 0) with false. cbn [orb].
  set (e0 := if (f_cr f =? rem_resp d) && f_pf f && negb (st_eqb (d_st d) L_TIMER_RECOV) then [OErr MDL_CAUSE_UNSOL_SPRV_RESP] else []).
  assert (E0 : frames_of e0 = [] /\ datas_of e0 = [] /\ erronly e0).
  { unfold e0, erronly. destruct (_ && _); repeat split; cbn; auto. }
  destruct E0 as (E0f & E0d & E0e). clearbody e0.
  destruct (ack_spec d sub P VA VS f n S G Hn Hnr) as (d1 & EA & S1 & A1 & G1 & G1').
  pose proof (sn_win _ _ _ _ _ S1) as W1. pose proof (sn_rng _ _ _ _ _ S1) as R1.
  assert (C1 : d_cfg d1 = d_cfg d) by apply A1.
  assert (ST : d_st d = L_MF_EST \/ d_st d = L_TIMER_RECOV) by (destruct G as [(X & _)|(X & _)]; auto).
  (* the common end *)
  assert (END : forall d2 o1 VS2 d3 rc o2,
    lapd_send_i d2 = (d3, rc, o2) -> Snd d2 sub P n VS2 -> d_cfg d2 = d_cfg d -> d_vr d2 = d_vr d -> d_rbuf d2 = d_rbuf d ->
    ((d_st d2 = L_MF_EST /\ n <= VS2 <= zlen P /\ (n < VS2 -> d_t200 d2 = true)) \/
     (d_st d2 = L_TIMER_RECOV /\ zlen P - c_k (d_cfg d2) <= VS2 <= zlen P /\ d_t200 d2 = true)) ->
    Forall (fun f => forall Q VA, okn (d_cfg d) Q VA (d_vr d2) f) (frames_of o1) -> datas_of o1 = [] -> erronly o1 ->
    good okn d d3 (e0 ++ o1 ++ o2) sub P n /\ d_vr d3 = d_vr d /\ d_rbuf d3 = d_rbuf d /\
    datas_of (e0 ++ o1 ++ o2) = [] /\ erronly (e0 ++ o1 ++ o2)).
  { intros d2 o1 VS2 d3 rc o2 ES S2 C2 V2 B2 X2 F2 D2 R2.
    destruct (finish_send d d2 (e0 ++ o1) sub P n VS2 S2 C2 X2) as (d3' & rc' & o2' & ES' & G3 & SM & D3 & R3).
    { rewrite frames_app, E0f. exact F2. }
    rewrite ES in ES'. injection ES' as <- <- <-. rewrite <- app_assoc in G3. split; auto.
    split; [rewrite (sm_vr _ _ SM); auto|]. split; [rewrite (sm_rbuf _ _ SM); auto|].
    rewrite !datas_app, E0d, D2, D3. split; auto. unfold erronly in *.
    rewrite !errs_app, R3, app_nil_r. apply Forall_app; auto. }
  assert (OWN1 : d_own_busy d1 = false) by apply S1.
  assert (POLL : forall (d2 : ldl), d_own_busy d2 = false -> d_cfg d2 = d_cfg d ->
     Forall (fun f => forall Q VA, okn (d_cfg d) Q VA (d_vr d2) f) (frames_of (poll_reply d2)) /\
     datas_of (poll_reply d2) = [] /\ erronly (poll_reply d2)).
  { intros d2 O2 C2. destruct (poll_reply_spec d2 O2) as (P1 & P2 & P3). split; [|split; auto].
    - eapply Forall_impl; [|exact P1]. cbv beta. intros; auto.
    - unfold erronly. rewrite P3. constructor. }
  assert (BODY : (let cmd := f_cr f =? rem_cmd d in let resp := f_cr f =? rem_resp d in
    if f_su f =? LAPD_S_RR then
      let '(d, _) := lapd_acknowledge d f in
      let '(d, o1) :=
        if cmd && f_pf f then (d, poll_reply d)
        else if resp && f_pf f && st_eqb (d_st d) L_TIMER_RECOV
             then (newstate (stop_t200 (set_vs d (f_nr f))) L_MF_EST, [])
             else (d, []) in
      let '(d, _, o2) := lapd_send_i d in (d, e0 ++ o1 ++ o2)
    else
      let '(d, _) := lapd_acknowledge d f in
      let '(d, o1) :=
        if negb (st_eqb (d_st d) L_TIMER_RECOV) then
          let d := set_va (set_vs (set_busy d (d_own_busy d) false) (f_nr f)) (f_nr f) in
          let d := stop_t200 d in
          (d, (if cmd && f_pf f then poll_reply d else []) ++
              (if resp && f_pf f then [OErr MDL_CAUSE_UNSOL_SPRV_RESP] else []))
        else if resp && f_pf f then
          let d := set_va (set_vs (set_busy d (d_own_busy d) false) (f_nr f)) (f_nr f) in
          (newstate (stop_t200 d) L_MF_EST, [])
        else
          let d := set_va (set_vs (set_busy d (d_own_busy d) false) (f_nr f)) (f_nr f) in
          (d, if cmd && f_pf f then poll_reply d else []) in
      let '(d, _, o2) := lapd_send_i d in (d, e0 ++ o1 ++ o2)) = (d', os) ->
    good okn d d' os sub P n /\ d_vr d' = d_vr d /\ d_rbuf d' = d_rbuf d /\ datas_of os = [] /\ erronly os).
  { rewrite EA. cbv zeta.
    destruct (Z.eqb_spec (f_su f) LAPD_S_RR) as [ERR|NRR].
    - assert (RJ : is_rej f = false) by (unfold is_rej; rewrite Ff, ERR; reflexivity).
      specialize (G1 RJ).
      assert (X1 : (d_st d1 = L_MF_EST /\ n <= VS <= zlen P /\ (n < VS -> d_t200 d1 = true)) \/
        (d_st d1 = L_TIMER_RECOV /\ zlen P - c_k (d_cfg d1) <= VS <= zlen P /\ d_t200 d1 = true)).
      { destruct G1 as [(Y1 & Y2 & Y3)|Y]; [left|right; auto]. subst VS. split; auto. split; [lia|auto]. }
      destruct ((f_cr f =? rem_cmd d) && f_pf f).
      + destruct (POLL d1 OWN1 C1) as (Q1 & Q2 & Q3).
        destruct (lapd_send_i d1) as [[d3 rc] o2] eqn:ES. intros E. injection E as <- <-.
        eapply (END d1); eauto; apply A1.
      + destruct ((f_cr f =? rem_resp d) && f_pf f && st_eqb (d_st d1) L_TIMER_RECOV).
        * match goal with |- context [lapd_send_i ?x] => set (d2 := x) end.
          destruct (newstate_est (stop_t200 (set_vs d1 (f_nr f)))) as
            (N1 & N2 & N3 & N4 & N5 & N6 & N7 & N8 & N9 & N10 & N11 & N12 & N13).
          fold d2 in N1, N2, N3, N4, N5, N6, N7, N8, N9, N10, N11, N12, N13.
          cbn [stop_t200 set_t200 set_vs d_cfg d_va d_vs d_hist d_sbuf d_sout d_squeue d_peer_busy d_own_busy d_vr d_rbuf] in *.
          assert (S2 : Snd d2 sub P n n).
          { eapply Snd_upd; eauto; try congruence. rewrite N8. apply S1. }
          destruct (lapd_send_i d2) as [[d3 rc] o2] eqn:ES. intros E. injection E as <- <-.
          eapply (END d2 [] n); eauto; try congruence.
          -- rewrite N10; apply A1.
          -- rewrite N11; apply A1.
          -- left. split; auto. split; [lia|]. intros; lia.
          -- constructor.
          -- constructor.
        * destruct (lapd_send_i d1) as [[d3 rc] o2] eqn:ES. intros E. injection E as <- <-.
          eapply (END d1 []); eauto; try apply A1; constructor.
    - destruct FS as [FS|[FS FC]]; [congruence|].
      set (d2 := set_va (set_vs (set_busy d1 (d_own_busy d1) false) (f_nr f)) (f_nr f)).
      assert (S2 : Snd d2 sub P n n).
      { eapply Snd_upd; eauto; cbn; try reflexivity; [symmetry; apply A1|rewrite C1; auto]. }
      assert (CC : (f_cr f =? rem_cmd d) = false).
      { rewrite FC. pose proof (rem_ne d). destruct (Z.eqb_spec (rem_resp d) (rem_cmd d)); congruence. }
      assert (CR : (f_cr f =? rem_resp d) = true) by (rewrite FC; apply Z.eqb_refl).
      rewrite (ak_st _ _ _ A1). cbv zeta.
      rewrite CC, CR. cbn [andb]. fold d2.
      destruct ST as [ST|ST]; rewrite ST; cbn [st_eqb negb].
      + destruct (lapd_send_i (stop_t200 d2)) as [[d3 rc] o2] eqn:ES. intros E. injection E as <- <-.
        eapply (END (stop_t200 d2) _ n); eauto.
        * eapply Snd_upd; eauto; cbn; try reflexivity; try apply S2; rewrite C1; auto.
        * cbn. apply A1.
        * cbn. apply A1.
        * left. cbn. split; [rewrite (ak_st _ _ _ A1); auto|]. split; [lia|]. intros; lia.
        * cbn [app]. destruct (f_pf f); constructor.
        * destruct (f_pf f); reflexivity.
        * unfold erronly. destruct (f_pf f); cbn; auto.
      + destruct (f_pf f).
        * match goal with |- context [lapd_send_i ?x] => set (d4 := x) end.
          destruct (newstate_est (stop_t200 d2)) as
            (N1 & N2 & N3 & N4 & N5 & N6 & N7 & N8 & N9 & N10 & N11 & N12 & N13).
          fold d4 in N1, N2, N3, N4, N5, N6, N7, N8, N9, N10, N11, N12, N13.
          cbn [stop_t200 set_t200 d_cfg d_va d_vs d_hist d_sbuf d_sout d_squeue d_peer_busy d_own_busy d_vr d_rbuf] in *.
          assert (S4 : Snd d4 sub P n n).
          { eapply Snd_upd; eauto; try congruence; first [rewrite N3; apply S2|rewrite N8; apply S2|rewrite N9; apply S2]. }
          destruct (lapd_send_i d4) as [[d3 rc] o2] eqn:ES. intros E. injection E as <- <-.
          eapply (END d4 [] n); eauto.
          -- rewrite N1; exact C1.
          -- rewrite N10; apply A1.
          -- rewrite N11; apply A1.
          -- left. split; auto. split; [lia|]. intros; lia.
          -- constructor.
          -- constructor.
        * destruct (lapd_send_i d2) as [[d3 rc] o2] eqn:ES. intros E. injection E as <- <-.
          eapply (END d2 [] n); eauto; cbn; try apply A1; try apply Forall_nil.
          right. split; [rewrite (ak_st _ _ _ A1); auto|]. split; [lia|].
          specialize (G1' ST). destruct G1' as [(Y & _)|(_ & _ & Y)]; auto.
          exfalso. rewrite (ak_st _ _ _ A1), ST in Y. discriminate Y. }
  destruct ST as [ST|ST]; rewrite ST; intros E; apply BODY; clear - E FS;
    (destruct (Z.eqb_spec (f_su f) LAPD_S_RR); [exact E|]);
    (destruct FS as [FS|[FS _]]; [congruence|]); rewrite FS in E; exact E.
Qed.

Lemma settled_upd d d' P VA VS : settled d P VA VS -> d_st d' = d_st d -> d_t200 d' = d_t200 d -> d_cfg d' = d_cfg d ->
  settled d' P VA VS.
Proof. unfold settled. intros H -> -> ->. auto. Qed.

Lemma settled_any d P n VS : settled d P n VS -> n <= zlen P ->
  (d_st d = L_MF_EST /\ n <= VS <= zlen P /\ (n < VS -> d_t200 d = true)) \/
  (d_st d = L_TIMER_RECOV /\ zlen P - c_k (d_cfg d) <= VS <= zlen P /\ d_t200 d = true).
Proof. intros [(Y1 & Y2 & Y3)|Y] H; [left|right; auto]. subst VS. split; auto. split; [lia|auto]. Qed.

Lemma is_rej_i f : f_fmt f = FmtI -> is_rej f = false.
Proof. unfold is_rej. intros ->. auto. Qed.

(* the state after the checks of lapd_rx_i *)
Definition rx_i_body (d : ldl) (f : frame) (rsp : list (list Z)) : ldl * list lout :=
  if negb (f_ns f =? d_vr d) then
      let '(d, o1) :=
        if negb (d_seq_err d =? 1) || negb (c_drop2 (d_cfg d))
        then (set_seq d 1, [send_rej d (f_pf f)])
        else (set_seq d 2, []) in
      let '(d, cause) := lapd_acknowledge d f in
      let o2 := if cause <? 0 then [OErr (- cause)] else [] in
      let '(d, _, o3) := lapd_send_i d in
      (d, o1 ++ o2 ++ o3)
    else
      let d := set_seq d 0 in
      let d := set_vr d (inc_mod (d_vr d) (c_vrange (d_cfg d))) in
      let '(d, cause) := lapd_acknowledge d f in
      let '(d, o1) :=
        if negb (d_own_busy d) then
          match reassemble d f with
          | (d, Some m) => let '(d, o) := data_reqs d rsp in (d, OData m :: o)
          | (d, None) => (d, [])
          end
        else (d, []) in
      let o2 := if cause <? 0 then [OErr (- cause)] else [] in
      if f_pf f then
        let o3 := [if negb (d_own_busy d) then send_rr d true false else send_rnr d true false] in
        let '(d, _, o4) := lapd_send_i d in (d, o1 ++ o2 ++ o3 ++ o4)
      else if negb (d_own_busy d) then
        let '(d, rc, o3) := lapd_send_i d in
        (d, o1 ++ o2 ++ o3 ++ (if negb (rc =? 0) then [send_rr d false false] else []))
      else
        let o3 := [send_rnr d false false] in
        let '(d, _, o4) := lapd_send_i d in (d, o1 ++ o2 ++ o3 ++ o4).

Lemma rx_i_body_eq d f rsp : from_peer d f -> f_fmt f = FmtI -> d_st d = L_MF_EST \/ d_st d = L_TIMER_RECOV ->
  rx_i d f rsp = rx_i_body d f rsp.
Proof.
  intros FP Ff ST. unfold from_peer in FP. rewrite Ff in FP. destruct FP as (FC & (FL & FM)). cbn [fst snd] in *.
  unfold rx_i. rewrite FC. pose proof (rem_ne d). destruct (Z.eqb_spec (rem_cmd d) (rem_resp d)); [congruence|].
  destruct (Z.eqb_spec (zlen (f_data f)) 0); [lia|]. cbn [orb].
  destruct (Z.gtb_spec (zlen (f_data f)) (c_n201 (d_cfg d))); [lia|].
  assert (E : f_more f && (zlen (f_data f) <? c_n201 (d_cfg d)) = false).
  { destruct (f_more f); auto. rewrite FM by auto. cbn [andb]. apply Z.ltb_irrefl. }
  rewrite E. destruct ST as [-> | ->]; reflexivity.
Qed.

Lemma reassemble_spec d f d' om : reassemble d f = (d', om) ->
  (forall del, rstep (c_maxf (d_cfg d)) (del, d_rbuf d) (f_data f, f_more f) =
               (del ++ match om with Some m => [m] | None => [] end, d_rbuf d')) /\
  d_cfg d' = d_cfg d /\ d_va d' = d_va d /\ d_vs d' = d_vs d /\ d_hist d' = d_hist d /\ d_sbuf d' = d_sbuf d /\
  d_sout d' = d_sout d /\ d_squeue d' = d_squeue d /\ d_peer_busy d' = d_peer_busy d /\
  d_own_busy d' = d_own_busy d /\ d_vr d' = d_vr d /\ d_st d' = d_st d /\ d_t200 d' = d_t200 d.
Proof.
  unfold reassemble. intros E. unfold rstep.
  destruct (d_rbuf d) as [b|] eqn:Eb; destruct (f_more f); cbn [negb] in *; injection E as <- <-;
    (split; [intros del; rewrite ?app_nil_r; cbn; rewrite ?Eb; reflexivity|repeat split; reflexivity]).
Qed.

Lemma rx_i_good d sub P VA VS f n rsp d' os : Snd d sub P VA VS -> settled d P VA VS ->
  from_peer d f -> f_fmt f = FmtI -> VA <= n <= zlen P -> f_nr f = n mod c_vrange (d_cfg d) ->
  rx_i d f rsp = (d', os) ->
  errs_of os = [] /\
  good okn d d' os (sub ++ match datas_of os with [] => [] | _ => accepted rsp end) P n /\
  if f_ns f =? d_vr d
  then d_vr d' = inc_mod (d_vr d) (c_vrange (d_cfg d)) /\
       forall del, rstep (c_maxf (d_cfg d)) (del, d_rbuf d) (f_data f, f_more f) = (del ++ datas_of os, d_rbuf d')
  else d_vr d' = d_vr d /\ d_rbuf d' = d_rbuf d /\ datas_of os = [].
Proof.
  intros S G FP Ff Hn Hnr.
  rewrite rx_i_body_eq by (auto; destruct G as [(X & _)|(X & _)]; auto). unfold rx_i_body.
  destruct (f_ns f =? d_vr d) eqn:ENS; cbn [negb].
  - (* in sequence *)
    cbv zeta. set (d0 := set_vr (set_seq d 0) (inc_mod (d_vr (set_seq d 0)) (c_vrange (d_cfg (set_seq d 0))))).
    assert (S0 : Snd d0 sub P VA VS) by (eapply Snd_upd; eauto; cbn; apply S).
    assert (G0 : settled d0 P VA VS) by (eapply settled_upd; eauto).
    destruct (ack_spec d0 sub P VA VS f n S0 G0 Hn Hnr) as (d1 & EA & S1 & A1 & G1 & _).
    specialize (G1 (is_rej_i f Ff)). rewrite EA. change (0 <? 0) with false. cbv iota.
    assert (C1 : d_cfg d1 = d_cfg d) by (rewrite (ak_cfg _ _ _ A1); reflexivity).
    assert (V1 : d_vr d1 = inc_mod (d_vr d) (c_vrange (d_cfg d))) by (rewrite (ak_vr _ _ _ A1); reflexivity).
    assert (B1 : d_rbuf d1 = d_rbuf d) by (rewrite (ak_rbuf _ _ _ A1); reflexivity).
    rewrite (sn_own _ _ _ _ _ S1). cbn [negb].
    destruct (reassemble d1 f) as [d2 om] eqn:ER.
    destruct (reassemble_spec _ _ _ _ ER) as (RS & N1 & N2 & N3 & N4 & N5 & N6 & N7 & N8 & N9 & N10 & N11 & N12).
    assert (S2 : Snd d2 sub P n VS).
    { eapply Snd_upd; eauto; [rewrite N3; apply S1|rewrite N8; apply S1|rewrite N9; apply S1]. }
    assert (G2 : settled d2 P n VS) by (eapply settled_upd; eauto).
    assert (X : exists d3 o1, (match om with
                | Some m => let '(d, o) := data_reqs d2 rsp in (d, OData m :: o)
                | None => (d2, []) end) = (d3, o1) /\ errs_of o1 = [] /\
              datas_of o1 = (match om with Some m => [m] | None => [] end) /\
              good okn d2 d3 o1 (sub ++ match datas_of o1 with [] => [] | _ => accepted rsp end) P n /\ same d2 d3).
    { destruct om as [m|].
      - destruct (data_reqs d2 rsp) as [d3 o] eqn:ED.
        destruct (data_reqs_good rsp d2 sub P n VS d3 o S2 G2 ED) as (GD & SM & D & R).
        exists d3, (OData m :: o). split; auto. split; [exact R|].
        assert (DD : datas_of (OData m :: o) = [m]) by (change (datas_of (OData m :: o)) with (m :: datas_of o); rewrite D; auto).
        split; [exact DD|]. split; [rewrite DD; exact GD|exact SM].
      - exists d2, []. split; auto. split; auto. split; auto. split; [|apply same_refl].
        cbn [datas_of map concat]. rewrite app_nil_r. exists [], VS. rewrite app_nil_r. split; auto. split; auto. split; auto. constructor. }
    destruct X as (d3 & o1 & EX & ER1 & ED1 & (P1 & VS1 & S3 & G3 & C3 & F3) & SM).
    assert (EM : (match om with
                  | Some m => let '(d, o) := data_reqs d2 rsp in (d, OData m :: o)
                  | None => (d2, []) end) =
                 (let (d, o) := (d2, om) in match o with
                  | Some m => let '(d, o) := data_reqs d rsp in (d, OData m :: o)
                  | None => (d, []) end)) by reflexivity.
    match goal with |- context [let '(a, b) := ?x in _] => match x with context [om] => replace x with (d3, o1) end end.
    cbv iota beta.
    assert (C3' : d_cfg d3 = d_cfg d) by congruence.
    assert (V3 : d_vr d3 = inc_mod (d_vr d) (c_vrange (d_cfg d))) by (rewrite (sm_vr _ _ SM), N10; auto).
    assert (B3 : forall del, rstep (c_maxf (d_cfg d)) (del, d_rbuf d) (f_data f, f_more f) = (del ++ datas_of o1, d_rbuf d3)).
    { intros del. rewrite <- C1, <- B1, RS, ED1, (sm_rbuf _ _ SM). auto. }
    assert (O3 : d_own_busy d3 = false) by apply S3. rewrite O3. cbn [negb].
    pose proof (sn_rng _ _ _ _ _ S3) as R3.
    destruct (send_i_any d3 _ _ n VS1 S3 (settled_any _ _ _ _ G3 ltac:(lia)))
      as (d4 & rc & o4 & P4 & VS4 & E4 & S4 & G4 & SM4 & F4 & D4 & R4).
    rewrite E4.
    assert (V4 : d_vr d4 = d_vr d3) by apply SM4.
    assert (C4 : d_cfg d4 = d_cfg d) by (rewrite (sm_cfg _ _ SM4); auto).
    assert (FIN : forall ob oa, frames_of (ob ++ o4 ++ oa) = frames_of ob ++ frames_of o4 ++ frames_of oa ->
       Forall (fun f => forall Q, okn (d_cfg d) Q n (d_vr d4) f) (frames_of ob ++ frames_of oa) ->
       datas_of ob = [] -> errs_of ob = [] -> datas_of oa = [] -> errs_of oa = [] -> (d4, o1 ++ ob ++ o4 ++ oa) = (d', os) ->
       errs_of os = [] /\
       good okn d d' os (sub ++ match datas_of os with [] => [] | _ => accepted rsp end) P n /\
       d_vr d' = inc_mod (d_vr d) (c_vrange (d_cfg d)) /\
       forall del, rstep (c_maxf (d_cfg d)) (del, d_rbuf d) (f_data f, f_more f) = (del ++ datas_of os, d_rbuf d')).
    { intros ob oa Efr FO Db Rb Da Ra E. injection E as <- <-. apply Forall_app in FO. destruct FO as [FO1 FO2].
      rewrite !errs_app, ER1, Rb, R4, Ra. split; auto.
      assert (DE : datas_of (o1 ++ ob ++ o4 ++ oa) = datas_of o1).
      { rewrite !datas_app, Db, D4, Da, !app_nil_r. auto. }
      rewrite DE. split; [|split; [congruence|]].
      - exists (P1 ++ P4), VS4. rewrite app_assoc. split; auto. split; auto. split; auto.
        rewrite (frames_app o1), Efr. apply Forall_app; split; [|apply Forall_app; split; [|apply Forall_app; split]].
        + rewrite V4, (sm_vr _ _ SM). replace (d_cfg d) with (d_cfg d2) by congruence.
          rewrite (sm_vr _ _ SM) in F3.
          eapply Forall_impl; [|exact F3]. intros x. apply okn_app. apply S3.
        + eapply Forall_impl; [|exact FO1]. cbv beta; auto.
        + rewrite V4, <- C3'. exact F4.
        + eapply Forall_impl; [|exact FO2]. cbv beta; auto.
      - intros del. rewrite B3, (sm_rbuf _ _ SM4). auto. }
    destruct (f_pf f).
    + intros E. apply (FIN [send_rr d3 true false] []); auto.
      * rewrite !frames_app. auto.
      * constructor; [|constructor]. intros Q. cbn [send_rr]. rewrite V4. unfold loc_resp. apply okn_s; auto.
      * rewrite app_nil_r. exact E.
    + intros E. apply (FIN [] (if negb (rc =? 0) then [send_rr d4 false false] else [])); auto.
      * rewrite !frames_app. auto.
      * cbn [frames_of map concat app]. destruct (negb (rc =? 0)); [|constructor].
        constructor; [|constructor]. intros Q. unfold loc_resp. apply okn_s; auto.
      * destruct (negb (rc =? 0)); reflexivity.
      * destruct (negb (rc =? 0)); reflexivity.
  - (* out of sequence *)
    assert (X : exists d0 o1, (if negb (d_seq_err d =? 1) || negb (c_drop2 (d_cfg d))
        then (set_seq d 1, [send_rej d (f_pf f)]) else (set_seq d 2, [])) = (d0, o1) /\
        Snd d0 sub P VA VS /\ settled d0 P VA VS /\ d_cfg d0 = d_cfg d /\ d_vr d0 = d_vr d /\ d_rbuf d0 = d_rbuf d /\
        Forall (fun f => forall Q, okn (d_cfg d) Q n (d_vr d) f) (frames_of o1) /\ datas_of o1 = [] /\ errs_of o1 = []).
    { destruct (negb (d_seq_err d =? 1) || negb (c_drop2 (d_cfg d))); eexists; eexists;
        (split; [reflexivity|]); (split; [eapply Snd_upd; eauto; cbn; apply S|]);
        (split; [eapply settled_upd; eauto|]); repeat split; auto.
      - constructor; [|constructor]. intros Q. unfold loc_resp. apply okn_s; auto.
      - constructor. }
    destruct X as (d0 & o1 & EX & S0 & G0 & C0 & V0 & B0 & F0 & D0 & R0). rewrite EX.
    rewrite <- C0 in Hnr.
    destruct (ack_spec d0 sub P VA VS f n S0 G0 Hn Hnr) as (d1 & EA & S1 & A1 & G1 & _).
    specialize (G1 (is_rej_i f Ff)). rewrite EA. change (0 <? 0) with false. cbv iota.
    pose proof (sn_rng _ _ _ _ _ S1) as R1.
    destruct (send_i_any d1 _ _ n VS S1 (settled_any _ _ _ _ G1 ltac:(lia)))
      as (d4 & rc & o4 & P4 & VS4 & E4 & S4 & G4 & SM4 & F4 & D4 & R4).
    rewrite E4. intros E. injection E as <- <-. cbn [app].
    assert (C1 : d_cfg d1 = d_cfg d) by (rewrite (ak_cfg _ _ _ A1); auto).
    assert (V1 : d_vr d1 = d_vr d) by (rewrite (ak_vr _ _ _ A1); auto).
    rewrite errs_app, R0, R4. split; auto. rewrite datas_app, D0, D4. cbn [app]. rewrite app_nil_r.
    assert (V4 : d_vr d4 = d_vr d) by (rewrite (sm_vr _ _ SM4); auto).
    split.
    + exists P4, VS4. split; auto. split; auto. split; [rewrite (sm_cfg _ _ SM4); auto|].
      rewrite frames_app, V4. apply Forall_app; split.
      * eapply Forall_impl; [|exact F0]. cbv beta; auto.
      * rewrite <- C1, <- V1. exact F4.
    + split; auto. split; auto. rewrite (sm_rbuf _ _ SM4), (ak_rbuf _ _ _ A1). auto.
Qed.

(* ------------------------------------------------------------------ *)
(* the timers                                                          *)

Lemma hist_some d sub P VA VS w x : Snd d sub P VA VS -> d_hist d (w mod c_rhist (d_cfg d)) = Some x ->
  exists n, VA <= n < zlen P /\ n mod c_rhist (d_cfg d) = w mod c_rhist (d_cfg d) /\ nth_error P (Z.to_nat n) = Some x.
Proof.
  intros S E. pose proof (R_bound _ (sn_ok _ _ _ _ _ S)) as RB. pose proof (sn_win _ _ _ _ _ S) as W.
  pose proof (ok_k _ (sn_ok _ _ _ _ _ S)) as KB.
  remember (c_rhist (d_cfg d)) as R eqn:ER.
  set (n0 := zlen P - 1 - (zlen P - 1 - w) mod R).
  pose proof (Z.mod_pos_bound (zlen P - 1 - w) R ltac:(lia)) as MB.
  assert (Em : n0 mod R = w mod R).
  { unfold n0. rewrite Zminus_mod_idemp_r. f_equal. lia. }
  destruct (Z_le_gt_dec VA n0) as [L|L].
  - exists n0. split; [lia|]. split; auto.
    rewrite <- E, <- Em. rewrite ER. symmetry. apply (sn_h1 _ _ _ _ _ S). lia.
  - exfalso. rewrite (sn_h0 _ _ _ _ _ S) in E; [discriminate|].
    intros n Hn En. rewrite <- ER in En. rewrite <- Em in En.
    assert (n = n0).
    { apply (mod_inj R); try lia. }
    lia.
Qed.

Lemma resend_okf d sub P VA VS data more pf : Snd d sub P VA VS -> zlen P - c_k (d_cfg d) <= VS <= zlen P ->
  d_hist d ((VS - 1) mod c_rhist (d_cfg d)) = Some (data, more) ->
  okf (d_cfg d) P VA (d_vr d)
    (mkFrame (loc_cmd d) FmtI 0 pf ((VS - 1) mod c_vrange (d_cfg d)) (d_vr d) more data).
Proof.
  intros S H E. constructor; cbn [f_nr f_fmt f_cr f_data f_more f_ns]; auto.
  destruct (hist_some _ _ _ _ _ _ _ S E) as (n & Hn & En & Dn).
  split; [reflexivity|]. split.
  - pose proof (sn_wf _ _ _ _ _ S) as WF. rewrite Forall_forall in WF. apply WF. eapply nth_error_In; eauto.
  - intros v Hv Ev.
    pose proof (M_bound _ (sn_ok _ _ _ _ _ S)) as MB. pose proof (R_bound _ (sn_ok _ _ _ _ _ S)) as RB.
    pose proof (ok_k _ (sn_ok _ _ _ _ _ S)) as KB. pose proof (sn_win _ _ _ _ _ S) as W.
    assert (Er : v mod c_rhist (d_cfg d) = (VS - 1) mod c_rhist (d_cfg d)).
    { rewrite <- (mod_mod_R _ v), Ev, mod_mod_R by apply S. auto. }
    rewrite <- En in Er.
    assert (v = n).
    { apply (mod_inj (c_rhist (d_cfg d))); auto; [lia|]. clear - Hv Hn W KB. lia. }
    subst v. auto.
Qed.

Lemma t200_good d sub P VA VS d' os : Snd d sub P VA VS -> settled d P VA VS -> t200_cb d = (d', os) ->
  datas_of os = [] /\
  (errs_of os = [MDL_CAUSE_T200_EXPIRED] \/
   (errs_of os = [] /\ good okf d d' os sub P VA /\ d_vr d' = d_vr d /\ d_rbuf d' = d_rbuf d)).
Proof.
  intros S G. unfold t200_cb.
  assert (REC : forall d0, Snd d0 sub P VA VS -> zlen P - c_k (d_cfg d0) <= VS <= zlen P -> d_st d0 = L_TIMER_RECOV ->
     d_cfg d0 = d_cfg d -> d_vr d0 = d_vr d -> d_rbuf d0 = d_rbuf d ->
     (let d1 := set_retr d0 (u8 (d_retr d0 + 1)) in
      if d_retr d1 <=? c_n200 (d_cfg d1) then
        let vs := sub_mod (d_vs d1) 1 (c_vrange (d_cfg d1)) in
        let os := match d_hist d1 (do_mod vs (c_rhist (d_cfg d1))) with
                  | Some (data, more) => [mk_iframe d1 true vs data more]
                  | None => if negb (d_own_busy d1) && (d_seq_err d1 =? 0) then [send_rr d1 true true]
                            else if d_own_busy d1 then [send_rnr d1 true true]
                            else []
                  end in
        (start_t200 d1, os)
      else if c_reest (d_cfg d1) then let '(d, os) := est_req d1 [] in (d, OErr MDL_CAUSE_T200_EXPIRED :: os)
      else (d1, [OErr MDL_CAUSE_T200_EXPIRED])) = (d', os) ->
     datas_of os = [] /\
     (errs_of os = [MDL_CAUSE_T200_EXPIRED] \/
      (errs_of os = [] /\ good okf d d' os sub P VA /\ d_vr d' = d_vr d /\ d_rbuf d' = d_rbuf d))).
  { intros d0 S0 H0 St0 C0 V0 B0. cbv zeta. set (d1 := set_retr d0 (u8 (d_retr d0 + 1))).
    assert (S1 : Snd d1 sub P VA VS) by (eapply Snd_upd; eauto; apply S0).
    destruct (d_retr d1 <=? c_n200 (d_cfg d1)).
    - rewrite (sn_vs _ _ _ _ _ S1), sub1_abs, do_mod_R, mod_mod_R by apply S1.
      rewrite (sn_own _ _ _ _ _ S1). cbn [negb andb].
      assert (FIN : forall os, datas_of os = [] -> errs_of os = [] -> Forall (okf (d_cfg d) P VA (d_vr d)) (frames_of os) ->
        datas_of os = [] /\
        (errs_of os = [MDL_CAUSE_T200_EXPIRED] \/
         (errs_of os = [] /\ good okf d (start_t200 d1) os sub P VA /\ d_vr (start_t200 d1) = d_vr d /\ d_rbuf (start_t200 d1) = d_rbuf d))).
      { intros os0 Do Eo Fo. split; auto. right. split; auto. split; [|split; auto].
        exists [], VS. rewrite app_nil_r. split; [eapply Snd_upd; eauto; apply S1|]. split; [|split; auto].
        - right. split; [exact St0|]. split; [exact H0|reflexivity].
        - change (d_vr (start_t200 d1)) with (d_vr d0). rewrite V0. auto. }
      destruct (d_hist d1 ((VS - 1) mod c_rhist (d_cfg d1))) as [[data more]|] eqn:EH.
      + intros E. injection E as <- <-. apply FIN; try reflexivity. constructor; [|constructor].
        rewrite <- V0, <- C0. apply (resend_okf d1 sub P VA VS); auto.
      + destruct (d_seq_err d1 =? 0); intros E; injection E as <- <-; apply FIN; try reflexivity; [|constructor].
        constructor; [|constructor]. constructor; [exact V0|]. cbn. auto.
    - destruct (c_reest (d_cfg d1)).
      + destruct (est_req d1 []) as [d2 o2] eqn:EE. intros E. injection E as <- <-.
        unfold est_req in EE. injection EE as _ <-. split; [reflexivity|]. left. reflexivity.
      + intros E. injection E as <- <-. split; [reflexivity|]. left. reflexivity. }
  set (d0 := set_t200 d false).
  assert (S0 : Snd d0 sub P VA VS) by (eapply Snd_upd; eauto; apply S).
  pose proof (ok_k _ (sn_ok _ _ _ _ _ S)).
  destruct G as [(G1 & G2 & _)|(G1 & G2 & _)]; change (d_st d0) with (d_st d); rewrite G1; cbv iota.
  - destruct (newstate_other (set_retr d0 0) L_TIMER_RECOV ltac:(discriminate))
      as (N1 & N2 & N3 & N4 & N5 & N6 & N7 & N8 & N9 & N10 & N11 & N12 & N13 & _).
    apply REC; auto.
    + eapply Snd_upd; [exact S0|..]; auto; [rewrite N3; apply S0|rewrite N8; apply S0|rewrite N9; apply S0].
    + rewrite N1. change (d_cfg (set_retr d0 0)) with (d_cfg d). lia.
  - apply REC; auto.
Qed.

Lemma t203_good d sub P VA VS d' os : Snd d sub P VA VS -> settled d P VA VS -> t203_cb d = (d', os) ->
  datas_of os = [] /\ errs_of os = [] /\ good okf d d' os sub P VA /\ d_vr d' = d_vr d /\ d_rbuf d' = d_rbuf d.
Proof.
  intros S G. unfold t203_cb. set (d0 := set_t203 d false).
  assert (S0 : Snd d0 sub P VA VS) by (eapply Snd_upd; eauto; apply S).
  pose proof (ok_k _ (sn_ok _ _ _ _ _ S)).
  change (d_st d0) with (d_st d).
  destruct G as [(G1 & G2 & G3)|(G1 & G2 & G3)]; rewrite G1; cbn [st_eqb].
  - destruct (newstate_other (set_retr d0 0) L_TIMER_RECOV ltac:(discriminate))
      as (N1 & N2 & N3 & N4 & N5 & N6 & N7 & N8 & N9 & N10 & N11 & N12 & N13 & _).
    set (d1 := newstate (set_retr d0 0) L_TIMER_RECOV) in *.
    change (d_own_busy (start_t200 d1)) with (d_own_busy d1). rewrite N9.
    change (d_own_busy (set_retr d0 0)) with (d_own_busy d). rewrite (sn_own _ _ _ _ _ S). cbn [negb].
    intros E. injection E as <- <-. split; [reflexivity|]. split; [reflexivity|]. split; [|split; auto].
    exists [], VS. rewrite app_nil_r. split; [|split; [|split; [exact N1|]]].
    + eapply Snd_upd; [exact S0|..]; auto; [transitivity (d_vs d1); [reflexivity|rewrite N3; apply S0]|transitivity (d_peer_busy d1); [reflexivity|rewrite N8; apply S0]|transitivity (d_own_busy d1); [reflexivity|rewrite N9; apply S0]].
    + right. split; [exact N12|]. split; [|reflexivity]. change (d_cfg (start_t200 d1)) with (d_cfg d1). rewrite N1.
      change (d_cfg (set_retr d0 0)) with (d_cfg d). lia.
    + constructor; [|constructor]. constructor; [reflexivity|]. cbn. auto.
  - intros E. injection E as <- <-. split; [reflexivity|]. split; [reflexivity|]. split; [|split; auto].
    exists [], VS. rewrite app_nil_r. split; [exact S0|]. split; [|split; [reflexivity|constructor]].
    right. split; [exact G1|]. split; [exact G2|exact G3].
Qed.
