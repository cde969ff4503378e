(** Proofs about V.110 frames: reduction of the model to the layouts. *)
From Verif Require Import Base Lib M_v110 S_v110.

Definition val (fr : v110fr) : cell -> Z := cell_val (v_d fr) (v_e fr) (v_s fr) (v_x fr).

Lemma rd_app (b r : list Z) k : k <? zlen b = true -> rd (b ++ r) k = rd b k.
Proof.
  intros. unfold rd. destruct (k <? 0) eqn:E0; [reflexivity|].
  rewrite nth_error_app1; [reflexivity|]. unfold zlen in *. lia.
Qed.
Lemma wr_app (b r : list Z) k v : k <? zlen b = true -> wr (b ++ r) k v = do y <- wr b k v ;; Ok (y ++ r).
Proof.
  intros. unfold wr. unfold zlen in *. destruct (k <? 0) eqn:E0; [reflexivity|].
  rewrite app_length. replace (Z.of_nat (length b + length r) <=? k) with false by lia.
  replace (Z.of_nat (length b) <=? k) with false by lia. cbn [bind]. f_equal.
  assert (Hk : (Z.to_nat k < length b)%nat) by lia. clear -Hk. revert b Hk. generalize (Z.to_nat k) as m.
  induction m; intros [|h t] Hk; cbn in *; try lia; [reflexivity|]. f_equal. apply IHm. lia.
Qed.
Lemma memcpy_app_dst (b r : list Z) doff src soff n : 
  (0 <=? n) && (0 <=? doff) && (doff + n <=? zlen b) = true ->
  memcpy (b ++ r) doff src soff n = do y <- memcpy b doff src soff n ;; Ok (y ++ r).
Proof.
  intros H. unfold memcpy. pose proof (zlen_nonneg r). rewrite zlen_app.
  rewrite !Bool.andb_true_iff in H. destruct H as [[H1 H2] H3].
  rewrite H1, H2, H3. replace (doff + n <=? zlen b + zlen r) with true by lia.
  cbn [andb]. destruct (0 <=? soff) eqn:E0; [|reflexivity]. cbn [andb].
  destruct (soff + n <=? zlen src) eqn:E1; [|reflexivity]. cbn [bind]. f_equal.
  unfold blit. unfold zlen in *. rewrite slice_length by lia.
  rewrite firstn_app. replace (Z.to_nat doff - length b)%nat with 0%nat by lia. cbn [firstn]. rewrite app_nil_r.
  rewrite skipn_app. replace (Z.to_nat doff + Z.to_nat n - length b)%nat with 0%nat by lia. cbn [skipn].
  rewrite <- !app_assoc. reflexivity.
Qed.
Lemma memcpy_app_src (b r : list Z) dst doff soff n : 
  (0 <=? n) && (0 <=? soff) && (soff + n <=? zlen b) = true ->
  memcpy dst doff (b ++ r) soff n = memcpy dst doff b soff n.
Proof.
  intros H. unfold memcpy. pose proof (zlen_nonneg r). rewrite zlen_app.
  rewrite !Bool.andb_true_iff in H. destruct H as [[H1 H2] H3].
  rewrite H1, H2, H3. replace (soff + n <=? zlen b + zlen r) with true by lia.
  destruct (true && (0 <=? doff) && (doff + n <=? zlen dst) && true && true) eqn:E0; [|reflexivity].
  do 2 f_equal. unfold slice. unfold zlen in *. rewrite skipn_app.
  rewrite firstn_app. rewrite skipn_length. replace (Z.to_nat n - (length b - Z.to_nat soff))%nat with 0%nat by lia.
  cbn [firstn]. apply app_nil_r.
Qed.

(** A list of known length as a list of unknowns *)
Lemma as_fun (l : list Z) n : length l = n -> exists g : Z -> Z, l = map g (zseq 0 n).
Proof.
  intros <-. exists (fun k => nth (Z.to_nat k) l 0).
  apply (nth_ext _ _ 0 (nth (Z.to_nat 0) l 0)); [rewrite map_length, zseq_length; reflexivity|].
  intros k Hk. rewrite (map_nth (fun k => nth (Z.to_nat k) l 0)). 
  rewrite nth_zseq by exact Hk. f_equal. lia.
Qed.
Ltac explode l H :=
  let g := fresh "g" in
  match type of H with length l = ?n =>
    destruct (as_fun l n H) as [g ->]; clear H;
    let t := constr:(map g (zseq 0 n)) in
    let v := eval vm_compute in t in change t with v
  end.

Section STEP.
Context {B : Type}.
Lemma s_rd (b : list Z) k v (f : Z -> res B) R : rd b k = Ok v -> f v = R -> bind (rd b k) f = R.
Proof. intros -> <-. reflexivity. Qed.
Lemma s_rdg {A} (b : list A) k v (f : A -> res B) R : rd b k = Ok v -> f v = R -> bind (rd b k) f = R.
Proof. intros -> <-. reflexivity. Qed.
Lemma s_rda (b r : list Z) k v (f : Z -> res B) R :
  k <? zlen b = true -> rd b k = Ok v -> f v = R -> bind (rd (b ++ r) k) f = R.
Proof. intros H E <-. rewrite rd_app by exact H. rewrite E. reflexivity. Qed.
Lemma s_wr (b : list Z) k v b' (f : list Z -> res B) R : wr b k v = Ok b' -> f b' = R -> bind (wr b k v) f = R.
Proof. intros -> <-. reflexivity. Qed.
Lemma s_wra (b r : list Z) k v b' (f : list Z -> res B) R :
  k <? zlen b = true -> wr b k v = Ok b' -> f (b' ++ r) = R -> bind (wr (b ++ r) k v) f = R.
Proof. intros H E <-. rewrite wr_app by exact H. rewrite E. reflexivity. Qed.
Lemma s_mc (b : list Z) k s j n b' (f : list Z -> res B) R : memcpy b k s j n = Ok b' -> f b' = R -> bind (memcpy b k s j n) f = R.
Proof. intros -> <-. reflexivity. Qed.
Lemma s_mcd (b r : list Z) k s j n b' (f : list Z -> res B) R :
  (0 <=? n) && (0 <=? k) && (k + n <=? zlen b) = true -> memcpy b k s j n = Ok b' -> f (b' ++ r) = R ->
  bind (memcpy (b ++ r) k s j n) f = R.
Proof. intros H E <-. rewrite memcpy_app_dst by exact H. rewrite E. reflexivity. Qed.
Lemma s_mcs (b r : list Z) k d j n b' (f : list Z -> res B) R :
  (0 <=? n) && (0 <=? j) && (j + n <=? zlen b) = true -> memcpy d k b j n = Ok b' -> f b' = R ->
  bind (memcpy d k (b ++ r) j n) f = R.
Proof. intros H E <-. rewrite memcpy_app_src by exact H. rewrite E. reflexivity. Qed.
Lemma s_ret (x : B) R : Ok x = R -> bind (Ok x) (fun y => Ok y) = R.
Proof. intros <-. reflexivity. Qed.
End STEP.
Lemma b_assoc {A B C} (x : res A) (f : A -> res B) (g : B -> res C) R :
  bind x (fun a => bind (f a) g) = R -> bind (bind x f) g = R.
Proof. intros <-. destruct x; reflexivity. Qed.
Lemma b_ok {A B} (x : A) (f : A -> res B) R : f x = R -> bind (Ok x) f = R.
Proof. intros <-. reflexivity. Qed.
Ltac vr := vm_compute; reflexivity.
Ltac stp :=
  lazymatch goal with
  | |- bind (bind _ _) _ = _ => apply b_assoc
  | |- bind (Ok _) _ = _ => apply b_ok
  | |- bind (rd (_ ++ _) _) _ = _ => eapply s_rda; [vr | vr |]
  | |- bind (rd _ _) _ = _ => eapply s_rdg; [vr |]
  | |- bind (wr (_ ++ _) _ _) _ = _ => eapply s_wra; [vr | vr |]
  | |- bind (wr _ _ _) _ = _ => eapply s_wr; [vr |]
  | |- bind (memcpy (_ ++ _) _ _ _ _) _ = _ => eapply s_mcd; [vr | vr |]
  | |- bind (memcpy _ _ (_ ++ _) _ _) _ = _ => eapply s_mcs; [vr | vr |]
  | |- bind (memcpy _ _ _ _ _) _ = _ => eapply s_mc; [vr |]
  end; cbv beta zeta.

Lemma split_at (n : nat) (l : list Z) : Z.of_nat n <= zlen l -> exists a r, l = a ++ r /\ length a = n /\ r = skipn n l.
Proof.
  intros. exists (firstn n l), (skipn n l). repeat split.
  - symmetry. apply firstn_skipn.
  - rewrite firstn_length. unfold zlen in *. lia.
Qed.


Ltac enc L :=
  intros (Hd & He & Hs & Hx & _) Hn Hb; destruct L as [d e s x]; cbn [v_d v_e v_s v_x] in *;
  match goal with |- context [skipn ?N ?b] =>
    let a := fresh "a" in let r := fresh "r" in let Hr := fresh in let Ha := fresh in
    destruct (split_at N b ltac:(lia)) as (a & r & -> & Ha & Hr); rewrite <- Hr; clear Hr Hb;
    explode d Hd; explode e He; explode s Hs; explode x Hx; explode a Ha end.

Lemma enc80_ok b n fr : v110_typed fr -> 80 <= n -> n <= zlen b ->
  v110_encode_frame b n fr = Ok (80, map (val fr) v110_layout ++ skipn 80 b).
Proof.
  enc fr. unfold v110_encode_frame. replace (n <? 80) with false by lia. cbn [v_d v_e v_s v_x].
  unfold memset. cbn [zfor]. repeat stp. reflexivity.
Qed.
Lemma enc60_ok b n fr : v110_typed fr -> 60 <= n -> n <= zlen b ->
  csd_12k_6k_encode_frame b n fr = Ok (60, map (val fr) csd60_layout ++ skipn 60 b).
Proof.
  enc fr. unfold csd_12k_6k_encode_frame. replace (n <? 60) with false by lia. cbn [v_d v_e v_s v_x].
  repeat stp. reflexivity.
Qed.
Lemma enc36_ok b n fr : v110_typed fr -> 36 <= n -> n <= zlen b ->
  csd_3k6_encode_frame b n fr = Ok (36, map (fun c => val fr (first_of_pair c)) csd36_layout ++ skipn 36 b).
Proof.
  enc fr. unfold csd_3k6_encode_frame. replace (n <? 36) with false by lia. cbn [v_d v_e v_s v_x].
  cbv zeta. repeat stp. reflexivity.
Qed.

(** Closed forms of the decoders *)
Definition pick (b : list Z) (l : list nat) : list Z := map (fun k => nth k b 0) l.
Lemma dec80_ok b n fr : v110_typed fr -> 80 <= n -> n <= zlen b ->
  v110_decode_frame fr b n = Ok (0, Vfr
    (pick b [9; 10; 11; 12; 13; 14; 17; 18; 19; 20; 21; 22; 25; 26; 27; 28; 29; 30; 33; 34; 35; 36; 37; 38;
             49; 50; 51; 52; 53; 54; 57; 58; 59; 60; 61; 62; 65; 66; 67; 68; 69; 70; 73; 74; 75; 76; 77; 78]%nat)
    (pick b [41; 42; 43; 44; 45; 46; 47]%nat)
    [nth 15 b 0; nth 1 (v_s fr) 0; nth 31 b 0; nth 39 b 0; nth 4 (v_s fr) 0; nth 55 b 0; nth 6 (v_s fr) 0; nth 71 b 0; nth 79 b 0]
    [nth 23 b 0; nth 63 b 0]).
Proof.
  intros (Hd & He & Hs & Hx & _) Hn Hb; destruct fr as [d e s x]; cbn [v_d v_e v_s v_x] in *.
  destruct (split_at 80 b ltac:(lia)) as (a & r & -> & Ha & _). clear Hb.
  explode d Hd; explode e He; explode s Hs; explode x Hx; explode a Ha.
  unfold v110_decode_frame. replace (n <? 80) with false by lia. cbn [v_d v_e v_s v_x].
  repeat stp. reflexivity.
Qed.
Lemma dec60_ok b n fr : v110_typed fr -> 60 <= n -> n <= zlen b ->
  csd_12k_6k_decode_frame fr b n = Ok (0, Vfr
    (pick b [0; 1; 2; 3; 4; 5; 7; 8; 9; 10; 11; 12; 14; 15; 16; 17; 18; 19; 21; 22; 23; 24; 25; 26;
             32; 33; 34; 35; 36; 37; 39; 40; 41; 42; 43; 44; 46; 47; 48; 49; 50; 51; 53; 54; 55; 56; 57; 58]%nat)
    (firstn 3 (v_e fr) ++ pick b [28; 29; 30; 31]%nat)
    [nth 6 b 0; nth 1 (v_s fr) 0; nth 20 b 0; nth 27 b 0; nth 4 (v_s fr) 0; nth 38 b 0; nth 6 (v_s fr) 0; nth 52 b 0; nth 59 b 0]
    [nth 13 b 0; nth 45 b 0]).
Proof.
  intros (Hd & He & Hs & Hx & _) Hn Hb; destruct fr as [d e s x]; cbn [v_d v_e v_s v_x] in *.
  destruct (split_at 60 b ltac:(lia)) as (a & r & -> & Ha & _). clear Hb.
  explode d Hd; explode e He; explode s Hs; explode x Hx; explode a Ha.
  unfold csd_12k_6k_decode_frame. replace (n <? 60) with false by lia. cbn [v_d v_e v_s v_x].
  repeat stp. reflexivity.
Qed.
Definition twice (l : list nat) : list nat := flat_map (fun k => [k; k]) l.
Lemma dec36_ok b n fr : v110_typed fr -> 36 <= n -> n <= zlen b ->
  csd_3k6_decode_frame fr b n = Ok (0, Vfr
    (pick b (twice [0; 1; 2; 4; 5; 6; 8; 9; 10; 12; 13; 14; 20; 21; 22; 24; 25; 26; 28; 29; 30; 32; 33; 34]%nat))
    (firstn 3 (v_e fr) ++ pick b [16; 17; 18; 19]%nat)
    [nth 3 b 0; nth 1 (v_s fr) 0; nth 11 b 0; nth 15 b 0; nth 4 (v_s fr) 0; nth 23 b 0; nth 6 (v_s fr) 0; nth 31 b 0; nth 35 b 0]
    [nth 7 b 0; nth 27 b 0]).
Proof.
  intros (Hd & He & Hs & Hx & _) Hn Hb; destruct fr as [d e s x]; cbn [v_d v_e v_s v_x] in *.
  destruct (split_at 36 b ltac:(lia)) as (a & r & -> & Ha & _). clear Hb.
  explode d Hd; explode e He; explode s Hs; explode x Hx; explode a Ha.
  unfold csd_3k6_decode_frame. replace (n <? 36) with false by lia. cbn [v_d v_e v_s v_x].
  cbv zeta. repeat stp. reflexivity.
Qed.

(** Rate adaptation *)
Ltac toir u N :=
  let d := fresh "d" in let e := fresh "e" in let s := fresh "s" in let x := fresh "x" in
  let Hd := fresh in let He := fresh in let Hs := fresh in let Hx := fresh in let Hb := fresh in let Hn := fresh in
  intros (Hd & He & Hs & Hx & _) Hb;
  match goal with fr : v110fr |- _ => destruct fr as [d e s x] end; cbn [v_d v_e v_s v_x] in *;
  let a := fresh "a" in let r := fresh "r" in let Ha := fresh in
  destruct (split_at N u ltac:(lia)) as (a & r & -> & Ha & _); clear Hb;
  explode d Hd; explode e He; explode s Hs; explode x Hx; explode a Ha;
  unfold e1e2e3_set, memset; cbn [v_d v_e v_s v_x zfor]; cbv zeta;
  match goal with |- (if ?c then _ else _) = _ => change c with false end; cbv iota;
  repeat stp; reflexivity.
Definition ir_of (fr : v110fr) (c : list Z) (t : list (option nat)) (u : list Z) : v110fr :=
  Vfr (fill t u) (c ++ skipn 3 (v_e fr)) (v_s fr) (v_x fr).
Lemma to600 fr u : v110_typed fr -> 6 <= zlen u -> v110_adapt_600_to_IR8000 fr u 6 = Ok (0, ir_of fr [1; 0; 0] table6a u).
Proof. unfold v110_adapt_600_to_IR8000. toir u 6%nat. Qed.
Lemma to1200 fr u : v110_typed fr -> 12 <= zlen u -> v110_adapt_1200_to_IR8000 fr u 12 = Ok (0, ir_of fr [0; 1; 0] table6b u).
Proof. unfold v110_adapt_1200_to_IR8000. toir u 12%nat. Qed.
Lemma to2400 fr u : v110_typed fr -> 24 <= zlen u -> v110_adapt_2400_to_IR8000 fr u 24 = Ok (0, ir_of fr [1; 1; 0] table6c u).
Proof. unfold v110_adapt_2400_to_IR8000. toir u 24%nat. Qed.
Lemma to3600 fr u : v110_typed fr -> 36 <= zlen u -> v110_adapt_Nx3600_to_IR fr u 36 = Ok (0, ir_of fr [1; 0; 1] table6d u).
Proof. unfold v110_adapt_Nx3600_to_IR. toir u 36%nat. Qed.
Lemma to4800 fr u : v110_typed fr -> 48 <= zlen u -> v110_adapt_Nx4800_to_IR fr u 48 = Ok (0, ir_of fr [0; 1; 1] table6e u).
Proof. unfold v110_adapt_Nx4800_to_IR. toir u 48%nat. Qed.
Lemma to12000 fr u : v110_typed fr -> 30 <= zlen u -> v110_adapt_Nx12000_to_IR fr u 30 = Ok (0, ir_of fr [0; 0; 1] table6f u).
Proof. unfold v110_adapt_Nx12000_to_IR. toir u 30%nat. Qed.

Definition code_is (e c : list Z) : bool := 
  (nth 0 e 0 =? nth 0 c 0) && (nth 1 e 0 =? nth 1 c 0) && (nth 2 e 0 =? nth 2 c 0).
Ltac fromir out N n nn :=
  let d := fresh "d" in let e := fresh "e" in let s := fresh "s" in let x := fresh "x" in
  let Hd := fresh in let He := fresh in let Hs := fresh in let Hx := fresh in let Hb := fresh in let Hn := fresh in
  intros (Hd & He & Hs & Hx & _) Hn Hb;
  match goal with fr : v110fr |- _ => destruct fr as [d e s x] end; cbn [v_d v_e v_s v_x] in *;
  replace (n <? nn) with false by lia;
  let a := fresh "a" in let r := fresh "r" in let Ha := fresh in let Hr := fresh in
  destruct (split_at N out ltac:(lia)) as (a & r & -> & Ha & Hr); rewrite <- Hr; clear Hr Hb;
  explode d Hd; explode e He; explode a Ha;
  unfold e1e2e3_cmp; cbn [v_d v_e v_s v_x zfor]; cbv zeta;
  unfold code_is; cbn [nth]; repeat stp;
  match goal with |- context [negb ?c] => destruct c eqn:?; cbn [negb]; [|reflexivity] end;
  repeat stp; reflexivity.
Definition back (fr : v110fr) (c : list Z) (t : list (option nat)) (n : nat) (out : list Z) : Z * list Z :=
  if code_is (v_e fr) c then (Z.of_nat n, unfill t n (v_d fr) ++ skipn n out) else (- EINVAL, out).
Lemma fr600 fr out n : v110_typed fr -> 6 <= n -> n <= zlen out -> v110_adapt_IR8000_to_600 out n fr = Ok (back fr [1; 0; 0] table6a 6 out).
Proof. unfold v110_adapt_IR8000_to_600, back. fromir out 6%nat n 6. Qed.
Lemma fr1200 fr out n : v110_typed fr -> 12 <= n -> n <= zlen out -> v110_adapt_IR8000_to_1200 out n fr = Ok (back fr [0; 1; 0] table6b 12 out).
Proof. unfold v110_adapt_IR8000_to_1200, back. fromir out 12%nat n 12. Qed.
Lemma fr2400 fr out n : v110_typed fr -> 24 <= n -> n <= zlen out -> v110_adapt_IR8000_to_2400 out n fr = Ok (back fr [1; 1; 0] table6c 24 out).
Proof. unfold v110_adapt_IR8000_to_2400, back. fromir out 24%nat n 24. Qed.
Lemma fr3600 fr out n : v110_typed fr -> 36 <= n -> n <= zlen out -> v110_adapt_IR_to_Nx3600 out n fr = Ok (back fr [1; 0; 1] table6d 36 out).
Proof. unfold v110_adapt_IR_to_Nx3600, back. fromir out 36%nat n 36. Qed.
Lemma fr4800 fr out n : v110_typed fr -> 48 <= n -> n <= zlen out -> v110_adapt_IR_to_Nx4800 out n fr = Ok (back fr [0; 1; 1] table6e 48 out).
Proof. unfold v110_adapt_IR_to_Nx4800, back. fromir out 48%nat n 48. Qed.
Lemma fr12000 fr out n : v110_typed fr -> 30 <= n -> n <= zlen out -> v110_adapt_IR_to_Nx12000 out n fr = Ok (back fr [0; 0; 1] table6f 30 out).
Proof. unfold v110_adapt_IR_to_Nx12000, back. fromir out 30%nat n 30. Qed.
