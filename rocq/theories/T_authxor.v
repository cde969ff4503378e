(** C76: the XOR authentication algorithms and the card. *)
From Verif Require Import Base M_bitgen P_bitgen M_authxor S_authxor P_authxor.

Definition umts (a : aud) : Prop := a_type a = UMTS /\ k_len a = 16 /\ octets 16 (k a) /\ octets 2 (amf a) /\ 0 <= sqn a < 2 ^ 48.
Definition ex_aud := Aud UMTS (repeat 0 16) [1; 2; 3; 4; 5; 6; 7; 8; 9; 10; 11; 12; 13; 14; 15; 16] 16 [128; 7] 4660 0.
Definition ex_vec := Vec (repeat 0 16) [] [] [] 0 [] [] 0.
Definition ex_rand (n : Z) := map (fun i => u8 (n * i + 3)) (zseq 0 16).
Lemma ex_umts : umts ex_aud.
Proof. split; [reflexivity|]. split; [reflexivity|]. split; [split; [reflexivity|]; repeat constructor; unfold is_byte; lia|]. split; [split; [reflexivity|]; repeat constructor; unfold is_byte; lia|cbn; lia]. Qed.

(** The card accepts the token of any vector, finds the sequence number and the management field in it, and computes the same response and keys;
    the GSM response and key are those the conversion functions give. *)
Theorem C76_card : forall v a rand, umts a -> octets 16 rand -> exists v', xor_gen_vec v a rand = Ok (0, v') /\
  card (k a) rand (autn v') = Some (be_bytes 6 (sqn a), amf a, xres v', ck v', ik v') /\ be_val (be_bytes 6 (sqn a)) = sqn a /\
  res_len v' = zlen (xres v') /\ sres v' = c2 (xres v') /\ kc v' = c3 (ck v') (ik v') /\ auth_types v' = 3.
Proof.
  intros v a rand (T & L & (K & _) & (A & _) & Hs) (R & _). rewrite gen_ok by assumption. set (x := xorl (k a) rand). set (s := be_bytes 6 (sqn a)).
  eexists. split; [reflexivity|]. cbn [autn ck ik xres res_len kc sres auth_types].
  assert (Lx : length x = 16%nat) by (unfold x; rewrite xorl_length; congruence). assert (Ls : length s = 6%nat) by apply be_bytes_length.
  split; [|split; [unfold s; rewrite be_val_be_bytes; apply Z.mod_small; exact Hs|split; [unfold zlen; rewrite Lx; reflexivity|auto]]].
  unfold card. fold x. cbv zeta. clearbody x s. destruct (l16 x Lx) as (x0 & x1 & x2 & x3 & x4 & x5 & x6 & x7 & x8 & x9 & x10 & x11 & x12 & x13 & x14 & x15 & ->).
  destruct (l6 s Ls) as (s0 & s1 & s2 & s3 & s4 & s5 & ->). destruct (l2 (amf a) A) as (m0 & m1 & ->).
  cbn [anonymity firstn skipn xorl app mac]. unfold anonymity, mac. cbn [firstn skipn xorl app]. rewrite !xx. match goal with |- context [list_eq_dec Z.eq_dec ?p ?q] => destruct (list_eq_dec Z.eq_dec p q) as [E|E]; [reflexivity|exfalso; apply E; reflexivity] end.
Qed.
Print Assumptions C76_card.
Example C76_card_nonvacuous : umts ex_aud /\ octets 16 (ex_rand 7) /\
  match xor_gen_vec ex_vec ex_aud (ex_rand 7) with Ok (0, v) => match card (k ex_aud) (ex_rand 7) (autn v) with Some (s, _, _, _, _) => be_val s | None => 0 end | _ => 0 end = 4660.
Proof. split; [exact ex_umts|]. split; [split; [reflexivity|]; vm_compute; repeat constructor; discriminate|vm_compute; reflexivity]. Qed.

(** Conversely, every token the card accepts is the one the algorithm gives for the number and field the card found in it: there are no others. *)
Theorem C76_token : forall key rand tok s m r c i, octets 16 key -> octets 16 rand -> octets 16 tok -> card key rand tok = Some (s, m, r, c, i) ->
  forall v a, umts a -> k a = key -> sqn a = be_val s -> amf a = m -> exists v', xor_gen_vec v a rand = Ok (0, v') /\ autn v' = tok.
Proof.
  intros key rand tok s m r c i (K & Bk) (R & Br) (L & Bt) C v a (T & L' & _ & (A & _) & Hs) Ek Es Em. rewrite gen_ok by (subst; assumption). eexists. split; [reflexivity|]. cbn [autn].
  unfold card in C. rewrite Ek, Es, Em. set (x := xorl key rand) in *. assert (Lx : length x = 16%nat) by (unfold x; rewrite xorl_length; congruence). assert (Bx : bytes x) by (apply bytes_xorl; assumption). clearbody x.
  destruct (l16 x Lx) as (x0 & x1 & x2 & x3 & x4 & x5 & x6 & x7 & x8 & x9 & x10 & x11 & x12 & x13 & x14 & x15 & ->).
  destruct (l16 tok L) as (t0 & t1 & t2 & t3 & t4 & t5 & t6 & t7 & t8 & t9 & t10 & t11 & t12 & t13 & t14 & t15 & ->).
  cbv zeta in C. match type of C with context [list_eq_dec Z.eq_dec ?p ?q] => destruct (list_eq_dec Z.eq_dec p q) as [E|E]; [|discriminate C] end.
  match type of C with Some (?p, ?q, _, _, _) = _ => assert (Cs : s = p) by congruence; assert (Cm : m = q) by congruence end. clear C.
  assert (Bs : bytes s).
  { rewrite Cs. apply bytes_xorl; unfold anonymity; cbn [firstn skipn]; unfold bytes in *; clear - Bx Bt; repeat match goal with H : Forall _ (_ :: _) |- _ => inversion H; clear H; subst end; repeat (apply Forall_cons; [assumption|]); apply Forall_nil. }
  assert (Ls : length s = 6%nat) by (rewrite Cs; reflexivity). assert (Be : be_bytes 6 (be_val s) = s) by (rewrite <- Ls; apply be_bytes_be_val; exact Bs). rewrite Be.
  clear - E Cs Cm. unfold anonymity, mac in *. cbn [firstn skipn xorl app] in *. subst s m. cbn [xorl app] in *. rewrite !xx. cbn [app] in *. injection E as -> -> -> -> -> -> -> ->. reflexivity.
Qed.
Print Assumptions C76_token.
Example C76_token_nonvacuous : match xor_gen_vec ex_vec ex_aud (ex_rand 7) with Ok (0, v) => (match card (k ex_aud) (ex_rand 7) (autn v) with Some _ => true | None => false end,
   match card (k ex_aud) (ex_rand 7) (upd (autn v) 9 77) with Some _ => true | None => false end, match card (k ex_aud) (ex_rand 9) (autn v) with Some _ => true | None => false end) | _ => (false, true, true) end = (true, false, false).
Proof. vm_compute. reflexivity. Qed.

(** GSM subscribers: the response and the key of both algorithms. *)
Theorem C76_gsm : forall v a rand, a_type a = GSM -> octets 16 (ki a) -> octets 16 rand -> let x := xorl (ki a) rand in
  (exists v', xor_gen_vec v a rand = Ok (0, v') /\ sres v' = c2 x /\ kc v' = c3 (rotate 1 x) (rotate 2 x) /\ auth_types v' = 1) /\
  (exists v', xor2g_gen_vec v a rand = (0, v') /\ sres v' = firstn 4 x /\ kc v' = firstn 8 (skipn 4 x) /\ auth_types v' = 1).
Proof.
  intros v a rand T (K & _) (R & _) x. assert (Lx : length x = 16%nat) by (unfold x; rewrite xorl_length; congruence). split.
  - unfold xor_gen_vec, step1. rewrite T. change (GSM =? GSM) with true. cbv iota. rewrite (xor_xorl (ki a) rand 16 K R). fold x. change (negb (0 =? 0)) with false. change (GSM =? UMTS) with false. cbn [negb]. cbv iota zeta.
    eexists. split; [reflexivity|]. cbn [sres kc auth_types]. clearbody x. destruct (l16 x Lx) as (x0 & x1 & x2 & x3 & x4 & x5 & x6 & x7 & x8 & x9 & x10 & x11 & x12 & x13 & x14 & x15 & ->). split; [reflexivity|]. split; reflexivity.
  - unfold xor2g_gen_vec. rewrite T. change (negb (GSM =? GSM)) with false. cbv iota zeta. rewrite (xor_xorl (ki a) rand 16 K R). fold x. eexists. split; [reflexivity|]. cbn [sres kc auth_types]. split; [reflexivity|]. split; reflexivity.
Qed.
Print Assumptions C76_gsm.
Example C76_gsm_nonvacuous : sres (snd (xor2g_gen_vec ex_vec (Aud GSM (zseq 1 16) [] 0 [] 0 0) (ex_rand 5))) = [2; 10; 14; 22].
Proof. vm_compute. reflexivity. Qed.

(** Other kinds of subscribers, and keys of another length, are refused; the vector stays as it was. *)
Theorem C76_refused : forall v a rand, (a_type a <> GSM /\ (a_type a <> UMTS \/ k_len a <> 16) -> exists rc, xor_gen_vec v a rand = Ok (rc, v) /\ rc < 0) /\
  (a_type a <> GSM -> exists rc, xor2g_gen_vec v a rand = (rc, v) /\ rc < 0).
Proof.
  intros v a rand. split.
  - intros (N & O). unfold xor_gen_vec, step1. destruct (Z.eqb_spec (a_type a) GSM); [contradiction|]. destruct (Z.eqb_spec (a_type a) UMTS).
    + destruct O as [O|O]; [contradiction|]. destruct (Z.eqb_spec (k_len a) 16); [contradiction|]. cbn [negb]. exists (- EINVAL). split; [reflexivity|unfold EINVAL; lia].
    + exists (- ENOTSUP). split; [reflexivity|unfold ENOTSUP; lia].
  - intros N. unfold xor2g_gen_vec. destruct (Z.eqb_spec (a_type a) GSM); [contradiction|]. exists (- ENOTSUP). split; [reflexivity|unfold ENOTSUP; lia].
Qed.
Print Assumptions C76_refused.
Example C76_refused_nonvacuous : xor_gen_vec ex_vec (Aud UMTS [] (repeat 1 32) 32 [0; 0] 1 0) (ex_rand 3) = Ok (-22, ex_vec).
Proof. vm_compute. reflexivity. Qed.

(** Resynchronisation: a token of the card for the challenge [rand] moves the sequence number to that of the card, and the vector is made with it;
    any other token is refused and changes nothing. Missing: the challenge the card answered is an argument of its own, [rand_auts], and may differ
    from [rand], which is for the new vector: see [C76_resync_refuted]. *)
Theorem C76_resync_partial : forall v a auts rand, umts a -> octets 14 auts -> octets 16 rand ->
  (forall s, octets 6 s -> auts = card_auts (k a) rand s -> let a' := Aud UMTS (ki a) (k a) 16 (amf a) (be_val s) (be_val s) in
     exists v', xor_gen_vec_auts v a auts rand rand = Ok (0, v', a') /\ xor_gen_vec v a' rand = Ok (0, v')) /\
  ((forall s, octets 6 s -> auts <> card_auts (k a) rand s) -> xor_gen_vec_auts v a auts rand rand = Ok (-1, v, a)).
Proof.
  intros v a auts rand (T & L & (K & Bk) & (A & Ba) & Hs) (La & Bau) (R & Br).
  assert (Lx : length (xorl (k a) rand) = 16%nat) by (rewrite xorl_length; congruence). assert (Bx : bytes (xorl (k a) rand)) by (apply bytes_xorl; assumption).
  unfold xor_gen_vec_auts, step1. rewrite T, L. change (UMTS =? GSM) with false. change (UMTS =? UMTS) with true. change (negb (16 =? 16)) with false. cbv iota. rewrite (xor_xorl (k a) rand 16 K R).
  change (negb (0 =? 0)) with false. cbv iota zeta. unfold card_auts. set (x := xorl (k a) rand) in *. clearbody x.
  destruct (l16 x Lx) as (x0 & x1 & x2 & x3 & x4 & x5 & x6 & x7 & x8 & x9 & x10 & x11 & x12 & x13 & x14 & x15 & ->). cbv zeta. split.
  - intros s (Ls & Bs) E. pose proof (load_be_ext_ok 8 s 6 ltac:(lia) ltac:(unfold zlen; lia) Bs) as LD. change (Z.to_nat 6) with 6%nat in LD. rewrite (firstn_all2 s) in LD by lia.
    assert (X : xor auts (zslice [x0; x1; x2; x3; x4; x5; x6; x7; x8; x9; x10; x11; x12; x13; x14; x15] 3 6) 6 = s).
    { rewrite E. destruct (l6 s Ls) as (s0 & s1 & s2 & s3 & s4 & s5 & ->). unfold xor, zslice, slice, anonymity, mac. cbn -[Z.lxor]. change (Pos.to_nat 3) with 3%nat. change (Pos.to_nat 6) with 6%nat. cbn -[Z.lxor]. rewrite !xx. reflexivity. }
    rewrite X. match goal with |- context [list_eq_dec Z.eq_dec ?p ?q] => destruct (list_eq_dec Z.eq_dec p q) as [E1|E1] end.
    + rewrite LD. cbn [bind]. change (8 * (8 - 6)) with 16. rewrite Z.shiftr_div_pow2, Z.div_mul by lia.
      pose proof (gen_ok v (Aud UMTS (ki a) (k a) 16 (amf a) (be_val s) (be_val s)) rand eq_refl eq_refl K R A) as G. cbv zeta in G. cbn [k amf sqn] in G.
      eexists. split; [rewrite G; cbn [bind fst snd]; reflexivity|exact G].
    + exfalso. apply E1. rewrite E. destruct (l6 s Ls) as (s0 & s1 & s2 & s3 & s4 & s5 & ->). reflexivity.
  - intros N. match goal with |- context [list_eq_dec Z.eq_dec ?p ?q] => destruct (list_eq_dec Z.eq_dec p q) as [E1|E1]; [exfalso|reflexivity] end.
    destruct (l14 auts La) as (t0 & t1 & t2 & t3 & t4 & t5 & t6 & t7 & t8 & t9 & t10 & t11 & t12 & t13 & ->).
    apply (N (xorl [t0; t1; t2; t3; t4; t5] [x3; x4; x5; x6; x7; x8])).
    + split; [reflexivity|]. apply bytes_xorl; unfold bytes in *; clear - Bx Bau; repeat match goal with H : Forall _ (_ :: _) |- _ => inversion H; clear H; subst end; repeat (apply Forall_cons; [assumption|]); apply Forall_nil.
    + unfold xor, zslice, slice, anonymity, mac in *. change (Z.to_nat 3) with 3%nat in E1. change (Z.to_nat 6) with 6%nat in E1. change (Z.to_nat 8) with 8%nat in E1. cbn -[Z.lxor] in E1 |- *. rewrite !xx. injection E1 as -> -> -> -> -> -> -> ->. reflexivity.
Qed.
Print Assumptions C76_resync_partial.
Example C76_resync_partial_nonvacuous : match xor_gen_vec_auts ex_vec ex_aud (card_auts (k ex_aud) (ex_rand 7) [0; 0; 0; 0; 171; 205]) (ex_rand 7) (ex_rand 7) with Ok (rc, _, a) => (rc, sqn a) | _ => (9, 9) end = (0, 43981) /\
  match xor_gen_vec_auts ex_vec ex_aud (upd (card_auts (k ex_aud) (ex_rand 7) [0; 0; 0; 0; 171; 205]) 13 0) (ex_rand 7) (ex_rand 7) with Ok (rc, _, a) => (rc, sqn a) | _ => (9, 9) end = (-1, 4660).
Proof. split; vm_compute; reflexivity. Qed.

(** The challenge the card answered is not looked at: whatever it is, the result is the same. So the genuine token of a card is refused when the
    challenge for the new vector is another one. *)
Theorem C76_resync_refuted : (forall v a auts ra ra' rand, xor_gen_vec_auts v a auts ra rand = xor_gen_vec_auts v a auts ra' rand) /\
  exists a ra rand s, umts a /\ octets 16 ra /\ octets 16 rand /\ octets 6 s /\ forall v, xor_gen_vec_auts v a (card_auts (k a) ra s) ra rand = Ok (-1, v, a).
Proof.
  split; [reflexivity|]. exists ex_aud, (ex_rand 7), (ex_rand 9), [0; 0; 0; 0; 171; 205]. split; [exact ex_umts|].
  split; [split; [reflexivity|]; vm_compute; repeat constructor; discriminate|]. split; [split; [reflexivity|]; vm_compute; repeat constructor; discriminate|]. split; [split; [reflexivity|]; repeat constructor; unfold is_byte; lia|]. intros v. vm_compute. reflexivity.
Qed.
Print Assumptions C76_resync_refuted.
