(* C51: identifier validation and sanitizing *)
From Verif Require Import Base Str M_ident.
From Coq Require Import String.

(* the characters an identifier may consist of: letters, digits, and - : @ _ *)
Definition legal (c : Z) : Prop :=
  65 <= c <= 90 \/ 97 <= c <= 122 \/ 48 <= c <= 57 \/ In c (bs "-:@_").
Definition cchar (c : Z) : Prop := 1 <= c <= 255.
Definition sep (q : option (list Z)) (c : Z) : Prop := match q with Some l => In c l | None => False end.

Definition okchar (c : Z) : bool := (Z.land c 128 =? 0) && isprint c && negb (chr_in illegal_chars c).
Definition legalb (c : Z) : bool :=
  (65 <=? c) && (c <=? 90) || (97 <=? c) && (c <=? 122) || (48 <=? c) && (c <=? 57) || chr_in (bs "-:@_") c.
Lemma chr_in_spec l c : chr_in l c = true <-> In c l.
Proof.
  unfold chr_in. rewrite existsb_exists. split; [intros (x & H & E)|eauto using Z.eqb_refl]. apply Z.eqb_eq in E. now subst.
Qed.
Lemma legalb_spec c : legalb c = true <-> legal c.
Proof.
  unfold legalb, legal. rewrite !orb_true_iff, !andb_true_iff, chr_in_spec, !Z.leb_le. tauto.
Qed.
Lemma okchar_all : forallb (fun c => Bool.eqb (okchar c) (legalb c)) (zseq 1 255) = true.
Proof. vm_compute. reflexivity. Qed.
Lemma okchar_legal c : cchar c -> (okchar c = true <-> legal c).
Proof.
  intros H. rewrite <- legalb_spec. pose proof okchar_all as A. rewrite forallb_forall in A.
  specialize (A c). rewrite eqb_true_iff in A. rewrite A; [tauto|]. apply zseq_In. unfold cchar in H. lia.
Qed.
Definition sepb (q : option (list Z)) (c : Z) : bool := match q with Some l => chr_in l c | None => false end.
Lemma sepb_spec q c : sepb q c = true <-> sep q c.
Proof. destruct q; cbn; [apply chr_in_spec|intuition discriminate]. Qed.

Lemma loop_forallb q s : sep_valid_loop q s = forallb (fun c => sepb q c || okchar c) s.
Proof.
  induction s as [|c s IH]; cbn [sep_valid_loop forallb]; auto. fold (sepb q c). rewrite <- IH.
  unfold okchar. destruct (sepb q c), (Z.land c 128 =? 0), (isprint c), (chr_in illegal_chars c); reflexivity.
Qed.

(* accepted: exactly the non-empty strings of legal characters and separators *)
Theorem C51_valid : forall s q, Forall cchar s ->
  (osmo_separated_identifiers_valid (Some s) q = true <-> s <> [] /\ forall c, In c s -> sep q c \/ legal c).
Proof.
  intros s q F. rewrite Forall_forall in F.
  assert (E : osmo_separated_identifiers_valid (Some s) q = true <-> s <> [] /\ sep_valid_loop q s = true).
  { destruct s; cbn [osmo_separated_identifiers_valid]; [|intuition discriminate]. split; [discriminate|intros [X _]; congruence]. }
  rewrite E, loop_forallb, forallb_forall. split; intros [N H]; split; auto; intros c Hc; specialize (H c Hc).
  - apply orb_prop in H as [H|H]; [left; now apply sepb_spec|right]. now apply okchar_legal; auto.
  - apply orb_true_iff. destruct H as [H|H]; [left; now apply sepb_spec|right]. apply okchar_legal; auto.
Qed.
Print Assumptions C51_valid.

Theorem C51_identifier : forall s, Forall cchar s ->
  (osmo_identifier_valid (Some s) = true <-> s <> [] /\ forall c, In c s -> legal c).
Proof.
  intros s F. unfold osmo_identifier_valid. rewrite C51_valid by auto. cbn [sep]. split; intros [N H]; split; auto; intros c Hc; specialize (H c Hc); tauto.
Qed.
Print Assumptions C51_identifier.

(* a NULL pointer is not an identifier *)
Theorem C51_null : forall q, osmo_separated_identifiers_valid None q = false /\ osmo_identifier_valid None = false.
Proof. split; reflexivity. Qed.
Print Assumptions C51_null.

(* sanitizing never changes the length, never touches a legal character that is not a listed separator, and puts the
   replacement exactly at the other printable ASCII positions *)
Theorem C51_sanitize_chars : forall s q r i, Forall cchar s -> (i < List.length s)%nat ->
  let c := nth i s 0 in let c' := nth i (osmo_identifier_sanitize_buf s q r) 0 in
  List.length (osmo_identifier_sanitize_buf s q r) = List.length s /\
  (sep q c -> c' = r) /\ (~ sep q c -> legal c -> c' = c) /\ (32 <= c <= 126 -> ~ legal c -> c' = r) /\ (c' = c \/ c' = r).
Proof.
  intros s q r i F Hi c c'. split; [apply map_length|].
  assert (Fc : cchar c) by (rewrite Forall_forall in F; apply F, nth_In; auto).
  assert (E : c' = if chr_in illegal_chars c || sepb q c then r else c).
  { unfold c', osmo_identifier_sanitize_buf. fold (sepb q).
    set (f := fun c : Z => _). rewrite (nth_indep _ 0 (f 0)) by (rewrite map_length; auto). rewrite map_nth. reflexivity. }
  rewrite E. clearbody c c'. split; [|split; [|split]].
  - intros H. apply sepb_spec in H. rewrite H, orb_true_r. auto.
  - intros H L. apply (okchar_legal c Fc) in L. unfold okchar in L. apply andb_prop in L as [_ L]. apply negb_true_iff in L. rewrite L.
    destruct (sepb q c) eqn:S; auto. apply sepb_spec in S. contradiction.
  - intros P NL. destruct (chr_in illegal_chars c) eqn:I; auto. exfalso. apply NL. apply (okchar_legal c Fc). unfold okchar. rewrite I.
    unfold isprint. replace ((32 <=? c) && (c <=? 126)) with true by lia.
    replace (Z.land c 128 =? 0) with true; auto. symmetry. apply Z.eqb_eq. change 128 with (2 ^ 7). rewrite Z.land_comm.
    apply Z.bits_inj'. intros n Hn. rewrite Z.land_spec, Z.pow2_bits_eqb, Z.bits_0 by lia. destruct (Z.eqb_spec 7 n) as [<-|]; auto.
    cbn [andb]. apply Z.bits_above_log2; [lia|]. apply Z.log2_lt_pow2; lia.
  - destruct (chr_in illegal_chars c || sepb q c); auto.
Qed.
Print Assumptions C51_sanitize_chars.

(* for non-empty printable ASCII strings and a legal replacement the result is a valid identifier *)
Theorem C51_sanitize_valid_partial : forall s q r, s <> [] -> Forall (fun c => 32 <= c <= 126) s -> legal r ->
  osmo_identifier_valid (Some (osmo_identifier_sanitize_buf s q r)) = true.
Proof.
  intros s q r N F L.
  assert (F1 : Forall cchar s) by (eapply Forall_impl; [|apply F]; unfold cchar; cbn; intros; lia).
  assert (Rc : cchar r). { unfold legal, cchar in *. destruct L as [L|[L|[L|L]]]; try lia. cbn in L. lia. }
  assert (A : forall c, In c (osmo_identifier_sanitize_buf s q r) -> cchar c /\ legal c).
  { intros c Hc. apply In_nth with (d := 0) in Hc as (i & Hi & <-). unfold osmo_identifier_sanitize_buf in Hi. rewrite map_length in Hi.
    destruct (C51_sanitize_chars s q r i F1 Hi) as (_ & A & B & C & D).
    assert (P : 32 <= nth i s 0 <= 126) by (rewrite Forall_forall in F; apply F, nth_In; auto).
    destruct (legalb (nth i s 0)) eqn:G.
    - apply legalb_spec in G. destruct D as [D|D]; rewrite D; unfold cchar; auto. split; auto; lia.
    - assert (NL : ~ legal (nth i s 0)) by (rewrite <- legalb_spec; congruence). rewrite (C P NL). auto. }
  apply C51_identifier. { apply Forall_forall. intros c Hc. apply A; auto. }
  split; [|intros c Hc; apply A; auto]. destruct s; [congruence|discriminate].
Qed.
Print Assumptions C51_sanitize_valid_partial.

(* the documented guarantee fails for control and 8-bit characters, which are not replaced *)
Theorem C51_sanitize_refuted : exists s, s <> [] /\ Forall cchar s /\ legal 45 /\
  osmo_identifier_valid (Some (osmo_identifier_sanitize_buf s None 45)) = false.
Proof.
  exists [97; 9; 200]. split; [discriminate|]. split; [repeat constructor; unfold cchar; lia|]. split; [|reflexivity].
  unfold legal. right; right; right. cbn. auto.
Qed.
Print Assumptions C51_sanitize_refuted.

Example C51_nonvacuous : osmo_identifier_valid (Some (bs "msc-0:vty_1")) = true /\
  osmo_identifier_valid (Some (bs "a.b")) = false /\ osmo_separated_identifiers_valid (Some (bs "a.b")) (Some (bs ".")) = true /\
  osmo_identifier_sanitize_buf (bs "a.b c") None 45 = bs "a-b-c".
Proof. vm_compute. auto. Qed.
