From Coq Require Import ZArith List Lia Bool.
From Verif Require Import Base Lib S_suart M_suart.
Import ListNotations.
Open Scope Z_scope.

(** * Transmitter *)
Fixpoint lsb (n : nat) (s : Z) : list Z := match n with O => [] | S m => Z.land s 1 :: lsb m (Z.shiftr s 1) end.
Lemma land1 s : Z.land s 1 = b2z (Z.testbit s 0).
Proof. change 1 with (Z.ones 1). rewrite Z.land_ones, Z.bit0_odd by lia. rewrite Zmod_odd. destruct (Z.odd s); reflexivity. Qed.
Lemma lsb_spec n : forall s, lsb n s = map (fun k => b2z (Z.testbit s k)) (zseq 0 n).
Proof.
  induction n as [|n IH]; intros s; [reflexivity|]. cbn [lsb]. rewrite IH. cbn [zseq map]. rewrite land1. f_equal.
  change (0 + 1) with 1.
  assert (H : forall a b m, (forall j, 0 <= j -> Z.testbit (Z.shiftr s 1) (a + j) = Z.testbit s (b + j)) ->
     map (fun k => b2z (Z.testbit (Z.shiftr s 1) k)) (zseq a m) = map (fun k => b2z (Z.testbit s k)) (zseq b m)).
  { intros a b m; revert a b; induction m as [|m IHm]; intros a b H; [reflexivity|]. cbn [zseq map]. f_equal.
    - specialize (H 0 ltac:(lia)). rewrite !Z.add_0_r in H. now rewrite H.
    - apply IHm. intros j Hj. specialize (H (1 + j) ltac:(lia)). now rewrite !Z.add_assoc in H. }
  apply H. intros j Hj. rewrite Z.shiftr_spec by lia. f_equal. lia.
Qed.
Lemma data_bits_lsb n s : data_bits n s = lsb (Z.to_nat n) s.
Proof. unfold data_bits. now rewrite lsb_spec. Qed.
Lemma lsb_bit n : forall s, Forall is_bit (lsb n s).
Proof. induction n; intros s; cbn [lsb]; constructor; auto. rewrite land1. apply b2z_bit. Qed.
Lemma lsb_len n : forall s, length (lsb n s) = n.
Proof. induction n; intros s; cbn [lsb length]; auto. Qed.

Definition sum (l : list Z) := fold_right Z.add 0 l.
Definition par_from (c : conf) (p : Z) (l : list Z) : list Z :=
  match par c with
  | PNone => [] | PEven => [(p + sum l) mod 2] | POdd => [1 - (p + sum l) mod 2] | PMark => [1] | PSpace => [0]
  end.
Definition ones (n : Z) := repeat 1 (Z.to_nat n).
Definition pend (c : conf) (s : tx_st) : list Z :=
  match tx_flow s with
  | IDLE => []
  | DATA => lsb (Z.to_nat (ndata c - tx_cnt s)) (tx_shift s)
            ++ par_from c (tx_par s) (lsb (Z.to_nat (ndata c - tx_cnt s)) (tx_shift s)) ++ ones (nstop c)
  | PARITY => par_from c (tx_par s) [] ++ ones (nstop c)
  | STOP => ones (ndata c + nstop c - tx_cnt s)
  end.
Definition tx_inv (c : conf) (s : tx_st) : Prop :=
  match tx_flow s with
  | IDLE => True
  | DATA => 0 <= tx_cnt s < ndata c /\ is_bit (tx_par s)
  | PARITY => par c <> PNone /\ tx_cnt s = ndata c /\ is_bit (tx_par s)
  | STOP => ndata c <= tx_cnt s < ndata c + nstop c
  end.
Lemma ones_S n : 0 < n -> ones n = 1 :: ones (n - 1).
Proof. intros H. unfold ones. replace (Z.to_nat n) with (S (Z.to_nat (n - 1))) by lia. reflexivity. Qed.
Lemma par_from_cons c p b l : is_bit p -> is_bit b -> par_from c p (b :: l) = par_from c (Z.lxor p b) l.
Proof.
  intros Hp Hb. unfold par_from. cbn [sum fold_right]. fold (sum l).
  assert (E : (p + (b + sum l)) mod 2 = (Z.lxor p b + sum l) mod 2).
  { rewrite Z.add_assoc, (Z.add_mod (p + b)), (Z.add_mod (Z.lxor p b)) by lia. f_equal. f_equal.
    destruct Hp as [-> | ->], Hb as [-> | ->]; reflexivity. }
  rewrite E. reflexivity.
Qed.
Lemma lxor_bit a b : is_bit a -> is_bit b -> is_bit (Z.lxor a b).
Proof. intros [-> | ->] [-> | ->]; cbn; red; auto. Qed.

Lemma tx_bit_busy c s msg : conf_ok c -> tx_inv c s -> tx_flow s <> IDLE ->
  exists b s', tx_bit c s msg = Ok (b, s', msg) /\ pend c s = b :: pend c s' /\ tx_inv c s' /\ tx_run s' = tx_run s.
Proof.
  intros (H1 & H2 & H3) I N. unfold tx_bit, tx_inv in *. destruct (tx_flow s) eqn:F; [congruence| | |].
  - destruct I as [I P]. rewrite u8_small by (unfold is_byte; lia).
    eexists _, _. split; [reflexivity|]. cbn [tx_run]. split; [|split; [|reflexivity]].
    + unfold pend. rewrite F. cbn [tx_flow tx_cnt tx_shift tx_par].
      replace (Z.to_nat (ndata c - tx_cnt s)) with (S (Z.to_nat (ndata c - (tx_cnt s + 1)))) by lia.
      cbn [lsb]. rewrite par_from_cons; [|exact P|rewrite land1; apply b2z_bit].
      cbn [app]. f_equal. destruct (Z.leb_spec (ndata c) (tx_cnt s + 1)).
      * replace (ndata c - (tx_cnt s + 1)) with 0 by lia. cbn [Z.to_nat lsb app].
        unfold par_from. destruct (par c); cbn [tx_flow tx_cnt app]; try reflexivity.
        f_equal. lia.
      * reflexivity.
    + cbn [tx_flow tx_cnt tx_par]. destruct (Z.leb_spec (ndata c) (tx_cnt s + 1)).
      * destruct (par c) eqn:PE; try lia; (split; [congruence|split; [lia|]]; apply lxor_bit; [exact P|rewrite land1; apply b2z_bit]).
      * split; [lia|]. apply lxor_bit; [exact P|rewrite land1; apply b2z_bit].
  - destruct I as (I & C & P). unfold pend. rewrite F. unfold par_from. destruct (par c) eqn:PE; [congruence| | | |];
      eexists _, _; (split; [reflexivity|]); cbn [tx_flow tx_cnt tx_run app]; (split; [|split; [lia|reflexivity]]);
      replace (ndata c + nstop c - tx_cnt s) with (nstop c) by lia; f_equal;
      destruct P as [-> | ->]; reflexivity.
  - rewrite u8_small by (unfold is_byte; lia). eexists _, _. split; [reflexivity|]. cbn [tx_run]. split; [|split; [|reflexivity]].
    + unfold pend. rewrite F. cbn [tx_flow tx_cnt]. rewrite ones_S by lia. f_equal.
      destruct (Z.leb_spec (ndata c + nstop c) (tx_cnt s + 1)).
      * replace (ndata c + nstop c - tx_cnt s - 1) with 0 by lia. reflexivity.
      * f_equal. lia.
    + cbn [tx_flow tx_cnt]. destruct (Z.leb_spec (ndata c + nstop c) (tx_cnt s + 1)); [exact Logic.I|lia].
Qed.
Lemma frame_pend c s b : conf_ok c -> 0 :: pend c (Tx (tx_run s) 0 b 0 DATA) = frame c b.
Proof.
  intros _. unfold frame, pend. cbn [tx_flow tx_cnt tx_shift tx_par app]. rewrite Z.sub_0_r, <- data_bits_lsb.
  unfold par_from, parity_bits, ones_parity. rewrite Z.add_0_l. destruct (par c); reflexivity.
Qed.
Lemma frame_length c b : conf_ok c -> zlen (frame c b) = frame_len c.
Proof.
  intros (H1 & H2 & H3). unfold frame, frame_len, zlen. rewrite !app_length, data_bits_lsb, lsb_len, repeat_length.
  unfold parity_bits. destruct (par c); cbn [length]; lia.
Qed.
Lemma pend_len c s : conf_ok c -> tx_inv c s -> 0 <= zlen (pend c s) < frame_len c.
Proof.
  intros (H1 & H2 & H3) I. split; [apply zlen_nonneg|]. unfold pend, frame_len, zlen, ones, tx_inv in *.
  destruct (tx_flow s); rewrite ?app_length, ?lsb_len, ?repeat_length; unfold par_from; destruct (par c); cbn [length]; lia.
Qed.
Lemma pend_idle c s : conf_ok c -> tx_inv c s -> (pend c s = [] <-> tx_flow s = IDLE).
Proof.
  intros C I. split.
  - intros E. destruct (tx_flow s) eqn:F; [reflexivity| | |];
      destruct (tx_bit_busy c s [] C I ltac:(congruence)) as (b & s' & _ & P & _); rewrite P in E; discriminate.
  - intros F. unfold pend. now rewrite F.
Qed.

(** One pass of the transmit loop: what goes on the line and what is left. *)
Definition need (c : conf) (s : tx_st) (m : Z) : Z := if m =? 0 then 0 else zlen (pend c s) + frame_len c * (m - 1) + 1.
Lemma tx_loop_ok c : conf_ok c -> forall n s msg cs out, tx_inv c s ->
  on_line c cs (out ++ pend c s) ->
  exists l s' rest used, tx_loop n c s msg = Ok (l, s', rest) /\ msg = used ++ rest /\ tx_inv c s' /\ tx_run s' = tx_run s /\
    length l = n /\ on_line c (cs ++ used) ((out ++ l) ++ pend c s') /\
    (need c s (zlen msg) <= Z.of_nat n -> rest = []).
Proof.
  intros C. induction n as [|n IH]; intros s msg cs out I L.
  - exists [], s, msg, []. rewrite !app_nil_r. repeat split; auto.
    unfold need. destruct (Z.eqb_spec (zlen msg) 0) as [E|E].
    + intros _. destruct msg; [reflexivity|]. rewrite zlen_cons in E. pose proof (zlen_nonneg msg). lia.
    + pose proof (pend_len c s C I). pose proof (zlen_nonneg msg).
      assert (0 < frame_len c) by lia. intros Hc. assert (0 <= frame_len c * (zlen msg - 1)) by (apply Z.mul_nonneg_nonneg; lia). lia.
  - cbn [tx_loop].
    assert (S1 : exists b s1 msg1 u, tx_bit c s msg = Ok (b, s1, msg1) /\ msg = u ++ msg1 /\ tx_inv c s1 /\ tx_run s1 = tx_run s /\
               on_line c (cs ++ u) ((out ++ [b]) ++ pend c s1) /\
               (need c s (zlen msg) <= Z.of_nat (S n) -> need c s1 (zlen msg1) <= Z.of_nat n)).
    { destruct (tx_flow s) eqn:F.
      - assert (P0 : pend c s = []) by (unfold pend; now rewrite F).
        unfold tx_bit. rewrite F. rewrite P0, app_nil_r in L. destruct msg as [|b t].
        + exists 1, s, [], []. repeat split; auto.
          * rewrite P0, !app_nil_r. now apply line_idle.
          * unfold need. cbn. lia.
        + eexists _, _, t, [b]. split; [reflexivity|]. split; [reflexivity|].
          assert (I1 : tx_inv c (Tx (tx_run s) 0 b 0 DATA)) by (cbn; destruct C as (C1 & _); split; [lia|left; reflexivity]).
          split; [exact I1|]. split; [reflexivity|].
          split.
          * rewrite <- app_assoc. cbn [app]. rewrite frame_pend by exact C. now apply line_char.
          * unfold need. rewrite P0. rewrite zlen_cons. pose proof (zlen_nonneg t).
            destruct (Z.eqb_spec (1 + zlen t) 0); [lia|]. replace (1 + zlen t - 1) with (zlen t) by lia.
            intros Hn. assert (PL : zlen (pend c (Tx (tx_run s) 0 b 0 DATA)) = frame_len c - 1).
            { rewrite <- (frame_length c b C), <- (frame_pend c s b C), zlen_cons. lia. }
            rewrite PL. change (zlen (@nil Z)) with 0 in Hn. destruct (Z.eqb_spec (zlen t) 0); [lia|].
            rewrite Z.mul_sub_distr_l. lia.
      - destruct (tx_bit_busy c s msg C I ltac:(congruence)) as (b & s1 & E & P & I1 & R). exists b, s1, msg, [].
        repeat split; auto; [rewrite app_nil_r, <- app_assoc; cbn [app]; rewrite <- P; exact L|].
        unfold need. rewrite P, zlen_cons. destruct (zlen msg =? 0); lia.
      - destruct (tx_bit_busy c s msg C I ltac:(congruence)) as (b & s1 & E & P & I1 & R). exists b, s1, msg, [].
        repeat split; auto; [rewrite app_nil_r, <- app_assoc; cbn [app]; rewrite <- P; exact L|].
        unfold need. rewrite P, zlen_cons. destruct (zlen msg =? 0); lia.
      - destruct (tx_bit_busy c s msg C I ltac:(congruence)) as (b & s1 & E & P & I1 & R). exists b, s1, msg, [].
        repeat split; auto; [rewrite app_nil_r, <- app_assoc; cbn [app]; rewrite <- P; exact L|].
        unfold need. rewrite P, zlen_cons. destruct (zlen msg =? 0); lia. }
    destruct S1 as (b & s1 & msg1 & u & E & Em & I1 & R1 & L1 & N1). rewrite E. cbn [bind].
    destruct (IH s1 msg1 (cs ++ u) (out ++ [b]) I1 L1) as (l & s' & rest & used & E2 & Em2 & I2 & R2 & Ll & L2 & N2).
    rewrite E2. cbn [bind]. exists (b :: l), s', rest, (u ++ used). split; [reflexivity|].
    rewrite <- !app_assoc in *. cbn [app] in *. subst msg msg1. repeat split; auto; try congruence.
    cbn [length]. lia.
Qed.
Lemma tx_pending_ok c : conf_ok c -> forall n s cs out, tx_inv c s ->
  on_line c cs (out ++ pend c s) ->
  exists l s', tx_pending n c s = Ok (l, s') /\ tx_inv c s' /\ tx_run s' = tx_run s /\ on_line c cs ((out ++ l) ++ pend c s') /\
    pend c s = l ++ pend c s' /\ zlen l = Z.min (Z.of_nat n) (zlen (pend c s)).
Proof.
  intros C. induction n as [|n IH]; intros s cs out I L.
  - exists [], s. rewrite app_nil_r. repeat split; auto. pose proof (zlen_nonneg (pend c s)). change (zlen (@nil Z)) with 0. lia.
  - cbn [tx_pending].
    assert (D : tx_flow s = IDLE \/ tx_flow s <> IDLE) by (destruct (tx_flow s); auto; right; discriminate).
    destruct D as [F|F].
    + rewrite F. exists [], s. rewrite app_nil_r. repeat split; auto.
      replace (pend c s) with (@nil Z) by (unfold pend; now rewrite F). change (zlen (@nil Z)) with 0. lia.
    + destruct (tx_bit_busy c s [] C I F) as (b & s1 & E & P & I1 & R).
      rewrite P in L. change (b :: pend c s1) with ([b] ++ pend c s1) in L. rewrite app_assoc in L.
      destruct (IH s1 cs (out ++ [b]) I1 L) as (l & s' & E2 & I2 & R2 & L2 & P2 & Z2).
      exists (b :: l), s'. split.
      { destruct (tx_flow s); try congruence; rewrite E; cbn [bind]; rewrite E2; reflexivity. }
      rewrite <- !app_assoc in *. cbn [app] in *. repeat split; auto; try congruence.
      rewrite P, !zlen_cons. lia.
Qed.

Lemma tx_ubits_ok c fc st n cb s cs out : conf_ok c -> 0 <= n -> (forall k, 0 <= k -> zlen (cb k) <= k) ->
  tx_inv c s -> tx_run s = true -> on_line c cs (out ++ pend c s) ->
  exists r l s' taken, tx_ubits c fc st s n cb = Ok (r, l, s', taken, []) /\ tx_inv c s' /\ tx_run s' = true /\
    on_line c (cs ++ taken) ((out ++ l) ++ pend c s') /\
    (r = if n =? 0 then - EINVAL else zlen l) /\
    (zlen l = if held_off fc st then Z.min n (zlen (pend c s)) else n) /\
    (held_off fc st = true -> taken = []).
Proof.
  intros C Hn Hcb I R L. unfold tx_ubits. destruct (Z.eqb_spec n 0) as [E|E].
  - subst n. exists (- EINVAL), [], s, []. rewrite !app_nil_r. repeat split; auto. change (zlen (@nil Z)) with 0. pose proof (zlen_nonneg (pend c s)).
    destruct (held_off fc st); lia.
  - rewrite R. cbn [negb]. destruct (held_off fc st) eqn:H.
    + destruct (tx_pending_ok c C (Z.to_nat n) s cs out I L) as (l & s' & E1 & I1 & R1 & L1 & P1 & Z1). rewrite E1. cbn [bind].
      exists (zlen l), l, s', []. rewrite app_nil_r. repeat split; auto; try congruence. rewrite Z1. lia.
    + set (F := 1 + ndata c + nstop c + _). assert (EF : F = frame_len c) by (unfold F, frame_len; destruct (par c); lia).
      clearbody F. subst F. pose proof (pend_len c s C I) as PL. assert (HF : 0 < frame_len c) by lia.
      set (nc := if n / frame_len c =? 0 then _ else _).
      assert (Hnc : 0 <= nc /\ (nc = 0 \/ zlen (pend c s) + frame_len c * (nc - 1) + 1 <= n)).
      { unfold nc. pose proof (Z.div_pos n (frame_len c) Hn HF). pose proof (Z.mul_div_le n (frame_len c) HF).
        destruct (Z.eqb_spec (n / frame_len c) 0).
        - destruct (tx_flow s) eqn:Fl; split; try lia. right.
          replace (pend c s) with (@nil Z) by (unfold pend; now rewrite Fl). change (zlen (@nil Z)) with 0. lia.
        - split; [lia|]. right. rewrite Z.mul_sub_distr_l. lia. }
      clearbody nc. set (msg := if 0 <? nc then _ else _).
      assert (Hm : zlen msg <= u16 nc /\ u16 nc <= nc).
      { split; [|unfold u16; apply Z.mod_le; lia]. unfold msg. destruct (Z.ltb_spec 0 nc); [apply Hcb, u16_range|]. change (zlen (@nil Z)) with 0. apply u16_range. }
      clearbody msg. destruct (Z.ltb_spec (u16 nc) (zlen msg)); [lia|].
      destruct (tx_loop_ok c C (Z.to_nat n) s msg cs out I L) as (l & s' & rest & used & E1 & Em & I1 & R1 & Ll & L1 & N1).
      assert (rest = []).
      { apply N1. unfold need. rewrite Z2Nat.id by lia. destruct (Z.eqb_spec (zlen msg) 0); [lia|]. pose proof (zlen_nonneg msg).
        destruct Hnc as [Hz [Hq|Hq]]; [lia|]. assert (frame_len c * (zlen msg - 1) <= frame_len c * (nc - 1)) by (apply Z.mul_le_mono_nonneg_l; lia). lia. }
      subst rest. rewrite app_nil_r in Em. subst used. rewrite E1. cbn [bind]. exists n, l, s', msg. repeat split; auto; try congruence; unfold zlen; lia.
Qed.
Definition pull_ok (p : pull) : Prop := 0 <= p_n p /\ forall k, 0 <= k -> zlen (p_cb p k) <= k.
Lemma pulls_ok c : conf_ok c -> forall l s cs out, Forall pull_ok l -> tx_inv c s -> tx_run s = true -> on_line c cs (out ++ pend c s) ->
  exists bits taken s', pulls c s l = Ok (bits, taken, s') /\ tx_inv c s' /\ tx_run s' = true /\ on_line c (cs ++ taken) ((out ++ bits) ++ pend c s').
Proof.
  intros C. induction l as [|p l IH]; intros s cs out H I R L.
  - exists [], [], s. rewrite !app_nil_r. auto.
  - inversion H as [|? ? [H1 H2] H3]; subst. cbn [pulls].
    destruct (tx_ubits_ok c (p_fc p) (p_status p) (p_n p) (p_cb p) s cs out C H1 H2 I R L) as (r & b & s1 & tk & E & I1 & R1 & L1 & _).
    rewrite E. cbn [bind]. destruct (IH s1 _ _ H3 I1 R1 L1) as (b2 & tk2 & s2 & E2 & I2 & R2 & L2). rewrite E2. cbn [bind].
    eexists _, _, _. split; [reflexivity|]. rewrite !app_assoc in *. auto.
Qed.
