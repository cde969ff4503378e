From Coq Require Import ZArith List Lia Bool.
From Verif Require Import Base Lib S_crc16 S_hdlc M_bits M_crc16 M_hdlc P_bits P_crc16.
Import ListNotations.
Open Scope Z_scope.

(** * Bits of an octet, most significant first *)
Definition rb (c : Z) (n : nat) : list Z := map (fun k => b2z (Z.testbit c (7 - k))) (zseq 0 n).
Lemma rb_8 c : rb c 8 = rev (octet_bits c).
Proof. reflexivity. Qed.
Lemma octet_bits_rev o : is_byte o -> octet_bits (osmo_revbytebits_8 o) = rev (octet_bits o).
Proof.
  intros Ho. unfold octet_bits. cbn [map rev app]. rewrite !revbytebits_8_bits by (auto; lia). reflexivity.
Qed.
Lemma line_bits_cons brev o l : line_bits brev (o :: l) = (if brev then rev (octet_bits o) else octet_bits o) ++ line_bits brev l.
Proof. reflexivity. Qed.
Lemma line_bits_app brev a b : line_bits brev (a ++ b) = line_bits brev a ++ line_bits brev b.
Proof. apply flat_map_app. Qed.
Lemma shl_top c k : is_byte c -> 0 <= k < 7 -> Z.testbit (u8 (Z.shiftl c 1)) (7 - k) = Z.testbit c (6 - k).
Proof.
  intros Hc Hk. rewrite testbit_u8. rewrite Z.shiftl_spec by lia. replace (7 - k - 1) with (6 - k) by lia.
  destruct (Z.ltb_spec (7 - k) 8); [reflexivity|lia].
Qed.
Lemma rb_cons c n : is_byte c -> (S n <= 8)%nat -> rb c (S n) = b2z (Z.testbit c 7) :: rb (u8 (Z.shiftl c 1)) n.
Proof.
  intros Hc Hn. unfold rb. cbn [zseq map]. change (7 - 0) with 7. f_equal. change (0 + 1) with 1.
  assert (H : forall m a, 0 <= a -> a + Z.of_nat m <= 7 ->
     map (fun k => b2z (Z.testbit c (7 - k))) (zseq (a + 1) m) = map (fun k => b2z (Z.testbit (u8 (Z.shiftl c 1)) (7 - k))) (zseq a m)).
  { induction m as [|m IHm]; intros a Ha Hm; [reflexivity|]. cbn [zseq map]. rewrite shl_top by (auto; lia). f_equal; [|apply IHm; lia].
    now replace (7 - (a + 1)) with (6 - a) by lia. }
  exact (H n 0 ltac:(lia) ltac:(lia)).
Qed.
Lemma rb_length c n : length (rb c n) = n.
Proof. unfold rb. now rewrite map_length, zseq_length. Qed.

(** * Reference receiver, bit by bit *)
Record rst := R { r_b1 : Z; r_db : Z; r_sr : Z; r_crc : Z; r_rcv : bool; r_acc : list Z }.
Definition shin (sr b : Z) : Z := if b =? 1 then Z.lor (Z.shiftr sr 1) 128 else Z.shiftr sr 1.
Definition push (b1 : Z) (s : rst) (b : Z) : rst :=
  if r_db s + 1 =? 8 then R b1 0 (shin (r_sr s) b) (osmo_crc16_ccitt_byte (r_crc s) (shin (r_sr s) b)) true (r_acc s ++ [shin (r_sr s) b])
  else R b1 (r_db s + 1) (shin (r_sr s) b) (r_crc s) (r_rcv s) (r_acc s).
Definition set_b1 (b1 : Z) (s : rst) : rst := R b1 (r_db s) (r_sr s) (r_crc s) (r_rcv s) (r_acc s).
Definition rreset : rst := R 0 0 0 65535 false [].
Definition revent (s : rst) : list (Z * list Z) :=
  if r_rcv s then
    let n := zlen (r_acc s) in
    if n <? 2 then [(-1, [])] else if negb (r_crc s =? 61624) then [(-2, [])]
    else if n =? 2 then [] else [(n - 2, firstn (Z.to_nat (n - 2)) (r_acc s))]
  else [].
Definition rstep (s : rst) (b : Z) : rst * list (Z * list Z) :=
  if b =? 1 then
    (if r_b1 s =? 5 then set_b1 6 s else push (r_b1 s + 1) s b, [])
  else
    if r_b1 s =? 5 then (set_b1 0 s, [])
    else if r_b1 s =? 6 then (rreset, revent s)
    else (push 0 s b, []).
Fixpoint rrun (s : rst) (l : list Z) : rst * list (Z * list Z) :=
  match l with [] => (s, []) | b :: t => let (s1, e1) := rstep s b in let (s2, e2) := rrun s1 t in (s2, e1 ++ e2) end.
Lemma rrun_app l1 : forall s l2, rrun s (l1 ++ l2) = let (s1, e1) := rrun s l1 in let (s2, e2) := rrun s1 l2 in (s2, e1 ++ e2).
Proof.
  induction l1 as [|b t IH]; intros s l2; cbn [app rrun].
  - destruct (rrun s l2); reflexivity.
  - destruct (rstep s b) as [s' o]. rewrite IH. destruct (rrun s' t) as [s1 o1]. destruct (rrun s1 l2). now rewrite app_assoc.
Qed.
(** no seven ones in a row, and the octets fit *)
Fixpoint okrun (dsize : Z) (s : rst) (l : list Z) : Prop :=
  match l with
  | [] => True
  | b :: t => is_bit b /\ ~ (b = 1 /\ r_b1 s = 6) /\ zlen (r_acc (fst (rstep s b))) <= dsize /\ okrun dsize (fst (rstep s b)) t
  end.
Lemma okrun_app dsize l1 : forall s l2, okrun dsize s (l1 ++ l2) <-> okrun dsize s l1 /\ okrun dsize (fst (rrun s l1)) l2.
Proof.
  induction l1 as [|b t IH]; intros s l2; cbn [app okrun rrun fst]; [tauto|]. rewrite IH.
  destruct (rstep s b) as [s' e]. cbn [fst]. destruct (rrun s' t); cbn [fst]. tauto.
Qed.
Lemma ones_bad dsize n : forall s, okrun dsize s (repeat 1 n) -> r_b1 s + Z.of_nat n <= 6 \/ 6 < r_b1 s \/ n = O.
Proof.
  induction n as [|n IH]; intros s H; [auto|]. cbn [repeat okrun] in H. destruct H as (_ & N & _ & H). apply IH in H.
  unfold rstep in H. cbn [Z.eqb Pos.eqb] in H. assert (r_b1 s <> 6) by (intros E; apply N; auto).
  destruct (Z.eqb_spec (r_b1 s) 5) as [E|E]; cbn [fst set_b1 r_b1] in H; [lia|].
  assert (r_b1 (push (r_b1 s + 1) s 1) = r_b1 s + 1) as P by (unfold push; destruct (_ =? 8); reflexivity).
  rewrite P in H. lia.
Qed.

(** * Simulation *)
Definition pref (b : Z) : rst :=
  if b =? 8 then R 6 6 248 65535 false [] else R (Z.max (b - 2) 0) (b - 1) (at0 fast_abort (b - 1)) 65535 false [].
Definition rinv (s : rst) : Prop := 0 <= r_b1 s <= 6 /\ 0 <= r_db s < 8 /\ (r_rcv s = false -> r_acc s = []) /\ 0 <= r_crc s < 65536.
Inductive sim (dsize : Z) : dec -> list Z -> rst -> Prop :=
| sim_data : forall bs b1 db ffs dp crc cb sr ff rcv dst acc,
    (bs <= 8)%nat -> is_byte cb -> zlen dst = dsize -> dp = zlen acc -> firstn (length acc) dst = acc -> zlen acc <= dsize ->
    rinv (R b1 db sr crc rcv acc) ->
    sim dsize (D (Z.of_nat bs) b1 db ffs GET_DATA dp crc cb sr ff rcv) dst (R b1 db sr crc rcv acc)
| sim_flag : forall bs b1 db ffs cb sr rcv dst,
    (bs = O \/ bs = 8%nat) -> is_byte cb -> zlen dst = dsize -> 1 <= ffs <= 8 ->
    sim dsize (D (Z.of_nat bs) b1 db ffs FAST_FLAG 0 65535 cb sr (at0 fast_flag_value ffs) rcv) dst (pref ffs)
| sim_b7 : forall b1 db ffs cb sr ff crc rcv dst,
    is_byte cb -> zlen dst = dsize ->
    sim dsize (D 8 b1 db ffs GETFLAG_B7 0 crc cb sr ff rcv) dst (pref 8).
Definition left_bits (h : dec) : list Z := rb (d_cb h) (Z.to_nat (d_bs h)).
Definition weight (h : dec) : Z := 2 * d_bs h + (match d_st h with FAST_FLAG => 1 | _ => 0 end).
Definition evs (r : Z) (dst : list Z) : list (Z * list Z) := if r =? 0 then [] else [(r, firstn (Z.to_nat r) dst)].

Lemma u8_byte x : is_byte (u8 x).
Proof. apply u8_range. Qed.
Lemma push_acc b1 s b : r_acc (push b1 s b) = if r_db s + 1 =? 8 then r_acc s ++ [shin (r_sr s) b] else r_acc s.
Proof. unfold push. destruct (_ =? 8); reflexivity. Qed.
Lemma crc_byte_range c o : 0 <= c < 65536 -> 0 <= osmo_crc16_ccitt_byte c o < 65536.
Proof. apply step_range. Qed.
Lemma firstn_wr (dst : list Z) acc v dst' : firstn (length acc) dst = acc -> wr dst (zlen acc) v = Ok dst' ->
  firstn (length (acc ++ [v])) dst' = acc ++ [v] /\ zlen dst' = zlen dst.
Proof.
  intros HF HW. unfold wr in HW. destruct (Z.ltb_spec (zlen acc) 0) as [|B1]; [discriminate|].
  destruct (Z.leb_spec (Z.of_nat (length dst)) (zlen acc)) as [|B2]; [discriminate|]. injection HW as <-. split; [|apply zlen_upd].
  unfold zlen in *. rewrite Nat2Z.id. rewrite app_length. cbn [length].
  assert (L : (length acc < length dst)%nat) by lia.
  transitivity (firstn (length acc) dst ++ [v]); [|now rewrite HF].
  clear -L. revert dst L. generalize (length acc). induction n as [|n IH]; intros dst L; destruct dst as [|d dst]; cbn [length] in L; try lia.
  - reflexivity.
  - cbn [upd Nat.add firstn app]. f_equal. apply IH. lia.
Qed.

Lemma rd_at0 (l : list Z) i : 0 <= i < zlen l -> rd l i = Ok (at0 l i).
Proof.
  intros H. unfold rd, at0, zlen in *. destruct (Z.ltb_spec i 0); [lia|]. destruct (nth_error l (Z.to_nat i)) eqn:E.
  - now rewrite (nth_error_nth _ _ _ E).
  - apply nth_error_None in E. lia.
Qed.
Lemma rrun_flag s ev t p : rstep s 0 = (rreset, ev) -> rrun rreset t = (p, []) -> rrun s (0 :: t) = (p, ev).
Proof. intros E1 E2. cbn [rrun]. rewrite E1, E2. now rewrite app_nil_r. Qed.
Lemma check_event dsize db sr crc rcv acc dst : firstn (length acc) dst = acc -> (rcv = false -> acc = []) -> zlen dst = dsize ->
  exists status dp, (if rcv then check_frame (zlen acc) crc else (0, zlen acc)) = (status, dp) /\
    revent (R 6 db sr crc rcv acc) = evs status dst /\ (status = 0 -> dp = 0).
Proof.
  intros HF HI HD. destruct rcv; unfold revent; cbn [r_rcv r_acc r_crc].
  - unfold check_frame. destruct (Z.ltb_spec (zlen acc) 2); [eexists _, _; split; [reflexivity|]; split; [reflexivity|discriminate]|].
    destruct (Z.eqb_spec crc 61624); cbn [negb]; [|eexists _, _; split; [reflexivity|]; split; [reflexivity|discriminate]].
    eexists _, _; split; [reflexivity|]. unfold evs. destruct (Z.eqb_spec (zlen acc) 2); [split; [|lia]|split; [|lia]].
    + destruct (Z.eqb_spec (zlen acc - 2) 0); [reflexivity|lia].
    + destruct (Z.eqb_spec (zlen acc - 2) 0); [lia|]. do 2 f_equal. rewrite <- HF at 2. rewrite firstn_firstn. f_equal. unfold zlen. lia.
  - rewrite (HI eq_refl). exists 0, 0. split; [reflexivity|]. split; reflexivity.
Qed.
Lemma rd_range8 (l : list Z) i : zlen l = 9 -> 0 <= i <= 8 -> rd l i = Ok (at0 l i).
Proof. intros. apply rd_at0. lia. Qed.

Lemma sim_step cfg dsize h dst s fut : h_adapt56 cfg = false -> sim dsize h dst s -> 1 <= d_bs h ->
  okrun dsize s (left_bits h ++ fut) ->
  exists h2 dst2 st ret used, dec_step cfg dsize h dst 0 = Ok (h2, dst2, st, ret) /\
    left_bits h = used ++ left_bits h2 /\ sim dsize h2 dst2 (fst (rrun s used)) /\ snd (rrun s used) = evs st dst2 /\
    (ret = false -> st = 0) /\ weight h2 < weight h /\ 0 <= d_bs h2 <= 8.
Proof.
  intros A56 S HB OK. destruct S as [bs b1 db ffs dp crc cb sr ff rcv dst acc Hbs Hcb HD Hdp HF HA (I1 & I2 & I3 & I4)
                                    |bs b1 db ffs cb sr rcv dst Hbs Hcb HD Hff|b1 db ffs cb sr ff crc rcv dst Hcb HD].
  - (* GET_DATA *)
    cbn [d_bs d_cb] in *. destruct bs as [|n]; [lia|]. cbn [r_b1 r_db r_rcv r_acc r_crc] in *.
    unfold left_bits in *. cbn [d_cb d_bs] in *. rewrite Nat2Z.id in *. rewrite rb_cons in * by assumption.
    set (cb2 := u8 (Z.shiftl cb 1)) in *. assert (Hcb2 : is_byte cb2) by apply u8_byte.
    cbn [app okrun] in OK. destruct OK as (Hbit & Hno & Hfit & OK).
    set (bit := b2z (Z.testbit cb 7)) in *.
    assert (Ebs : Z.of_nat (S n) - 1 = Z.of_nat n) by lia.
    (* common: a step that consumes exactly one bit and stays in GET_DATA *)
    assert (ONE : forall b1' db' crc' sr' rcv' acc' dst2 ffs' ff' status,
       zlen dst2 = dsize -> firstn (length acc') dst2 = acc' -> zlen acc' <= dsize -> rinv (R b1' db' sr' crc' rcv' acc') ->
       rstep (R b1 db sr crc rcv acc) bit = (R b1' db' sr' crc' rcv' acc', evs status dst2) ->
       let h2 := D (Z.of_nat n) b1' db' ffs' GET_DATA (zlen acc') crc' cb2 sr' ff' rcv' in
       bit :: rb cb2 n = [bit] ++ left_bits h2 /\ sim dsize h2 dst2 (fst (rrun (R b1 db sr crc rcv acc) [bit])) /\
       snd (rrun (R b1 db sr crc rcv acc) [bit]) = evs status dst2 /\ weight h2 < weight (D (Z.of_nat (S n)) b1 db ffs GET_DATA dp crc cb sr ff rcv) /\ 0 <= d_bs h2 <= 8).
    { intros b1' db' crc' sr' rcv' acc' dst2 ffs' ff' status K1 K2 K3 K4 E. cbn zeta. unfold left_bits. cbn [d_cb d_bs]. rewrite Nat2Z.id.
      split; [reflexivity|]. cbn [rrun]. rewrite E. cbn [fst snd]. rewrite app_nil_r. split; [constructor; auto; lia|]. split; [reflexivity|].
      unfold weight. cbn [d_bs d_st]. lia. }
    (* pushing a bit *)
    assert (PUSH : forall b1' v, 0 <= b1' <= 6 -> v = bit -> rstep (R b1 db sr crc rcv acc) bit = (push b1' (R b1 db sr crc rcv acc) bit, []) ->
       exists h2 dst2 st ret used,
         (if negb (0 =? 0) then Ok (D (Z.of_nat (S n) - 1) b1' (db + 1) ffs GET_DATA 0 crc cb2 (shin sr bit) ff rcv, dst, 0, true)
          else if db + 1 =? 8 then
            let crc := osmo_crc16_ccitt_byte crc (shin sr bit) in
            if dp <? dsize then do dst <- wr dst dp (shin sr bit) ;; Ok (D (Z.of_nat (S n) - 1) b1' 0 ffs GET_DATA (dp + 1) crc cb2 (shin sr bit) ff true, dst, 0, false)
            else Ok (D (Z.of_nat (S n) - 1) b1' 0 ffs GET_DATA 0 crc cb2 (shin sr bit) ff true, dst, -3, false)
          else Ok (D (Z.of_nat (S n) - 1) b1' (db + 1) ffs GET_DATA dp crc cb2 (shin sr bit) ff rcv, dst, 0, false)) = Ok (h2, dst2, st, ret) /\
         bit :: rb cb2 n = used ++ left_bits h2 /\ sim dsize h2 dst2 (fst (rrun (R b1 db sr crc rcv acc) used)) /\ snd (rrun (R b1 db sr crc rcv acc) used) = evs st dst2 /\
         (ret = false -> st = 0) /\ weight h2 < weight (D (Z.of_nat (S n)) b1 db ffs GET_DATA dp crc cb sr ff rcv) /\ 0 <= d_bs h2 <= 8).
    { intros b1' v Hb1' _ E. cbn [Z.eqb negb]. rewrite Ebs. rewrite E in Hfit. cbn [fst] in Hfit. rewrite push_acc in Hfit. cbn [r_db r_acc r_sr] in Hfit.
      unfold push in E. cbn [r_db r_sr r_acc r_crc r_rcv] in E. destruct (Z.eqb_spec (db + 1) 8) as [E8|E8].
      - rewrite zlen_app in Hfit. change (zlen [shin sr bit]) with 1 in Hfit. cbn zeta.
        destruct (Z.ltb_spec dp dsize); [|lia].
        destruct (wr dst dp (shin sr bit)) as [dst'| | |] eqn:W; [|exfalso; revert W; unfold wr; fold (zlen dst); pose proof (zlen_nonneg acc); destruct (Z.ltb_spec dp 0); [lia|]; destruct (Z.leb_spec (zlen dst) dp); [lia|discriminate]..].
        cbn [bind]. subst dp. destruct (firstn_wr dst acc _ dst' HF W) as [F1 F2].
        replace (zlen acc + 1) with (zlen (acc ++ [shin sr bit])) by (rewrite zlen_app; reflexivity).
        eexists _, dst', 0, false, [bit]. split; [reflexivity|].
        destruct (ONE b1' 0 (osmo_crc16_ccitt_byte crc (shin sr bit)) (shin sr bit) true (acc ++ [shin sr bit]) dst' ffs ff 0) as (O1 & O2 & O3 & O4 & O5); auto.
        + congruence.
        + rewrite zlen_app. change (zlen [shin sr bit]) with 1. lia.
        + split; [exact Hb1'|]. cbn [r_db r_rcv r_crc]. split; [lia|]. split; [discriminate|]. now apply crc_byte_range.
        + repeat split; auto; lia.
      - subst dp. eexists _, dst, 0, false, [bit]. split; [reflexivity|].
        destruct (ONE b1' (db + 1) crc (shin sr bit) rcv acc dst ffs ff 0) as (O1 & O2 & O3 & O4 & O5); auto.
        + split; [exact Hb1'|]. cbn [r_db r_rcv r_crc]. split; [lia|]. split; [exact I3|exact I4].
        + repeat split; auto; lia. }
    unfold dec_step. fold cb2. subst dp. unfold bit in *. destruct (Z.testbit cb 7) eqn:TB; cbn [b2z] in *.
    + (* bit 1 *)
      assert (b1 <> 6) by (intros E; apply Hno; auto).
      destruct (Z.eqb_spec (b1 + 1) 6) as [E6|E6]; [|destruct (Z.eqb_spec (b1 + 1) 7); [lia|]].
      * cbn [bind Z.eqb negb]. rewrite Ebs. destruct (Z.eqb_spec db 8); [lia|].
        eexists _, dst, 0, false, [1]. split; [reflexivity|].
        destruct (ONE 6 db crc sr rcv acc dst ffs ff 0) as (O1 & O2 & O3 & O4 & O5); auto.
        { split; cbn; auto; try lia. }
        { unfold rstep. cbn [Z.eqb Pos.eqb r_b1]. destruct (Z.eqb_spec b1 5); [reflexivity|lia]. }
        rewrite E6. repeat split; auto; lia.
      * cbn [bind]. apply (PUSH (b1 + 1) 1); auto; [lia|]. unfold rstep. cbn [Z.eqb Pos.eqb r_b1]. destruct (Z.eqb_spec b1 5); [lia|reflexivity].
    + (* bit 0 *)
      destruct (Z.eqb_spec b1 5) as [E5|E5]; [|destruct (Z.eqb_spec b1 6) as [E6|E6]].
      * cbn [bind Z.eqb negb]. rewrite Ebs. destruct (Z.eqb_spec db 8); [lia|].
        eexists _, dst, 0, false, [0]. split; [reflexivity|].
        destruct (ONE 0 db crc sr rcv acc dst ffs ff 0) as (O1 & O2 & O3 & O4 & O5); auto.
        { split; cbn; auto; try lia. }
        { unfold rstep. cbn [Z.eqb r_b1]. destruct (Z.eqb_spec b1 5); [reflexivity|lia]. }
        repeat split; auto; lia.
      * subst b1. destruct (check_event dsize db sr crc rcv acc dst HF I3 HD) as (status & dp' & E1 & E2 & E3). rewrite E1, A56. cbn [negb].
        assert (ER : rstep (R 6 db sr crc rcv acc) 0 = (rreset, evs status dst)) by (rewrite <- E2; reflexivity).
        rewrite (rd_range8 fast_flag) by (first [reflexivity|lia]). cbn [bind].
        destruct (Z.eqb_spec cb (at0 fast_flag (Z.of_nat (S n)))) as [EC|EC].
        -- rewrite (rd_range8 fast_flag_value) by (first [reflexivity|lia]). cbn [bind]. change (0 =? 8) with false. cbn match.
           assert (RUN : rrun (R 6 db sr crc rcv acc) (0 :: rb cb2 n) = (pref (Z.of_nat (S n)), evs status dst)).
           { apply rrun_flag; [exact ER|]. unfold cb2. rewrite EC. clear - Hbs. do 8 (destruct n as [|n]; [reflexivity|]). lia. }
           assert (W1 : forall dd, weight (D 0 0 0 (Z.of_nat (S n)) FAST_FLAG dd 65535 cb2 0 (at0 fast_flag_value (Z.of_nat (S n))) rcv) < weight (D (Z.of_nat (S n)) 6 db ffs GET_DATA (zlen acc) crc cb sr ff rcv))
             by (intros; unfold weight; cbn [d_bs d_st]; lia).
           destruct (Z.eqb_spec status 0) as [E0|E0]; cbn [negb].
           ++ rewrite (E3 E0). eexists _, dst, status, false, (0 :: rb cb2 n). split; [reflexivity|]. unfold left_bits. cbn [d_cb d_bs]. change (1 - 1) with (Z.of_nat 0).
              rewrite RUN. cbn [fst snd]. split; [now rewrite app_nil_r|]. split; [constructor; auto; lia|]. repeat split; auto; try lia; apply W1.
           ++ eexists _, dst, status, true, (0 :: rb cb2 n). split; [reflexivity|]. unfold left_bits. cbn [d_cb d_bs]. change (1 - 1) with (Z.of_nat 0).
              rewrite RUN. cbn [fst snd]. split; [now rewrite app_nil_r|]. split; [constructor; auto; lia|]. repeat split; auto; try lia; apply W1.
        -- change (0 =? 8) with false. cbn match.
           destruct (ONE 0 0 65535 0 false [] dst ffs ff status) as (O1 & O2 & O3 & O4 & O5); auto.
           { split; cbn; [lia|]. split; [lia|]. split; [auto|lia]. }
           change (zlen []) with 0 in *. cbn [bind]. change (0 =? 8) with false. cbn match. rewrite Ebs.
           destruct (Z.eqb_spec status 0) as [E0|E0]; cbn [negb bind].
           ++ rewrite (E3 E0). cbn [bind]. eexists _, dst, status, false, [0]. split; [reflexivity|]. repeat split; auto; lia.
           ++ cbn [bind]. eexists _, dst, status, true, [0]. split; [reflexivity|]. repeat split; auto; try lia.
      * cbn [bind]. apply (PUSH 0 0); auto; [lia|]. unfold rstep. cbn [Z.eqb r_b1].
        destruct (Z.eqb_spec b1 5); [lia|]. destruct (Z.eqb_spec b1 6); [lia|]. reflexivity.
  - (* FAST_FLAG *)
    destruct Hbs as [-> | ->]; cbn [d_bs] in HB; [lia|]. unfold left_bits in *. cbn [d_cb d_bs] in *. change (Z.to_nat (Z.of_nat 8)) with 8%nat in *.
    unfold dec_step. destruct (Z.eqb_spec cb (at0 fast_flag_value ffs)) as [EC|EC].
    + eexists _, dst, 0, false, (rb cb 8). split; [reflexivity|]. cbn [d_cb d_bs]. split; [now rewrite app_nil_r|].
      assert (RUN : rrun (pref ffs) (rb cb 8) = (pref ffs, [])).
      { rewrite EC. assert (K : ffs = 1 \/ ffs = 2 \/ ffs = 3 \/ ffs = 4 \/ ffs = 5 \/ ffs = 6 \/ ffs = 7 \/ ffs = 8) by lia.
        destruct K as [-> | [-> | [-> | [-> | [-> | [-> | [-> | ->]]]]]]]; reflexivity. }
      rewrite RUN. cbn [fst snd]. change 0 with (Z.of_nat 0) at 1. split; [constructor; auto; lia|]. repeat split; auto; unfold weight; cbn [d_bs d_st]; lia.
    + destruct (Z.eqb_spec cb 255) as [E2|E2].
      { exfalso. apply okrun_app in OK. destruct OK as [OK _]. subst cb. change (rb 255 8) with (repeat 1 8) in OK. apply ones_bad in OK.
        unfold pref in OK. destruct (ffs =? 8); cbn [r_b1] in OK; lia. }
      destruct (Z.eqb_spec ffs 8) as [E8|E8].
      * subst ffs. eexists _, dst, 0, false, []. split; [reflexivity|]. cbn [d_cb d_bs app rrun fst snd]. change (Z.of_nat 8) with 8 in *. split; [reflexivity|]. split; [constructor; auto|].
        repeat split; auto; unfold weight; cbn [d_bs d_st]; lia.
      * rewrite (rd_at0 fast_abort) by (change (zlen fast_abort) with 10; lia). cbn [bind].
        eexists _, dst, 0, false, []. split; [reflexivity|]. cbn [d_cb d_bs app rrun fst snd]. split; [reflexivity|].
        unfold pref. destruct (Z.eqb_spec ffs 8); [lia|]. split.
        { constructor; auto; [change (zlen []) with 0; pose proof (zlen_nonneg dst); lia|]. split; cbn [r_b1 r_db r_rcv r_acc r_crc]; [lia|]. split; [lia|]. split; [auto|lia]. }
        repeat split; auto; unfold weight; cbn [d_bs d_st]; lia.
  - (* GETFLAG_B7 *)
    unfold left_bits in *. cbn [d_cb d_bs] in *. change (Z.to_nat 8) with 8%nat in *. rewrite rb_cons in * by (auto; lia).
    cbn [app okrun] in OK. destruct OK as (_ & Hno & _). unfold dec_step. destruct (Z.testbit cb 7) eqn:TB; cbn [b2z] in *.
    { exfalso. apply Hno. split; reflexivity. }
    eexists _, dst, 0, false, [0]. split; [reflexivity|]. unfold left_bits. cbn [d_cb d_bs]. change (8 - 1) with (Z.of_nat 7). rewrite Nat2Z.id. split; [reflexivity|].
    cbn [rrun]. change (rstep (pref 8) 0) with (rreset, @nil (Z * list Z)). cbn [fst snd]. split.
    { unfold rreset. apply sim_data; auto; [apply u8_byte|change (zlen []) with 0; pose proof (zlen_nonneg dst); lia|]. split; cbn [r_b1 r_db r_rcv r_acc r_crc]; [lia|]. split; [lia|]. split; [auto|lia]. }
    repeat split; auto; unfold weight; cbn [d_bs d_st]; lia.
Qed.

(** * The loop *)
Lemma load_bits cfg h o : h_adapt56 cfg = false -> is_byte o ->
  d_bs (dec_load cfg h o) = 8 /\ is_byte (d_cb (dec_load cfg h o)) /\ left_bits (dec_load cfg h o) = line_bits (h_brev cfg) [o].
Proof.
  intros A Ho. destruct h as [bs b1 db ffs st dp crc cb sr ff rcv]. unfold dec_load. rewrite A. cbn [d_bs d_cb]. split; [reflexivity|].
  unfold left_bits. cbn [d_cb d_bs]. change (Z.to_nat 8) with 8%nat. rewrite rb_8. rewrite line_bits_cons. cbn [line_bits flat_map]. rewrite app_nil_r.
  destruct (h_brev cfg); [auto|]. split; [now apply revbytebits_8_range|]. rewrite <- octet_bits_rev by now apply revbytebits_8_range. now rewrite revbytebits_8_invol.
Qed.
Lemma load_sim cfg dsize h dst s o : h_adapt56 cfg = false -> is_byte o -> sim dsize h dst s -> d_bs h = 0 -> sim dsize (dec_load cfg h o) dst s.
Proof.
  intros A Ho S B. destruct (load_bits cfg h o A Ho) as (_ & Hb & _).
  destruct S; unfold dec_load in *; rewrite A in *; cbn [d_cb] in Hb; change 8 with (Z.of_nat 8); constructor; auto.
Qed.
Lemma sim_bs dsize h dst s : sim dsize h dst s -> 0 <= d_bs h <= 8.
Proof. intros S. destruct S as [bs| |]; cbn [d_bs]; try lia. Qed.
Lemma loop_sim cfg dsize : h_adapt56 cfg = false -> forall fuel h src dst s, sim dsize h dst s -> bytes src ->
  okrun dsize s (left_bits h ++ line_bits (h_brev cfg) src) -> 18 * zlen src + weight h < Z.of_nat fuel ->
  exists r h2 lft dst2 used, dec_loop fuel cfg dsize h src dst 0 = Ok (r, h2, lft, dst2) /\ bytes lft /\
    left_bits h ++ line_bits (h_brev cfg) src = used ++ left_bits h2 ++ line_bits (h_brev cfg) lft /\
    sim dsize h2 dst2 (fst (rrun s used)) /\ snd (rrun s used) = evs r dst2.
Proof.
  intros A. induction fuel as [|n IH]; intros h src dst s S HS OK HW.
  { pose proof (zlen_nonneg src). pose proof (sim_bs _ _ _ _ S). unfold weight in HW. destruct (d_st h); lia. }
  cbn [dec_loop]. destruct src as [|o t].
  { exists 0, h, [], dst, []. split; [reflexivity|]. repeat split; auto. }
  assert (Ho : is_byte o) by now inversion HS. assert (Ht : bytes t) by now inversion HS.
  assert (K : exists h1 src1, (if d_bs h =? 0 then (dec_load cfg h o, t) else (h, o :: t)) = (h1, src1) /\ bytes src1 /\ sim dsize h1 dst s /\ 1 <= d_bs h1 /\
     left_bits h ++ line_bits (h_brev cfg) (o :: t) = left_bits h1 ++ line_bits (h_brev cfg) src1 /\ 18 * zlen src1 + weight h1 <= 18 * zlen (o :: t) + weight h).
  { destruct (Z.eqb_spec (d_bs h) 0) as [E|E].
    - exists (dec_load cfg h o), t. split; [reflexivity|]. destruct (load_bits cfg h o A Ho) as (L1 & L2 & L3). split; [assumption|]. split; [now apply load_sim|].
      split; [lia|]. split.
      + rewrite L3. unfold left_bits at 1. rewrite E. change (o :: t) with ([o] ++ t). now rewrite line_bits_app.
      + rewrite zlen_cons. unfold weight. rewrite L1, E. replace (d_st (dec_load cfg h o)) with (d_st h) by (destruct h; reflexivity). destruct (d_st h); lia.
    - pose proof (sim_bs _ _ _ _ S). exists h, (o :: t). repeat split; auto; lia. }
  destruct K as (h1 & src1 & -> & B1 & S1 & P1 & E1 & W1). rewrite E1 in *.
  destruct (sim_step cfg dsize h1 dst s (line_bits (h_brev cfg) src1) A S1 P1 OK) as (h2 & dst2 & st & ret & used & T1 & T2 & T3 & T4 & T5 & T6 & T7).
  rewrite T1. cbn [bind]. destruct ret.
  - exists st, h2, src1, dst2, used. split; [reflexivity|]. split; [assumption|]. rewrite T2, <- app_assoc. auto.
  - rewrite (T5 eq_refl) in *. rewrite T2, <- app_assoc in *. apply okrun_app in OK. destruct OK as [_ OK].
    destruct (IH h2 src1 dst2 _ T3 B1 OK ltac:(lia)) as (r & h3 & lft & dst3 & used2 & U1 & U2 & U3 & U4 & U5).
    exists r, h3, lft, dst3, (used ++ used2). split; [exact U1|]. split; [exact U2|]. rewrite U3, <- app_assoc. split; [reflexivity|].
    rewrite rrun_app. destruct (rrun s used) as [sa ea]. cbn [fst snd] in *. destruct (rrun sa used2) as [sb eb]. cbn [fst snd] in *. split; [exact U4|].
    rewrite T4. exact U5.
Qed.
Lemma bytes_split n (l : list Z) : bytes l -> bytes (firstn n l) /\ bytes (skipn n l).
Proof. intros H. rewrite <- (firstn_skipn n l) in H. apply Forall_app in H. exact H. Qed.
Lemma hist_sim cfg dsize : h_adapt56 cfg = false -> forall lens h stream dst s, sim dsize h dst s -> bytes stream ->
  okrun dsize s (left_bits h ++ line_bits (h_brev cfg) stream) ->
  exists ev h2 rest used, dec_hist cfg dsize h stream dst lens = Ok (ev, h2, rest) /\
    left_bits h ++ line_bits (h_brev cfg) stream = used ++ left_bits h2 ++ line_bits (h_brev cfg) rest /\
    snd (rrun s used) = ev /\ 0 <= d_bs h2 <= 8.
Proof.
  intros A. induction lens as [|n lens IH]; intros h stream dst s S HS OK; cbn [dec_hist].
  { exists [], h, stream, []. pose proof (sim_bs _ _ _ _ S). repeat split; auto; lia. }
  destruct (bytes_split n stream HS) as [HS1 HS2].
  assert (EL : line_bits (h_brev cfg) stream = line_bits (h_brev cfg) (firstn n stream) ++ line_bits (h_brev cfg) (skipn n stream))
    by (rewrite <- line_bits_app, firstn_skipn; reflexivity).
  rewrite EL in *. rewrite app_assoc in OK |- *. pose proof OK as OK0. apply okrun_app in OK0. destruct OK0 as [OK1 _].
  destruct (loop_sim cfg dsize A (20 * (length (firstn n stream) + 1)) h (firstn n stream) dst s S HS1 OK1) as (r & h1 & lft & dst1 & used & E1 & BL & E2 & E3 & E4).
  { pose proof (sim_bs _ _ _ _ S). unfold weight, zlen. destruct (d_st h); lia. }
  unfold hdlc_decode. rewrite E1. cbn [bind].
  rewrite E2 in *. rewrite <- !app_assoc in OK |- *. rewrite <- line_bits_app in *. apply okrun_app in OK. destruct OK as [_ OK].
  destruct (IH h1 (lft ++ skipn n stream) dst1 _ E3) as (ev & h2 & rest & used2 & F1 & F2 & F3 & F4).
  { apply Forall_app. split; assumption. }
  { exact OK. }
  rewrite F1. cbn [bind]. exists (evs r dst1 ++ ev), h2, rest, (used ++ used2). split; [reflexivity|].
  rewrite F2, <- app_assoc. split; [reflexivity|]. split; [|exact F4].
  rewrite rrun_app. destruct (rrun s used) as [sa ea]. cbn [fst snd] in *. destruct (rrun sa used2) as [sb eb]. cbn [fst snd] in *. congruence.
Qed.

(** * The reference receiver on a well-formed line *)
(** data bits without the inserted zeros *)
Definition dpush (s : rst) (b : Z) : rst := push (r_b1 s) s b.
Lemma push_b1 b1 s b : r_b1 (push b1 s b) = b1.
Proof. unfold push. destruct (_ =? 8); reflexivity. Qed.
Lemma push_set b1 b1' s b : push b1 (set_b1 b1' s) b = push b1 s b.
Proof. reflexivity. Qed.
Lemma set_push b1 b1' s b : set_b1 b1 (push b1' s b) = push b1 s b.
Proof. unfold push. destruct (_ =? 8); reflexivity. Qed.
Definition fits (dsize : Z) (s : rst) (l : list Z) : Prop := zlen (r_acc s) + (r_db s + zlen l) / 8 <= dsize.
Lemma push_fits dsize b1 s b t : 0 <= r_db s < 8 -> fits dsize s (b :: t) -> fits dsize (push b1 s b) t /\ 0 <= r_db (push b1 s b) < 8.
Proof.
  unfold fits, push. rewrite zlen_cons. intros D F. destruct (Z.eqb_spec (r_db s + 1) 8) as [E|E]; cbn [r_acc r_db].
  - rewrite zlen_app. change (zlen [shin (r_sr s) b]) with 1. split; [|lia].
    replace (r_db s + (1 + zlen t)) with (zlen t + 1 * 8) in F by lia. rewrite Z.div_add in F by lia. change (0 + zlen t) with (zlen t). lia.
  - split; [|lia]. replace (r_db s + 1 + zlen t) with (r_db s + (1 + zlen t)) by lia. exact F.
Qed.
Lemma fits_now dsize s l : 0 <= r_db s -> fits dsize s l -> zlen (r_acc s) <= dsize.
Proof. intros D F. unfold fits in F. pose proof (zlen_nonneg l). assert (0 <= (r_db s + zlen l) / 8) by (apply Z.div_pos; lia). lia. Qed.
Lemma stuff_run dsize : forall l s n, Forall is_bit l -> r_b1 s = Z.of_nat n -> (n <= 4)%nat -> 0 <= r_db s < 8 -> fits dsize s l ->
  exists m, (m <= 4)%nat /\ rrun s (stuff n l) = (set_b1 (Z.of_nat m) (fold_left dpush l s), []) /\ okrun dsize s (stuff n l).
Proof.
  induction l as [|b t IH]; intros s n HL B N Hdb F.
  { exists n. split; [assumption|]. split; [|exact Logic.I]. cbn [stuff rrun fold_left]. rewrite <- B. destruct s; reflexivity. }
  assert (Hb : is_bit b) by now inversion HL. assert (Ht : Forall is_bit t) by now inversion HL. cbn [stuff].
  assert (G : forall b1 m t0, set_b1 (Z.of_nat m) (fold_left dpush t0 (push b1 s b)) = set_b1 (Z.of_nat m) (fold_left dpush t0 (dpush s b))).
  { intros b1 m t0. assert (H : forall t1 s1 s2, set_b1 0 s1 = set_b1 0 s2 -> set_b1 (Z.of_nat m) (fold_left dpush t1 s1) = set_b1 (Z.of_nat m) (fold_left dpush t1 s2)).
    { induction t1 as [|c t1 IH1]; intros s1 s2 E; cbn [fold_left].
      - destruct s1, s2. unfold set_b1 in *. cbn [r_db r_sr r_crc r_rcv r_acc] in *. injection E as -> -> -> -> ->. reflexivity.
      - apply IH1. unfold dpush. rewrite !set_push. rewrite <- (push_set 0 0 s1), <- (push_set 0 0 s2). now rewrite E. }
    apply H. unfold dpush. now rewrite !set_push. }
  destruct (push_fits dsize 0 s b t Hdb F) as [F1 D1].
  assert (PF : forall b1, fits dsize (push b1 s b) t) by (intros b1; apply push_fits; assumption).
  assert (PD : forall b1, 0 <= r_db (push b1 s b) < 8) by (intros b1; apply (push_fits dsize b1 s b t); assumption).
  assert (PA : forall b1, zlen (r_acc (push b1 s b)) <= dsize) by (intros b1; apply (fits_now dsize _ t); [apply PD|apply PF]).
  destruct Hb as [-> | ->].
  - cbn [Z.eqb].
    assert (E : rstep s 0 = (push 0 s 0, [])).
    { unfold rstep. cbn [Z.eqb]. destruct (Z.eqb_spec (r_b1 s) 5); [lia|]. destruct (Z.eqb_spec (r_b1 s) 6); [lia|]. reflexivity. }
    destruct (IH (push 0 s 0) 0%nat Ht (push_b1 _ _ _) ltac:(lia) D1 F1) as (m & M1 & M2 & M3).
    exists m. split; [assumption|]. cbn [rrun okrun]. rewrite E. cbn [fst]. rewrite M2. cbn [fold_left]. rewrite G. split; [reflexivity|].
    split; [left; reflexivity|]. split; [lia|]. split; [apply PA|exact M3].
  - cbn [Z.eqb Pos.eqb].
    assert (E : rstep s 1 = (push (r_b1 s + 1) s 1, [])).
    { unfold rstep. cbn [Z.eqb Pos.eqb]. destruct (Z.eqb_spec (r_b1 s) 5); [lia|]. reflexivity. }
    destruct (Nat.eqb_spec n 4) as [E4|E4].
    + cbn [rrun okrun]. rewrite E. cbn [fst]. set (s1 := push (r_b1 s + 1) s 1).
      assert (E2 : rstep s1 0 = (set_b1 0 s1, [])).
      { unfold rstep. cbn [Z.eqb]. unfold s1. rewrite push_b1. destruct (Z.eqb_spec (r_b1 s + 1) 5); [|lia]. reflexivity. }
      rewrite E2. cbn [fst]. assert (E3 : set_b1 0 s1 = push 0 s 1) by (unfold s1; apply set_push). rewrite E3.
      destruct (IH (push 0 s 1) 0%nat Ht (push_b1 _ _ _) ltac:(lia) D1 F1) as (m & M1 & M2 & M3).
      exists m. split; [assumption|]. rewrite M2. cbn [fold_left]. rewrite G. split; [reflexivity|].
      split; [right; reflexivity|]. split; [lia|]. split; [apply PA|]. split; [left; reflexivity|]. split; [lia|]. split; [apply PA|exact M3].
    + destruct (IH (push (r_b1 s + 1) s 1) (S n) Ht ltac:(rewrite push_b1; lia) ltac:(lia) (PD _) (PF _)) as (m & M1 & M2 & M3).
      exists m. split; [assumption|]. cbn [rrun okrun]. rewrite E. cbn [fst]. rewrite M2. cbn [fold_left]. rewrite G. split; [reflexivity|].
      split; [right; reflexivity|]. split; [lia|]. split; [apply PA|exact M3].
Qed.

(** bits of an octet, least significant first, by shifting *)
Fixpoint lb (n : nat) (s : Z) : list Z := match n with O => [] | S m => b2z (Z.testbit s 0) :: lb m (Z.shiftr s 1) end.
Lemma lb_8 o : lb 8 o = octet_bits o.
Proof.
  unfold octet_bits. cbn [lb map]. rewrite !Z.shiftr_shiftr by lia. rewrite !Z.shiftr_spec by lia. reflexivity.
Qed.
Lemma lb_bits n : forall s, Forall is_bit (lb n s).
Proof. induction n; intros s; cbn [lb]; constructor; auto. apply b2z_bit. Qed.
Lemma lb_length n : forall s, length (lb n s) = n.
Proof. induction n; intros s; cbn [lb length]; auto. Qed.
Lemma octet_bits_bits o : Forall is_bit (octet_bits o).
Proof. rewrite <- lb_8. apply lb_bits. Qed.
Lemma octs_bits x : Forall is_bit (flat_map octet_bits x).
Proof. induction x; cbn [flat_map]; [constructor|]. apply Forall_app. split; [apply octet_bits_bits|assumption]. Qed.
Lemma shin_val sr b : is_byte sr -> is_bit b -> shin sr b = sr / 2 + 128 * b /\ is_byte (shin sr b).
Proof.
  intros Hs Hb. unfold is_byte in *. assert (E : shin sr b = sr / 2 + 128 * b).
  { unfold shin. rewrite Z.shiftr_div_pow2 by lia. change (2 ^ 1) with 2. destruct Hb as [-> | ->]; cbn [Z.eqb Pos.eqb]; [lia|].
    rewrite Z.lor_comm. change (128 * 1) with (Z.shiftl 1 7). change 128 with (Z.shiftl 1 7).
    rewrite <- Z.lxor_lor, <- Z.add_nocarry_lxor; [lia| |].
    all: apply Z.bits_inj'; intros k Hk; rewrite Z.land_spec, Z.bits_0, Z.shiftl_spec by lia.
    all: destruct (Z.ltb_spec k 7); [rewrite (Z.testbit_neg_r 1) by lia; reflexivity|].
    all: rewrite (Z.bits_above_log2 (sr / 2)); [apply andb_false_r|lia|].
    all: destruct (Z.eq_dec (sr / 2) 0) as [-> |]; [cbn; lia|]; apply Z.log2_lt_pow2; [lia|]; apply Z.lt_le_trans with (2 ^ 7); [change (2 ^ 7) with 128; lia|apply Z.pow_le_mono_r; lia]. }
  split; [exact E|]. rewrite E. destruct Hb as [-> | ->]; lia.
Qed.
Lemma fold_shin8 o sr : is_byte sr -> is_byte o -> fold_left shin (octet_bits o) sr = o.
Proof.
  intros Hs Ho. unfold octet_bits. cbn [map].
  set (b0 := b2z (Z.testbit o 0)). set (b1 := b2z (Z.testbit o 1)). set (b2 := b2z (Z.testbit o 2)). set (b3 := b2z (Z.testbit o 3)).
  set (b4 := b2z (Z.testbit o 4)). set (b5 := b2z (Z.testbit o 5)). set (b6 := b2z (Z.testbit o 6)). set (b7 := b2z (Z.testbit o 7)).
  assert (E : o = b0 + 2 * b1 + 4 * b2 + 8 * b3 + 16 * b4 + 32 * b5 + 64 * b6 + 128 * b7).
  { assert (T : forall k, 0 <= k -> b2z (Z.testbit o k) = (o / 2 ^ k) mod 2) by (intros k Hk; unfold b2z; rewrite Z.testbit_eqb by lia; destruct (Z.eqb_spec ((o / 2 ^ k) mod 2) 1); lia).
    unfold b0, b1, b2, b3, b4, b5, b6, b7. rewrite !T by lia. unfold is_byte in Ho.
    change (2 ^ 0) with 1. change (2 ^ 1) with 2. change (2 ^ 2) with 4. change (2 ^ 3) with 8. change (2 ^ 4) with 16. change (2 ^ 5) with 32. change (2 ^ 6) with 64. change (2 ^ 7) with 128. lia. }
  assert (B0 : is_bit b0) by apply b2z_bit. assert (B1 : is_bit b1) by apply b2z_bit. assert (B2 : is_bit b2) by apply b2z_bit. assert (B3 : is_bit b3) by apply b2z_bit.
  assert (B4 : is_bit b4) by apply b2z_bit. assert (B5 : is_bit b5) by apply b2z_bit. assert (B6 : is_bit b6) by apply b2z_bit. assert (B7 : is_bit b7) by apply b2z_bit.
  clearbody b0 b1 b2 b3 b4 b5 b6 b7. cbn [fold_left].
  destruct (shin_val sr b0) as [V0 R0]; auto. destruct (shin_val (shin sr b0) b1) as [V1 R1]; auto.
  set (x1 := shin sr b0) in *. set (x2 := shin x1 b1) in *. destruct (shin_val x2 b2) as [V2 R2]; auto. set (x3 := shin x2 b2) in *.
  destruct (shin_val x3 b3) as [V3 R3]; auto. set (x4 := shin x3 b3) in *. destruct (shin_val x4 b4) as [V4 R4]; auto. set (x5 := shin x4 b4) in *.
  destruct (shin_val x5 b5) as [V5 R5]; auto. set (x6 := shin x5 b5) in *. destruct (shin_val x6 b6) as [V6 R6]; auto. set (x7 := shin x6 b6) in *.
  destruct (shin_val x7 b7) as [V7 R7]; auto. set (x8 := shin x7 b7) in *. clearbody x1 x2 x3 x4 x5 x6 x7 x8. unfold is_byte in *. unfold is_bit in *. lia.
Qed.
