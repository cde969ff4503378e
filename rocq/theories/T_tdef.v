(* C20: timer definitions *)
From Verif Require Import Base M_tdef S_tdef P_tdef.

(* osmo_tdef_get: the entry's value as the least number of as_unit that is not shorter (0 stays 0; ULONG_MAX if larger than that);
   an undefined timer gives the default, or a panic if that is negative; entries of the custom unit are not converted *)
Theorem C20_get : forall ts T as_unit dflt, terminated ts -> is_unit as_unit -> (forall t, In t (entries ts) -> is_ulong (tval t) /\ is_unit (tunit t)) ->
  (exists t a b r, (exists i, nth_error (entries ts) i = Some t /\ forall j u, (j < i)%nat -> nth_error (entries ts) j = Some u -> tT u <> T) /\ tT t = T /\ unit_us (tunit t) = Some a /\ unit_us as_unit = Some b /\
     tdef_get ts T as_unit dflt = Ok r /\ is_ulong r /\ is_round_up (tval t) a b r) \/
  (exists t, In t (entries ts) /\ tT t = T /\ (tunit t = TDEF_CUSTOM \/ as_unit = TDEF_CUSTOM) /\ tdef_get ts T as_unit dflt = Ok (tval t)) \/
  ((forall t, In t (entries ts) -> tT t <> T) /\ tdef_get ts T as_unit dflt = if dflt <? 0 then Abort else Ok dflt).
Proof.
  intros ts T as_unit dflt Ht Hu Hv. unfold tdef_get. destruct (get_entry_spec ts T Ht) as (o & -> & Ho). cbn [bind]. destruct o as [i|]; [|auto].
  destruct Ho as (Hi & E & ET & Hj). assert (Hin : In (nth_tdef ts i) (entries ts)) by (rewrite <- E; apply nth_In; auto). destruct (Hv _ Hin) as [V1 V2].
  assert (Custom : forall u, is_unit u -> unit_us u = None -> u = TDEF_CUSTOM). { intros u Hu1 Hu2. unfold is_unit in Hu1. unfold unit_us in Hu2. assert (C : u = 0 \/ u = 1 \/ u = 2 \/ u = 3 \/ u = 4) by lia. destruct C as [-> |[-> |[-> |[-> | ->]]]]; try discriminate; reflexivity. }
  destruct (unit_us (tunit (nth_tdef ts i))) as [a|] eqn:Ea; [destruct (unit_us as_unit) as [b|] eqn:Eb|].
  - left. destruct (round_std _ _ _ a b V1 Ea Eb) as (r & R1 & R2 & R3). exists (nth_tdef ts i), a, b, r. split; [|auto 10]. exists i. split.
    + rewrite <- E. apply nth_error_nth'. auto.
    + intros j u Hlt Hu'. assert (Ej : nth_tdef ts j = u); [|subst u; apply Hj; auto]. clear - Hu'. revert j Hu'. induction ts as [|t r IH]; intros j Hu'; cbn [entries] in Hu'; [destruct j; discriminate|]. destruct (tdef_end t); [destruct j; discriminate|]. destruct j; cbn in *; [congruence|apply IH; auto].
  - right. left. exists (nth_tdef ts i). assert (as_unit = TDEF_CUSTOM) by auto. split; auto. split; auto. split; auto. apply round_custom; auto.
  - right. left. exists (nth_tdef ts i). assert (tunit (nth_tdef ts i) = TDEF_CUSTOM) by auto. split; auto. split; auto. split; auto. apply round_custom; auto.
Qed.
Print Assumptions C20_get.

(* to a finer unit the conversion is exact (or clamped), to the same unit it is the identity *)
Theorem C20_exact : forall v from to a b n, is_ulong v -> unit_us from = Some a -> unit_us to = Some b -> a = n * b -> 1 <= n ->
  tdef_round v from to = Ok (Z.min (v * n) ULONG_MAX).
Proof.
  intros v from to a b n Hv Ha Hb Hn H1. destruct (round_std v from to a b Hv Ha Hb) as (r & -> & R1 & R2 & R3 & R4). f_equal. assert (0 < b). { unfold unit_us in Hb. repeat match type of Hb with context [to =? ?k] => destruct (to =? k); [injection Hb as <-; lia|] end. discriminate. }
  unfold is_ulong, ULONG_MAX in *. subst a. destruct (Z_lt_dec r 18446744073709551615) as [Hr|Hr].
  - specialize (R3 Hr). assert (r = v * n) by nia. lia.
  - assert (r = 18446744073709551615) by lia. specialize (R4 H0). assert (18446744073709551615 - 1 < v * n) by nia. lia.
Qed.
Print Assumptions C20_exact.

(* osmo_tdef_set: converts, stores only a value within the entry's bounds, and changes nothing else; errors leave the table alone *)
Theorem C20_set : forall ts T val unit, terminated ts -> is_ulong val -> is_unit unit -> (forall t, In t (entries ts) -> is_unit (tunit t)) ->
  match tdef_set ts T val unit with
  | Ok ts' => exists i t v, (i < length ts)%nat /\ nth_error (entries ts) i = Some t /\ tT t = T /\ within t v /\ tdef_round val unit (tunit t) = Ok v /\
                nth_error ts' i = Some (Tdef (tT t) (tdefault t) (tunit t) (has_desc t) v (tmin t) (tmax t)) /\ length ts' = length ts /\ (forall j, j <> i -> nth_error ts' j = nth_error ts j)
  | Err c => (c = -17 /\ forall t, In t (entries ts) -> tT t <> T) \/ (c = -34 /\ exists t v, In t (entries ts) /\ tT t = T /\ tdef_round val unit (tunit t) = Ok v /\ ~ within t v)
  | _ => False
  end.
Proof.
  intros ts T val unit Ht Hv Hu Hun. unfold tdef_set. destruct (get_entry_spec ts T Ht) as (o & -> & Ho). cbn [bind]. destruct o as [i|]; [|left; auto].
  destruct Ho as (Hi & E & ET & Hj). assert (Hin : In (nth_tdef ts i) (entries ts)) by (rewrite <- E; apply nth_In; auto). set (t := nth_tdef ts i) in *.
  assert (R : exists v, tdef_round val unit (tunit t) = Ok v).
  { destruct (unit_us unit) as [a|] eqn:Ea; [destruct (unit_us (tunit t)) as [b|] eqn:Eb|].
    - destruct (round_std val unit (tunit t) a b Hv Ea Eb) as (r & ? & _). eauto.
    - exists val. apply round_custom; auto. right. specialize (Hun t Hin). unfold is_unit in Hun. unfold unit_us in Eb. assert (C : tunit t = 0 \/ tunit t = 1 \/ tunit t = 2 \/ tunit t = 3 \/ tunit t = 4) by lia. destruct C as [C|[C|[C|[C|C]]]]; rewrite C in *; try discriminate; reflexivity.
    - exists val. apply round_custom; auto. left. unfold is_unit in Hu. unfold unit_us in Ea. assert (C : unit = 0 \/ unit = 1 \/ unit = 2 \/ unit = 3 \/ unit = 4) by lia. destruct C as [C|[C|[C|[C|C]]]]; rewrite C in *; try discriminate; reflexivity. }
  destruct R as (v & R). rewrite R. cbn [bind]. destruct (val_in_range t v) eqn:Er; cbn [negb].
  - apply in_range_spec in Er. assert (Hl : (i < length ts)%nat). { assert (L : (length (entries ts) <= length ts)%nat). { clear. induction ts as [|x r IH]; cbn [entries length]; [lia|]. destruct (tdef_end x); cbn [length]; lia. } lia. }
    exists i, t, v. split; auto. split. { rewrite <- E. apply nth_error_nth'. auto. } split; auto. split; auto. split; auto. split.
    { rewrite nth_error_nth' with (d := nth_tdef [] 0) by (rewrite upd_length; auto). rewrite upd_nth_same by auto. reflexivity. }
    split; [apply upd_length|]. intros j Hj'. destruct (lt_dec j (length ts)) as [L|L].
    + rewrite !nth_error_nth' with (d := nth_tdef [] 0) by (rewrite ?upd_length; auto). rewrite upd_nth_other; auto.
    + rewrite !(proj2 (nth_error_None _ _)); auto; rewrite ?upd_length; lia.
  - right. split; auto. exists t, v. split; auto. split; auto. split; auto. intros W. apply in_range_spec in W. congruence.
Qed.
Print Assumptions C20_set.

(* osmo_tdefs_reset: every entry gets its default value; panics exactly if some default is out of bounds *)
Theorem C20_reset : forall ts, terminated ts ->
  match tdefs_reset ts with
  | Ok ts' => map (fun t => Tdef (tT t) (tdefault t) (tunit t) (has_desc t) (tdefault t) (tmin t) (tmax t)) (entries ts) = entries ts' /\ length ts' = length ts /\ (forall t, In t (entries ts) -> within t (tdefault t))
  | Abort => exists t, In t (entries ts) /\ ~ within t (tdefault t)
  | _ => False
  end.
Proof.
  intros ts (e & Hi & He). induction ts as [|t r IH]; [destruct Hi|]. cbn [tdefs_reset entries]. destruct (tdef_end t) eqn:E. { cbn [entries]. rewrite E. split; auto. split; auto. intros x []. }
  destruct (val_in_range t (tdefault t)) eqn:Er; cbn [negb].
  - apply in_range_spec in Er. destruct Hi as [->|Hi]; [congruence|]. specialize (IH Hi). destruct (tdefs_reset r) as [r'| | |]; cbn [bind]; auto.
    + destruct IH as (I1 & I2 & I3). cbn [map entries]. change (tdef_end (w_val (tdefault t) t)) with (tdef_end t). rewrite E. split; [rewrite I1; reflexivity|]. split; [cbn [length]; congruence|]. intros x [<-|Hx]; auto.
    + destruct IH as (x & Hx & Hw). exists x. split; auto. right. auto.
  - exists t. split; [left; auto|]. intros W. apply in_range_spec in W. congruence.
Qed.
Print Assumptions C20_reset.

(* osmo_tdef_fsm_inst_state_chg: the timeout given to the state change is that of the configured timer in ms, rounded up;
   no timeout for unconfigured states; custom units (and missing timers' default) count as seconds, modulo 2^64 *)
Theorem C20_state_chg : forall state arr ts dflt, terminated ts -> 0 <= state < 32 -> length arr = 32%nat -> 0 <= dflt <= 9223372036854775 ->
  (forall t, In t (entries ts) -> is_ulong (tval t) /\ is_unit (tunit t)) ->
  exists keep T ms, tdef_state_chg state arr ts dflt = Ok (keep, ms, T) /\ nth_error arr (Z.to_nat state) = Some (keep, T) /\
    (T = 0 -> ms = 0) /\
    (T <> 0 -> (forall t, In t (entries ts) -> tT t <> T) -> ms = dflt * 1000) /\
    (T <> 0 -> forall t, In t (entries ts) -> tT t = T -> (forall u, In u (entries ts) -> tT u = T -> u = t) ->
       match unit_us (tunit t) with Some a => is_round_up (tval t) a 1000 ms | None => ms = tval t * 1000 mod 18446744073709551616 end).
Proof.
  intros state arr ts dflt Ht Hs Hl Hd Hv. unfold tdef_state_chg, get_state_timeout. replace (32 <=? state) with false by lia.
  assert (Hn : exists e, nth_error arr (Z.to_nat state) = Some e). { destruct (nth_error arr (Z.to_nat state)) eqn:E; eauto. apply nth_error_None in E. lia. }
  destruct Hn as ([keep T] & Hn). unfold rd. replace (state <? 0) with false by lia. rewrite Hn. cbn [bind fst snd]. exists keep, T.
  destruct (T =? 0) eqn:ET.
  - assert (T = 0) by lia. subst T. destruct keep; cbn [negb andb bind]; exists 0; (split; [reflexivity|]); (split; [auto|]); split; auto; split; intros; congruence.
  - rewrite andb_false_r. cbn [bind]. rewrite ET. destruct (get_entry_spec ts T Ht) as (o & Eo & Ho). rewrite Eo. cbn [bind]. destruct o as [i|].
    + destruct Ho as (Hi & E & Ee & Hj). assert (Hin : In (nth_tdef ts i) (entries ts)) by (rewrite <- E; apply nth_In; auto). destruct (Hv _ Hin) as [V1 V2]. set (t := nth_tdef ts i) in *.
      assert (R : exists v, tdef_round (tval t) (tunit t) TDEF_MS = Ok v /\ match unit_us (tunit t) with Some a => is_round_up (tval t) a 1000 v /\ tunit t <> TDEF_CUSTOM | None => v = tval t /\ tunit t = TDEF_CUSTOM end).
      { destruct (unit_us (tunit t)) as [a|] eqn:Ea.
        - destruct (round_std (tval t) (tunit t) TDEF_MS a 1000 V1 Ea eq_refl) as (r & R1 & R2 & R3). exists r. split; auto. split; auto. intros C. rewrite C in Ea. discriminate.
        - assert (C : tunit t = TDEF_CUSTOM). { unfold is_unit in V2. unfold unit_us in Ea. assert (C : tunit t = 0 \/ tunit t = 1 \/ tunit t = 2 \/ tunit t = 3 \/ tunit t = 4) by lia. destruct C as [C|[C|[C|[C|C]]]]; rewrite C in *; try discriminate; reflexivity. }
          exists (tval t). split; auto. apply round_custom; auto. unfold is_unit, TDEF_MS. lia. }
      destruct R as (v & R1 & R2). rewrite R1. cbn [bind]. exists (if tunit t =? TDEF_CUSTOM then u64 (v * 1000) else v). split. { destruct keep; reflexivity. } split; auto. split; [intros; lia|]. split. { intros _ G. exfalso. apply (G t); auto. }
      intros _ t' Ht' ET' Hu. assert (t = t') by (apply Hu; auto). subst t'. destruct (unit_us (tunit t)); destruct R2 as [R2 R3].
      * replace (tunit t =? TDEF_CUSTOM) with false by lia. auto.
      * rewrite R3. change (TDEF_CUSTOM =? TDEF_CUSTOM) with true. cbv iota. rewrite R2. reflexivity.
    + replace (dflt <? 0) with false by lia. replace (9223372036854775807 <? dflt * 1000) with false by lia. cbn [bind]. exists (dflt * 1000). split. { destruct keep; reflexivity. } split; auto. split; [intros; lia|]. split; auto. intros _ t Hin Et. exfalso. apply (Ho t); auto.
Qed.
Print Assumptions C20_state_chg.

Definition demo_tdefs : list tdef := [Tdef 7 50 TDEF_S true 50 0 100; Tdef (-3) 100 TDEF_MS true 1100 10 0; Tdef 9 5 TDEF_M true 5 0 0; Tdef 11 5 TDEF_CUSTOM true 5 0 0; Tdef 0 0 0 false 0 0 0].
Example C20_nonvacuous : terminated demo_tdefs /\ (forall t, In t (entries demo_tdefs) -> is_ulong (tval t) /\ is_unit (tunit t)) /\
  tdef_get demo_tdefs 7 TDEF_M (-1) = Ok 1 /\ tdef_get demo_tdefs (-3) TDEF_S (-1) = Ok 2 /\ tdef_get demo_tdefs 9 TDEF_US 0 = Ok 300000000 /\ tdef_get demo_tdefs 99 TDEF_US (-1) = Abort /\
  tdef_set demo_tdefs 7 101 TDEF_S = Err (-34) /\ (match tdef_set demo_tdefs 7 99001 TDEF_MS with Ok ts => tdef_get ts 7 TDEF_S 0 = Ok 100 | _ => False end) /\
  tdef_state_chg 2 ([(false, 0); (true, 0); (false, 7)] ++ repeat (false, 0) 29) demo_tdefs 0 = Ok (false, 50000, 7).
Proof.
  split. { exists (Tdef 0 0 0 false 0 0 0). split; [cbn; auto 10|reflexivity]. }
  split. { intros t H. cbn [entries demo_tdefs tdef_end tT tdefault has_desc Z.eqb andb negb In] in H. unfold is_ulong, is_unit, ULONG_MAX. decompose [or] H; subst; try contradiction; cbn [tval tunit]; unfold TDEF_S, TDEF_MS, TDEF_M, TDEF_CUSTOM; lia. }
  repeat split; vm_compute; reflexivity.
Qed.
