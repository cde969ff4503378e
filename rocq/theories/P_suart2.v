From Coq Require Import ZArith List Lia Bool.
From Verif Require Import Base Lib S_suart M_suart P_suart P_crc.
Import ListNotations.
Open Scope Z_scope.

(** * Receiver: everything but the buffering *)
Record core := Cr { r_cnt : Z; r_sh : Z; r_par : Z; r_fl : Z; r_flow : flow }.
Definition core_of (s : rx_st) : core := Cr (rx_cnt s) (rx_shift s) (rx_par s) (rx_flags s) (rx_flow s).
Definition pbit (c : conf) (s : core) (bit : Z) : core * list Z :=
  match r_flow s with
  | IDLE => if bit =? 0 then (Cr 0 0 0 0 DATA, []) else (s, [])
  | DATA =>
    let cnt := r_cnt s + 1 in
    let par' := if negb (bit =? 0) then (if r_par s =? 0 then 1 else 0) else r_par s in
    let sh := if negb (bit =? 0) then Z.lor (Z.shiftr (r_sh s) 1) 128 else Z.shiftr (r_sh s) 1 in
    if ndata c <=? cnt then
      (Cr cnt (if ndata c <? 8 then Z.shiftr sh (8 - ndata c) else sh) par' (r_fl s) (match par c with PNone => STOP | _ => PARITY end), [])
    else (Cr cnt sh par' (r_fl s) DATA, [])
  | PARITY =>
    let err := match par c with
               | PEven => negb (r_par s =? bit) | POdd => r_par s =? bit
               | PMark => negb (bit =? 1) | PSpace => negb (bit =? 0) | PNone => false end in
    (Cr (r_cnt s) (r_sh s) (r_par s) (if err then Z.lor (r_fl s) F_PARITY else r_fl s) STOP, [])
  | STOP =>
    let cnt := r_cnt s + 1 in
    let flags := if negb (bit =? 1) then Z.lor (r_fl s) F_FRAMING else r_fl s in
    if ndata c + nstop c <=? cnt then (Cr cnt (r_sh s) (r_par s) flags IDLE, [r_sh s])
    else (Cr cnt (r_sh s) (r_par s) flags STOP, [])
  end.
Definition core_inv (c : conf) (s : core) : Prop :=
  match r_flow s with
  | IDLE => True
  | DATA => 0 <= r_cnt s < ndata c
  | PARITY => par c <> PNone /\ r_cnt s = ndata c
  | STOP => ndata c <= r_cnt s < ndata c + nstop c
  end.
Definition buf (s : rx_st) : list Z := match rx_msg s with Some (_, d) => d | None => [] end.
Definition delivered (s : rx_st) : list Z := flat_map fst (rx_out s).
Definition good (c : conf) (bufsz : Z) (s : rx_st) : Prop :=
  rx_run s = true /\ core_inv c (core_of s) /\
  (exists cap d, rx_msg s = Some (cap, d) /\ bufsz <= cap /\ zlen d < bufsz) /\
  Forall (fun e => 1 <= zlen (fst e) <= bufsz) (rx_out s).

Lemma flush_spec c bufsz s : 1 <= bufsz <= 65535 -> good c bufsz s ->
  good c bufsz (flush_rx bufsz s) /\ core_of (flush_rx bufsz s) = core_of s /\
  buf (flush_rx bufsz s) = [] /\
  rx_out (flush_rx bufsz s) = rx_out s ++ (match buf s with [] => [] | d => [(d, rx_flags s)] end).
Proof.
  intros HB (R & CI & (cap & d & M & Hc & Hd) & HO). unfold flush_rx. unfold buf at 2. rewrite M. cbn [rx_out].
  destruct (Z.eqb_spec (zlen d) 0) as [E|E].
  - destruct d; [|rewrite zlen_cons in E; pose proof (zlen_nonneg d); lia].
    split; [split; [exact R|split; [exact CI|split; [|exact HO]]]; exists cap, []; auto|].
    split; [reflexivity|]. split; [unfold buf; now rewrite M|]. now rewrite app_nil_r.
  - split; [|split; [reflexivity|split; [reflexivity|]]].
    + split; [exact R|split; [exact CI|split]]; cbn [rx_msg rx_out].
      * exists (u16 bufsz), []. rewrite u16_small by (unfold is_u16; lia). change (zlen (@nil Z)) with 0. repeat split; lia.
      * apply Forall_app. split; [exact HO|]. constructor; [|constructor]. cbn [fst]. pose proof (zlen_nonneg d). lia.
    + destruct d; [elim E; reflexivity|]. reflexivity.
Qed.
Lemma rx_bit_step c bufsz s b : conf_ok c -> 1 <= bufsz <= 65535 -> good c bufsz s ->
  exists s' new, rx_bit c bufsz s b = Ok s' /\ good c bufsz s' /\ core_of s' = fst (pbit c (core_of s) b) /\
    delivered s' ++ buf s' = (delivered s ++ buf s) ++ snd (pbit c (core_of s) b) /\
    rx_out s' = rx_out s ++ new /\ Forall (fun e => snd e = r_fl (fst (pbit c (core_of s) b))) new /\
    (snd (pbit c (core_of s) b) = [] -> rx_out s' = rx_out s /\ buf s' = buf s) /\
    (snd (pbit c (core_of s) b) <> [] -> r_fl (core_of s') <> 0 -> buf s' = [] /\ new <> []).
Proof.
  intros (H1 & H2 & H3) HB G. pose proof G as (R & CI & (cap & d & M & Hc & Hd) & HO).
  unfold rx_bit, pbit, core_inv in *. cbn [core_of r_flow r_cnt r_sh r_par r_fl] in *.
  destruct (rx_flow s) eqn:F.
  - destruct (Z.eqb_spec b 0); eexists _, []; (split; [reflexivity|]).
    + split; [split; [exact R|split; [|split; [exists cap, d; auto|exact HO]]]; cbn; lia|].
      unfold delivered, buf. cbn. rewrite !app_nil_r. repeat split; auto; try congruence.
    + split; [exact G|]. unfold core_of. rewrite F. cbn. rewrite !app_nil_r. repeat split; auto; try congruence.
  - rewrite u8_small by (unfold is_byte; lia). destruct (Z.leb_spec (ndata c) (rx_cnt s + 1)); eexists _, []; (split; [reflexivity|]).
    + split; [split; [exact R|split; [|split; [exists cap, d; auto|exact HO]]]; unfold core_inv; cbn [core_of r_flow r_cnt rx_flow rx_cnt]; destruct (par c) eqn:PE; try lia; (split; [congruence|lia])|].
      unfold delivered, buf. cbn. rewrite !app_nil_r. repeat split; auto; try congruence.
    + split; [split; [exact R|split; [|split; [exists cap, d; auto|exact HO]]]; cbn; lia|].
      unfold delivered, buf. cbn. rewrite !app_nil_r. repeat split; auto; try congruence.
  - destruct CI as [CI1 CI2]. destruct (par c) eqn:P; [congruence| | | |]; eexists _, []; (split; [reflexivity|]);
      (split; [split; [exact R|split; [|split; [exists cap, d; auto|exact HO]]]; cbn; lia|]);
      unfold delivered, buf; cbn; rewrite !app_nil_r; repeat split; auto; try congruence.
  - rewrite u8_small by (unfold is_byte; lia). set (flags := if negb (b =? 1) then _ else _). clearbody flags.
    destruct (Z.leb_spec (ndata c + nstop c) (rx_cnt s + 1)).
    + unfold rx_ch. cbn [rx_msg rx_shift rx_flags]. rewrite M.
      destruct (Z.leb_spec (zlen d + 1) cap); [|lia]. cbn [rx_run rx_cnt rx_shift rx_par rx_flags rx_flow rx_out].
      assert (LD : zlen (d ++ [rx_shift s]) = zlen d + 1) by (rewrite zlen_app; reflexivity).
      pose proof (zlen_nonneg d) as Hd0.
      destruct (Z.leb_spec bufsz (zlen d + 1)); cbn [orb];
        [|destruct (Z.eqb_spec flags 0); cbn [negb]]; cbn [bind].
      * unfold flush_rx. cbn [rx_msg rx_run rx_cnt rx_shift rx_par rx_flags rx_flow rx_out]. rewrite LD.
        destruct (Z.eqb_spec (zlen d + 1) 0); [lia|]. cbn [rx_msg rx_run rx_cnt rx_shift rx_par rx_flags rx_flow rx_out].
        eexists _, [(d ++ [rx_shift s], flags)]. split; [reflexivity|].
        split; [split; [exact R|split; [exact Logic.I|split; cbn [rx_msg rx_out]]]|].
        { exists (u16 bufsz), []. rewrite u16_small by (unfold is_u16; lia). change (zlen (@nil Z)) with 0. repeat split; lia. }
        { apply Forall_app. split; [exact HO|]. constructor; [|constructor]. cbn [fst]. rewrite LD. lia. }
        unfold delivered, buf. rewrite M. cbn [core_of rx_msg rx_run rx_cnt rx_shift rx_par rx_flags rx_flow rx_out fst snd r_fl].
        rewrite flat_map_app. cbn [flat_map fst]. rewrite !app_nil_r, !app_assoc. repeat split; auto; try discriminate.
      * eexists _, []. split; [reflexivity|]. split; [split; [exact R|split; [exact Logic.I|split; cbn [rx_msg rx_out]]]|].
        { exists cap, (d ++ [rx_shift s]). rewrite LD. repeat split; lia. }
        { exact HO. }
        unfold delivered, buf. rewrite M. cbn [core_of rx_msg rx_run rx_cnt rx_shift rx_par rx_flags rx_flow rx_out fst snd r_fl].
        rewrite !app_nil_r, !app_assoc. repeat split; auto; try discriminate; try congruence.
      * unfold flush_rx. cbn [rx_msg rx_run rx_cnt rx_shift rx_par rx_flags rx_flow rx_out]. rewrite LD.
        destruct (Z.eqb_spec (zlen d + 1) 0); [lia|]. cbn [rx_msg rx_run rx_cnt rx_shift rx_par rx_flags rx_flow rx_out].
        eexists _, [(d ++ [rx_shift s], flags)]. split; [reflexivity|].
        split; [split; [exact R|split; [exact Logic.I|split; cbn [rx_msg rx_out]]]|].
        { exists (u16 bufsz), []. rewrite u16_small by (unfold is_u16; lia). change (zlen (@nil Z)) with 0. repeat split; lia. }
        { apply Forall_app. split; [exact HO|]. constructor; [|constructor]. cbn [fst]. rewrite LD. lia. }
        unfold delivered, buf. rewrite M. cbn [core_of rx_msg rx_run rx_cnt rx_shift rx_par rx_flags rx_flow rx_out fst snd r_fl].
        rewrite flat_map_app. cbn [flat_map fst]. rewrite !app_nil_r, !app_assoc. repeat split; auto; try discriminate.
    + eexists _, []. split; [reflexivity|].
      split; [split; [exact R|split; [|split; [exists cap, d; auto|exact HO]]]; cbn; lia|].
      unfold delivered, buf. cbn. rewrite !app_nil_r. repeat split; auto; try congruence.
Qed.

(** * Pure runs over a frame *)
Fixpoint prun (c : conf) (s : core) (l : list Z) : core * list Z :=
  match l with [] => (s, []) | b :: t => let (s', o) := pbit c s b in let (s'', o') := prun c s' t in (s'', o ++ o') end.
Lemma prun_app c l1 : forall s l2, prun c s (l1 ++ l2) = let (s1, o1) := prun c s l1 in let (s2, o2) := prun c s1 l2 in (s2, o1 ++ o2).
Proof.
  induction l1 as [|b t IH]; intros s l2; cbn [app prun].
  - destruct (prun c s l2); reflexivity.
  - destruct (pbit c s b) as [s' o]. rewrite IH. destruct (prun c s' t) as [s1 o1]. destruct (prun c s1 l2). now rewrite app_assoc.
Qed.
(** flags stay 0 all along *)
Fixpoint zrun (c : conf) (s : core) (l : list Z) : Prop :=
  match l with [] => True | b :: t => r_fl (fst (pbit c s b)) = 0 /\ zrun c (fst (pbit c s b)) t end.
Lemma zrun_app c l1 : forall s l2, zrun c s l1 -> zrun c (fst (prun c s l1)) l2 -> zrun c s (l1 ++ l2).
Proof.
  induction l1 as [|b t IH]; intros s l2 H1 H2; cbn [app zrun prun fst] in *; [exact H2|]. destruct H1 as [Ha Hb].
  split; [exact Ha|]. apply IH; [exact Hb|]. destruct (pbit c s b) as [s' o]. cbn [fst] in *. destruct (prun c s' t); exact H2.
Qed.
Lemma data_val_range l : Forall is_bit l -> 0 <= data_val l < 2 ^ zlen l.
Proof.
  induction 1 as [|b l Hb Hl IH]; [cbn; lia|]. cbn [data_val]. rewrite zlen_cons.
  rewrite (Z.add_comm 1), Z.pow_add_r by (pose proof (zlen_nonneg l); lia). change (2 ^ 1) with 2. destruct Hb as [-> | ->]; lia.
Qed.
Lemma data_val_snoc l b : data_val (l ++ [b]) = data_val l + 2 ^ zlen l * b.
Proof.
  induction l as [|a l IH]; [cbn [app data_val]; change (zlen (@nil Z)) with 0; rewrite Z.pow_0_r; lia|].
  cbn [app data_val]. rewrite IH, zlen_cons, (Z.add_comm 1), Z.pow_add_r by (pose proof (zlen_nonneg l); lia). change (2 ^ 1) with 2. ring.
Qed.
Lemma sh_step v k b : 0 <= k <= 7 -> 0 <= v < 2 ^ k -> is_bit b ->
  (if negb (b =? 0) then Z.lor (Z.shiftr (2 ^ (8 - k) * v) 1) 128 else Z.shiftr (2 ^ (8 - k) * v) 1) = 2 ^ (8 - (k + 1)) * (v + 2 ^ k * b).
Proof.
  intros Hk Hv Hb. rewrite Z.shiftr_div_pow2 by lia.
  replace (2 ^ (8 - k) * v / 2 ^ 1) with (2 ^ (8 - (k + 1)) * v).
  2:{ replace (8 - k) with (8 - (k + 1) + 1) by lia. rewrite Z.pow_add_r by lia. change (2 ^ 1) with 2.
      replace (2 ^ (8 - (k + 1)) * 2 * v) with (2 ^ (8 - (k + 1)) * v * 2) by ring. now rewrite Z.div_mul by lia. }
  assert (E : 2 ^ (8 - (k + 1)) * 2 ^ k = 128) by (rewrite <- Z.pow_add_r by lia; replace (8 - (k + 1) + k) with 7 by lia; reflexivity).
  rewrite Z.mul_add_distr_l, Z.mul_assoc, E. destruct Hb as [-> | ->]; cbn [Z.eqb negb]; [lia|].
  rewrite Z.mul_1_r. change 128 with (1 * 2 ^ 7). rewrite <- (Z.shiftl_mul_pow2 1 7) by lia.
  assert (0 <= 2 ^ (8 - (k + 1)) * v < 2 ^ 7).
  { pose proof (Z.pow_pos_nonneg 2 (8 - (k + 1)) ltac:(lia) ltac:(lia)). split; [apply Z.mul_nonneg_nonneg; lia|].
    change (2 ^ 7) with 128. rewrite <- E. apply Z.mul_lt_mono_pos_l; lia. }
  rewrite <- Z.lxor_lor, <- Z.add_nocarry_lxor; try reflexivity; apply Z.bits_inj'; intros j Hj; rewrite Z.land_spec, Z.bits_0;
    (destruct (Z.lt_ge_cases j 7);
     [rewrite Z.shiftl_spec_low by lia; apply andb_false_r|rewrite <- (Z.mod_small _ (2 ^ 7)) by lia; rewrite Z.mod_pow2_bits_high by lia; reflexivity]).
Qed.
Definition pxor (p : Z) (l : list Z) : Z := (p + sum l) mod 2.
Lemma sum_app a b : sum (a ++ b) = sum a + sum b.
Proof. induction a as [|x a IH]; cbn [app sum fold_right]; [reflexivity|]. fold (sum (a ++ b)) (sum a). rewrite IH. lia. Qed.
Definition after_data (c : conf) : flow := match par c with PNone => STOP | _ => PARITY end.
Lemma data_run c : conf_ok c -> forall rest done fl, Forall is_bit done -> Forall is_bit rest -> rest <> [] ->
  zlen done + zlen rest = ndata c ->
  let s := Cr (zlen done) (2 ^ (8 - zlen done) * data_val done) (pxor 0 done) fl DATA in
  prun c s rest = (Cr (ndata c) (data_val (done ++ rest)) (pxor 0 (done ++ rest)) fl (after_data c), []) /\ (fl = 0 -> zrun c s rest).
Proof.
  intros (H1 & H2 & H3). induction rest as [|b rest IH]; intros done fl Hd Hr Hne HL; [congruence|].
  cbn zeta. rewrite zlen_cons in HL. pose proof (zlen_nonneg rest). pose proof (zlen_nonneg done).
  inversion Hr as [|? ? Hb Hr']; subst.
  assert (PP : (if negb (b =? 0) then (if pxor 0 done =? 0 then 1 else 0) else pxor 0 done) = pxor 0 (done ++ [b])).
  { unfold pxor. rewrite sum_app. cbn [sum fold_right]. rewrite !Z.add_0_l, Z.add_0_r. rewrite (Z.add_mod (sum done)) by lia.
    pose proof (Z.mod_pos_bound (sum done) 2 ltac:(lia)). assert (sum done mod 2 = 0 \/ sum done mod 2 = 1) as [-> | ->] by lia;
    destruct Hb as [-> | ->]; reflexivity. }
  assert (SB : pbit c (Cr (zlen done) (2 ^ (8 - zlen done) * data_val done) (pxor 0 done) fl DATA) b =
     (if ndata c <=? zlen done + 1 then Cr (ndata c) (data_val (done ++ [b])) (pxor 0 (done ++ [b])) fl (after_data c)
      else Cr (zlen (done ++ [b])) (2 ^ (8 - zlen (done ++ [b])) * data_val (done ++ [b])) (pxor 0 (done ++ [b])) fl DATA, [])).
  { unfold pbit. cbn [r_flow r_cnt r_sh r_par r_fl]. rewrite PP, sh_step by (try apply data_val_range; auto; lia).
    rewrite <- data_val_snoc. replace (zlen (done ++ [b])) with (zlen done + 1) by (rewrite zlen_app; reflexivity).
    destruct (Z.leb_spec (ndata c) (zlen done + 1)); [|reflexivity].
    assert (EN : zlen done + 1 = ndata c) by lia. rewrite EN. f_equal. f_equal.
    destruct (Z.ltb_spec (ndata c) 8).
    - rewrite Z.shiftr_div_pow2, Z.mul_comm, Z.div_mul; [reflexivity|apply Z.pow_nonzero; lia|lia].
    - replace (8 - ndata c) with 0 by lia. rewrite Z.pow_0_r. lia. }
  cbn [prun zrun]. rewrite SB. cbn [fst].
  destruct (Z.leb_spec (ndata c) (zlen done + 1)).
  - assert (rest = []) by (destruct rest; [reflexivity|]; rewrite zlen_cons in *; pose proof (zlen_nonneg rest); lia). subst rest.
    cbn [prun zrun app]. split; [reflexivity|]. intros ->. split; auto.
  - assert (rest <> []) by (intros ->; change (zlen (@nil Z)) with 0 in *; lia).
    destruct (IH (done ++ [b]) fl) as [E Z]; auto.
    + apply Forall_app; auto.
    + rewrite zlen_app. change (zlen [b]) with 1. lia.
    + cbn zeta in E, Z. rewrite E. rewrite <- app_assoc. cbn [app]. split; [reflexivity|]. intros ->. split; auto.
Qed.
Definition stop_flags (fl : Z) (l : list Z) : Z := if forallb (fun b => b =? 1) l then fl else Z.lor fl F_FRAMING.
Lemma stop_run c : conf_ok c -> forall l cnt sh p fl, ndata c <= cnt -> l <> [] -> cnt + zlen l = ndata c + nstop c ->
  let s := Cr cnt sh p fl STOP in
  prun c s l = (Cr (ndata c + nstop c) sh p (stop_flags fl l) IDLE, [sh]) /\ (fl = 0 -> forallb (fun b => b =? 1) l = true -> zrun c s l).
Proof.
  intros (H1 & H2 & H3). induction l as [|b l IH]; intros cnt sh p fl Hc Hne HL; [congruence|].
  rewrite zlen_cons in HL. pose proof (zlen_nonneg l). cbn zeta. cbn [prun zrun]. unfold pbit at 1 2 3. cbn [r_flow r_cnt r_sh r_par r_fl].
  destruct (Z.leb_spec (ndata c + nstop c) (cnt + 1)).
  - assert (l = []) by (destruct l; [reflexivity|]; rewrite zlen_cons in *; pose proof (zlen_nonneg l); lia). subst l.
    change (zlen (@nil Z)) with 0 in *. cbn [prun app fst zrun]. unfold stop_flags. cbn [forallb]. replace (cnt + 1) with (ndata c + nstop c) by lia.
    destruct (b =? 1); cbn [andb negb r_fl]; (split; [reflexivity|]); intros; auto; discriminate.
  - assert (l <> []) by (intros ->; change (zlen (@nil Z)) with 0 in *; lia).
    destruct (IH (cnt + 1) sh p (if negb (b =? 1) then Z.lor fl F_FRAMING else fl)) as [E Z]; auto; try lia.
    cbn zeta in E, Z. rewrite E. cbn [app]. unfold stop_flags. cbn [forallb].
    destruct (b =? 1); cbn [negb andb] in *.
    + split; [reflexivity|]. intros Hf Hg. split; [exact Hf|]. apply Z; auto.
    + split; [|intros; discriminate]. destruct (forallb _ l); [reflexivity|]. rewrite <- Z.lor_assoc, Z.lor_diag. reflexivity.
Qed.
Lemma head_run c s ds pb : conf_ok c -> r_flow s = IDLE -> Forall is_bit ds -> zlen ds = ndata c ->
  Forall is_bit pb -> zlen pb = (match par c with PNone => 0 | _ => 1 end) ->
  let pf := if list_eq_dec Z.eq_dec pb (parity_bits (par c) ds) then 0 else 2 in
  prun c s ([0] ++ ds ++ pb) = (Cr (ndata c) (data_val ds) (pxor 0 ds) pf STOP, []) /\
  (pf = 0 -> zrun c s ([0] ++ ds ++ pb)).
Proof.
  intros C F Hd Ld Hp Lp. pose proof C as (H1 & H2 & H3).
  destruct (data_run c C ds [] 0) as [ED ZD]; auto.
  { intros ->. change (zlen (@nil Z)) with 0 in Ld. lia. }
  cbn zeta in ED, ZD. change (zlen (@nil Z)) with 0 in *. cbn [data_val app] in ED. rewrite Z.mul_0_r in *.
  change (pxor 0 []) with 0 in *.
  assert (EP : exists pf, prun c (Cr (ndata c) (data_val ds) (pxor 0 ds) 0 (after_data c)) pb = (Cr (ndata c) (data_val ds) (pxor 0 ds) pf STOP, []) /\
     pf = (if list_eq_dec Z.eq_dec pb (parity_bits (par c) ds) then 0 else 2) /\
     (pf = 0 -> zrun c (Cr (ndata c) (data_val ds) (pxor 0 ds) 0 (after_data c)) pb)).
  { unfold after_data. assert (PX : pxor 0 ds = ones_parity ds) by reflexivity.
    assert (PB : ones_parity ds = 0 \/ ones_parity ds = 1) by (unfold ones_parity; pose proof (Z.mod_pos_bound (fold_right Z.add 0 ds) 2 ltac:(lia)); lia).
    destruct (par c) eqn:P.
    - destruct pb; [|rewrite zlen_cons in Lp; pose proof (zlen_nonneg pb); lia]. exists 0. cbn. repeat split.
    - destruct pb as [|b [|b2 pb2]]; [discriminate Lp| |rewrite !zlen_cons in Lp; pose proof (zlen_nonneg pb2); lia].
      inversion Hp as [|? ? Hb _]; subst. cbn [prun zrun]. unfold pbit. cbn [r_flow r_cnt r_sh r_par r_fl fst]. rewrite P, PX. cbn [parity_bits].
      eexists. split; [reflexivity|]. destruct PB as [-> | ->], Hb as [-> | ->]; cbn; auto; split; auto; discriminate.
    - destruct pb as [|b [|b2 pb2]]; [discriminate Lp| |rewrite !zlen_cons in Lp; pose proof (zlen_nonneg pb2); lia].
      inversion Hp as [|? ? Hb _]; subst. cbn [prun zrun]. unfold pbit. cbn [r_flow r_cnt r_sh r_par r_fl fst]. rewrite P, PX. cbn [parity_bits].
      eexists. split; [reflexivity|]. destruct PB as [-> | ->], Hb as [-> | ->]; cbn; auto; split; auto; discriminate.
    - destruct pb as [|b [|b2 pb2]]; [discriminate Lp| |rewrite !zlen_cons in Lp; pose proof (zlen_nonneg pb2); lia].
      inversion Hp as [|? ? Hb _]; subst. cbn [prun zrun]. unfold pbit. cbn [r_flow r_cnt r_sh r_par r_fl fst]. rewrite P, PX. cbn [parity_bits].
      eexists. split; [reflexivity|]. destruct Hb as [-> | ->]; cbn; auto; split; auto; discriminate.
    - destruct pb as [|b [|b2 pb2]]; [discriminate Lp| |rewrite !zlen_cons in Lp; pose proof (zlen_nonneg pb2); lia].
      inversion Hp as [|? ? Hb _]; subst. cbn [prun zrun]. unfold pbit. cbn [r_flow r_cnt r_sh r_par r_fl fst]. rewrite P, PX. cbn [parity_bits].
      eexists. split; [reflexivity|]. destruct Hb as [-> | ->]; cbn; auto; split; auto; discriminate. }
  destruct EP as (pf & EP & Epf & ZP). cbn zeta. rewrite <- Epf.
  assert (ER : prun c s [0] = (Cr 0 0 0 0 DATA, [])) by (cbn [prun]; unfold pbit; rewrite F; reflexivity).
  split.
  - rewrite prun_app, ER, prun_app, ED, EP. reflexivity.
  - intros P0.
    apply zrun_app; [cbn [zrun]; unfold pbit; rewrite F; cbn; auto|]. rewrite ER. cbn [fst].
    apply zrun_app; [apply ZD; reflexivity|]. rewrite ED. cbn [fst]. apply ZP; exact P0.
Qed.
Lemma frame_run c s ds pb ss : conf_ok c -> r_flow s = IDLE -> Forall is_bit ds -> zlen ds = ndata c ->
  Forall is_bit pb -> zlen pb = (match par c with PNone => 0 | _ => 1 end) -> zlen ss = nstop c ->
  prun c s ([0] ++ ds ++ pb ++ ss) = (Cr (ndata c + nstop c) (data_val ds) (pxor 0 ds) (err_flags c ds pb ss) IDLE, [data_val ds]) /\
  (err_flags c ds pb ss = 0 -> zrun c s ([0] ++ ds ++ pb ++ ss)).
Proof.
  intros C F Hd Ld Hp Lp Ls. pose proof C as (H1 & H2 & H3).
  destruct (head_run c s ds pb C F Hd Ld Hp Lp) as [EH ZH]. cbn zeta in EH, ZH.
  set (pf := if list_eq_dec Z.eq_dec pb (parity_bits (par c) ds) then 0 else 2) in *.
  destruct (stop_run c C ss (ndata c) (data_val ds) (pxor 0 ds) pf) as [ES ZS]; try lia.
  { intros ->. change (zlen (@nil Z)) with 0 in Ls. lia. }
  cbn zeta in ES, ZS.
  assert (PF : pf = 0 \/ pf = 2) by (unfold pf; destruct (list_eq_dec _ _ _); auto).
  assert (EF : err_flags c ds pb ss = stop_flags pf ss).
  { unfold err_flags, stop_flags. fold pf. destruct (forallb _ ss); [lia|]. destruct PF as [-> | ->]; reflexivity. }
  replace ([0] ++ ds ++ pb ++ ss) with (([0] ++ ds ++ pb) ++ ss) by (now rewrite <- !app_assoc).
  split.
  - rewrite prun_app, EH, ES, EF. reflexivity.
  - intros Z0. rewrite EF in Z0. unfold stop_flags in Z0.
    assert (pf = 0 /\ forallb (fun b => b =? 1) ss = true) as [P0 F1].
    { destruct (forallb _ ss); [auto|]. exfalso. destruct PF as [P0|P0]; rewrite P0 in Z0; discriminate Z0. }
    apply zrun_app; [apply ZH, P0|]. rewrite EH. cbn [fst]. apply ZS; auto.
Qed.
Lemma stop_quiet c : forall l cnt sh p fl, cnt + zlen l < ndata c + nstop c ->
  prun c (Cr cnt sh p fl STOP) l = (Cr (cnt + zlen l) sh p (stop_flags fl l) STOP, []).
Proof.
  induction l as [|b l IH]; intros cnt sh p fl HL.
  - cbn [prun]. change (zlen (@nil Z)) with 0. rewrite Z.add_0_r. reflexivity.
  - rewrite zlen_cons in *. pose proof (zlen_nonneg l). cbn [prun]. unfold pbit. cbn [r_flow r_cnt r_sh r_par r_fl].
    destruct (Z.leb_spec (ndata c + nstop c) (cnt + 1)); [lia|]. rewrite IH by lia. cbn [app]. f_equal. f_equal; [lia|].
    unfold stop_flags. cbn [forallb]. destruct (b =? 1); cbn [negb andb]; [reflexivity|].
    destruct (forallb _ l); [reflexivity|]. rewrite <- Z.lor_assoc, Z.lor_diag. reflexivity.
Qed.
Lemma rx_quiet c bufsz : conf_ok c -> 1 <= bufsz <= 65535 -> forall l x, good c bufsz x -> snd (prun c (core_of x) l) = [] ->
  exists x', rx_loop c bufsz x l = Ok x' /\ good c bufsz x' /\ core_of x' = fst (prun c (core_of x) l) /\ rx_out x' = rx_out x /\ buf x' = buf x.
Proof.
  intros C HB. induction l as [|b l IH]; intros x Gx Q; [exists x; cbn; auto|].
  destruct (rx_bit_step c bufsz x b C HB Gx) as (x1 & new & E1 & G1 & C1 & _ & _ & _ & Q1 & _).
  cbn [prun rx_loop] in *. rewrite E1. cbn [bind]. destruct (pbit c (core_of x) b) as [k o] eqn:PB. cbn [fst snd] in *.
  destruct (prun c k l) as [k' o'] eqn:PR. cbn [snd] in Q. apply app_eq_nil in Q. destruct Q as [-> ->].
  rewrite <- C1 in PR. destruct (IH x1 G1) as (x' & E2 & G2 & C2 & O2 & B2); [now rewrite PR|]. destruct (Q1 eq_refl) as [Q2 Q3].
  exists x'. rewrite PR in C2. split; [exact E2|]. split; [exact G2|]. cbn [fst] in *. repeat split; congruence.
Qed.
Lemma rx_loop_app c bufsz l1 : forall s l2, rx_loop c bufsz s (l1 ++ l2) = bind (rx_loop c bufsz s l1) (fun s' => rx_loop c bufsz s' l2).
Proof. induction l1 as [|b l1 IH]; intros s l2; [reflexivity|]. cbn [app rx_loop]. destruct (rx_bit c bufsz s b); cbn [bind]; auto. Qed.
Lemma frame_rx c bufsz s ds pb ss : conf_ok c -> 1 <= bufsz <= 65535 -> good c bufsz s -> rx_flow s = IDLE ->
  Forall is_bit ds -> zlen ds = ndata c -> Forall is_bit pb -> zlen pb = (match par c with PNone => 0 | _ => 1 end) -> zlen ss = nstop c ->
  exists s', rx_loop c bufsz s ([0] ++ ds ++ pb ++ ss) = Ok s' /\ good c bufsz s' /\ rx_flow s' = IDLE /\
    rx_out (flush_rx bufsz s') = rx_out s ++ [(buf s ++ [data_val ds], err_flags c ds pb ss)] /\
    (err_flags c ds pb ss <> 0 -> rx_out s' = rx_out (flush_rx bufsz s')).
Proof.
  intros C HB G F Hd Ld Hp Lp Ls. pose proof C as (H1 & H2 & H3).
  destruct (head_run c (core_of s) ds pb C F Hd Ld Hp Lp) as [EH _]. cbn zeta in EH.
  destruct (frame_run c (core_of s) ds pb ss C F Hd Ld Hp Lp Ls) as [FR _].
  destruct (exists_last (l := ss)) as (ss' & last & ES); [intros ->; change (zlen (@nil Z)) with 0 in Ls; lia|]. subst ss.
  rewrite zlen_app in Ls. change (zlen [last]) with 1 in Ls.
  set (pf := if list_eq_dec Z.eq_dec pb (parity_bits (par c) ds) then 0 else 2) in *.
  assert (PRE : prun c (core_of s) (([0] ++ ds ++ pb) ++ ss') = (Cr (ndata c + zlen ss') (data_val ds) (pxor 0 ds) (stop_flags pf ss') STOP, [])).
  { rewrite prun_app, EH, stop_quiet by lia. reflexivity. }
  replace ([0] ++ ds ++ pb ++ ss' ++ [last]) with ((([0] ++ ds ++ pb) ++ ss') ++ [last]) in * by (now rewrite <- !app_assoc).
  rewrite prun_app, PRE in FR. cbn [prun] in FR.
  destruct (rx_quiet c bufsz C HB (([0] ++ ds ++ pb) ++ ss') s G) as (x & E1 & G1 & C1 & O1 & B1); [now rewrite PRE|].
  rewrite PRE in C1. cbn [fst] in C1. rewrite rx_loop_app, E1. cbn [bind rx_loop].
  destruct (rx_bit_step c bufsz x last C HB G1) as (s' & new & E2 & G2 & C2 & D2 & O2 & N2 & _ & Q2).
  rewrite C1 in *. destruct (pbit c _ last) as [k o]. cbn [fst snd app] in *. rewrite app_nil_r in FR. injection FR as -> ->.
  cbn [r_fl] in *.
  rewrite E2. cbn [bind]. exists s'. split; [reflexivity|]. split; [exact G2|]. split; [change (rx_flow s') with (r_flow (core_of s')); now rewrite C2|].
  destruct (flush_spec c bufsz s' HB G2) as (_ & _ & _ & O3).
  assert (FLG : rx_flags s' = err_flags c ds pb (ss' ++ [last])) by (change (rx_flags s') with (r_fl (core_of s')); now rewrite C2).
  unfold rx_bit in E2. change (rx_flow x) with (r_flow (core_of x)) in E2. rewrite C1 in E2. cbn [r_flow] in E2.
  assert (CX : rx_cnt x = ndata c + zlen ss') by (change (rx_cnt x) with (r_cnt (core_of x)); now rewrite C1).
  assert (SX : rx_shift x = data_val ds) by (change (rx_shift x) with (r_sh (core_of x)); now rewrite C1).
  pose proof (zlen_nonneg ss'). rewrite CX, u8_small in E2 by (unfold is_byte; lia).
  destruct (Z.leb_spec (ndata c + nstop c) (ndata c + zlen ss' + 1)); [|lia].
  set (fl := if negb (last =? 1) then _ else _) in *. clearbody fl.
  destruct G1 as (R1 & I1 & (cap & d & M & Hc & Hd') & HO1). unfold rx_ch in E2. cbn [rx_msg rx_shift rx_flags] in E2. rewrite M in E2.
  destruct (Z.leb_spec (zlen d + 1) cap); [|lia]. unfold buf in B1 at 1. rewrite M in B1. subst d.
  assert (LD : zlen (buf s ++ [rx_shift x]) = zlen (buf s) + 1) by (rewrite zlen_app; reflexivity).
  pose proof (zlen_nonneg (buf s)) as Hd0.
  unfold flush_rx at 1 in E2. cbn [rx_msg rx_run rx_cnt rx_shift rx_par rx_flags rx_flow rx_out] in E2. rewrite LD in E2.
  destruct (Z.eqb_spec (zlen (buf s) + 1) 0); [lia|]. revert E2.
  destruct (bufsz <=? zlen (buf s) + 1); cbn [orb]; [|destruct (Z.eqb_spec fl 0) as [FE|FE]; cbn [negb]]; cbn [bind rx_msg rx_run rx_cnt rx_shift rx_par rx_flags rx_flow rx_out];
    intros E2; injection E2 as <-; cbn [rx_flags rx_out buf rx_msg] in *; rewrite O3; subst fl || idtac; rewrite ?O1, ?SX, ?app_nil_r.
  - split; [reflexivity|]. reflexivity.
  - split; [|intros NE; congruence]. rewrite FE in *. destruct (buf s ++ [data_val ds]) eqn:EB; [destruct (buf s); discriminate|]. reflexivity.
  - split; reflexivity.
Qed.
Lemma data_val_bits n : forall s, data_val (lsb n s) = s mod 2 ^ Z.of_nat n.
Proof.
  induction n as [|n IH]; intros s; [cbn [lsb data_val]; rewrite Z.mod_1_r; reflexivity|]. cbn [lsb data_val]. rewrite IH.
  rewrite Nat2Z.inj_succ, Z.pow_succ_r by lia. change 1 with (Z.ones 1) at 1. rewrite Z.land_ones by lia. rewrite Z.shiftr_div_pow2 by lia. change (2 ^ 1) with 2.
  rewrite (Z.rem_mul_r s 2 (2 ^ Z.of_nat n)) by (try apply Z.pow_pos_nonneg; lia). lia.
Qed.
Definition low (c : conf) (ch : Z) : Z := ch mod 2 ^ ndata c.
Lemma line_run c cs bits : conf_ok c -> on_line c cs bits -> forall s, r_flow s = IDLE -> r_fl s = 0 ->
  r_flow (fst (prun c s bits)) = IDLE /\ r_fl (fst (prun c s bits)) = 0 /\ snd (prun c s bits) = map (low c) cs /\ zrun c s bits.
Proof.
  intros C. induction 1 as [|cs l L IH|cs l ch L IH]; intros s F Z.
  - cbn. auto.
  - destruct (IH s F Z) as (F1 & Z1 & S1 & R1). rewrite prun_app.
    assert (E1 : forall x, r_flow x = IDLE -> prun c x [1] = (x, []) /\ (r_fl x = 0 -> zrun c x [1])).
    { intros x Fx. cbn [prun zrun]. unfold pbit. rewrite Fx. cbn. auto. }
    destruct (E1 _ F1) as [E2 E3]. split; [|split; [|split]].
    + destruct (prun c s l) as [s1 o1]. cbn [fst] in *. rewrite E2. exact F1.
    + destruct (prun c s l) as [s1 o1]. cbn [fst] in *. rewrite E2. exact Z1.
    + destruct (prun c s l) as [s1 o1]. cbn [fst snd] in *. rewrite E2. cbn [snd]. now rewrite app_nil_r.
    + apply zrun_app; [exact R1|]. apply E3, Z1.
  - destruct (IH s F Z) as (F1 & Z1 & S1 & R1). rewrite prun_app.
    pose proof C as (H1 & H2 & H3).
    assert (DL : zlen (data_bits (ndata c) ch) = ndata c) by (rewrite data_bits_lsb; unfold zlen; rewrite lsb_len; lia).
    assert (PB : Forall is_bit (parity_bits (par c) (data_bits (ndata c) ch))).
    { unfold parity_bits, ones_parity. pose proof (Z.mod_pos_bound (fold_right Z.add 0 (data_bits (ndata c) ch)) 2 ltac:(lia)).
      destruct (par c); constructor; try (constructor; fail); unfold is_bit; lia. }
    destruct (frame_run c (fst (prun c s l)) (data_bits (ndata c) ch) (parity_bits (par c) (data_bits (ndata c) ch)) (repeat 1 (Z.to_nat (nstop c))) C F1) as [E2 E3]; auto.
    { rewrite data_bits_lsb. apply lsb_bit. }
    { unfold parity_bits. destruct (par c); reflexivity. }
    { unfold zlen. rewrite repeat_length. lia. }
    fold (frame c ch) in E2, E3.
    assert (EZ : err_flags c (data_bits (ndata c) ch) (parity_bits (par c) (data_bits (ndata c) ch)) (repeat 1 (Z.to_nat (nstop c))) = 0).
    { unfold err_flags. destruct (list_eq_dec _ _ _); [|congruence].
      replace (forallb (fun b => b =? 1) (repeat 1 (Z.to_nat (nstop c)))) with true; [reflexivity|].
      symmetry. apply forallb_forall. intros x Hx. apply repeat_spec in Hx. subst x. reflexivity. }
    rewrite EZ in E2. split; [|split; [|split]].
    + destruct (prun c s l) as [s1 o1]. cbn [fst] in *. rewrite E2. reflexivity.
    + destruct (prun c s l) as [s1 o1]. cbn [fst] in *. rewrite E2. reflexivity.
    + destruct (prun c s l) as [s1 o1]. cbn [fst snd] in *. rewrite E2. cbn [snd]. rewrite map_app. f_equal; [exact S1|]. cbn [map].
      unfold low. rewrite data_bits_lsb, data_val_bits, Z2Nat.id by lia. reflexivity.
    + apply zrun_app; [exact R1|]. apply E3, EZ.
Qed.

(** * The receiver with its buffer *)
Lemma rx_loop_ok c bufsz : conf_ok c -> 1 <= bufsz <= 65535 -> forall bits s, good c bufsz s ->
  exists s', rx_loop c bufsz s bits = Ok s' /\ good c bufsz s' /\ core_of s' = fst (prun c (core_of s) bits) /\
    delivered s' ++ buf s' = (delivered s ++ buf s) ++ snd (prun c (core_of s) bits) /\
    (zrun c (core_of s) bits -> Forall (fun e => snd e = 0) (rx_out s) -> Forall (fun e => snd e = 0) (rx_out s')).
Proof.
  intros C HB. induction bits as [|b t IH]; intros s G.
  - exists s. cbn [rx_loop prun fst snd]. rewrite app_nil_r. auto.
  - destruct (rx_bit_step c bufsz s b C HB G) as (s1 & new & E & G1 & C1 & D1 & O1 & N1 & _).
    cbn [rx_loop prun]. rewrite E. cbn [bind]. destruct (IH s1 G1) as (s2 & E2 & G2 & C2 & D2 & Z2).
    exists s2. split; [exact E2|]. split; [exact G2|]. rewrite C2, C1, D2, D1, C1.
    destruct (pbit c (core_of s) b) as [k o] eqn:PB. cbn [fst snd] in *. destruct (prun c k t) as [k' o'] eqn:PR. cbn [fst snd].
    split; [reflexivity|]. split; [now rewrite app_assoc|]. cbn [zrun]. rewrite PB. cbn [fst]. intros [Z0 Z1] HO. apply Z2; [now rewrite C1|].
    rewrite O1. apply Forall_app. split; [exact HO|]. eapply Forall_impl; [|exact N1]. intros e He. congruence.
Qed.
Lemma rx_ops_ok c bufsz : conf_ok c -> 1 <= bufsz <= 65535 -> forall ops s, good c bufsz s ->
  exists s', rx_ops c bufsz s ops = Ok s' /\ good c bufsz s' /\ core_of s' = fst (prun c (core_of s) (flat_map fed ops)) /\
    delivered s' ++ buf s' = (delivered s ++ buf s) ++ snd (prun c (core_of s) (flat_map fed ops)) /\
    (r_fl (core_of s) = 0 -> zrun c (core_of s) (flat_map fed ops) -> Forall (fun e => snd e = 0) (rx_out s) -> Forall (fun e => snd e = 0) (rx_out s')).
Proof.
  intros C HB. induction ops as [|o ops IH]; intros s G.
  - exists s. cbn [rx_ops flat_map prun fst snd]. rewrite app_nil_r. auto.
  - destruct o as [bits|]; cbn [rx_ops flat_map fed].
    + unfold rx_ubits. pose proof G as (R & _). rewrite R. cbn [negb].
      destruct (rx_loop_ok c bufsz C HB bits s G) as (s1 & E1 & G1 & C1 & D1 & Z1). rewrite E1. cbn [bind].
      destruct (IH s1 G1) as (s2 & E2 & G2 & C2 & D2 & Z2). exists s2. split; [exact E2|]. split; [exact G2|].
      rewrite prun_app, C2, D2, D1, C1 in *. destruct (prun c (core_of s) bits) as [k o] eqn:PR. cbn [fst snd] in *.
      destruct (prun c k (flat_map fed ops)) as [k' o'] eqn:PR2. cbn [fst snd] in *. split; [reflexivity|]. split; [now rewrite app_assoc|].
      intros F0 ZR HO.
      assert (SP : forall l1 l2 x, r_fl x = 0 -> zrun c x (l1 ++ l2) -> zrun c x l1 /\ r_fl (fst (prun c x l1)) = 0 /\ zrun c (fst (prun c x l1)) l2).
      { clear. induction l1 as [|b l1 IHl]; intros l2 x Fx H; cbn [app zrun prun fst] in *; [auto|]. destruct H as [Ha Hb].
        destruct (pbit c x b) as [x' o]. cbn [fst] in *. destruct (IHl l2 x' Ha Hb) as (K1 & K2 & K3).
        destruct (prun c x' l1) as [x'' o']. cbn [fst] in *. auto. }
      destruct (SP _ _ _ F0 ZR) as (K1 & K2 & K3). rewrite PR in K2, K3. cbn [fst] in K2, K3. apply Z2; auto.
    + destruct (flush_spec c bufsz s HB G) as (G1 & C1 & B1 & O1). destruct (IH _ G1) as (s2 & E2 & G2 & C2 & D2 & Z2).
      exists s2. split; [exact E2|]. split; [exact G2|]. rewrite C1 in *. cbn [app]. split; [exact C2|].
      assert (DD : delivered (flush_rx bufsz s) ++ buf (flush_rx bufsz s) = delivered s ++ buf s).
      { rewrite B1, app_nil_r. unfold delivered. rewrite O1, flat_map_app. f_equal. destruct (buf s); cbn [flat_map fst]; [reflexivity|]. now rewrite app_nil_r. }
      rewrite D2, DD. split; [reflexivity|]. intros F0 ZR HO. apply Z2; auto. rewrite O1. apply Forall_app. split; [exact HO|].
      destruct (buf s); constructor; auto.
Qed.
Lemma rx_ops_app c bufsz l1 : forall s l2, rx_ops c bufsz s (l1 ++ l2) = bind (rx_ops c bufsz s l1) (fun s' => rx_ops c bufsz s' l2).
Proof.
  induction l1 as [|o l1 IH]; intros s l2; [reflexivity|]. cbn [app rx_ops]. destruct o as [bits|]; [|apply IH].
  destruct (rx_ubits c bufsz s bits) as [[r s']| | |]; cbn [bind]; auto.
Qed.
