(** C73: the Global Call Reference. *)
From Verif Require Import Base M_gcr S_gcr P_gcr.

(** Encoding appends the octets of 3GPP TS 29.205 for any reference with a network of 3 to 5 octets, and says how many; otherwise nothing. *)
Theorem C73_encode : forall g room out, struct_ok g -> 16 <= room ->
  (3 <= g_net_len g <= 5 -> let o := octets (net_of g) 2 (g_node g) (g_cr g) in osmo_enc_gcr (room, out) (Some g) = Ok (zlen o, (room - zlen o, out ++ o))) /\
  (~ 3 <= g_net_len g <= 5 -> osmo_enc_gcr (room, out) (Some g) = Ok (0, (room, out))) /\ osmo_enc_gcr (room, out) None = Ok (0, (room, out)).
Proof.
  intros g room out (N5 & C5 & Bn & Bc & Hd & Hl) Hr. split; [|split; [|reflexivity]].
  - intros R. cbv zeta. assert (Ln : zlen (net_of g) = g_net_len g) by (unfold net_of, zlen in *; rewrite firstn_length; lia).
    rewrite octets_len, Ln, C5. unfold osmo_enc_gcr. destruct (Z.ltb_spec (g_net_len g) 3); [lia|]. destruct (Z.ltb_spec 5 (g_net_len g)); [lia|]. cbn [orb].
    unfold msgb_lv_put at 1. cbn [fst snd]. destruct (Z.ltb_spec room (g_net_len g + 1)); [lia|]. rewrite cpy_in by lia. cbn [bind].
    unfold msgb_lv_put at 1. cbn [fst snd]. destruct (Z.ltb_spec (room - (g_net_len g + 1)) (2 + 1)); [lia|]. rewrite cpy_in by (unfold zlen; rewrite ?be_bytes_length; lia). cbn [bind].
    unfold msgb_lv_put at 1. cbn [fst snd]. destruct (Z.ltb_spec (room - (g_net_len g + 1) - (2 + 1)) (5 + 1)); [lia|]. rewrite cpy_in by lia. cbn [bind].
    assert (F : forall (l : list Z) n, zslice l 0 n = firstn (Z.to_nat n) l) by reflexivity. rewrite !F.
    rewrite (firstn_all2 (g_cr g)) by (unfold zlen in C5; lia). rewrite (firstn_all2 (be_bytes 2 (g_node g))) by (rewrite be_bytes_length; lia).
    rewrite (u8_small (g_net_len g)) by (unfold is_byte; lia). rewrite u8_small by (unfold is_byte; lia).
    assert (B2 : be_bytes 2 (g_node g) = [g_node g / 256; g_node g mod 256]).
    { pose proof (be_bytes_be_val [g_node g / 256; g_node g mod 256]) as K. cbn [length] in K. rewrite be2, dm in K.
      - apply K. apply Forall_cons; [unfold is_byte; split; [apply Z.div_pos; lia|apply Z.div_lt_upper_bound; lia]|]. apply Forall_cons; [unfold is_byte; apply Z.mod_pos_bound; lia|apply Forall_nil].
      - unfold is_byte; split; [apply Z.div_pos; lia|apply Z.div_lt_upper_bound; lia].
      - unfold is_byte; apply Z.mod_pos_bound; lia. }
    rewrite B2. unfold octets. rewrite Ln. unfold net_of. f_equal. f_equal; [lia|]. f_equal; [lia|]. rewrite <- !app_assoc. cbn [app]. rewrite <- ?app_assoc. reflexivity.
  - intros R. unfold osmo_enc_gcr. destruct (Z.ltb_spec (g_net_len g) 3), (Z.ltb_spec 5 (g_net_len g)); cbn [orb]; try reflexivity. lia.
Qed.
Print Assumptions C73_encode.
Example C73_encode_nonvacuous : let g := Gcr [241; 2; 3; 0; 0] 3 51966 [1; 2; 3; 4; 5] in struct_ok g /\
  osmo_enc_gcr (16, [9]) (Some g) = Ok (13, (3, [9; 3; 241; 2; 3; 2; 202; 254; 5; 1; 2; 3; 4; 5])).
Proof. split; [|vm_compute; reflexivity]. repeat split; try (cbn; lia); repeat constructor; unfold is_byte; lia. Qed.

(** Whatever follows the octets of a reference, and whatever was in the structure, decoding delivers the reference and the number of its octets. *)
Theorem C73_decode : forall g net nl node cr rest, struct_ok g -> reference net node cr -> exists g',
  osmo_dec_gcr g (octets net nl node cr ++ rest) = Ok (zlen (octets net nl node cr), g') /\ struct_ok g' /\ g_net_len g' = zlen net /\ net_of g' = net /\ g_node g' = node /\ g_cr g' = cr.
Proof.
  intros g net nl node cr rest (N5 & C5 & Bn & Bc & Hd & Hl) R. rewrite (dec_good g net nl node cr rest R). destruct R as (R1 & R2 & R3 & R4 & R5). eexists. split; [rewrite octets_len, R3; f_equal; f_equal; lia|].
  cbn [g_net g_net_len g_node g_cr]. split.
  - unfold struct_ok. cbn [g_net g_net_len g_node g_cr]. repeat split; try assumption; try lia.
    + rewrite zlen_app. unfold zlen in *. rewrite skipn_length. lia.
    + apply Forall_app. split; [exact R4|]. unfold bytes in Bn. rewrite <- (firstn_skipn (length net) (g_net g)) in Bn. apply Forall_app in Bn. apply Bn.
  - split; [reflexivity|]. split; [|split; reflexivity]. unfold net_of. cbn [g_net g_net_len]. unfold zlen. rewrite Nat2Z.id, firstn_app, Nat.sub_diag, firstn_all. apply app_nil_r.
Qed.
Print Assumptions C73_decode.
Example C73_decode_nonvacuous : reference [241; 2; 3; 4] 51966 [1; 2; 3; 4; 5] /\
  osmo_dec_gcr (Gcr [9; 9; 9; 9; 9] 0 0 [0; 0; 0; 0; 0]) [4; 241; 2; 3; 4; 2; 202; 254; 5; 1; 2; 3; 4; 5; 77] = Ok (14, Gcr [241; 2; 3; 4; 9] 4 51966 [1; 2; 3; 4; 5]).
Proof. split; [|vm_compute; reflexivity]. repeat split; try (cbn; lia); repeat constructor; unfold is_byte; lia. Qed.

(** What was encoded decodes to an equal reference. *)
Theorem C73_roundtrip : forall g g0 room, struct_ok g -> struct_ok g0 -> 3 <= g_net_len g <= 5 -> 16 <= room ->
  exists n r o g', osmo_enc_gcr (room, []) (Some g) = Ok (n, (r, o)) /\ osmo_dec_gcr g0 o = Ok (n, g') /\ osmo_gcr_eq g g' = Ok true.
Proof.
  intros g g0 room Hg Hg0 R Hr. destruct (C73_encode g room [] Hg Hr) as (E & _). specialize (E R). cbv zeta in E. pose proof Hg as (N5 & C5 & Bn & Bc & Hd & Hl).
  assert (Ln : zlen (net_of g) = g_net_len g) by (unfold net_of, zlen in *; rewrite firstn_length; lia).
  assert (Rf : reference (net_of g) (g_node g) (g_cr g)).
  { repeat split; try lia; try assumption. unfold net_of. unfold bytes in Bn. rewrite <- (firstn_skipn (Z.to_nat (g_net_len g)) (g_net g)) in Bn. apply Forall_app in Bn. apply Bn. }
  destruct (C73_decode g0 (net_of g) 2 (g_node g) (g_cr g) [] Hg0 Rf) as (g' & D & (M5 & D5 & _) & L' & N' & O' & C'). rewrite app_nil_r in D.
  do 4 eexists. split; [exact E|]. split; [exact D|]. unfold osmo_gcr_eq, same. rewrite L', O', C', Ln, !Z.eqb_refl. cbn [negb]. rewrite !cpy_in by lia. cbn [bind].
  destruct (list_eq_dec Z.eq_dec (zslice (g_cr g) 0 5) (zslice (g_cr g) 0 5)); [|congruence]. cbn [bind negb].
  assert (X : zslice (g_net g) 0 (g_net_len g) = zslice (g_net g') 0 (g_net_len g)).
  { change (net_of g = firstn (Z.to_nat (g_net_len g)) (g_net g')). rewrite <- N'. unfold net_of. rewrite L', Ln. reflexivity. }
  rewrite X. destruct (list_eq_dec Z.eq_dec (zslice (g_net g') 0 (g_net_len g)) (zslice (g_net g') 0 (g_net_len g))); [reflexivity|congruence].
Qed.
Print Assumptions C73_roundtrip.
Example C73_roundtrip_nonvacuous : let g := Gcr [241; 2; 3; 7; 6] 5 51966 [1; 2; 3; 4; 5] in
  match osmo_enc_gcr (16, []) (Some g) with Ok (n, (_, o)) => osmo_dec_gcr (Gcr [9; 9; 9; 9; 9] 0 0 [0; 0; 0; 0; 0]) o | _ => UB end = Ok (15, g).
Proof. vm_compute. reflexivity. Qed.

(** Two references are equal exactly if network, node and call reference are. *)
Theorem C73_equal : forall a b, struct_ok a -> struct_ok b -> g_net_len b <= 5 -> exists r, osmo_gcr_eq a b = Ok r /\
  (r = true <-> g_net_len a = g_net_len b /\ net_of a = net_of b /\ g_node a = g_node b /\ g_cr a = g_cr b).
Proof.
  intros a b (N5 & C5 & _ & _ & _ & La) (M5 & D5 & _ & _ & _ & Lb) L. unfold osmo_gcr_eq.
  destruct (Z.eqb_spec (g_net_len a) (g_net_len b)) as [E1|E1]; cbn [negb]; [|exists false; split; [reflexivity|]; split; [discriminate|tauto]].
  destruct (Z.eqb_spec (g_node a) (g_node b)) as [E2|E2]; cbn [negb]; [|exists false; split; [reflexivity|]; split; [discriminate|tauto]].
  assert (F : forall (l : list Z), zlen l = 5 -> zslice l 0 5 = l) by (intros l Hl; unfold zslice, slice; cbn [Z.to_nat skipn]; apply firstn_all2; unfold zlen in Hl; lia).
  unfold same. rewrite !cpy_in by lia. cbn [bind]. rewrite !F by assumption. destruct (list_eq_dec Z.eq_dec (g_cr a) (g_cr b)) as [E3|E3]; cbn [bind negb]; [|exists false; split; [reflexivity|]; split; [discriminate|tauto]].
  unfold net_of. rewrite E1. change (zslice (g_net a) 0 (g_net_len b)) with (firstn (Z.to_nat (g_net_len b)) (g_net a)). change (zslice (g_net b) 0 (g_net_len b)) with (firstn (Z.to_nat (g_net_len b)) (g_net b)).
  destruct (list_eq_dec Z.eq_dec (firstn (Z.to_nat (g_net_len b)) (g_net a)) (firstn (Z.to_nat (g_net_len b)) (g_net b))) as [E4|E4]; cbn [bind negb]; [exists true; tauto|exists false; split; [reflexivity|]; split; [discriminate|tauto]].
Qed.
Print Assumptions C73_equal.
Example C73_equal_nonvacuous : osmo_gcr_eq (Gcr [1; 2; 3; 4; 5] 3 7 [1; 2; 3; 4; 5]) (Gcr [1; 2; 3; 9; 9] 3 7 [1; 2; 3; 4; 5]) = Ok true /\
  osmo_gcr_eq (Gcr [1; 2; 3; 4; 5] 4 7 [1; 2; 3; 4; 5]) (Gcr [1; 2; 3; 9; 9] 4 7 [1; 2; 3; 4; 5]) = Ok false.
Proof. split; vm_compute; reflexivity. Qed.

(** Any octets: those that do not start with a reference are refused, and nothing is read behind them. Missing: octets in which a reference is
    cut off after at least 13 octets, see [C73_cut_refuted]. *)
Theorem C73_any_octets_partial : forall g elem, bytes elem -> ~ cut elem -> exists rc g', osmo_dec_gcr g elem = Ok (rc, g') /\ (0 <= rc <-> good elem).
Proof.
  intros g elem B C. destruct (dec_cases g elem B) as [G|[(X & _)|(G & _ & rc & g' & E & L)]]; [|contradiction|].
  - pose proof G as (net & nl & node & cr & rest & R & E). rewrite E. rewrite (dec_good g net nl node cr rest R). rewrite <- E. do 2 eexists. split; [reflexivity|]. destruct R. split; [intros _; exact G|lia].
  - exists rc, g'. split; [exact E|]. split; [lia|contradiction].
Qed.
Print Assumptions C73_any_octets_partial.
Example C73_any_octets_partial_nonvacuous : map (fun l => match osmo_dec_gcr (Gcr [9; 9; 9; 9; 9] 0 0 [0; 0; 0; 0; 0]) l with Ok (rc, _) => rc | _ => 1 end)
  [[3; 1; 2; 3; 2; 0; 1; 5; 1; 2; 3; 4]; [6; 1; 2; 3; 2; 0; 1; 5; 1; 2; 3; 4; 5]; [3; 1; 2; 3; 2; 0; 1; 4; 1; 2; 3; 4; 5]; [3; 1; 2; 3; 2; 0; 1; 5; 1; 2; 3; 4; 5]] = [-74; -22; -2; 13].
Proof. vm_compute. reflexivity. Qed.

(** The decoder only checks for 13 octets, which is enough for a network of 3 octets only. It reads behind the octets exactly if a reference is
    cut off after at least 13 octets, and there are such octets. *)
Theorem C73_cut_refuted : (forall g elem, bytes elem -> (osmo_dec_gcr g elem = UB <-> cut elem)) /\
  exists elem, bytes elem /\ zlen elem = 13 /\ forall g, osmo_dec_gcr g elem = UB.
Proof.
  split.
  - intros g elem B. destruct (dec_cases g elem B) as [G|[(X & Y)|(_ & C & rc & g' & E & _)]]; [|tauto|rewrite E; split; [discriminate|contradiction]].
    pose proof G as (net & nl & node & cr & rest & R & E). rewrite E at 1. rewrite (dec_good g net nl node cr rest R). split; [discriminate|].
    intros (L & net' & nl' & node' & cr' & more & R' & M & E'). exfalso. destruct R as (R1 & _ & R3 & _), R' as (R1' & _ & R3' & _).
    assert (Z0 : zlen net = zlen net').
    { assert (A : at0 elem 0 = zlen net) by (rewrite E; reflexivity). assert (A' : at0 (elem ++ more) 0 = zlen net') by (rewrite E'; reflexivity). rewrite at0_app in A' by lia.
      destruct (Z.ltb_spec 0 (zlen elem)); lia. }
    apply (f_equal zlen) in E'. rewrite zlen_app, octets_len in E'. apply (f_equal zlen) in E. rewrite zlen_app, octets_len in E. pose proof (zlen_nonneg rest).
    destruct more as [|x more]; [contradiction|]. rewrite zlen_cons in E'. pose proof (zlen_nonneg more). lia.
  - exists [5; 1; 2; 3; 4; 5; 2; 0; 1; 5; 1; 2; 3]. split; [repeat constructor; unfold is_byte; lia|]. split; [reflexivity|]. intros g. reflexivity.
Qed.
Print Assumptions C73_cut_refuted.
