(** Theorems: frequency lists (C32 range encoding, C53 decoding). *)
From Coq Require Import ZArith List Lia Bool Sorted.
From Verif Require Import Base S_range M_range P_range P_range6 P_range7.
Import ListNotations.
Open Scope Z_scope.

(** Which range is chosen for a non-empty list of increasing ARFCNs, and which F0. *)
Theorem C32_range_chosen : forall l f0_old,
  StronglySorted Z.lt l -> Forall (fun a => 0 <= a < 1024) l -> l <> [] ->
  let span := last l 0 - hd 0 l in
  let n := zlen l in
  determine_range l f0_old =
    Ok (if (span <? 128) && (n <=? 29) then (RANGE_128, hd 0 l)
        else if (span <? 256) && (n <=? 22) then (RANGE_256, hd 0 l)
        else if (span <? 512) && (n <=? 18) then (RANGE_512, hd 0 l)
        else if n <=? 17 then (RANGE_1024, 0) else (RANGE_INVALID, hd 0 l)).
Proof.
  intros l f0_old Hs Hb Hne span n.
  assert (Hz : 1 <= zlen l) by (destruct l; [congruence|]; rewrite zlen_cons; pose proof (zlen_nonneg l); lia).
  assert (Eh : at0 l 0 = hd 0 l) by (destruct l; reflexivity).
  assert (El : at0 l (zlen l - 1) = last l 0).
  { destruct (exists_last Hne) as [t [x ->]]. rewrite last_last, zlen_app. change (zlen [x]) with 1.
    unfold at0. rewrite app_nth2 by (unfold zlen; lia). replace (_ - _)%nat with 0%nat by (unfold zlen; lia). reflexivity. }
  unfold determine_range. destruct (Z.eqb_spec (zlen l) 0); [lia|]. rewrite !rd_at0 by lia. cbn [bind].
  rewrite El, Eh. fold span n.
  assert (span < 1024).
  { unfold span. rewrite Forall_forall in Hb. rewrite <- El, <- Eh.
    assert (Hi : forall i, 0 <= i < zlen l -> In (at0 l i) l) by (intros i Hi; unfold at0; apply nth_In; unfold zlen in Hi; lia).
    pose proof (Hb _ (Hi (zlen l - 1) ltac:(lia))). pose proof (Hb _ (Hi 0 ltac:(lia))). lia. }
  destruct (Z.ltb_spec span 1024) as [_ | ?]; [|lia]. cbn [andb].
  repeat match goal with |- context[if ?b then _ else _] => destruct b end; reflexivity.
Qed.
Print Assumptions C32_range_chosen.
Example C32_range_chosen_nonvacuous :
  determine_range [17; 20; 21; 112; 130] 0 = Ok (RANGE_128, 17) /\
  determine_range [1; 500; 1000] 5 = Ok (RANGE_1024, 0).
Proof. vm_compute. auto. Qed.

(** Every accepted list, encoded into a 16 octet cell channel description and decoded again, gives
    exactly the same set (whatever the 16 octets held before), unless it is one of the lists
    refuted below. *)
Theorem C32_roundtrip : forall l f0_old range f0 cl f mask frqt,
  StronglySorted Z.lt l -> Forall (fun a => 0 <= a < 1024) l -> l <> [] ->
  determine_range l f0_old = Ok (range, f0) -> range <> RANGE_INVALID ->
  (range = RANGE_1024 -> zlen l <= 16 \/ In 0 l) ->
  bytes cl -> zlen cl = 16 ->
  zlen f = 1024 -> bytes f -> is_byte frqt -> Z.land 206 mask = 206 ->
  exists cl', encode_list l f0_old cl = Ok (Some cl') /\ zlen cl' = 16 /\
    decode_freq_list f cl' 16 mask frqt = Ok (marked f frqt l, 0).
Proof.
  intros l f0_old range f0 cl f mask frqt Hs Hb Hne Hd Hr H17 Hbc Hzc Hzf Hbf Hq Hm.
  assert (E : range = rc_spec l).
  { assert (Hz : 1 <= zlen l) by (destruct l; [congruence|]; rewrite zlen_cons; pose proof (zlen_nonneg l); lia).
    assert (Hd1024 : at0 l (zlen l - 1) - at0 l 0 < 1024).
    { rewrite Forall_forall in Hb. assert (Hi : forall i, 0 <= i < zlen l -> In (at0 l i) l) by (intros i Hi; unfold at0; apply nth_In; unfold zlen in Hi; lia).
      pose proof (Hb _ (Hi (zlen l - 1) ltac:(lia))). pose proof (Hb _ (Hi 0 ltac:(lia))). lia. }
    unfold determine_range in Hd. destruct (Z.eqb_spec (zlen l) 0); [lia|]. rewrite !rd_at0 in Hd by lia. cbn [bind] in Hd.
    unfold rc_spec. cbv zeta.
    destruct (Z.ltb_spec (at0 l (zlen l - 1) - at0 l 0) 1024) as [_ | ?]; [|lia]. cbn [andb] in Hd.
    revert Hd. repeat match goal with |- context[if ?b then _ else _] => destruct b end; intros Hd; inversion Hd; reflexivity. }
  apply roundtrip; try assumption; rewrite <- E; [exact Hr|].
  intros [E1 [E2 E3]]. destruct (H17 E1); [lia | contradiction].
Qed.
Print Assumptions C32_roundtrip.
Example C32_roundtrip_nonvacuous :
  let l := [0; 1; 17; 31; 45; 58; 79; 81; 97; 113; 127; 213; 277; 287; 311; 331; 1023] in
  determine_range l 7 = Ok (RANGE_1024, 0) /\ In 0 l /\
  (exists cl', encode_list l 7 (repeat 255 16) = Ok (Some cl') /\
     decode_freq_list (repeat 3 1024) cl' 16 206 2 = Ok (marked (repeat 3 1024) 2 l, 0)) /\
  let l := [64; 73; 74; 75; 76; 77; 78; 79; 80; 81; 82; 83; 84; 85; 86; 87; 88; 89; 90; 191] in
  determine_range l 7 = Ok (RANGE_128, 64) /\
  exists cl', encode_list l 7 (repeat 255 16) = Ok (Some cl').
Proof.
  cbv zeta. split; [vm_compute; reflexivity|]. split; [left; reflexivity|]. split.
  - eexists. split; [vm_compute; reflexivity | vm_compute; reflexivity].
  - split; [vm_compute; reflexivity | eexists; vm_compute; reflexivity].
Qed.

(** The excluded lists do fail: seventeen ARFCNs without ARFCN 0 are accepted for range 1024, but
    the format has room for sixteen; 113 is lost here. *)
Theorem C32_range1024_refuted :
  let l := [1; 17; 31; 45; 58; 79; 81; 97; 113; 127; 213; 277; 287; 311; 331; 391; 1023] in
  let f := repeat 0 1024 in
  determine_range l 0 = Ok (RANGE_1024, 0) /\
  exists cl', encode_list l 0 (repeat 0 16) = Ok (Some cl') /\
    decode_freq_list f cl' 16 206 1 = Ok (marked f 1 (filter (fun a => negb (a =? 113)) l), 0) /\
    marked f 1 (filter (fun a => negb (a =? 113)) l) <> marked f 1 l.
Proof.
  cbv zeta. split; [vm_compute; reflexivity|]. eexists. split; [vm_compute; reflexivity|].
  split; [vm_compute; reflexivity | vm_compute; discriminate].
Qed.
Print Assumptions C32_range1024_refuted.

(** The recursion never fails: in every non-empty set of frequencies of Z/(2h+1) there is one that
    has exactly floor((m-1)/2) of the others in the window of h frequencies that follows it. *)
Theorem C32_split_exists : forall h l, 0 <= h -> NoDup l -> Forall (fun f => 0 <= f < 2 * h + 1) l -> l <> [] ->
  exists x, In x l /\
    zlen (filter (fun y => negb (y =? x) && ((y - x) mod (2 * h + 1) <=? h)) l) = (zlen l - 1) / 2.
Proof.
  intros h l Hh Hn Hf Hne. destruct (split_exists h Hh l Hn Hf Hne) as [x [Hx E]]. exists x. split; [exact Hx|]. rewrite <- E.
  unfold g, cnt, win. clear E Hne. 
  assert (G : forall l, NoDup l -> zlen (filter (fun y => negb (y =? x) && ((y - x) mod (2 * h + 1) <=? h)) l) =
     zlen (filter (fun y => (y - x) mod (2 * h + 1) <=? h) l) - b2z (mem x l)).
  { clear l Hn Hf Hx. intros l Hn. induction Hn as [|a l Ha Hl IH]; [reflexivity|]. cbn [filter mem existsb].
    destruct (Z.eqb_spec a x) as [-> | Hne]; cbn [negb andb].
    - rewrite IH. assert (mem x l = false) as ->. { destruct (mem x l) eqn:E; [|reflexivity]. apply mem_In in E. contradiction. }
      rewrite Z.eqb_refl, Z.sub_diag, Z.mod_0_l by lia. destruct (Z.leb_spec 0 h); [|lia]. rewrite zlen_cons. cbn [orb b2z]. lia.
    - assert ((x =? a) = false) as -> by (apply Z.eqb_neq; congruence). cbn [orb]. fold (mem x l).
      destruct (_ <=? h); rewrite ?zlen_cons, IH; lia. }
  rewrite G by exact Hn. assert (mem x l = true) as -> by (apply mem_In, Hx). cbn [b2z].
  match goal with |- ?a - 1 = ?b - 1 => change a with b end. reflexivity.
Qed.
Print Assumptions C32_split_exists.
Example C32_split_exists_nonvacuous :
  let l := [3; 40; 41; 100; 126] in
  NoDup l /\ exists x, In x l /\ zlen (filter (fun y => negb (y =? x) && ((y - x) mod (2 * 63 + 1) <=? 63)) l) = 2.
Proof.
  cbv zeta. split; [repeat constructor; cbn; intuition lia|]. exists 40. vm_compute. auto.
Qed.

(** gsm48_decode_freq_list: for every octet string of at least one octet, the members of the list
    of TS 44.018 10.5.2.13 (Annex J for the range formats) get the bits [frqt], the other ARFCNs
    lose them, nothing else of the table changes, no octet outside the list is read; a list too
    short for its format gives -EINVAL and clears the bits. *)
Theorem C53_decode : forall f cd len mask frqt,
  bytes cd -> zlen cd = len -> 1 <= len -> zlen f = 1024 -> bytes f -> is_byte frqt ->
  Z.land 206 mask = 206 ->
  decode_freq_list f cd len mask frqt =
    if len <? fst (fmt_freqs cd len) then Ok (marked f frqt [], - EINVAL)
    else Ok (marked f frqt (snd (fmt_freqs cd len)), 0).
Proof.
  intros f cd len mask frqt Hb Hc Hl Hz Hbf Hq Hm. pose proof (decode_ok f cd len mask frqt Hb Hc Hl Hz Hbf Hq Hm) as H.
  destruct (fmt_freqs cd len) as [ml fr]. exact H.
Qed.
Print Assumptions C53_decode.
Example C53_decode_nonvacuous :
  (* range 512, ORIG-ARFCN 511, three W *)
  let cd := [136; 255; 200; 3; 7; 128] in
  bytes cd /\ fmt_freqs cd 6 = (4, [511; 799; 555; 829]) /\
  decode_freq_list (repeat 0 1024) cd 6 206 1 = Ok (marked (repeat 0 1024) 1 [511; 799; 555; 829], 0) /\
  decode_freq_list (repeat 1 1024) [136; 255] 2 206 1 = Ok (marked (repeat 1 1024) 1 [], - EINVAL).
Proof. cbv zeta. split; [repeat constructor; unfold is_byte; lia|]. vm_compute. auto. Qed.

(** With no octet at all the format octet is still read. *)
Theorem C53_empty_refuted : decode_freq_list (repeat 0 1024) [] 0 206 1 = UB.
Proof. vm_compute. reflexivity. Qed.
Print Assumptions C53_empty_refuted.
