(* T_ipa.v - C55: IPA messages survive any segmentation of the byte stream *)
From Verif Require Import Base S_ipa M_ipa P_ipa.

(* However the octets of a sequence of frames trickle in, and however often reads find nothing or are interrupted: the
   polling caller gets exactly the frames with payload, in order and unchanged, each with its payload length; everything
   not yet delivered is in the kept message or still in the stream, and less than one frame is kept. *)
Theorem C55_reassembly : forall fs sched n, Forall fits fs -> Forall benign sched ->
  exists evs tmp s done todo, poll n None (mksock (wire fs) sched) = Ok (evs, tmp, s) /\ fs = done ++ todo /\
    delivered evs = map frame (filter carries done) /\ Forall reported evs /\ held tmp ++ stream s = wire todo /\
    (todo = [] \/ exists f t, todo = f :: t /\ zlen (held tmp) < zlen (frame f)) /\ (stream s = [] -> delivered evs = map frame (filter carries fs)).
Proof.
  intros fs sched n F B. destruct (poll_inv n None _ fs (inv_start fs sched F B)) as (evs & tmp & s & done & todo & E & S & I & D & R & _).
  exists evs, tmp, s, done, todo. split; [exact E|]. split; [exact S|]. split; [exact D|]. split; [exact R|]. split; [apply I|].
  destruct (inv_small _ _ _ I) as [(-> & _ & _)|(f & t & -> & L)].
  - split; auto. intros _. rewrite D, S, app_nil_r. reflexivity.
  - split; eauto. intros N. exfalso. destruct I as (W & _). rewrite N, app_nil_r in W. rewrite W, wire_cons, zlen_app in L. pose proof (zlen_nonneg (wire t)). lia.
Qed.
Print Assumptions C55_reassembly.

(* if every read finds at least one octet, as many calls as there are octets deliver everything *)
Theorem C55_everything : forall fs sched n, Forall fits fs -> Forall (fun t => exists k, t = Avail k /\ 1 <= k) sched ->
  zlen (wire fs) <= zlen sched -> zlen (wire fs) <= Z.of_nat n ->
  exists evs tmp s, poll n None (mksock (wire fs) sched) = Ok (evs, tmp, s) /\ delivered evs = map frame (filter carries fs).
Proof.
  intros fs sched n F A L N.
  assert (B : Forall benign sched) by (eapply Forall_impl; [|exact A]; cbn; intros a (k & -> & _); exact Logic.I).
  destruct (C55_reassembly fs sched n F B) as (evs & tmp & s & done & todo & E & _ & _ & _ & _ & _ & D).
  destruct (poll_flow n None _ fs (inv_start fs sched F B)) as (evs' & tmp' & s' & E' & D'); auto; [split; auto|].
  rewrite E in E'. injection E' as <- <- <-. exists evs, tmp, s. auto.
Qed.
Print Assumptions C55_everything.

(* a length field that exceeds the buffer is an error, nothing is kept *)
Theorem C55_too_long : forall b0 b1 b2 rest sched, is_byte b0 -> is_byte b1 -> 1197 < b0 * 256 + b1 ->
  exists s, ipa_msg_recv_buffered true None (mksock (b0 :: b1 :: b2 :: rest) (Avail 3 :: sched)) = Ok (- EIO, None, None, s).
Proof.
  intros b0 b1 b2 rest sched H0 H1 H. change (ipa_msg_recv_buffered true None (mksock (b0 :: b1 :: b2 :: rest) (Avail 3 :: sched))) with (recv_body true (mkimsg [b0; b1; b2] true) (mksock rest sched)).
  unfold recv_body. cbn [idata]. change (rd [b0; b1; b2] 0) with (Ok b0). change (rd [b0; b1; b2] 1) with (Ok b1). cbn [bind].
  replace (IPA_ALLOC_SIZE <? b0 * 256 + b1 + HDR) with true by (unfold IPA_ALLOC_SIZE, HDR; lia). eexists. reflexivity.
Qed.
Print Assumptions C55_too_long.

(* end of stream and errors of the socket are passed on, whatever was kept so far is dropped; memory is never overrun *)
Theorem C55_hangup : forall tmp st sched e, e <> 11 -> e <> 4 ->
  (forall m, tmp = Some m -> il2 m = false /\ zlen (idata m) <= 2) ->
  (exists s, ipa_msg_recv_buffered true tmp (mksock st (Closed :: sched)) = Ok (0, None, None, s)) /\
  (exists s, ipa_msg_recv_buffered true tmp (mksock st (Fail e :: sched)) = Ok (- e, None, None, s)).
Proof.
  intros tmp st sched e N1 N2 H. unfold ipa_msg_recv_buffered. set (m := match tmp with Some m => m | None => _ end).
  assert (Hm : il2 m = false /\ 0 <= zlen (idata m) <= 2). { destruct tmp as [m'|]; subst m; [|cbn; lia]. destruct (H _ eq_refl). pose proof (zlen_nonneg (idata m')). auto. }
  destruct Hm as [-> L]. unfold HDR, ROOM. replace ((_ <? 0) || (1200 <? _)) with false by lia. unfold recv. cbn [ticks stream got].
  unfold EAGAIN. replace ((e =? 11) || (e =? 4)) with false by lia. split; eexists; reflexivity.
Qed.
Print Assumptions C55_hangup.

(* the transmit side: ipa_prepend_header makes the frame of the payload (up to 65535 octets) *)
Theorem C55_prepend : forall headroom payload proto, 3 <= headroom -> is_byte proto -> zlen payload <= 65532 ->
  ipa_prepend_header headroom payload proto = Ok (frame (proto, payload)).
Proof.
  intros h p pr Hh Hp L. unfold ipa_prepend_header, HDR, frame. cbn [fst snd]. pose proof (zlen_nonneg p).
  destruct (h <? 3) eqn:E; [lia|]. unfold is_byte in Hp. unfold u16, u8. rewrite (Z.mod_small pr) by lia. rewrite (Z.mod_small (zlen p + 3)) by lia.
  replace (zlen p + 3 - 3) with (zlen p) by lia. rewrite Z.mod_small by lia. reflexivity.
Qed.
Print Assumptions C55_prepend.

(* without a place to keep part of a message, a message arriving in two pieces is lost *)
Theorem C55_unbuffered_refuted : exists s, ipa_msg_recv (mksock (frame (254, [0])) [Avail 2; Avail 2]) = Ok (-1, 5, None, s).
Proof. eexists. vm_compute. reflexivity. Qed.
Print Assumptions C55_unbuffered_refuted.

Example C55_nonvacuous : let fs := [(254, [0]); (0, []); (255, [1; 2; 3; 4])] in let sched := [Avail 1; Avail 0; Intr; Avail 9; Avail 5; Avail 2; Avail 1; Avail 3; Avail 3; Avail 4; Avail 1; Avail 1] in
  Forall fits fs /\ Forall benign sched /\ exists tmp s, poll 12 None (mksock (wire fs) sched) =
  Ok ([(-11, None); (-11, None); (-11, None); (1, Some [0; 1; 254; 0]); (-11, None); (-11, None); (-11, None); (4, Some [0; 4; 255; 1; 2; 3; 4]); (-11, None); (-11, None); (-11, None); (-11, None)], tmp, s) /\ stream s = [].
Proof.
  cbv zeta. split; [repeat constructor; vm_compute; discriminate|]. split; [repeat constructor|]. do 2 eexists. split; [vm_compute; reflexivity|]. reflexivity.
Qed.
