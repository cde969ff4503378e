(* T_iofd.v - C56: osmo_io delivers the messages of a stream, and writes the queued messages in order *)
From Verif Require Import Base Lib S_iofd M_iofd P_iofd.

(* Receiving: whatever number of octets is there whenever the descriptor is readable, read_cb gets exactly the messages, in
   order and unchanged; what is not delivered yet is pending (less than one message) or not read yet. *)
Theorem C56_read : forall seg size ms avail, Forall (recognised seg size) ms ->
  exists done todo pending rest, reads (Some seg) size None (concat ms) avail = Ok (done, pending, rest) /\ ms = done ++ todo /\
    match pending with Some p => p | None => [] end ++ rest = concat todo /\
    (forall p, pending = Some p -> p <> [] /\ exists m t, todo = m :: t /\ zlen p < zlen m) /\
    (rest = [] -> done = ms /\ pending = None).
Proof.
  intros seg size ms avail R. destruct (reads_ok seg size avail None (concat ms) ms) as (done & todo & p & s & E & T & I1 & I2); [split; [reflexivity|discriminate]|auto|].
  exists done, todo, p, s. split; [exact E|]. split; [exact T|]. split; [exact I1|]. split; [exact I2|]. intros ->.
  unfold kept in I1. rewrite app_nil_r in I1. destruct p as [p|].
  - exfalso. destruct (I2 p eq_refl) as (N & m & t & -> & L). subst p. cbn [concat] in L. rewrite zlen_app in L. pose proof (zlen_nonneg (concat t)). lia.
  - split; auto. destruct todo as [|m t]; [rewrite app_nil_r in T; auto|]. exfalso. rewrite T in R. apply Forall_app in R as [_ R]. apply Forall_inv in R as (L & _).
    cbn [concat] in I1. symmetry in I1. apply app_eq_nil in I1 as [-> _]. rewrite zlen_nil in L. lia.
Qed.
Print Assumptions C56_read.

(* liveness: a reading that finds at least one octet whenever there are some left finishes in as many rounds as octets *)
Theorem C56_read_all : forall seg size ms avail, Forall (recognised seg size) ms -> Forall (fun n => 1 <= n) avail -> zlen (concat ms) <= zlen avail ->
  reads (Some seg) size None (concat ms) avail = Ok (ms, None, []).
Proof.
  intros seg size ms avail R A L. destruct (C56_read seg size ms avail R) as (done & todo & p & s & E & T & W & B & F). 
  assert (s = []).
  { apply (reads_progress seg size avail None (concat ms) ms done p s); auto. split; [reflexivity|discriminate]. }
  subst s. destruct (F eq_refl) as [-> ->]. exact E.
Qed.
Print Assumptions C56_read_all.

(* CBSP messages that fit the buffer are recognised by the library's own call-back *)
Theorem C56_cbsp : forall ms size avail, Forall cbsp_msg ms -> Forall (fun m => zlen m <= size) ms ->
  exists done todo pending rest, reads (Some osmo_cbsp_segmentation_cb) size None (concat ms) avail = Ok (done, pending, rest) /\ ms = done ++ todo /\ (rest = [] -> done = ms).
Proof.
  intros ms size avail C L. destruct (C56_read osmo_cbsp_segmentation_cb size ms avail) as (done & todo & p & s & E & T & _ & _ & F).
  - rewrite Forall_forall in *. intros m Hm. apply cbsp_recognised; auto.
  - exists done, todo, p, s. split; [exact E|]. split; [exact T|]. apply F.
Qed.
Print Assumptions C56_cbsp.

(* a read that fails (here with EAGAIN) while part of a message is pending hands that part to read_cb and loses it *)
Theorem C56_spurious_refuted :
  iofd_readable (Some osmo_cbsp_segmentation_cb) 100 None (RxData [1; 0; 0; 2; 7]) = Ok ([], Some [1; 0; 0; 2; 7]) /\
  iofd_readable (Some osmo_cbsp_segmentation_cb) 100 (Some [1; 0; 0; 2; 7]) (RxFail (- EAGAIN)) = Ok ([(-11, [1; 0; 0; 2; 7])], None).
Proof. split; reflexivity. Qed.
Print Assumptions C56_spurious_refuted.

(* a segmentation call-back that returns 0 makes the library deliver empty messages for ever *)
Theorem C56_zero_length_refuted : forall msg size rc fuel, 0 < zlen msg <= size -> seg_loop fuel (Some (fun _ => 0)) size rc msg = UB.
Proof.
  intros msg size rc fuel L. induction fuel as [|fuel IH]; [reflexivity|]. cbn [seg_loop]. unfold iofd_handle_segmentation.
  change (0 =? - EAGAIN) with false. change (0 <? 0) with false. cbv iota. rewrite Z.sub_0_r. replace (zlen msg =? 0) with false by lia. replace (zlen msg <? 0) with false by lia. replace (size <? zlen msg) with false by lia.
  cbn [bind Z.to_nat skipn]. rewrite IH. reflexivity.
Qed.
Print Assumptions C56_zero_length_refuted.

(* Transmitting, as long as the kernel takes whole messages (or fails): the messages accepted are, in order, those reported
   to write_cb followed by those still queued; the kernel got exactly the concatenation of the messages reported as written;
   the queue never exceeds its limit, and while it is not empty the descriptor waits for writability. *)
Theorem C56_write_partial : forall ops max s rcs, Forall whole ops -> tx_run (tx_init max) ops = (s, rcs) ->
  accepted ops rcs = finished (cbl s) ++ map mdata (txq s) /\ sent s = concat (succeeded (cbl s)) /\
  zlen (txq s) <= Z.max 0 max /\ (txq s <> [] -> wen s = true).
Proof.
  intros ops max s rcs W E. pose proof (tx_run_inv ops (tx_init max) W) as H. rewrite E in H. destruct H as ((I1 & I2 & I3 & I4) & M & C).
  { split; [constructor|]. split; [cbn; congruence|]. split; [reflexivity|]. cbn [tx_init txq max_length]. rewrite zlen_nil. lia. }
  rewrite M in I4. auto.
Qed.
Print Assumptions C56_write_partial.

(* a write is refused exactly if the message is empty (-EINVAL) or the queue is full (-ENOSPC); refused, it changes nothing *)
Theorem C56_refused : forall s m, let '(rc, s') := osmo_iofd_write_msgb s m in
  (m = [] /\ rc = -22 /\ s' = s) \/ (m <> [] /\ max_length s <= zlen (txq s) /\ rc = -28 /\ s' = s) \/
  (m <> [] /\ zlen (txq s) < max_length s /\ rc = 0 /\ map mdata (txq s') = map mdata (txq s) ++ [m] /\ cbl s' = cbl s /\ sent s' = sent s).
Proof.
  intros s m. unfold osmo_iofd_write_msgb. destruct (zlen m =? 0) eqn:E0.
  - left. destruct m; [auto|rewrite zlen_cons in E0; pose proof (zlen_nonneg m); lia].
  - assert (m <> []) by (intros ->; discriminate E0). unfold iofd_txqueue_enqueue. destruct (max_length s <=? zlen (txq s)) eqn:E1; right.
    + left. split; [exact H|]. split; [lia|]. split; reflexivity.
    + right. split; [exact H|]. split; [lia|]. cbn [txq cbl sent]. rewrite map_app. auto.
Qed.
Print Assumptions C56_refused.

(* no busy loop: for every history - partial writes included - the descriptor waits for writability only while something
   is queued; and if it was armed with an empty queue (while connecting), the first event disarms it and tells the user *)
Theorem C56_idle : forall ops max s rcs, tx_run (tx_init max) ops = (s, rcs) -> wen s = true -> txq s <> [].
Proof.
  assert (G : forall ops s s' rcs, (wen s = true -> txq s <> []) -> tx_run s ops = (s', rcs) -> wen s' = true -> txq s' <> []).
  { induction ops as [|[m|k] ops IH]; intros s s' rcs I E; cbn [tx_run] in E.
    - assert (s = s') as <- by congruence. exact I.
    - destruct (osmo_iofd_write_msgb s m) as [rc s1] eqn:E1. destruct (tx_run s1 ops) as [s2 l] eqn:E2.
      assert (s2 = s') as <- by congruence. apply (IH s1 s2 l); [|exact E2].
      unfold osmo_iofd_write_msgb, iofd_txqueue_enqueue in E1.
      destruct (zlen m =? 0); [assert (s1 = s) as -> by congruence; exact I|].
      destruct (max_length s <=? zlen (txq s)); [assert (s1 = s) as -> by congruence; exact I|].
      replace (txq s1) with (txq s ++ [mkmhdr m (zlen m) m]) by (assert (Y : s1 = _) by (symmetry; exact (f_equal snd E1)); rewrite Y; reflexivity).
      intros _ N. destruct (txq s); discriminate N.
    - destruct (wen s) eqn:EW; [|apply (IH s s' rcs); [rewrite EW; exact I|exact E]].
      apply (IH (iofd_writable s k) s' rcs); [|exact E]. clear E. unfold iofd_writable, iofd_txqueue_dequeue.
      destruct (txq s) as [|h q]; [exfalso; exact (I eq_refl eq_refl)|]. destruct (sendmsg h k) as [rc l].
      unfold iofd_handle_send_completion, iofd_txqueue_enqueue_front. cbn [txq max_length wen cbl sent].
      destruct ((0 <? rc) && (rc <? zlen (mdata h))); [cbn; discriminate|]. destruct (rc =? - EAGAIN); [cbn; discriminate|].
      cbn [txq wen]. destruct q as [|h2 q]; [cbn; discriminate|]. intros _. discriminate. }
  intros ops max s rcs E. apply (G ops (tx_init max) s rcs); [cbn; discriminate|exact E].
Qed.
Print Assumptions C56_idle.

Theorem C56_empty : forall s k, txq s = [] -> let s' := iofd_writable s k in
  wen s' = false /\ txq s' = [] /\ cbl s' = cbl s ++ [(0, None)] /\ sent s' = sent s.
Proof. intros s k E. unfold iofd_writable, iofd_txqueue_dequeue. rewrite E. cbn [txq wen cbl sent]. auto. Qed.
Print Assumptions C56_empty.

(* if the kernel takes only part of a message, the rest is sent from the wrong place: iov_len is reduced but iov_base not
   advanced; the user is told that the message was written *)
Theorem C56_partial_write_refuted : exists s, tx_run (tx_init 8) [Write [1; 2; 3; 4]; Writable (Takes 1); Writable (Takes 9)] = (s, [0]) /\
  sent s = [1; 1; 2; 3] /\ cbl s = [(3, Some [2; 3; 4])].
Proof. eexists. split; [vm_compute; reflexivity|]. split; reflexivity. Qed.
Print Assumptions C56_partial_write_refuted.

Example C56_nonvacuous : let ms := [[1; 0; 0; 0]; [2; 0; 0; 3; 7; 8; 9]; [1; 0; 0; 1; 5]] in
  Forall cbsp_msg ms /\ Forall (recognised osmo_cbsp_segmentation_cb 8) ms /\
  reads (Some osmo_cbsp_segmentation_cb) 8 None (concat ms) [2; 5; 5; 1; 99] = Ok (ms, None, []) /\
  reads (Some osmo_cbsp_segmentation_cb) 8 None (concat ms) [2; 5; 5; 1] = Ok ([[1; 0; 0; 0]; [2; 0; 0; 3; 7; 8; 9]], Some [1; 0], [0; 1; 5]) /\
  let ops := [Write [1; 2]; Write [3]; Write [4]; Writable (Fails 11); Writable (Takes 70000); Writable (Fails 32); Write []; Write [5; 6]; Writable (Takes 70000)] in
  Forall whole ops /\ exists s, tx_run (tx_init 2) ops = (s, [0; 0; -28; -22; 0]) /\ sent s = [1; 2; 5; 6] /\ cbl s = [(2, Some [1; 2]); (-32, Some [3]); (2, Some [5; 6])].
Proof.
  cbv zeta. assert (C : Forall cbsp_msg [[1; 0; 0; 0]; [2; 0; 0; 3; 7; 8; 9]; [1; 0; 0; 1; 5]]).
  { repeat (constructor; [do 5 eexists; split; [reflexivity|split; [repeat constructor; cbn; lia|reflexivity]]|]). constructor. }
  split; [exact C|]. split.
  { rewrite Forall_forall in *. intros m Hm. apply cbsp_recognised; auto. repeat (destruct Hm as [<-|Hm]; [vm_compute; discriminate|]). contradiction. }
  split; [vm_compute; reflexivity|]. split; [vm_compute; reflexivity|]. split; [repeat constructor; cbn; lia|]. eexists. split; [vm_compute; reflexivity|]. split; reflexivity.
Qed.
