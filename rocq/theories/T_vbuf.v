(** C65: the output buffer of the VTY (vty/buffer.c). *)
From Verif Require Import Base M_vbuf S_vbuf P_vbuf.

(** A fresh buffer; any run of the functions on it. *)
Definition fresh (size pg en : Z) : run_st := Run (buffer_new size pg) en [] [].
Definition reach (size pg en : Z) (os : list vop) (s : run_st) : Prop := 0 <= size /\ 0 < pg /\ vrun (fresh size pg en) os = Ok s.

(** Nothing goes wrong (no access outside a chunk, no endless loop in buffer_put), whatever the kernel answers, as long as
    the strings given to buffer_putstr are terminated. *)
Theorem C65_total : forall size pg en os, 0 <= size -> 0 < pg ->
  Forall (fun o => match o with Putstr c => In 0 c | _ => True end) os -> exists s, vrun (fresh size pg en) os = Ok s.
Proof.
  intros size pg en os S P T. destruct (vrun_ok os (fresh size pg en) (new_inv size pg en S P) T) as (s & E & _). eauto.
Qed.
Print Assumptions C65_total.

Lemma reach_inv size pg en os s : reach size pg en os s -> vinv s /\ v_size (r_buf s) = v_size (buffer_new size pg).
Proof.
  intros (S & P & E). destruct (vrun_ok os (fresh size pg en) (new_inv size pg en S P) (vrun_term _ _ _ E)) as (s' & E' & I & Z).
  rewrite E in E'. inversion E'; subst. auto.
Qed.

(** What the kernel took, followed by what the buffer holds, is what was put in: every octet once and in order, for any
    sequence of calls and any answers of the kernel (a write that fails accepts nothing, a reset forgets the rest). *)
Theorem C65_stream : forall size pg en os s, reach size pg en os s ->
  exists p, holds (r_buf s) p /\ r_in s = r_out s ++ p.
Proof.
  intros size pg en os s R. destruct (reach_inv _ _ _ _ _ R) as [[W I] _]. exists (outs (v_chunks (r_buf s))).
  split; [apply holds_outs; auto|exact I].
Qed.
Print Assumptions C65_stream.
Example C65_stream_nonvacuous : exists s, vrun (fresh 3 4096 0)
  [Write [1;2;3;4;5;6;7] (Wrote 2); Put [8;9]; Flush (Wrote 4); Putc 300; Flush (Fail EAGAIN); FlushAll [Wrote 1; Fail EINTR; Wrote 1; Fail EAGAIN]] = Ok s /\
  r_in s = [1;2;3;4;5;6;7;8;9;44] /\ r_out s = [1;2;3;4;5;6;7;8] /\ buffer_getstr (r_buf s) = Ok [9;44;0].
Proof. eexists. split; [vm_compute; reflexivity|]. vm_compute. repeat split. Qed.

(** The single calls, at any point. buffer_put appends; *)
Theorem C65_put : forall size pg en os s p q, reach size pg en os s -> holds (r_buf s) p ->
  exists b, buffer_put (r_buf s) q = Ok b /\ holds b (p ++ q).
Proof.
  intros size pg en os s p q R H. destruct (reach_inv _ _ _ _ _ R) as [[W _] _]. apply (holds_outs _ _ W) in H. subst p.
  destruct (bput (r_buf s) q W) as (b & E & W1 & _ & O). exists b. split; auto. apply holds_outs; auto.
Qed.
Print Assumptions C65_put.
(** buffer_putc one octet, buffer_putstr the string up to its NUL; *)
Theorem C65_putstr : forall size pg en os s p c t r, reach size pg en os s -> holds (r_buf s) p -> Forall (fun x => x <> 0) t ->
  (exists b, buffer_putc (r_buf s) c = Ok b /\ holds b (p ++ [c mod 256])) /\
  (exists b, buffer_putstr (r_buf s) (t ++ 0 :: r) = Ok b /\ holds b (p ++ t)).
Proof.
  intros size pg en os s p c t r R H N. split; [apply (C65_put _ _ _ _ _ _ _ R H)|].
  assert (E : c_str (t ++ 0 :: r) = Ok t).
  { clear -N. induction t as [|x t IH]; [reflexivity|]. apply Forall_cons_iff in N. destruct N as [Nx N]. cbn [app c_str].
    apply Z.eqb_neq in Nx. rewrite Nx, IH by exact N. reflexivity. }
  unfold buffer_putstr. rewrite E. cbn [bind]. apply (C65_put _ _ _ _ _ _ _ R H).
Qed.
Print Assumptions C65_putstr.
(** buffer_empty tells whether anything is held; *)
Theorem C65_empty : forall size pg en os s, reach size pg en os s -> (buffer_empty (r_buf s) = true <-> holds (r_buf s) []).
Proof.
  intros size pg en os s R. destruct (reach_inv _ _ _ _ _ R) as [[W _] _]. rewrite (holds_outs _ _ W). unfold buffer_empty.
  destruct (v_chunks (r_buf s)) as [|d r] eqn:E; [tauto|]. split; [discriminate|]. intros K. symmetry in K.
  rewrite <- E in K. apply (outs_nil (v_size (r_buf s))) in K; [congruence|apply W].
Qed.
Print Assumptions C65_empty.
(** buffer_flush_available takes from the front what the kernel took, at least one octet if the kernel took any, and tells
    the truth about the rest; *)
Theorem C65_flush : forall size pg en os s p k, reach size pg en os s -> holds (r_buf s) p ->
  exists st b en' w p', flush_available (r_buf s) (r_errno s) k = Ok (st, b, en', w) /\ holds b p' /\ p = w ++ p' /\
    (p = [] -> st = BUFFER_EMPTY) /\
    (p <> [] -> match k with
                | Wrote n => (st = BUFFER_EMPTY <-> p' = []) /\ st <> BUFFER_ERROR /\ (0 < n <-> w <> [])
                | Fail e => w = [] /\ (st = BUFFER_PENDING <-> e = EAGAIN \/ e = EINTR) /\ (st = BUFFER_ERROR <-> e <> EAGAIN /\ e <> EINTR)
                end).
Proof.
  intros size pg en os s p k R H. destruct (reach_inv _ _ _ _ _ R) as [[W _] _]. apply (holds_outs _ _ W) in H. subst p.
  destruct (flush_ok (r_buf s) (r_errno s) k W) as (st & b & en' & w & E & W1 & _ & O & P).
  exists st, b, en', w, (outs (v_chunks b)). split; [exact E|]. split; [apply holds_outs; auto|]. split; [exact O|].
  split.
  - intros N. apply (outs_nil (v_size (r_buf s))) in N; [|apply W]. rewrite N in P. apply P.
  - intros N. destruct (v_chunks (r_buf s)) as [|d r] eqn:EC; [contradiction N; reflexivity|]. destruct k as [n|e].
    + destruct P as (P1 & _ & P3 & P4). subst st. split; [|split].
      * destruct (v_chunks b) eqn:EB; [cbn; tauto|]. split; [discriminate|]. intros K. rewrite <- EB in K.
        apply (outs_nil (v_size b)) in K; [congruence|apply W1].
      * destruct (v_chunks b); discriminate.
      * split; [intros L; apply P4; exact L|]. intros L. destruct (Z_le_gt_dec n 0) as [X|X]; [|lia]. apply P3 in X. destruct X. contradiction.
    + destruct P as (P1 & _ & P3 & _). subst st. split; [exact P3|]. unfold ERRNO_IO_RETRY.
      destruct (Z.eqb_spec e EAGAIN); [cbn; split; split; intros; try discriminate; tauto|].
      destruct (Z.eqb_spec e EINTR); cbn; split; split; intros; try discriminate; tauto.
Qed.
Print Assumptions C65_flush.
(** buffer_write hands octets directly to the kernel only if none are waiting, so that none are overtaken; what it
    accepts follows what was held; *)
Theorem C65_write : forall size pg en os s p q k, reach size pg en os s -> holds (r_buf s) p ->
  exists st b en' w p', buffer_write (r_buf s) q (r_errno s) k = Ok (st, b, en', w) /\ holds b p' /\
    (p <> [] -> w = []) /\
    match st with
    | BUFFER_ERROR => w = [] /\ p = [] /\ p' = [] /\ exists e, k = Fail e /\ e <> EAGAIN /\ e <> EINTR
    | BUFFER_EMPTY => p' = [] /\ p ++ q = w
    | BUFFER_PENDING => p' <> [] /\ p ++ q = w ++ p'
    end.
Proof.
  intros size pg en os s p q k R H. destruct (reach_inv _ _ _ _ _ R) as [[W _] _]. apply (holds_outs _ _ W) in H. subst p.
  destruct (write_ok (r_buf s) q (r_errno s) k W) as (st & b & en' & w & E & W1 & _ & P & P2).
  exists st, b, en', w, (outs (v_chunks b)). split; [exact E|]. split; [apply holds_outs; auto|].
  split; [intros N; apply P2; intros K; apply N; rewrite K; reflexivity|].
  destruct st.
  - destruct P as (-> & -> & Q & X). rewrite Q. repeat split; auto.
  - destruct P as (Q & O). rewrite O, Q. cbn. rewrite app_nil_r. auto.
  - destruct P as (Q & O). split; [|exact O]. intros K. apply (outs_nil (v_size b)) in K; [contradiction|apply W1].
Qed.
Print Assumptions C65_write.
(** buffer_flush_all: whatever the kernel answers, nothing is lost; it says EMPTY only if all is written, PENDING only if the
    kernel would block (or took nothing), ERROR only on another error. *)
Theorem C65_flush_all : forall size pg en os s p ks, reach size pg en os s -> holds (r_buf s) p ->
  exists st b en' w p', flush_all (r_buf s) (r_errno s) ks = Ok (st, b, en', w) /\ holds b p' /\ p = w ++ p' /\
    match st with
    | Some BUFFER_EMPTY => p' = []
    | Some BUFFER_PENDING => p' <> [] /\ exists k, In k ks /\ (k = Fail EAGAIN \/ exists n, k = Wrote n /\ n <= 0)
    | Some BUFFER_ERROR => p' <> [] /\ exists e, In (Fail e) ks /\ e <> EAGAIN /\ e <> EINTR
    | None => p' <> []
    end.
Proof.
  intros size pg en os s p ks R H. destruct (reach_inv _ _ _ _ _ R) as [[W _] _]. apply (holds_outs _ _ W) in H. subst p.
  destruct (all_ok (r_buf s) (r_errno s) ks W) as (st & b & en' & w & E & W1 & _ & O & P).
  exists st, b, en', w, (outs (v_chunks b)). split; [exact E|]. split; [apply holds_outs; auto|]. split; [exact O|].
  assert (N : v_chunks b <> [] -> outs (v_chunks b) <> []) by (intros A K; apply (outs_nil (v_size b)) in K; [contradiction|apply W1]).
  destruct st as [[| |]|]; [destruct P as [P1 P2]; split; auto|rewrite P; reflexivity|destruct P as [P1 P2]; split; auto|auto].
Qed.
Print Assumptions C65_flush_all.
(** It finishes: if every answer takes something, as many answers as octets suffice; *)
Theorem C65_flush_all_done : forall size pg en os s p ks, reach size pg en os s -> holds (r_buf s) p ->
  Forall (fun k => exists n, k = Wrote n /\ 0 < n) ks -> (length p <= length ks)%nat ->
  exists b en', flush_all (r_buf s) (r_errno s) ks = Ok (Some BUFFER_EMPTY, b, en', p) /\ holds b [].
Proof.
  intros size pg en os s p ks R H F L. destruct (reach_inv _ _ _ _ _ R) as [[W _] _]. apply (holds_outs _ _ W) in H. subst p.
  unfold flush_all. destruct (v_chunks (r_buf s)) as [|d r] eqn:E.
  - exists (r_buf s), (r_errno s). split; [reflexivity|]. apply holds_outs; auto. rewrite E. reflexivity.
  - destruct (loop_done ks (r_buf s) (r_errno s) d r W E F) as (b & en' & G & B); [rewrite E; exact L|].
    rewrite E in G. exists b, en'. split; [exact G|]. unfold holds, buffer_getstr. rewrite B. reflexivity.
Qed.
Print Assumptions C65_flush_all_done.
(** and it stops: no further system call once the kernel would block. *)
Theorem C65_blocked : forall size pg en os s ks1 ks2, reach size pg en os s ->
  flush_all (r_buf s) (r_errno s) (ks1 ++ Fail EAGAIN :: ks2) = flush_all (r_buf s) (r_errno s) (ks1 ++ [Fail EAGAIN]).
Proof.
  intros size pg en os s ks1 ks2 R. destruct (reach_inv _ _ _ _ _ R) as [[W _] _].
  unfold flush_all. destruct (v_chunks (r_buf s)) as [|d r] eqn:E; [reflexivity|].
  apply loop_block; auto; [rewrite E; discriminate|exists d, r; auto|rewrite E; reflexivity].
Qed.
Print Assumptions C65_blocked.
(** But a kernel that takes nothing while errno still says EINTR keeps it in its loop for ever: *)
Theorem C65_spin_refuted : forall n, exists b en w, flush_all (Vbuf [Chunk 0 1 [65]] 1) EINTR (repeat (Wrote 0) n) = Ok (None, b, en, w).
Proof.
  intros n. exists (Vbuf [Chunk 0 1 [65]] 1), EINTR, []. unfold flush_all. cbn [v_chunks k_sp length].
  induction n as [|n IH]; [reflexivity|]. cbn [repeat flush_loop].
  change (flush_available (Vbuf [Chunk 0 1 [65]] 1) EINTR (Wrote 0)) with (Ok (BUFFER_PENDING, Vbuf [Chunk 0 1 [65]] 1, EINTR, @nil Z)).
  cbn [bind v_chunks k_sp length]. change ((1 =? 1)%nat && (0 =? 0) && negb (EINTR =? EINTR)) with false. cbn iota. rewrite IH. reflexivity.
Qed.
Print Assumptions C65_spin_refuted.
Example C65_spin_reachable : vrun (fresh 1 4096 EINTR) [Put [65]] = Ok (Run (Vbuf [Chunk 0 1 [65]] 1) EINTR [65] []).
Proof. reflexivity. Qed.

(** Storage: the chunks take at most what is held plus less than two chunks. *)
Theorem C65_storage : forall size pg en os s p, reach size pg en os s -> holds (r_buf s) p ->
  v_size (r_buf s) * zlen (v_chunks (r_buf s)) <= zlen p + 2 * (v_size (r_buf s) - 1) /\
  0 < v_size (r_buf s) /\ (size <> 0 -> v_size (r_buf s) = size) /\
  (size = 0 -> 4096 <= v_size (r_buf s) < 4096 + pg /\ (pg | v_size (r_buf s))).
Proof.
  intros size pg en os s p R H. pose proof R as (S0 & P0 & _). destruct (reach_inv _ _ _ _ _ R) as [[W _] Z]. apply (holds_outs _ _ W) in H. subst p.
  destruct W as (S & F & U & V). split; [apply mem_bound; auto|]. split; [exact S|]. rewrite Z. unfold buffer_new. cbn [v_size].
  split; intros N.
  - apply Z.eqb_neq in N. rewrite N. reflexivity.
  - subst size. cbn [Z.eqb negb]. rewrite Z.quot_div_nonneg by lia.
    pose proof (Z.div_mod (4096 - 1) pg ltac:(lia)). pose proof (Z.mod_pos_bound (4096 - 1) pg P0).
    split; [|exists ((4096 - 1) / pg + 1); reflexivity]. nia.
Qed.
Print Assumptions C65_storage.
Example C65_storage_nonvacuous : exists s, vrun (fresh 0 4096 0) [Put [1;2;3]; Putstr [65;66;0;7]] = Ok s /\ v_size (r_buf s) = 4096 /\
  buffer_getstr (r_buf s) = Ok [1;2;3;65;66;0].
Proof.
  assert (H : match vrun (fresh 0 4096 0) [Put [1;2;3]; Putstr [65;66;0;7]] with Ok s => v_size (r_buf s) = 4096 /\
    buffer_getstr (r_buf s) = Ok [1;2;3;65;66;0] | _ => False end) by (vm_compute; auto).
  destruct (vrun _ _) as [s| | |]; try contradiction. exists s. auto.
Qed.
