From Verif Require Import Base M_smc S_smc.
From Coq Require Import Permutation.

Definition vst (s : smc) : Prop := c_state s = 0 \/ c_state s = 1 \/ c_state s = 2 \/ c_state s = 3.

Lemma send_eq s t m : vst s -> smc_send s t m =
  if t =? MNSMS_EST_REQ then (if c_state s =? 0 then mnsms_est_req s m else Ok (s, [Free m])) else
  if t =? MNSMS_REL_REQ then mnsms_rel_req s m else
  if t =? MNSMS_DATA_REQ then (if c_state s =? 3 then mnsms_data_req s m else Ok (s, [Free m])) else
  if t =? MNSMS_ABORT_REQ then (if c_state s =? 0 then Ok (s, [Free m]) else mnsms_abort_req s m) else
  Ok (s, [Free m]).
Proof.
  intros V. unfold smc_send, smcdownstatelist. cbn [find fst snd].
  destruct (Z.eqb_spec t MNSMS_EST_REQ) as [->|H1].
  { destruct V as [E|[E|[E|E]]]; rewrite E; reflexivity. }
  destruct (Z.eqb_spec t MNSMS_REL_REQ) as [->|H2].
  { destruct V as [E|[E|[E|E]]]; rewrite E; reflexivity. }
  destruct (Z.eqb_spec t MNSMS_DATA_REQ) as [->|H3].
  { destruct V as [E|[E|[E|E]]]; rewrite E; reflexivity. }
  destruct (Z.eqb_spec t MNSMS_ABORT_REQ) as [->|H4].
  { destruct V as [E|[E|[E|E]]]; rewrite E; reflexivity. }
  reflexivity.
Qed.

Definition unexpected (s : smc) : res (smc * list out) :=
  Ok (set_state s CPS_IDLE,
      [tx_cp_error CAUSE_MSGTYPE_NOTEXIST; MnRecv MNSMS_ERROR_IND nmsg; Free nmsg; MmSend MMSMS_REL_REQ nmsg 0]).

Lemma recv_eq s t m cp : vst s -> smc_recv s t m cp =
  if t =? MMSMS_EST_CNF then (if c_state s =? 1 then mmsms_est_cnf s else Ok (s, [])) else
  if t =? MMSMS_EST_IND then (if c_state s =? 0 then mmsms_cp_data s m else unexpected s) else
  if t =? MMSMS_DATA_IND then
    (if cp =? MT_CP_DATA then (if c_state s =? 3 then mmsms_cp_data s m else unexpected s) else
     if cp =? MT_CP_ACK then (if c_state s =? 2 then mmsms_cp_ack s else unexpected s) else
     if cp =? MT_CP_ERROR then mmsms_cp_error s m else unexpected s) else
  if t =? MMSMS_REL_IND then (if c_state s =? 0 then Ok (s, []) else mmsms_rel_ind s) else
  Ok (s, []).
Proof.
  intros V. unfold smc_recv, smcdatastatelist. cbn [find fst snd].
  destruct (Z.eqb_spec t MMSMS_EST_CNF) as [->|H1].
  { destruct V as [E|[E|[E|E]]]; rewrite E; reflexivity. }
  destruct (Z.eqb_spec t MMSMS_EST_IND) as [->|H2].
  { destruct V as [E|[E|[E|E]]]; rewrite E; reflexivity. }
  destruct (Z.eqb_spec t MMSMS_DATA_IND) as [->|H3].
  { destruct (Z.eqb_spec cp MT_CP_DATA) as [->|K1].
    { destruct V as [E|[E|[E|E]]]; rewrite E; reflexivity. }
    destruct (Z.eqb_spec cp MT_CP_ACK) as [->|K2].
    { destruct V as [E|[E|[E|E]]]; rewrite E; reflexivity. }
    destruct (Z.eqb_spec cp MT_CP_ERROR) as [->|K3].
    { destruct V as [E|[E|[E|E]]]; rewrite E; reflexivity. }
    destruct V as [E|[E|[E|E]]]; rewrite E; reflexivity. }
  destruct (Z.eqb_spec t MMSMS_REL_IND) as [->|H4].
  { destruct V as [E|[E|[E|E]]]; rewrite E; reflexivity. }
  reflexivity.
Qed.

(** The invariant kept by any use. *)
Definition big (m : msg) : Prop := ALLOC_ROOM < zlen (m_data m).
Definition wf (s : smc) : Prop :=
  vst s /\ 0 <= c_retx s <= 2 /\ c_max s = 2 /\ c_tc1 s = 10 /\
  (c_state s = 2 -> c_timer s = true -> c_msg s <> None).

(** All the cases of a step. *)
Ltac cases_if :=
  repeat match goal with
  | H : context [if ?b then _ else _] |- _ => destruct b eqn:?
  | |- context [if ?b then _ else _] => destruct b eqn:?
  end.

Lemma step_wf0 s e s' o : vst s -> step s e = Ok (s', o) -> vst s'.
Proof.
  intros V E. destruct e as [t m|t m cp| |]; cbn [step] in E.
  - rewrite (send_eq s t m V) in E. unfold mnsms_est_req, mnsms_rel_req, mnsms_data_req, mnsms_abort_req, mmsms_send_msg, drop_msg, bind in E.
    destruct (c_msg s); cases_if; inversion E; subst; unfold vst in *; cbn; auto.
  - rewrite (recv_eq s t m cp V) in E.
    unfold mmsms_est_cnf, mmsms_cp_data, mmsms_cp_ack, mmsms_cp_error, mmsms_rel_ind, unexpected, mmsms_send_msg, drop_msg, bind in E.
    destruct (c_msg s); cases_if; inversion E; subst; unfold vst in *; cbn; auto.
  - unfold cp_timer_expired, mmsms_est_cnf, mmsms_send_msg, drop_msg in E. cbn in E.
    destruct (c_msg s); cases_if; inversion E; subst; unfold vst in *; cbn; auto.
  - unfold smc_clear, drop_msg in E. cbn in E. destruct (c_msg s); inversion E; subst; exact V.
Qed.

Ltac unf E := unfold cp_timer_expired, mnsms_est_req, mnsms_rel_req, mnsms_data_req, mnsms_abort_req, mmsms_est_cnf, mmsms_cp_data, mmsms_cp_ack,
  mmsms_cp_error, mmsms_rel_ind, unexpected, mmsms_send_msg, smc_clear, drop_msg, bind in E.

Lemma step_eq s e : vst s -> step s e =
  match e with
  | Send t m =>
      if t =? MNSMS_EST_REQ then (if c_state s =? 0 then mnsms_est_req s m else Ok (s, [Free m])) else
      if t =? MNSMS_REL_REQ then mnsms_rel_req s m else
      if t =? MNSMS_DATA_REQ then (if c_state s =? 3 then mnsms_data_req s m else Ok (s, [Free m])) else
      if t =? MNSMS_ABORT_REQ then (if c_state s =? 0 then Ok (s, [Free m]) else mnsms_abort_req s m) else
      Ok (s, [Free m])
  | Recv t m cp =>
      if t =? MMSMS_EST_CNF then (if c_state s =? 1 then mmsms_est_cnf s else Ok (s, [])) else
      if t =? MMSMS_EST_IND then (if c_state s =? 0 then mmsms_cp_data s m else unexpected s) else
      if t =? MMSMS_DATA_IND then
        (if cp =? MT_CP_DATA then (if c_state s =? 3 then mmsms_cp_data s m else unexpected s) else
         if cp =? MT_CP_ACK then (if c_state s =? 2 then mmsms_cp_ack s else unexpected s) else
         if cp =? MT_CP_ERROR then mmsms_cp_error s m else unexpected s) else
      if t =? MMSMS_REL_IND then (if c_state s =? 0 then Ok (s, []) else mmsms_rel_ind s) else
      Ok (s, [])
  | Expire => if c_timer s then cp_timer_expired (set_timer s false) else Ok (s, [])
  | Clear => Ok (smc_clear s)
  end.
Proof. intros V. destruct e; cbn [step]; [apply send_eq|apply recv_eq| |]; auto. Qed.

Lemma hist_vst f : (forall s e s' o, vst s -> f s e = Ok (s', o) -> vst s') ->
  forall es s s' h, vst s -> history f s es = Ok (s', h) -> vst s'.
Proof.
  intros F. induction es as [|e es IH]; intros s s' h V E; cbn [history] in E.
  - inversion E; subst; auto.
  - unfold bind in E. destruct (f s e) as [[s1 o]| | |] eqn:E1; try discriminate.
    destruct (history f s1 es) as [[s2 h2]| | |] eqn:E2; inversion E; subst. eauto.
Qed.
Lemma init_vst : vst smc_init. Proof. left; reflexivity. Qed.
Lemma reach_vst es s h : history step smc_init es = Ok (s, h) -> vst s.
Proof. apply hist_vst; [exact step_wf0|exact init_vst]. Qed.

(** Steps and the connection. *)
Definition rel_ind (e : ev) : bool := match e with Recv t _ _ => t =? MMSMS_REL_IND | _ => false end.
Definition local_end (s : smc) (e : ev) : bool :=
  match e with
  | Send _ _ => true
  | Recv t _ cp => (t =? MMSMS_DATA_IND) && (cp =? MT_CP_ACK) && (c_state s =? CPS_WAIT_CP_ACK)
  | _ => false
  end.

Ltac zb := repeat match goal with
  | H : (_ =? _) = true |- _ => apply Z.eqb_eq in H
  | H : (_ =? _) = false |- _ => apply Z.eqb_neq in H
  end.

Ltac kont := unfold CPS_IDLE, CPS_MM_CONN_PENDING, CPS_WAIT_CP_ACK, CPS_MM_ESTABLISHED in *.
Ltac fin := intros; cbn in *; kont; try reflexivity; try lia; try congruence; try contradiction.
Ltac types t := unfold MMSMS_EST_CNF, MMSMS_EST_IND, MMSMS_DATA_IND, MMSMS_REL_IND, MNSMS_EST_REQ, MNSMS_REL_REQ, MNSMS_DATA_REQ, MNSMS_ABORT_REQ, MT_CP_DATA, MT_CP_ACK, MT_CP_ERROR in *.

Lemma step_release s e s' o : vst s -> step s e = Ok (s', o) ->
  (n_mm MMSMS_REL_REQ o <= 1)%nat /\
  (c_state s' <> CPS_IDLE -> n_mm MMSMS_REL_REQ o = 0%nat /\ n_mn MNSMS_ERROR_IND o = 0%nat) /\
  (c_state s <> CPS_IDLE -> c_state s' = CPS_IDLE ->
     n_mm MMSMS_REL_REQ o = (if rel_ind e then 0 else 1)%nat /\
     n_mn MNSMS_ERROR_IND o = (if local_end s e then 0 else 1)%nat).
Proof.
  intros V E. rewrite (step_eq s e V) in E. unf E. clear V.
  destruct s as [st ti [m0|] rl rx mx tc];
  unfold set_state, set_timer, set_msg, set_rel, set_retx in E; cbn [c_state c_timer c_msg c_rel c_retx c_max c_tc1] in *;
  destruct e as [t m|t m cp| |]; cbn [rel_ind local_end]; types t; kont;
  cases_if; inversion E; subst; cbn -[Z.eqb]; zb; subst; repeat split; fin.
Qed.

(** A caller that clears the idle instance: the invariant. *)
Definition inv (s : smc) : Prop :=
  c_max s = 2 /\ c_tc1 s = 10 /\
  ((c_state s = 0 /\ c_timer s = false /\ c_msg s = None) \/
   (c_state s = 1 /\ c_timer s = false /\ exists m, c_msg s = Some m) \/
   (c_state s = 2 /\ c_timer s = true /\ 0 <= c_retx s <= 2 /\ exists m, c_msg s = Some m) \/
   (c_state s = 3 /\ c_timer s = false /\ c_msg s = None)).
Lemma inv_vst s : inv s -> vst s.
Proof. intros (_ & _ & [H|[H|[H|H]]]); unfold vst; intuition. Qed.
Lemma init_inv : inv smc_init.
Proof. unfold inv. cbn. intuition. Qed.

Definition Idle rl rx := Smc 0 false None rl rx 2 10.
Definition Pend m rl rx := Smc 1 false (Some m) rl rx 2 10.
Definition Wait m rl rx := Smc 2 true (Some m) rl rx 2 10.
Definition Est rl rx := Smc 3 false None rl rx 2 10.
Definition tx (d : list Z) : list out := [TimerStart 10; MmSend MMSMS_DATA_REQ (Msg Fresh d) MT_CP_DATA].
Definition relq : out := MmSend MMSMS_REL_REQ nmsg 0.
Definition unex : list out := [MmSend MMSMS_DATA_REQ (Msg Fresh [97]) MT_CP_ERROR; MnRecv MNSMS_ERROR_IND nmsg; Free nmsg; relq; TimerStop].

Inductive tcase : smc -> ev -> smc -> list out -> Prop :=
  (* idle *)
  | t_est rl rx m : tcase (Idle rl rx) (Send MNSMS_EST_REQ m) (Pend m false rx) [MmSend MMSMS_EST_REQ nmsg 0]
  | t_idle rl rx t m : t <> MNSMS_EST_REQ -> tcase (Idle rl rx) (Send t m) (Idle rl rx) [Free m; TimerStop]
  | t_eind rl rx m cp : tcase (Idle rl rx) (Recv MMSMS_EST_IND m cp) (Est false rx) [MmSend MMSMS_DATA_REQ nmsg MT_CP_ACK; MnRecv MNSMS_EST_IND m]
  | t_ierr rl rx m : tcase (Idle rl rx) (Recv MMSMS_DATA_IND m MT_CP_ERROR) (Idle rl rx) [MnRecv MNSMS_ERROR_IND m; relq; TimerStop]
  | t_iun rl rx m cp : cp <> MT_CP_ERROR -> tcase (Idle rl rx) (Recv MMSMS_DATA_IND m cp) (Idle rl rx) unex
  | t_irecv rl rx t m cp : t <> MMSMS_EST_IND -> t <> MMSMS_DATA_IND -> tcase (Idle rl rx) (Recv t m cp) (Idle rl rx) [TimerStop]
  | t_iexp rl rx : tcase (Idle rl rx) Expire (Idle rl rx) [TimerStop]
  (* a message is stored *)
  | t_prel m0 rl rx m : tcase (Pend m0 rl rx) (Send MNSMS_REL_REQ m) (Pend m0 true rx) [Free m]
  | t_wrel m0 rl rx m : tcase (Wait m0 rl rx) (Send MNSMS_REL_REQ m) (Wait m0 true rx) [Free m]
  | t_sabort s m0 rl rx m : s = Pend m0 rl rx \/ s = Wait m0 rl rx ->
      tcase s (Send MNSMS_ABORT_REQ m) (Idle rl rx) [Free m0; MmSend MMSMS_DATA_REQ m MT_CP_ERROR; relq; TimerStop]
  | t_sother s m0 rl rx t m : s = Pend m0 rl rx \/ s = Wait m0 rl rx -> t <> MNSMS_REL_REQ -> t <> MNSMS_ABORT_REQ ->
      tcase s (Send t m) s [Free m]
  | t_pcnf m0 rl rx m cp : zlen (m_data m0) <= 896 -> tcase (Pend m0 rl rx) (Recv MMSMS_EST_CNF m cp) (Wait m0 rl 0) (tx (m_data m0))
  | t_sun s m0 rl rx t m cp : s = Pend m0 rl rx \/ s = Wait m0 rl rx -> t = MMSMS_EST_IND \/ t = MMSMS_DATA_IND ->
      (t = MMSMS_DATA_IND -> s = Wait m0 rl rx -> cp <> MT_CP_ACK) ->
      tcase s (Recv t m cp) (Idle rl rx) (unex ++ [Free m0])
  | t_serr s m0 rl rx m : s = Pend m0 rl rx \/ s = Wait m0 rl rx ->
      tcase s (Recv MMSMS_DATA_IND m MT_CP_ERROR) (Idle rl rx) [Free m0; MnRecv MNSMS_ERROR_IND m; relq; TimerStop]
  | t_srel s m0 rl rx m cp : s = Pend m0 rl rx \/ s = Wait m0 rl rx ->
      tcase s (Recv MMSMS_REL_IND m cp) (Idle rl rx) [Free m0; MnRecv MNSMS_ERROR_IND nmsg; Free nmsg; TimerStop]
  | t_srecv s m0 rl rx t m cp : s = Pend m0 rl rx \/ s = Wait m0 rl rx ->
      t <> MMSMS_EST_IND -> t <> MMSMS_DATA_IND -> t <> MMSMS_REL_IND -> (s = Pend m0 rl rx -> t <> MMSMS_EST_CNF) ->
      tcase s (Recv t m cp) s []
  | t_pexp m0 rl rx : tcase (Pend m0 rl rx) Expire (Pend m0 rl rx) []
  | t_ack m0 rx m : tcase (Wait m0 false rx) (Recv MMSMS_DATA_IND m MT_CP_ACK) (Est false rx) [Free m0; TimerStop]
  | t_ackr m0 rx m : tcase (Wait m0 true rx) (Recv MMSMS_DATA_IND m MT_CP_ACK) (Idle true rx) [Free m0; TimerStop; relq; TimerStop]
  | t_wexp m0 rl rx : rx <> 2 -> zlen (m_data m0) <= 896 -> tcase (Wait m0 rl rx) Expire (Wait m0 rl (rx + 1)) (tx (m_data m0))
  | t_give m0 rl : tcase (Wait m0 rl 2) Expire (Idle rl 2) [MnRecv MNSMS_ERROR_IND nmsg; Free nmsg; Free m0; relq; TimerStop]
  (* established *)
  | t_erel rl rx m : tcase (Est rl rx) (Send MNSMS_REL_REQ m) (Idle rl rx) [Free m; relq; TimerStop]
  | t_edata rl rx m : zlen (m_data m) <= 896 -> tcase (Est rl rx) (Send MNSMS_DATA_REQ m) (Wait m rl 0) (tx (m_data m))
  | t_eabort rl rx m : tcase (Est rl rx) (Send MNSMS_ABORT_REQ m) (Idle rl rx) [MmSend MMSMS_DATA_REQ m MT_CP_ERROR; relq; TimerStop]
  | t_eother rl rx t m : t <> MNSMS_REL_REQ -> t <> MNSMS_DATA_REQ -> t <> MNSMS_ABORT_REQ -> tcase (Est rl rx) (Send t m) (Est rl rx) [Free m]
  | t_ecp rl rx m : tcase (Est rl rx) (Recv MMSMS_DATA_IND m MT_CP_DATA) (Est rl rx) [MmSend MMSMS_DATA_REQ nmsg MT_CP_ACK; MnRecv MNSMS_DATA_IND m]
  | t_eun rl rx t m cp : t = MMSMS_EST_IND \/ (t = MMSMS_DATA_IND /\ cp <> MT_CP_DATA /\ cp <> MT_CP_ERROR) ->
      tcase (Est rl rx) (Recv t m cp) (Idle rl rx) unex
  | t_eerr rl rx m : tcase (Est rl rx) (Recv MMSMS_DATA_IND m MT_CP_ERROR) (Idle rl rx) [MnRecv MNSMS_ERROR_IND m; relq; TimerStop]
  | t_erin rl rx m cp : tcase (Est rl rx) (Recv MMSMS_REL_IND m cp) (Idle rl rx) [MnRecv MNSMS_ERROR_IND nmsg; Free nmsg; TimerStop]
  | t_erecv rl rx t m cp : t <> MMSMS_EST_IND -> t <> MMSMS_DATA_IND -> t <> MMSMS_REL_IND -> tcase (Est rl rx) (Recv t m cp) (Est rl rx) []
  | t_eexp rl rx : tcase (Est rl rx) Expire (Est rl rx) [].

Ltac hcases := repeat match goal with H : context [if ?b then _ else _] |- _ => destruct b eqn:? end.
Lemma tidy_case s e s' o : inv s -> e <> Clear -> tidy_step s e = Ok (s', o) -> tcase s e s' o.
Proof.
  intros I G E.
  unfold tidy_step, bind in E. rewrite (step_eq s e (inv_vst s I)) in E. unf E.
  destruct I as (Im & It & I).
  destruct s as [st ti ms rl rx mx tc].
  unfold set_state, set_timer, set_msg, set_rel, set_retx in E; cbn [c_state c_timer c_msg c_rel c_retx c_max c_tc1] in *.
  subst mx tc.
  destruct I as [(-> & -> & ->)|[(-> & -> & [m0 ->])|[(-> & -> & Hr & [m0 ->])|(-> & -> & ->)]]]; cbn -[Z.eqb zlen] in E;
    repeat match type of E with context [?a =? ?b] => is_ground a; is_ground b; let v := eval vm_compute in (a =? b) in change (a =? b) with v in E end; cbn iota in E.
  all: destruct e as [t m|t m cp| |]; [| | |congruence].
  all: try match goal with Hr : 0 <= ?r <= 2 |- _ =>
         let H := fresh in assert (H : r = 0 \/ r = 1 \/ r = 2) by lia; destruct H as [ -> | [ -> | -> ] ] end.
  all: hcases; try discriminate E; inversion E; subst; clear E; zb; subst; try discriminate; try congruence.
  all: repeat match goal with H : (_ <? _) = false |- _ => apply Z.ltb_ge in H end.
  all: cbn [c_state c_timer c_msg c_rel c_retx c_max c_tc1] in *; kont; try congruence; try (exfalso; lia).
  all: try (econstructor;
    solve [left; reflexivity | right; reflexivity | assumption | discriminate | intros; unfold Pend, Wait in *; congruence
          | left; congruence | right; split; [reflexivity|split; first [congruence|discriminate]]]).
Qed.

Definition cnt (s : smc) : nat := Z.to_nat (c_retx s + 1).
Definition rel1 (s : smc) (cur : option (list Z * nat)) : Prop :=
  match c_msg s with
  | None => True
  | Some m => match cur with
              | Some (d, n) => d = m_data m /\ ((c_state s = 1 /\ n = 0%nat) \/ (c_state s = 2 /\ n = cnt s))
              | None => False
              end
  end.
Definition rel2 (s : smc) (asked : bool) : Prop := c_state s <> 0 -> asked = c_rel s.
Definition rel3 (s : smc) (up : bool) : Prop := c_state s = 2 \/ c_state s = 3 -> up = true.

Definition next1 (cur : option (list Z * nat)) (e : ev) (o : list out) : option (list Z * nat) :=
  match (match accepted e o with Some d => Some (d, 0%nat) | None => cur end) with
  | None => None | Some (d, n) => Some (d, n + length (cp_data_sent o))%nat end.
Definition given_ev (e : ev) : Prop := match e with Send _ m => is_given m = true | Recv _ _ _ => True | Expire => True | Clear => False end.

Lemma case_inv s e s' o : inv s -> tcase s e s' o -> inv s'.
Proof.
  intros I T. inversion T; subst; unfold inv in *;
  repeat match goal with H : _ = Pend _ _ _ \/ _ = Wait _ _ _ |- _ => destruct H; subst end;
  cbn in *; try (intuition (try discriminate); fail);
  (split; [reflexivity|split; [reflexivity|]]);
  first [right; left; repeat split; eauto; fail | right; right; left; repeat split; eauto; try lia; intuition lia | auto 8].
Qed.

Lemma accepted_free t id d o : accepted (Send t (Msg (Given id) d)) (Free (Msg (Given id) d) :: o) = None.
Proof. cbn [accepted existsb m_who]. rewrite Z.eqb_refl. rewrite andb_false_r. reflexivity. Qed.
