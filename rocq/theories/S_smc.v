(** What a user of the SMS control layer relies on, said about the visible history of an instance: the calls made to
    it, and the messages it sends, indicates and frees. *)
From Verif Require Import Base M_smc.

(** The data of the CP-DATA messages among the outputs, in order. *)
Fixpoint cp_data_sent (o : list out) : list (list Z) :=
  match o with
  | [] => []
  | MmSend t m cp :: r => if (t =? MMSMS_DATA_REQ) && (cp =? MT_CP_DATA) then m_data m :: cp_data_sent r else cp_data_sent r
  | _ :: r => cp_data_sent r
  end.

(** How many messages of a kind are sent to the lower / indicated to the upper layer. *)
Definition is_mm (t : Z) (x : out) : bool := match x with MmSend t' _ _ => t' =? t | _ => false end.
Definition is_mn (t : Z) (x : out) : bool := match x with MnRecv t' _ => t' =? t | _ => false end.
Definition n_mm (t : Z) (o : list out) : nat := length (filter (is_mm t) o).
Definition n_mn (t : Z) (o : list out) : nat := length (filter (is_mn t) o).

(** The instance gives a message away: it frees it or hands it to the lower layer. *)
Fixpoint disposed (o : list out) : list msg :=
  match o with [] => [] | Free m :: r => m :: disposed r | MmSend _ m _ :: r => m :: disposed r | _ :: r => disposed r end.
Definition is_given (m : msg) : bool := match m_who m with Given _ => true | Fresh => false end.
(** The fresh messages shown to the upper layer, which stay the instance's own. *)
Fixpoint shown_fresh (o : list out) : nat :=
  match o with [] => 0%nat | MnRecv _ m :: r => if is_given m then shown_fresh r else S (shown_fresh r) | _ :: r => shown_fresh r end.
Fixpoint freed_fresh (o : list out) : nat :=
  match o with [] => 0%nat | Free m :: r => if is_given m then freed_fresh r else S (freed_fresh r) | _ :: r => freed_fresh r end.

(** The messages handed in from above in a history, and those received from below. *)
Fixpoint handed (es : list ev) : list msg :=
  match es with [] => [] | Send _ m :: r => m :: handed r | _ :: r => handed r end.
Definition outs (h : list (ev * list out)) : list out := concat (map snd h).

(** A request with data that the instance accepts (it does not free its message at once). *)
Definition accepted (e : ev) (o : list out) : option (list Z) :=
  match e with
  | Send t m => if ((t =? MNSMS_EST_REQ) || (t =? MNSMS_DATA_REQ)) &&
                   negb (existsb (fun x => match x with Free m' => match m_who m', m_who m with
                                                                   | Given a, Given b => a =? b | _, _ => false end | _ => false end) o)
                then Some (m_data m) else None
  | _ => None
  end.

(** Every CP-DATA carries the data of the last accepted request, and no request's data is sent more than [max] times.
    [cur]: that data and how often it has been sent. *)
Fixpoint sends_ok (max : nat) (cur : option (list Z * nat)) (h : list (ev * list out)) : Prop :=
  match h with
  | [] => True
  | (e, o) :: r =>
      let cur1 := match accepted e o with Some d => Some (d, 0%nat) | None => cur end in
      match cur1 with
      | None => cp_data_sent o = [] /\ sends_ok max None r
      | Some (d, n) => exists k, cp_data_sent o = repeat d k /\ (n + k <= max)%nat /\ sends_ok max (Some (d, n + k)%nat) r
      end
  end.

(** CP-DATA goes out only while the lower layer's connection is up: it was confirmed, or opened by the peer, and not
    released since. *)
Definition up_after (up : bool) (e : ev) (o : list out) : bool :=
  match e with
  | Recv t _ _ => if t =? MMSMS_EST_CNF then true else if t =? MMSMS_EST_IND then true else if t =? MMSMS_REL_IND then false else up
  | _ => up
  end.
Fixpoint only_when_up (up : bool) (h : list (ev * list out)) : Prop :=
  match h with
  | [] => True
  | (e, o) :: r => let u := up_after up e o in
                   (u = false -> cp_data_sent o = []) /\
                   only_when_up (if (0 <? n_mm MMSMS_REL_REQ o)%nat then false else u) r
  end.

(** A release asked for while it cannot be done is done as soon as the message in flight is acknowledged.
    [asked]: a release was asked for since the connection was opened. *)
Definition asked_after (asked : bool) (e : ev) (o : list out) : bool :=
  match e with
  | Send t _ => if t =? MNSMS_REL_REQ then true else if (t =? MNSMS_EST_REQ) && (0 <? n_mm MMSMS_EST_REQ o)%nat then false else asked
  | _ => if (0 <? n_mn MNSMS_EST_IND o)%nat then false else asked
  end.
Definition is_ack (e : ev) (o : list out) : bool :=
  match e with Recv t _ cp => (t =? MMSMS_DATA_IND) && (cp =? MT_CP_ACK) && (n_mn MNSMS_ERROR_IND o =? 0)%nat | _ => false end.
Fixpoint releases_ok (asked : bool) (h : list (ev * list out)) : Prop :=
  match h with
  | [] => True
  | (e, o) :: r => (is_ack e o = true -> n_mm MMSMS_REL_REQ o = if asked then 1%nat else 0%nat) /\
                   releases_ok (asked_after asked e o) r
  end.
