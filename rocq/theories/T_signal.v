(** C69: a signal reaches every handler registered for its subsystem exactly once, in the order of registration. *)
From Verif Require Import Base M_signal S_signal P_signal.
From Coq Require Import Sorted.

(** Registering adds one entry behind all others and says 0; without memory nothing changes.  Unregistering removes the first entry for
    exactly this subsystem, function and data, and no other; if there is none, nothing changes. *)
Theorem C69_registry : forall st s c d,
  (exists h, is_for s c d h /\ fst (osmo_signal_register_handler true st s c d) = 0 /\
             list_of (snd (osmo_signal_register_handler true st s c d)) = list_of st ++ [h]) /\
  osmo_signal_register_handler false st s c d = (- ENOMEM, st) /\
  (forall pre h post, list_of st = pre ++ h :: post -> is_for s c d h -> (forall x, In x pre -> ~ is_for s c d x) ->
   list_of (osmo_signal_unregister_handler st s c d) = pre ++ post) /\
  ((forall x, In x (list_of st) -> ~ is_for s c d x) -> list_of (osmo_signal_unregister_handler st s c d) = list_of st).
Proof.
  intros st s c d. split; [|split; [|split]].
  - exists (Handler (next_id st) s c d). split; [repeat split|]. split; reflexivity.
  - reflexivity.
  - intros pre h post E F N. cbn [osmo_signal_unregister_handler list_of]. rewrite E. apply unreg_first; assumption.
  - intros N. cbn [osmo_signal_unregister_handler list_of]. apply unreg_none. exact N.
Qed.
Print Assumptions C69_registry.
Example C69_registry_nonvacuous :
  list_of (after [Reg true 1 10 5; Reg true 2 10 5; Reg true 1 10 5; Unreg 1 10 5; Reg false 1 1 1]) = [Handler 1 2 10 5; Handler 2 1 10 5].
Proof. reflexivity. Qed.

(** Handlers that leave the registrations alone: after every history of registrations and unregistrations, the handlers for the
    subsystem are called once each, in the order of registration, with the signal, its data and their own data; no other one is. *)
Theorem C69_quiet : forall history beh subsys signal sigdata fuel,
  (forall tr, beh tr = []) -> (length (list_of (after history)) <= fuel)%nat ->
  osmo_signal_dispatch fuel beh subsys signal sigdata (after history) =
  Ok (after history, map (call_for signal sigdata) (filter (fun h => h_subsys h =? subsys) (list_of (after history)))).
Proof.
  intros history beh subsys signal sigdata fuel Q Hf. set (st := after history) in *.
  assert (G : forall l pre fuel tr, list_of st = pre ++ l -> (length l <= fuel)%nat ->
     dispatch_loop fuel beh subsys signal sigdata st (hd_error l) tr =
     Ok (st, tr ++ map (call_for signal sigdata) (filter (fun h => h_subsys h =? subsys) l))).
  { induction l as [|h l IH]; intros pre f tr E L.
    - destruct f; cbn [hd_error dispatch_loop filter map]; rewrite app_nil_r; reflexivity.
    - destruct f as [|f]; [cbn in L; lia|]. cbn [hd_error dispatch_loop filter].
      assert (Nx : next_of (list_of st) (h_id h) = Ok (hd_error l)).
      { rewrite E. pose proof (proj1 (after_wf history)) as SS. fold st in SS. rewrite E in SS. clear -SS. induction pre as [|a pre IHp]; cbn [app next_of].
        - rewrite Z.eqb_refl. reflexivity.
        - cbn [app] in SS. inversion SS as [|? ? S' F]; subst. rewrite Forall_forall in F. pose proof (F h (in_elt h pre _)) as X.
          unfold lt_id in X. destruct (Z.eqb_spec (h_id a) (h_id h)); [lia|]. apply IHp. exact S'. }
      destruct (Z.eqb_spec (h_subsys h) subsys) as [Es|Ns]; cbn [negb].
      + rewrite Q. cbn [fold_left]. rewrite Nx. cbn [bind]. rewrite (IH (pre ++ [h])); [|rewrite <- app_assoc; exact E|cbn in L; lia].
        cbn [map]. rewrite <- app_assoc. cbn [app]. replace (call_for signal sigdata h) with (Call (h_id h) (h_cbfn h) subsys signal (h_data h) sigdata) by (unfold call_for; rewrite Es; reflexivity). reflexivity.
      + rewrite Nx. cbn [bind]. apply (IH (pre ++ [h])); [rewrite <- app_assoc; exact E|cbn in L; lia]. }
  unfold osmo_signal_dispatch. rewrite (G (list_of st) [] fuel []); [reflexivity|reflexivity|exact Hf].
Qed.
Print Assumptions C69_quiet.
Example C69_quiet_nonvacuous :
  osmo_signal_dispatch 3 (fun _ => []) 1 7 99 (after [Reg true 1 10 5; Reg true 2 11 6; Reg true 1 12 7]) =
  Ok (after [Reg true 1 10 5; Reg true 2 11 6; Reg true 1 12 7], [Call 0 10 1 7 5 99; Call 2 12 1 7 7 99]).
Proof. reflexivity. Qed.

(** Handlers may register and unregister as they like: whenever the delivery comes to its end, no handler has been called twice, calls were
    made in the order of registration, every handler of the subsystem that is registered at the end has been called (also those that
    were registered meanwhile), and every call went to a registration made before or meanwhile, with the arguments of the signal. *)
Theorem C69_delivery : forall history beh fuel subsys signal sigdata st' tr,
  osmo_signal_dispatch fuel beh subsys signal sigdata (after history) = Ok (st', tr) ->
  StronglySorted (fun a b => c_id a < c_id b) tr /\
  (forall h, In h (list_of st') -> h_subsys h = subsys -> In (call_for signal sigdata h) tr) /\
  (forall c, In c tr -> c_subsys c = subsys /\ c_signal c = signal /\ c_sigdata c = sigdata /\
     ((exists h, In h (list_of (after history)) /\ is_for subsys (c_cbfn c) (c_data c) h) \/
      exists calls, In (Reg true subsys (c_cbfn c) (c_data c)) (beh calls))).
Proof.
  intros history beh fuel subsys signal sigdata st' tr E. pose proof (after_wf history) as W.
  destruct (loop_good (list_of (after history)) beh subsys signal sigdata fuel (after history) (hd_error (list_of (after history))) [] st' tr) as (G & D).
  - split; [exact W|]. split; [constructor|]. split; [|intros c []]. intros x X. left. exists x. split; [exact X|repeat split].
  - destruct (list_of (after history)) as [|h l] eqn:El; cbn [hd_error].
    + intros x [].
    + split; [left; reflexivity|]. split; [intros c []|]. intros x X L. exfalso. destruct W as (SS & _). rewrite El in SS. inversion SS as [|? ? _ F]; subst.
      destruct X as [->|X]; [lia|]. rewrite Forall_forall in F. specialize (F x X). unfold lt_id in F. lia.
  - exact E.
  - destruct G as (_ & TS & _ & TC). split; [exact TS|]. split; [exact D|]. exact TC.
Qed.
Print Assumptions C69_delivery.
(** the first handler unregisters the second and registers a third, which is called at once *)
Example C69_delivery_nonvacuous : exists st' tr,
  osmo_signal_dispatch 9 (fun tr => if (length tr =? 1)%nat then [Unreg 1 11 6; Reg true 1 12 7] else []) 1 7 99 (after [Reg true 1 10 5; Reg true 1 11 6]) = Ok (st', tr) /\
  map c_cbfn tr = [10; 12].
Proof. eexists. eexists. split; reflexivity. Qed.

(** As long as no handler unregisters itself, no freed entry is ever used; if moreover none registers anything, the delivery ends after
    at most as many steps as there are registrations. *)
Theorem C69_safe : forall history beh subsys signal sigdata, keeps_itself subsys beh ->
  (forall fuel, osmo_signal_dispatch fuel beh subsys signal sigdata (after history) <> UB) /\
  (registers_nothing beh -> forall fuel, (length (list_of (after history)) <= fuel)%nat ->
   exists st' tr, osmo_signal_dispatch fuel beh subsys signal sigdata (after history) = Ok (st', tr)).
Proof.
  intros history beh subsys signal sigdata K.
  assert (H : forall h, hd_error (list_of (after history)) = Some h -> In h (list_of (after history))).
  { intros h E. destruct (list_of (after history)); [discriminate E|]. injection E as ->. left. reflexivity. }
  split.
  - intros fuel. apply loop_safe; [exact K|apply after_wf|exact H].
  - intros R fuel L. apply loop_ends; [exact K|exact R|apply after_wf|]. intros h E. split; [apply H; exact E|].
    etransitivity; [apply left_all|exact L].
Qed.
Print Assumptions C69_safe.
Example C69_safe_nonvacuous :
  let beh := fun tr => match rev tr with c :: _ => [Unreg 5 11 6; Unreg (c_subsys c) (c_cbfn c + 1) (c_data c)] | [] => [] end in
  keeps_itself 1 beh /\ registers_nothing beh /\ exists st' tr,
  osmo_signal_dispatch 4 beh 1 7 99 (after [Reg true 1 10 5; Reg true 1 11 5; Reg true 5 11 6; Reg true 1 12 7]) = Ok (st', tr) /\ map c_cbfn tr = [10; 12].
Proof.
  split; [|split].
  - intros tr c E. rewrite rev_unit. intros [K|[K|[]]]; injection K; intros; lia.
  - intros tr m s c d. destruct (rev tr); [intros []|]. intros [K|[K|[]]]; discriminate.
  - eexists. eexists. split; reflexivity.
Qed.

(** A handler cannot unregister itself from within: the loop then goes on from the entry that has been freed. *)
Theorem C69_unregister_itself_refuted : forall s c d others signal sigdata fuel beh,
  (forall tr, beh tr = [Unreg s c d]) ->
  osmo_signal_dispatch (S fuel) beh s signal sigdata (after (Reg true s c d :: map (fun x => Reg true (fst x) (fst (snd x)) (snd (snd x))) others)) = UB.
Proof.
  intros s c d others signal sigdata fuel beh B.
  set (history := Reg true s c d :: _). pose proof (after_wf history) as W.
  assert (E : exists r, list_of (after history) = Handler 0 s c d :: r).
  { unfold history, after. cbn [fold_left do_op osmo_signal_register_handler negb snd list_of next_id app].
    assert (G : forall os st h r, list_of st = h :: r -> exists r', list_of (fold_left do_op (map (fun x => Reg true (fst x) (fst (snd x)) (snd (snd x))) os) st) = h :: r').
    { induction os as [|o os IH]; intros st h r E; [exists r; exact E|]. cbn [map fold_left]. eapply IH. cbn [do_op osmo_signal_register_handler negb snd list_of].
      rewrite E. reflexivity. }
    eapply G. reflexivity. }
  destruct E as (r & E). unfold osmo_signal_dispatch. rewrite E. cbn [hd_error dispatch_loop h_subsys]. rewrite Z.eqb_refl. cbn [negb].
  rewrite B. cbn [fold_left do_op osmo_signal_unregister_handler list_of]. rewrite E. cbn [unreg h_cbfn h_data h_subsys h_id]. rewrite !Z.eqb_refl. cbn [andb].
  assert (N : next_of r 0 = UB).
  { destruct W as (SS & _). rewrite E in SS. inversion SS as [|? ? _ F]; subst. clear -F. induction F as [|a r L F IH]; [reflexivity|]. cbn [next_of].
    unfold lt_id in L. cbn [h_id] in L. destruct (Z.eqb_spec (h_id a) 0); [lia|exact IH]. }
  rewrite N. reflexivity.
Qed.
Print Assumptions C69_unregister_itself_refuted.

(** A handler that registers another one each time it is called keeps the delivery going for ever. *)
Theorem C69_endless_refuted : forall s c d signal sigdata fuel, exists n,
  osmo_signal_dispatch fuel (fun _ => [Reg true s c d]) s signal sigdata (after [Reg true s c d]) = Err n.
Proof.
  intros s c d signal sigdata fuel. exists 0.
  assert (G : forall fuel st h pre tr, wf st -> list_of st = pre ++ [h] -> h_subsys h = s ->
     dispatch_loop fuel (fun _ => [Reg true s c d]) s signal sigdata st (Some h) tr = Err 0).
  { clear. induction fuel as [|fuel IH]; intros st h pre tr W E Es; [reflexivity|]. cbn [dispatch_loop]. rewrite Es, Z.eqb_refl. cbn [negb fold_left].
    set (st1 := do_op st (Reg true s c d)). assert (W1 : wf st1) by (apply op_wf; exact W).
    assert (E1 : list_of st1 = (pre ++ [h]) ++ [Handler (next_id st) s c d]) by (unfold st1; cbn; rewrite E; reflexivity).
    assert (N : next_of (list_of st1) (h_id h) = Ok (Some (Handler (next_id st) s c d))).
    { pose proof (proj1 W1) as SS. rewrite E1 in *. rewrite <- app_assoc in *. cbn [app] in *. clear -SS. induction pre as [|a pre IHp]; cbn [app next_of].
      - rewrite Z.eqb_refl. reflexivity.
      - cbn [app] in SS. inversion SS as [|? ? S' F]; subst. rewrite Forall_forall in F. pose proof (F h (in_elt h pre _)) as X.
        unfold lt_id in X. destruct (Z.eqb_spec (h_id a) (h_id h)); [lia|]. apply IHp. exact S'. }
    rewrite N. cbn [bind]. apply (IH st1 _ (pre ++ [h])); [exact W1|exact E1|reflexivity]. }
  apply (G fuel _ (Handler 0 s c d) []); [apply after_wf|reflexivity|reflexivity].
Qed.
Print Assumptions C69_endless_refuted.
