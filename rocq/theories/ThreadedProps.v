(** C100: a driver with its own thread. *)
From Verif Require Import Base SocketCanModel LifeModel LifeSpec LifeProofs ThreadedModel ThreadedSpec ThreadedProofs.

(** C100. init returns true only if the driver is ready, its socket is open and its thread serves it; false only if it is not ready. *)
Theorem C100_started : forall s0 s, treachable s0 -> treturns OInit s0 s true -> ds s = Ready /\ working s.
Proof. exact tstarted. Qed.
Theorem C100_failed : forall s0 s, treachable s0 -> treturns OInit s0 s false -> ds s <> Ready.
Proof. exact tfailed. Qed.

(** C100. A thread is started only while there is none. *)
Theorem C100_one_thread : forall s, treachable s -> lp s = ISpawn -> rt s = RNone.
Proof. exact tone_thread. Qed.

(** C100. The thread serves the socket until shutdown is called, whatever happens on the bus and however often init is called. *)
Theorem C100_keeps_working : forall s l, working s -> lp s = Idle -> Forall calm l ->
  (forall e, In e l -> e <> Call OShutdown) -> working (trun l s).
Proof. intros s l W L C N. apply tkeeps; auto. apply Forall_forall. intros e I'. specialize (N e I'). destruct e as [[]| | | | | |]; cbn; auto. Qed.

(** C100. After shutdown the driver is closed and there is no thread (if no other thread is interrupted in setNotReady). *)
Theorem C100_stopped_partial : forall s0 s r, treachable s0 -> treturns OShutdown s0 s r -> off s.
Proof. exact tstopped_off. Qed.
Theorem C100_left_open_refuted : exists l, lp (trun l sys0) = Idle /\ res (trun l sys0) = Some (true, false) /\
  forall l2, Forall alone l2 -> ds (trun l2 (trun l sys0)) = Open /\ rt (trun l2 (trun l sys0)) = RNone.
Proof. exists trace_open. split; [vm_compute; reflexivity|]. split; [vm_compute; reflexivity|]. intros l2 H. destruct (tleft_open l2 H) as (A & _ & B). auto. Qed.

(** C100. A shutdown of a driver that works or is off ends in every fair schedule; one that comes while the thread starts may never end. *)
Theorem C100_shutdown_ends_partial : forall s0 rs, treachable s0 -> lp s0 = Idle -> working s0 \/ off s0 ->
  Forall fair rs -> Forall calm (List.concat rs) -> Forall no_call (List.concat rs) -> (9 <= List.length rs)%nat ->
  lp (trun (Call OShutdown :: List.concat rs) s0) = Idle.
Proof. exact tshutdown_ends. Qed.
Theorem C100_hangs_refuted : exists s, treachable s /\ lp s = SJoin false /\ forall l, lp (trun l s) = SJoin false /\ res (trun l s) = None.
Proof.
  exists (trun trace_stuck sys0). split; [exists trace_stuck; split; [repeat constructor|reflexivity]|].
  split; [vm_compute; reflexivity|]. intros l. destruct (tstuck l) as (A & _ & B). auto.
Qed.

(** C100. init ends: its thread reaches the wait in five steps, and the wait ends at the deadline, whatever the driver does. *)
Theorem C100_init_ends : forall s0 l, lp s0 = Idle -> Forall no_call l ->
  (5 <= List.length (List.filter (fun e => match e with Layer _ => true | _ => false end) l))%nat ->
  lp (trun (Call OInit :: l ++ [Deadline]) s0) = Idle.
Proof. exact tinit_ends. Qed.

(** C100. init makes a driver ready again that lost the bus: refuted. Once a transmission or reception failed, the driver is not ready and
    init returns false, however often it is called, until shutdown is called. *)
Theorem C100_again_refuted : forall s l, working s -> ds s = Open -> lp s = Idle -> Forall calm l -> (forall e, In e l -> e <> Call OShutdown) ->
  ds (trun l s) = Open /\ forall s', treachable s -> treturns OInit (trun l s) s' true -> False.
Proof.
  intros s l W D L C N. assert (N' : Forall no_shutdown l) by (apply Forall_forall; intros e I'; specialize (N e I'); destruct e as [[]| | | | | |]; cbn; auto).
  split; [apply tdead; auto|]. intros s' R (l2 & e & H1 & H2 & C2 & N2 & Hi & Hn & E & Hr).
  assert (T : treturns OInit (trun l s) s' true) by (exists l2, e; auto 10). destruct (tstarted _ _ (treachable_run s l R C) T) as [RD _].
  assert (EQ : s' = trun (l ++ (Call OInit :: l2) ++ [e]) s) by (rewrite !trun_app; rewrite E; reflexivity).
  assert (O : ds s' = Open).
  { rewrite EQ. apply tdead; auto.
    - apply Forall_app. split; [exact C|]. apply Forall_app. split; [constructor; [exact Logic.I|exact H1]|constructor; [exact C2|constructor]].
    - apply Forall_app. split; [exact N'|]. apply Forall_app. split; [constructor; [exact Logic.I|]|constructor; [|constructor]].
      + eapply Forall_impl; [|exact H2]. intros []; cbn; tauto.
      + destruct e; cbn in *; tauto. }
  congruence.
Qed.

(** init; the bus fails; init returns false; shutdown; init *)
Definition go : list event := [Layer true; Layer true; Layer true; Layer true; Driver; Driver; Driver; Driver; Driver].
Example C100_example : exists s1 s2 s3 s4,
  treturns OInit sys0 s1 true /\ working (tstep s1 NotReady) /\ ds (tstep s1 NotReady) = Open /\ lp (tstep s1 NotReady) = Idle /\
  treturns OInit (tstep s1 NotReady) s2 false /\ treturns OShutdown s2 s3 true /\ off s3 /\ treturns OInit s3 s4 true.
Proof.
  eexists _, _, _, _. split; [|split; [|split; [|split; [|split; [|split; [|split]]]]]].
  - exists go, (Layer true). split; [repeat constructor|]. split; [repeat constructor|]. repeat split.
  - repeat split.
  - reflexivity.
  - reflexivity.
  - exists [Layer true], (Layer true). split; [repeat constructor|]. split; [repeat constructor|]. repeat split.
  - exists [Layer true; Layer true; Driver; Driver; Driver; Driver; Driver], (Layer true). split; [repeat constructor|]. split; [repeat constructor|]. repeat split.
  - repeat split.
  - exists go, (Layer true). split; [repeat constructor|]. split; [repeat constructor|]. repeat split.
Qed.
Example C100_fair : Forall fair (repeat [NotReady; Driver; Layer false] 9) /\ treachable (trun (Call OInit :: go ++ [Layer true]) sys0) /\ working (trun (Call OInit :: go ++ [Layer true]) sys0) /\
  exists s, treachable s /\ lp s = ISpawn.
Proof.
  split; [apply Forall_forall; intros x Hx; apply repeat_spec in Hx; subst x; split; [cbn; auto|exists false; cbn; auto]|].
  split; [eexists; split; [|reflexivity]; repeat constructor|]. split; [repeat split|].
  exists (trun [Call OInit; Layer true; Layer true; Layer true] sys0). split; [eexists; split; [|reflexivity]; repeat constructor|reflexivity].
Qed.
Example C100_init_example : lp (trun (Call OInit :: [Layer true; NotReady; Layer true; Layer false; Driver; Layer true; Layer true] ++ [Deadline]) sys0) = Idle /\
  res (trun (Call OInit :: [Layer true; NotReady; Layer true; Layer false; Driver; Layer true; Layer true] ++ [Deadline]) sys0) = Some (false, false).
Proof. split; reflexivity. Qed.
Print Assumptions C100_started.
Print Assumptions C100_failed.
Print Assumptions C100_one_thread.
Print Assumptions C100_keeps_working.
Print Assumptions C100_stopped_partial.
Print Assumptions C100_left_open_refuted.
Print Assumptions C100_shutdown_ends_partial.
Print Assumptions C100_hangs_refuted.
Print Assumptions C100_init_ends.
Print Assumptions C100_again_refuted.
