(** Properties C39-C42 and C70: nodes. *)
From Verif Require Import Base NodeModel NodeSpec NodeProofs.

(** ** C39 *)

(** In every history from construction, with heartbeats carrying states of CiA
    301, without the bare stop command and without an Operational heartbeat in
    the middle of a reset: the node is registered with the sync layer iff its
    state is Operational, and it never registers twice. *)
Theorem C39_membership_partial : forall id def conf es x a rs, Forall ordinary es -> quiet es ->
  run es (mkSt (new_node id true def conf) Idle) = Done (x, a, rs) ->
  member false a = (n_state (s_node x) =? 5) /\ adds_once false a.
Proof. exact membership. Qed.
Print Assumptions C39_membership_partial.

Definition life : list event :=
  [Listen; Call ResetCom 0; Nmt 0 5; Wake; Finish true; Call Start 10; Nmt 127 15; Nmt 5 20; Wake; Nmt 5 30; Nmt 127 40; ShutdownNode None true].
Example C39_ex : Forall ordinary life /\ quiet life /\
  exists x, run life (mkSt (new_node 3 true (HbVal 0) 100) Idle) =
    Done (x, [Send [130; 3]; Remove; Notify 0; WriteHb 100 true; Send [1; 3]; Add; Notify 5;
              Remove; Notify 127; WriteHb 0 true; Remove; Send [2; 3]; Notify 255], [RTrue; RTrue; RTrue]).
Proof.
  split; [|split].
  - unfold life. repeat (apply Forall_cons; [cbn; auto 8|]). constructor.
  - cbn. repeat split; discriminate.
  - eexists. reflexivity.
Qed.

(** A state byte that is not a state of CiA 301 leaves the node registered. *)
Theorem C39_other_state_refuted : forall s t, ~ nmt_state s -> 
  exists x a, run [Listen; Nmt 5 0; Nmt s t] (mkSt (new_node 3 true (HbVal 0) 100) Idle) = Done (x, a, []) /\
    member false a = true /\ n_state (s_node x) = s.
Proof.
  intros s t N. assert (s <> 0 /\ s <> 4 /\ s <> 5 /\ s <> 127) as (A & B & C & D).
  { unfold nmt_state in N. cbn in N. intuition. }
  assert (W : forall n, n_state n = 5 -> switch_state s n = (with_state n s, [Notify s])).
  { intros n E. unfold switch_state, Operational, BootUp, PreOperational, Stopped. rewrite E.
    replace (5 =? s) with false by lia. replace (s =? 5) with false by lia. replace (s =? 0) with false by lia.
    replace (s =? 127) with false by lia. replace (s =? 4) with false by lia. reflexivity. }
  unfold run, step, handle_nmt. cbn -[switch_state Z.eqb]. change (0 =? 0) with true. cbn iota.
  change (switch_state 5 (with_listening (new_node 3 true (HbVal 0) 100) true)) with
    (with_state (with_listening (new_node 3 true (HbVal 0) 100) true) 5, [Add; Notify 5]).
  cbn -[switch_state Z.eqb]. change (0 =? 0) with true. cbn iota. rewrite W by reflexivity.
  do 2 eexists. split; [reflexivity|]. split; reflexivity.
Qed.
Print Assumptions C39_other_state_refuted.

(** The stop command unregisters a node whose state stays Operational. *)
Theorem C39_stop_refuted : exists x a,
  run [Listen; Nmt 5 0; Call Stop 1; Nmt 5 2] (mkSt (new_node 3 true (HbVal 0) 100) Idle) = Done (x, a, [RTrue]) /\
  member false a = false /\ n_state (s_node x) = 5.
Proof. do 2 eexists. repeat split. Qed.
Print Assumptions C39_stop_refuted.

(** A heartbeat of a self starting device that arrives between the boot-up
    message and the end of the reset: registered but taken for pre-operational. *)
Theorem C39_reset_race_refuted : exists x a,
  run [Listen; Call ResetCom 0; Nmt 0 1; Wake; Nmt 5 2; Finish true] (mkSt (new_node 3 true (HbVal 0) 100) Idle) = Done (x, a, [RTrue]) /\
  member false a = true /\ n_state (s_node x) = 127.
Proof. do 2 eexists. repeat split. Qed.
Print Assumptions C39_reset_race_refuted.

(** ** C40 *)

(** For every history that does not change the interval [i] (in milliseconds):
    a read cycle reports a heartbeat problem exactly if the last 3*i milliseconds
    passed without heartbeat. *)
Theorem C40_supervised : forall i es x x1 a rs now rd n2 a2 r,
  n_hb (s_node x) = HbVal i -> 0 < i -> Forall same_interval es -> in_order (beats es) ->
  n_deadline (s_node x) < now ->
  run es x = Done (x1, a, rs) -> handle_read true now rd (s_node x1) = (n2, a2, r) ->
  r = HeartbeatProblem <-> (forall t, In t (beats es) -> 3 * i * ms < now - t).
Proof. exact supervised. Qed.
Print Assumptions C40_supervised.

Theorem C40_unsupervised : forall n run now rd, supervision_off n ->
  snd (handle_read run now rd n) <> HeartbeatProblem.
Proof. exact unsupervised. Qed.
Print Assumptions C40_unsupervised.

(** What a reset configures is the interval from then on (so that C40_supervised holds with it), unless the device has
    no such object; the same is written to the device. *)
Theorem C40_configured : forall x c ok x1 a r, s_phase x = Confirmed c -> step (Finish ok) x = Done (x1, a, r) ->
  let n := s_node x in
  if match n_hb n with HbNone => true | _ => false end then n_hb (s_node x1) = HbNone /\ a = []
  else n_hb (s_node x1) = HbVal (n_conf n) /\ a = [WriteHb (n_conf n) ok].
Proof.
  intros [n p] c ok x1 a r P H. cbn in P. subst p. cbn in H. unfold set_interval in H. cbn [n_hb with_state n_conf] in H. cbn [s_node].
  destruct (n_hb n) eqn:E; apply done_inj in H; injection H as <- <- _; cbn; auto.
Qed.
Print Assumptions C40_configured.
Example C40_configured_ex : exists x a, step (Finish true) (mkSt (mkNode 3 true true 0 (HbVal 0) (HbVal 0) 100 0) (Confirmed ResetCom)) = Done (x, a, Some RTrue) /\
  n_hb (s_node x) = HbVal 100 /\ a = [WriteHb 100 true].
Proof. do 2 eexists. repeat split. Qed.

(** The interval a reset configures is supervised from then on, but the boot-up
    message before does not count: a check right after it fails. *)
Theorem C40_enabled_late_refuted : exists x a n2 a2,
  run [Listen; Call ResetCom 0; Nmt 0 (50 * ms); Wake; Finish true] (mkSt (new_node 3 true (HbVal 0) 100) Idle) = Done (x, a, [RTrue]) /\
  n_hb (s_node x) = HbVal 100 /\ check_heartbeat (51 * ms) None (s_node x) = (n2, a2, Some false).
Proof. do 4 eexists. repeat split. Qed.
Print Assumptions C40_enabled_late_refuted.

Example C40_ex : exists x a, let n := mkNode 3 true true 127 (HbVal 100) (HbVal 0) 100 0 in
  run [Call Start ms; Nmt 5 (2 * ms); Wake; Nmt 5 (100 * ms)] (mkSt n Idle) = Done (x, a, [RTrue]) /\
  snd (handle_read true (400 * ms) None (s_node x)) = ReadPdo /\
  snd (handle_read true (400 * ms + 1) None (s_node x)) = HeartbeatProblem.
Proof. do 2 eexists. repeat split. Qed.

(** ** C41 *)

(** A command that was not already in its target state returns true only after a
    heartbeat with that state, or, for prepare and start, after the timeout if
    supervision is off. *)
Theorem C41_success_confirmed_partial : forall c s now n es e x a y b,
  brings c s -> n_state n <> s ->
  run (Call c now :: es) (mkSt n Idle) = Done (y, b, []) ->
  run (Call c now :: es ++ [e]) (mkSt n Idle) = Done (x, a, [RTrue]) ->
  (exists t, In (Nmt s t) es) \/
  ((c = Start \/ c = Prepare) /\ exists rd t, e = TimedOut rd t /\ now + patience c <= t /\ supervision_off (s_node x)).
Proof.
  intros c s now n es e x a y b Hc Hn H1 H2.
  destruct (confirmed_command c s now n es e x a y b (brings_target c s Hc) Hn H1 H2) as [H|(Hr & rd & t & He & Ht & Hs)];
    [left; exact H|right].
  split; [destruct c; cbn in Hr, Hc; auto; try discriminate; contradiction|].
  exists rd, t. rewrite <- patience_timeout. auto.
Qed.
Print Assumptions C41_success_confirmed_partial.

(** A command returns false only after its timeout, in another state. *)
Theorem C41_failure_justified : forall c s now n es e x a y b,
  brings c s ->
  run (Call c now :: es) (mkSt n Idle) = Done (y, b, []) ->
  run (Call c now :: es ++ [e]) (mkSt n Idle) = Done (x, a, [RFalse]) ->
  exists rd t, e = TimedOut rd t /\ now + patience c <= t /\ n_state (s_node y) <> s.
Proof. intros c s now n es e x a y b Hc. rewrite <- patience_timeout. exact (failed_command c s now n es e x a y b (brings_target c s Hc)). Qed.
Print Assumptions C41_failure_justified.

Example C41_ex : exists y b x a, let n := mkNode 3 true true 127 (HbVal 100) (HbVal 0) 100 0 in
  n_state n <> 5 /\ run (Call Start 0 :: [Nmt 127 3; Wake; Nmt 5 7]) (mkSt n Idle) = Done (y, b, []) /\
  run (Call Start 0 :: [Nmt 127 3; Wake; Nmt 5 7] ++ [Wake]) (mkSt n Idle) = Done (x, a, [RTrue]).
Proof. do 4 eexists. split; [discriminate|]. split; reflexivity. Qed.

(** Start in state Operational succeeds without any sign of the device. *)
Theorem C41_already_there_refuted : forall n now, n_state n = 5 -> exists x a,
  run [Call Start now; Wake] (mkSt n Idle) = Done (x, a, [RTrue]).
Proof. intros n now H. cbn. unfold step. cbn. rewrite H. cbn. do 2 eexists. reflexivity. Qed.
Print Assumptions C41_already_there_refuted.

(** A command sends one frame, with the code of CiA 301 and the id of the node;
    nothing is sent while it waits. *)
Theorem C41_sent : forall c now n es x a rs, (forall e, In e es -> match e with Call _ _ | ShutdownNode _ _ => False | _ => True end) ->
  run (Call c now :: es) (mkSt n Idle) = Done (x, a, rs) -> exists b, nmt_code c b /\ sent a = [[b; n_id n]].
Proof. exact command_sent. Qed.
Print Assumptions C41_sent.

Example C41_ex_sent : exists x a, run [Call Prepare 0; Nmt 5 3; Wake; Nmt 127 4; Wake] (mkSt (mkNode 3 true true 5 (HbVal 0) (HbVal 0) 0 0) Idle) = Done (x, a, [RTrue]) /\
  sent a = [[0x80; 3]].
Proof. do 2 eexists. split; reflexivity. Qed.

(** Without supervision a reset that timed out makes the next one succeed at
    once: the failed one has set the state to BootUp itself. *)
Theorem C41_reset_twice_refuted : exists x a,
  run [Listen; Call ResetCom 0; TimedOut None (10000 * ms); Call ResetCom (10000 * ms); Wake; Finish true]
      (mkSt (new_node 3 true HbNone 0) Idle) = Done (x, a, [RFalse; RTrue]).
Proof. do 2 eexists. reflexivity. Qed.
Print Assumptions C41_reset_twice_refuted.

(** Stop reports success without waiting for anything. *)
Theorem C41_stop_refuted : forall n now, exists a, run [Call Stop now] (mkSt n Idle) = Done (mkSt n Idle, a, [RTrue]).
Proof. intros n now. eexists. reflexivity. Qed.
Print Assumptions C41_stop_refuted.

(** ** C42 *)

Theorem C42_order : forall o, fst (handle_init o) = until_failure (boot_steps o).
Proof. exact boot_order. Qed.
Print Assumptions C42_order.

Theorem C42_reported : forall o, snd (handle_init o) = None <-> forallb snd (boot_steps o) = true.
Proof. exact boot_error. Qed.
Print Assumptions C42_reported.

(** A node that cannot be started again is recovered without error. *)
Theorem C42_recover_refuted : handle_recover SFail = ([BStart], None).
Proof. reflexivity. Qed.
Print Assumptions C42_recover_refuted.

(** Exceptions are reported. *)
Theorem C42_recover_partial : forall s, fst (handle_recover s) = [BStart] /\
  (snd (handle_recover s) = None <-> returned s = true).
Proof. intros []; cbn; repeat split; congruence. Qed.
Print Assumptions C42_recover_partial.

(** If the interval has to be read for that and the device does not answer,
    shutting down does nothing at all but forgetting the interval. *)
Theorem C42_shutdown_unread_refuted : forall n ok, n_hb n = HbUnread -> exists x,
  run [ShutdownNode None ok] (mkSt n Idle) = Done (x, [ReadHb None], [RThrow]) /\
  n_state (s_node x) = n_state n /\ n_listening (s_node x) = n_listening n /\ supervision_off (s_node x).
Proof.
  intros n ok H. cbn. unfold shutdown, interval. rewrite H. eexists. split; [reflexivity|]. cbn. repeat split. right. reflexivity.
Qed.
Print Assumptions C42_shutdown_unread_refuted.

(** If the heartbeat cannot be switched off, shutting down neither stops nor
    unregisters the node, and supervision is off nevertheless. *)
Theorem C42_shutdown_refuted : forall n v, n_hb n = HbVal v -> 0 < v -> exists x,
  run [ShutdownNode None false] (mkSt n Idle) = Done (x, [WriteHb 0 false], [RThrow]) /\
  n_state (s_node x) = n_state n /\ supervision_off (s_node x).
Proof.
  intros n v H P. cbn. unfold shutdown, interval. rewrite H. replace (0 <? v) with true by lia.
  unfold set_interval. rewrite H. eexists. split; [reflexivity|]. split; [reflexivity|]. right. reflexivity.
Qed.
Print Assumptions C42_shutdown_refuted.

Theorem C42_shutdown_partial : forall n rd, n_sync n = true -> n_hb n <> HbUnread -> exists x a,
  run [ShutdownNode rd true] (mkSt n Idle) = Done (x, a, [RTrue]) /\
  In (Send [2; n_id n]) a /\ In Remove a /\ n_state (s_node x) = 255 /\ n_listening (s_node x) = false /\
  ((forall v, n_hb n = HbVal v -> 0 <= v) -> supervision_off (s_node x)).
Proof.
  intros n rd Hs Hh. cbn. unfold shutdown, interval. destruct (n_hb n) as [| |v] eqn:E; [|contradiction|].
  - cbn. rewrite Hs. unfold switch_state. cbn. destruct (Z.eqb_spec (n_state n) Unknown) as [X|X]; cbn [negb];
      do 2 eexists; (split; [reflexivity|]); unfold supervision_off; cbn; rewrite E; auto 12.
  - unfold set_interval. rewrite E. destruct (Z.ltb_spec 0 v) as [V|V]; cbn; rewrite Hs; unfold switch_state; cbn;
      destruct (Z.eqb_spec (n_state n) Unknown) as [X|X]; cbn [negb]; do 2 eexists; (split; [reflexivity|]); unfold supervision_off; cbn; rewrite ?E;
      repeat split; auto 12; intros Y; right; f_equal; specialize (Y v eq_refl); lia.
Qed.
Print Assumptions C42_shutdown_partial.

Example C42_ex1 : handle_init (mkBoot SOk SOk SOk SOk SOk SOk) = ([BListen; BSdoInit; BResetCom; BPdoInit; BInitAll; BSdoInit; BStart], None).
Proof. reflexivity. Qed.
Example C42_ex2 : handle_init (mkBoot SOk SOk SFail SOk SOk SOk) = ([BListen; BSdoInit; BResetCom; BPdoInit], Some ErrPdo).
Proof. reflexivity. Qed.

(** ** C70 *)

(** If object 1017 has a default value or does not exist, no heartbeat in any
    history makes the receiving thread throw. *)
Theorem C70_heartbeats_handled_partial : forall id sync def conf es,
  def <> HbUnread -> run es (mkSt (new_node id sync def conf) Idle) <> Crash.
Proof. intros id sync def conf es H. apply never_crash; exact H. Qed.
Print Assumptions C70_heartbeats_handled_partial.

(** Without default value the boot-up message during the initialisation ends
    the program: object 1017 is read by the thread that would receive the answer. *)
Theorem C70_no_default_refuted : forall id sync conf now t,
  run [Listen; Call ResetCom now; Nmt 0 t] (mkSt (new_node id sync HbUnread conf) Idle) = Crash.
Proof. reflexivity. Qed.
Print Assumptions C70_no_default_refuted.

(** ** C74 *)

(** In every history without the end of a reset: at every moment the state last
    told to the listeners is the state of the node, and they are called for
    changes only. (Every beginning of a history is a history.) *)
Theorem C74_told_partial : forall es x x1 a rs, Forall no_reset_end es -> run es x = Done (x1, a, rs) ->
  believed (n_state (s_node x)) a = n_state (s_node x1) /\ news (n_state (s_node x)) (told a).
Proof. exact run_told. Qed.
Print Assumptions C74_told_partial.

Example C74_ex : exists x a, run [Listen; Nmt 127 1; Call Start 10; Nmt 127 15; Nmt 5 20; Wake; Nmt 5 30; Nmt 4 40]
    (mkSt (new_node 3 true (HbVal 0) 100) Idle) = Done (x, a, [RTrue]) /\ told a = [127; 5; 4] /\ n_state (s_node x) = 4.
Proof. do 2 eexists. split; [reflexivity|]. split; reflexivity. Qed.

(** In every history the listeners know the state, unless it is
    Pre-Operational. *)
Theorem C74_believed_partial : forall es x x1 a rs, run es x = Done (x1, a, rs) ->
  believed (n_state (s_node x)) a = n_state (s_node x1) \/ n_state (s_node x1) = 127.
Proof. intros es x x1 a rs H. eapply run_believed; [exact H|left; reflexivity]. Qed.
Print Assumptions C74_believed_partial.

(** The end of a reset changes the state without telling the listeners; the
    heartbeats with the new state do not tell them either. *)
Theorem C74_reset_refuted : forall beats, Forall (fun b => exists t, b = Nmt 127 t) beats ->
  exists x a, run ([Listen; Call ResetCom 0; Nmt 0 5; Wake; Finish true] ++ beats) (mkSt (new_node 3 true (HbVal 0) 0) Idle) = Done (x, a, [RTrue]) /\
    told a = [0] /\ n_state (s_node x) = 127.
Proof. exact reset_silent. Qed.
Print Assumptions C74_reset_refuted.
