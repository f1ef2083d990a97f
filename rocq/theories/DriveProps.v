(** C87, C88, C89, C90: the handlers of a motor. *)
From Verif Require Import Base MotorModel MotorSpec MotorProofs ModeModel ModeSpec ModeProofs HomingModel HomingSpec HomingProofs DriveModel DriveSpec DriveProofs.

(** ** C87: initialisation of a motor *)
(** Whatever the drive, the control loop and halts do meanwhile: an initialisation which reports no
    error has read from the drive that operation is enabled; and with homing among its modes that
    homing mode is displayed and, unless the homing method is 0, that homing is done. *)
Theorem C87_init : forall d x l y, drun d l (x, IRead) = (y, Done []) ->
  saw l OperationEnable /\
  (alloc (dc d) 6 = true -> is_homing d = true /\ hvalid d = true /\ saw_mode l 6 /\ (hmethod d = 0 \/ saw_homed l) /\ sel (mo y) = None) /\
  (alloc (dc d) 6 = false -> sel (mo y) = sel (mo x)).
Proof.
  intros d x l y E. pose proof (II_run d x l) as H. rewrite E in H. cbn [fst snd II] in H. change HOMING with 6 in H. destruct H as [A [[B C]|(B & C & D & F & G & I)]];
    (split; [exact A|]); split; intros; try congruence; auto 10.
Qed.
Print Assumptions C87_init.
(** Otherwise one of these is reported: not enabled (with or without the reason), wrong handler of
    the homing mode, homing mode not entered, homing failed. *)
Theorem C87_errors : forall d x l y e, drun d l (x, IRead) = (y, Done e) -> e <> [] ->
  In e [[ENotEnabled]; [ETrans; ENotEnabled]; [ELate; ENotEnabled]; [EWrongHandler]; [EEnter]; [EHome]].
Proof.
  intros d x l y e E N. pose proof (II_run d x l) as H. rewrite E in H. cbn [fst snd II] in H. destruct e as [|e0 e]; [congruence|].
  destruct H as [H|[H|[H|[H|[H|H]]]]]; rewrite H; cbn; auto 10.
Qed.
Print Assumptions C87_errors.
(** What the errors say: a transition came too late only if a deadline passed; a transition that
    cannot be set, or an end in another state, only if the drive was halted meanwhile; the wrong
    handler, entering of homing and homing itself only where the initialisation had come to them.
    Entering is not blamed once homing was started. *)
Theorem C87_causes : forall d x l y e, drun d l (x, IRead) = (y, Done e) ->
  (In ELate e -> In Timeout l) /\ (In ETrans e \/ e = [ENotEnabled] -> In Halt l) /\
  (In EWrongHandler e -> saw l OperationEnable /\ alloc (dc d) HOMING = true /\ is_homing d = false) /\
  (In EEnter e -> saw l OperationEnable /\ alloc (dc d) HOMING = true /\ is_homing d = true /\
     (execute (ho x) = false -> forall l1 l2, l = l1 ++ l2 -> execute (ho (fst (drun d l1 (x, IRead)))) = false)) /\
  (In EHome e -> saw l OperationEnable /\ alloc (dc d) HOMING = true /\ is_homing d = true /\ saw_mode l HOMING /\ (hvalid d = true -> hmethod d <> 0)).
Proof.
  intros d x l y e E. pose proof (CI_init d x l) as H. rewrite E in H. cbn [fst snd CI] in H. destruct H as (A & B & C & D & F).
  split; [exact A|]. split; [exact B|]. split; [exact C|]. split; [|exact F]. intros X. destruct (D X) as (D1 & D2 & D3). split; [exact D1|]. split; [exact D2|]. split; [exact D3|].
  intros X0 l1 l2 ->. destruct (execute (ho (fst (drun d l1 (x, IRead))))) eqn:Q; [|reflexivity].
  destruct (home_after d x l1 l2 y e X0 Q E) as [->| ->]; cbn in X; intuition discriminate.
Qed.
Print Assumptions C87_causes.
(** The start bit of homing is requested only while homing is waited for, with the drive seen
    enabled and in homing mode. *)
Theorem C87_start_bit : forall d x l y p, execute (ho x) = false -> drun d l (x, IRead) = (y, p) -> execute (ho y) = true ->
  (exists q, p = IHome q) /\ saw l OperationEnable /\ saw_mode l 6 /\ alloc (dc d) 6 = true /\ hmethod d <> 0 /\ sel (mo y) = Some 6.
Proof.
  intros d x l y p X E H. pose proof (II_run d x l) as I. pose proof (execute_in_home d x l X) as Q. pose proof (HS_run d x l IRead Logic.I) as U.
  rewrite E in I, Q, U. cbn [fst snd] in *.
  destruct (Q H) as [q ->]. cbn [II] in I. destruct I as ((_ & A & B & _) & _ & C & _ & D & _). split; [exists q; reflexivity|auto 7].
Qed.
Print Assumptions C87_start_bit.
(** Init ends with an exception only if a transfer failed. *)
Theorem C87_thrown : forall d x l y, drun d l (x, IRead) = (y, Thrown) -> In Throw l.
Proof. intros d x l y E. pose proof (HS_run d x l IRead Logic.I) as U. rewrite E in U. exact U. Qed.
Print Assumptions C87_thrown.

Definition fresh_drive (m : option Z) : drv := mkDrv (mkM Start Start 0 m 0 (fun _ => false) None) (mkH 0 false) 0 false.
Definition no_homing : dcfg := mkD (mkCfg (fun m => m =? 1) (fun _ => true) OperationEnable) true false 0 (fun _ _ => true).
Definition with_homing (method : Z) : dcfg := mkD (mkCfg (fun m => (m =? 1) || (m =? 6)) (fun _ => true) OperationEnable) true true method (fun _ _ => true).
Example C87_thrown_ex : snd (drun no_homing [Throw] (fresh_drive None, IRead)) = Thrown.
Proof. reflexivity. Qed.
(** Enabling in the states Switch on disabled, Ready to switch on, Switched on *)
Definition enabling (m : Z) : list devent :=
  [Own 0x250 m; Thread; Thread; Thread; Thread; Thread; Loop 0x231 m; Thread; Thread; Thread; Loop 0x233 m; Thread; Thread; Thread; Loop 0x237 m; Thread; Thread].
Example C87_ex : snd (drun no_homing (enabling 0 ++ [Thread]) (fresh_drive None, IRead)) = Done [].
Proof. vm_compute. reflexivity. Qed.
(** to homing mode, and through homing *)
Definition homing_run : list devent :=
  [Thread; Thread; Thread; Thread; Thread; Thread; Thread; Thread; Loop 0x637 6; Thread; Thread; Thread; Thread; Thread;
   Loop 0x637 6; Thread; Loop 0x237 6; Thread; Loop 0x1237 6; Thread; Loop 0x1637 6; Thread; Thread].
Example C87_homing_ex : let s := drun (with_homing 35) (enabling 0 ++ homing_run) (fresh_drive None, IRead) in
  snd s = Done [] /\ sel (mo (fst s)) = None /\
  execute (ho (fst (drun (with_homing 35) (enabling 0 ++ firstn 18 homing_run) (fresh_drive None, IRead)))) = true.
Proof. vm_compute. repeat split. Qed.
(** the drive reports a homing error *)
Example C87_error_ex : snd (drun (with_homing 35) (enabling 0 ++ firstn 16 homing_run ++ [Loop 0x2237 6; Thread]) (fresh_drive None, IRead)) = Done [EHome].
Proof. vm_compute. reflexivity. Qed.

(** No error does not mean that the drive is enabled when init returns: a word read after the last
    look at the state is not noticed. *)
Theorem C87_enabled_refuted : exists l y, drun no_homing l (fresh_drive None, IRead) = (y, Done []) /\ st (mo y) = Fault /\ diag y = [DEFault].
Proof.
  exists (enabling 0 ++ [Loop 0x218 0; Thread]). eexists. split; [vm_compute; reflexivity|]. split; reflexivity.
Qed.
Print Assumptions C87_enabled_refuted.

(** ** C88: recovery and shutdown of a motor *)
(** A recovery that reports no error: operation was enabled, as known before or as read meanwhile;
    a fault reset was requested; the mode in use is kept, restarted and without target. *)
Theorem C88_recover : forall d x l y, drun d l (x, RMode) = (y, Done []) ->
  (st (mo x) = OperationEnable \/ saw l OperationEnable) /\ sfr y = true /\ sel (mo y) = sel (mo x) /\
  (forall k, sel (mo x) = Some k -> startok (dc d) k = true /\ hast (mo y) k = false).
Proof.
  intros d x l y E. pose proof (RI_run d x l) as H. rewrite E in H. cbn [fst snd RI] in H. destruct H as (_ & A & B & C & K).
  apply known_saw in K; [|discriminate]. split; [destruct K; [left; congruence|auto]|auto].
Qed.
Print Assumptions C88_recover.
Theorem C88_recover_errors : forall d x l y e, drun d l (x, RMode) = (y, Done e) -> e <> [] ->
  e = [ERestart] /\ (exists k, sel (mo x) = Some k /\ startok (dc d) k = false) \/
  In e [[ENotEnabled]; [ETrans; ENotEnabled]; [ELate; ENotEnabled]].
Proof.
  intros d x l y e E N. pose proof (RI_run d x l) as H. rewrite E in H. cbn [fst snd RI] in H. destruct H as (_ & _ & H).
  destruct e as [|e0 e]; [congruence|]. destruct H as [H|(_ & _ & H)]; [left; exact H|right]. destruct H as [H|[H|H]]; rewrite H; cbn; auto.
Qed.
Print Assumptions C88_recover_errors.
Theorem C88_recover_causes : forall d x l y e, drun d l (x, RMode) = (y, Done e) ->
  (In ELate e -> In Timeout l) /\ (In ETrans e \/ e = [ENotEnabled] -> In Halt l).
Proof. intros d x l y e E. pose proof (CI_recover d x l) as H. rewrite E in H. cbn [fst snd CI] in H. destruct H as (A & B & _). auto. Qed.
Print Assumptions C88_recover_causes.
Definition faulted : drv := mkDrv (mkM Fault OperationEnable 15 (Some 1) 1 (fun _ => true) None) (mkH 0 false) 0x218 false.
Example C88_recover_ex : let s := drun no_homing ([Thread; Thread; Thread; Thread; Thread; Loop 0x250 1; Thread; Thread; Thread] ++ tl (firstn 17 (skipn 5 (enabling 1))))
  (faulted, RMode) in
  snd s = Done [] /\ sel (mo (fst s)) = Some 1 /\ hast (mo (fst s)) 1 = false.
Proof. vm_compute. repeat split. Qed.

(** A shutdown: no mode is executed afterwards. If no halt intervenes, and no error is reported, the
    drive was known to be disabled. *)
Theorem C88_shutdown_partial : forall d x l y e, drun d l (x, DMode) = (y, Done e) ->
  sel (mo y) = None /\
  (e = [] -> ~ In Halt l -> st (mo x) = SwitchOnDisabled \/ saw l SwitchOnDisabled) /\
  (e <> [] -> e = [ETrans] \/ e = [ELate] /\ In Timeout l).
Proof.
  intros d x l y e E. pose proof (SI_run d x l) as H. rewrite E in H. cbn [fst snd SI] in H. destruct H as (_ & H).
  destruct e as [|e0 e].
  - destruct H as [A B]. split; [exact A|]. split; [|congruence]. intros _ N. destruct B as [B|B]; [contradiction|].
    apply known_saw in B; [|discriminate]. destruct B; [left; congruence|auto].
  - destruct H as [A B]. split; [exact A|]. split; [discriminate|]. intros _. destruct B as [B|B]; [auto|right]. split; [exact B|].
    apply (shutdown_late d x l y (e0 :: e) E). rewrite B. left. reflexivity.
Qed.
Print Assumptions C88_shutdown_partial.
Definition running : drv := mkDrv (mkM OperationEnable OperationEnable 15 (Some 1) 1 (fun _ => true) None) (mkH 0 false) 0x237 false.
Example C88_shutdown_ex : let s := drun no_homing [Thread; Thread; Thread; Thread; Thread; Loop 0x250 0; Thread; Thread] (running, DMode) in
  snd s = Done [] /\ sel (mo (fst s)) = None /\ st (mo (fst s)) = SwitchOnDisabled.
Proof. vm_compute. repeat split. Qed.
Example C88_shutdown_late_ex : snd (drun no_homing [Thread; Thread; Thread; Thread; Thread; Loop 0x237 0; Timeout] (running, DMode)) = Done [ELate].
Proof. vm_compute. reflexivity. Qed.
(** A halt in between, for example by the control loop because of an error of another node: the
    shutdown ends early and reports nothing although the drive is not disabled. *)
Theorem C88_shutdown_refuted : exists l y, drun no_homing l (running, DMode) = (y, Done []) /\
  ~ saw l SwitchOnDisabled /\ st (mo y) = QuickStopActive.
Proof.
  exists [Thread; Thread; Thread; Thread; Thread; HaltState; Halt; Loop 0x217 0; Thread; Thread]. eexists. split; [vm_compute; reflexivity|]. split; [|reflexivity].
  intros [sw [m [[H|H] D]]]; cbn in H; repeat (destruct H as [H|H]; [try discriminate H|]); try contradiction.
  injection H as <- <-. vm_compute in D. discriminate D.
Qed.
Print Assumptions C88_shutdown_refuted.

(** ** C89: supervision of a motor by the control loop *)
(** What is reported when status word [sw] and mode [m] are read after the cycles [l]: exactly
    - an error if the handler of the mode in use, being the displayed one, finds one in the word,
    - a warning if another mode is displayed than the one in use,
    - an error if the internal limit became active and the layer is ready, a warning if it is
      active otherwise. *)
Theorem C89_reports : forall d ready l x sw m msg,
  In msg (snd (read_state d ready sw m (cycles d ready l x))) <->
  match msg with
  | EHandler => sel (mo x) = Some m /\ mode_ok d m sw = false
  | WMode => exists k, sel (mo x) = Some k /\ k <> m
  | ELimit => Z.testbit sw 11 = true /\ Z.testbit (last_word (word x) l) 11 = false /\ ready = true
  | WLimit => Z.testbit sw 11 = true /\ (Z.testbit (last_word (word x) l) 11 = true \/ ready = false)
  end.
Proof.
  intros d ready l x sw m msg. destruct (cycles_word d ready l x) as [W S]. set (c := cycles d ready l x) in *. clearbody c.
  unfold read_state. cbn [snd]. rewrite !has_testbit by (unfold SW_Limit; lia). unfold SW_Limit. rewrite W, S. rewrite !in_app_iff.
  destruct (sel (mo x)) as [k|]; [destruct (Z.eqb_spec k m) as [->|N]|];
    destruct (mode_ok d m sw) eqn:Ok; destruct (Z.testbit sw 11); destruct (Z.testbit (last_word (word x) l) 11); destruct ready;
    destruct msg; cbn; (split; [intros H; repeat match goal with H : _ \/ _ |- _ => destruct H | H : False |- _ => destruct H end; try discriminate; eauto
                              |intros H; repeat match goal with H : _ /\ _ |- _ => destruct H | H : exists _, _ |- _ => destruct H | H : _ \/ _ |- _ => destruct H end; try congruence; auto 6]).
Qed.
Print Assumptions C89_reports.
Definition pp_ok (m sw : Z) : bool := negb ((m =? 1) && Z.testbit sw 13).
Definition ppd : dcfg := mkD (mkCfg (fun m => m =? 1) (fun _ => true) OperationEnable) true false 0 pp_ok.
Example C89_ex :
  snd (read_state ppd true 0x2237 1 running) = [EHandler] /\
  snd (read_state ppd true 0xA37 1 running) = [ELimit] /\
  snd (read_state ppd true 0xA37 3 (cycles ppd true [(0xA37, 1)] running)) = [WMode; WLimit].
Proof. vm_compute. repeat split. Qed.
(** A drive that goes into fault is not reported to the control loop: neither as error nor as
    warning (only in the diagnostics, below). *)
Theorem C89_fault_refuted : forall d ready x sw m, denotes Fault sw -> Z.testbit sw 11 = false ->
  (sel (mo x) = None \/ sel (mo x) = Some m /\ mode_ok d m sw = true) ->
  snd (read_state d ready sw m x) = [] /\ st (mo (fst (read_state d ready sw m x))) = Fault.
Proof.
  intros d ready x sw m D L S. split; [|cbn; apply decode_denotes; [discriminate|exact D]].
  unfold read_state. cbn [snd]. rewrite has_testbit by (unfold SW_Limit; lia). unfold SW_Limit. rewrite L.
  destruct S as [-> |[-> O]]; [reflexivity|]. rewrite Z.eqb_refl, O. reflexivity.
Qed.
Print Assumptions C89_fault_refuted.
Example C89_fault_ex : denotes Fault 0x218 /\ snd (read_state ppd true 0x218 1 running) = [].
Proof. split; vm_compute; reflexivity. Qed.

(** ** C90: diagnostics of a motor *)
(** After at least one cycle the reports follow from the last status word alone. *)
Theorem C90_reports : forall d ready l x msg, l <> [] -> let w := last_word (word x) l in
  In msg (diag (cycles d ready l x)) <->
  match msg with
  | DWNotEnabled => denotes NotReady w \/ denotes SwitchOnDisabled w \/ denotes ReadyToSwitchOn w \/ denotes SwitchedOn w
  | DEQuickStop => denotes QuickStopActive w
  | DEFault => denotes Fault w \/ denotes FaultReactionActive w
  | DEUnknown => forall s, ~ denotes s w
  | DWWarning => Z.testbit w 7 = true
  | DELimit => Z.testbit w 11 = true
  end.
Proof.
  intros d ready l x msg N w. unfold diag. rewrite (cycles_state d ready l x N). destruct (cycles_word d ready l x) as [-> _]. fold w.
  rewrite !has_testbit by (unfold SW_Warning, SW_Limit; lia). unfold SW_Warning, SW_Limit.
  assert (K : forall s, s <> Start -> (denotes s w <-> decode w = s)) by (intros s Hs; symmetry; apply decode_denotes, Hs).
  pose proof (decode_unknown w) as U.
  destruct msg; rewrite ?K by discriminate; rewrite ?in_app_iff.
  - destruct (decode w), (Z.testbit w 7), (Z.testbit w 11); cbn; intuition congruence.
  - destruct (decode w), (Z.testbit w 7), (Z.testbit w 11); cbn; intuition congruence.
  - destruct (decode w), (Z.testbit w 7), (Z.testbit w 11); cbn; intuition congruence.
  - rewrite <- U. destruct (decode w), (Z.testbit w 7), (Z.testbit w 11); cbn; intuition congruence.
  - destruct (decode w), (Z.testbit w 7), (Z.testbit w 11); cbn; intuition congruence.
  - destruct (decode w), (Z.testbit w 7), (Z.testbit w 11); cbn; intuition congruence.
Qed.
Print Assumptions C90_reports.
(** Nothing to report: exactly if operation is enabled, without warning and without limit *)
Theorem C90_healthy : forall d ready l x, l <> [] -> let w := last_word (word x) l in
  diag (cycles d ready l x) = [] <-> denotes OperationEnable w /\ Z.testbit w 7 = false /\ Z.testbit w 11 = false.
Proof.
  intros d ready l x N w. unfold diag. rewrite (cycles_state d ready l x N). destruct (cycles_word d ready l x) as [-> _]. fold w.
  rewrite !has_testbit by (unfold SW_Warning, SW_Limit; lia). unfold SW_Warning, SW_Limit.
  assert (K : denotes OperationEnable w <-> decode w = OperationEnable) by (symmetry; apply decode_denotes; discriminate). rewrite K.
  destruct (decode w), (Z.testbit w 7), (Z.testbit w 11); cbn; intuition congruence.
Qed.
Print Assumptions C90_healthy.
(** Errors come first: quick stop, fault, unknown state, limit; the others are warnings. *)
Theorem C90_error : forall d ready l x, l <> [] -> let w := last_word (word x) l in
  existsb is_error (diag (cycles d ready l x)) = true <->
  denotes QuickStopActive w \/ denotes Fault w \/ denotes FaultReactionActive w \/ (forall s, ~ denotes s w) \/ Z.testbit w 11 = true.
Proof.
  intros d ready l x N w. unfold diag. rewrite (cycles_state d ready l x N). destruct (cycles_word d ready l x) as [-> _]. fold w.
  rewrite !has_testbit by (unfold SW_Warning, SW_Limit; lia). unfold SW_Warning, SW_Limit.
  assert (K : forall s, s <> Start -> (denotes s w <-> decode w = s)) by (intros s Hs; symmetry; apply decode_denotes, Hs).
  rewrite !K by discriminate. rewrite <- decode_unknown.
  destruct (decode w), (Z.testbit w 7), (Z.testbit w 11); cbn; intuition congruence.
Qed.
Print Assumptions C90_error.
(** Before the first cycle the state is reported as unknown. *)
Theorem C90_unread : forall m, diag (fresh_drive m) = [DEUnknown].
Proof. reflexivity. Qed.
Print Assumptions C90_unread.
Example C90_ex : diag (cycles ppd true [(0x237, 1)] running) = [] /\ diag (cycles ppd true [(0x237, 1); (0xA37, 1)] running) = [DELimit] /\
  diag (cycles ppd true [(0x2B1, 1)] running) = [DWNotEnabled; DWWarning] /\ diag (cycles ppd true [(0xA1F, 1)] running) = [DEFault; DELimit].
Proof. vm_compute. repeat split. Qed.

From Verif Require ModeProps.
(** A halt in any phase of init, recover or shutdown commands a quick stop to an enabled drive, and nothing to a drive with a fault;
    the interrupted function goes on where it was. *)
Theorem C59_any_phase : forall d x p, let s := drun d [HaltState; Halt] (x, p) in
  snd s = p /\
  (st (mo x) = OperationEnable -> tst (mo (fst s)) = QuickStopActive /\
     drive_step OperationEnable (rising (mcw (mo x)) (mcw (mo (fst s)))) (mcw (mo (fst s))) = QuickStopActive) /\
  (faulty (st (mo x)) -> mcw (mo (fst s)) = mcw (mo x) /\ tst (mo (fst s)) = tst (mo x)).
Proof.
  intros d x p s. split; [reflexivity|]. split.
  - intros H. exact (ModeProps.C59_quick_stop (dc d) (mo x) (Ret true) H).
  - intros H. destruct (ModeProps.C59_fault (dc d) (mo x) (Ret true) H) as (_ & A & B & _). split; [exact B|exact A].
Qed.
Print Assumptions C59_any_phase.
Example C59_any_phase_ex : st (mo (running)) = OperationEnable /\ tst (mo (fst (drun ppd [HaltState; Halt] (running, IRead)))) = QuickStopActive.
Proof. vm_compute. split; reflexivity. Qed.
