(** The claims about switching modes and halting. *)
From Verif Require Import Base MotorModel MotorSpec MotorProofs ModeModel ModeSpec ModeProofs.

(** ** C57: switching modes *)

(** Success of a switch means that the mode is selected, is known to the drive, and either
    - the drive displayed it and was enabled at that time or later, or
    - the mode was selected before, and displayed when the switch looked. *)
Theorem C57_success_partial : forall c m x l y, m <> 0 -> run c l (x, M0 m) = (y, Ret true) ->
  sel y = Some m /\ alloc c m = true /\
  ((sel x = Some m /\ was_active c l (x, M0 m) m) \/ displayed_then_enabled c l (x, M0 m) m).
Proof. intros c m x l y Hm E. pose proof (J_run c m x Hm l) as H. rewrite E in H. exact H. Qed.
Print Assumptions C57_success_partial.
(** If another mode or none was selected before, the drive was enabled. *)
Theorem C57_changed : forall c m x l y, m <> 0 -> sel x <> Some m -> run c l (x, M0 m) = (y, Ret true) ->
  sel y = Some m /\ displayed_then_enabled c l (x, M0 m) m.
Proof.
  intros c m x l y Hm N E. destruct (C57_success_partial c m x l y Hm E) as [A [_ [[H _]|H]]]; [contradiction|auto].
Qed.
Print Assumptions C57_changed.
(** While the switch is in progress no mode is executed. *)
Theorem C57_in_progress : forall c m x l y p, m <> 0 -> run c l (x, M0 m) = (y, p) -> in_progress p -> sel y = None.
Proof.
  intros c m x l y p Hm E H. pose proof (J_run c m x Hm l) as J. rewrite E in J.
  destruct p as [t q|k|k|k q|k|k|k [|] q|[|]|]; try (destruct H; fail); exact (proj1 (proj2 J)).
Qed.
Print Assumptions C57_in_progress.
(** After a failure no mode is executed, except
    - the requested one if it was displayed (enabling the drive failed), or
    - the one before if there is no handler for the requested mode, or the handler refused, or an exception ended the switch. *)
Theorem C57_failed_partial : forall c m x l y, m <> 0 -> run c l (x, M0 m) = (y, Ret false) ->
  sel y = None \/ (sel y = Some m /\ displayed c l (x, M0 m) m) \/
  (sel y = sel x /\ (alloc c m = false \/ startok c m = false)).
Proof. intros c m x l y Hm E. pose proof (J_run c m x Hm l) as H. rewrite E in H. exact H. Qed.
Print Assumptions C57_failed_partial.
Theorem C57_thrown_partial : forall c m x l y, m <> 0 -> run c l (x, M0 m) = (y, Exc) ->
  sel y = None \/ sel y = sel x.
Proof. intros c m x l y Hm E. pose proof (J_run c m x Hm l) as H. rewrite E in H. exact H. Qed.
Print Assumptions C57_thrown_partial.

Definition drive0 (s : state402) (m : option Z) (k : Z) : mot := mkM s s 15 m k (fun _ => true) None.
Definition cfg0 : cfg := mkCfg (fun m => (m =? 1) || (m =? 3)) (fun _ => true) OperationEnable.
(** A switch from mode 1 to mode 3 *)
Definition good_switch : list event :=
  [EThread; EThread; EThread; EThread; EThread; EThread; ERead OperationEnable 3; EThread; EThread; EThread; EThread].
Example ex_C57_changed : let '(y, p) := run cfg0 good_switch (drive0 OperationEnable (Some 1) 1, M0 3) in
  p = Ret true /\ sel y = Some 3 /\ shown y = 3.
Proof. repeat split; reflexivity. Qed.
Example ex_C57_in_progress : let '(y, p) := run cfg0 (firstn 6 good_switch) (drive0 OperationEnable (Some 1) 1, M0 3) in
  in_progress p /\ sel y = None.
Proof. split; reflexivity || exact I. Qed.
Example ex_C57_failed : let '(y, p) := run cfg0 [EThread; EThread; EThread; EThread; EThread; EThread; ETimeout; EThread; EThread; EThread]
    (drive0 OperationEnable (Some 1) 1, M0 3) in
  p = Ret false /\ sel y = None.
Proof. split; reflexivity. Qed.
Example ex_C57_thrown : let '(y, p) := run cfg0 [EThread; EThread; EThread; EThread; EThread; EThrow]
    (drive0 OperationEnable (Some 1) 1, M0 3) in
  p = Exc /\ sel y = None.
Proof. split; reflexivity. Qed.

(** Selecting the active mode again succeeds although the drive is in fault, or reads a different state at any time. *)
Theorem C57_same_mode_refuted : forall c m x, m <> 0 -> alloc c m = true -> startok c m = true -> sel x = Some m -> shown x = m ->
  snd (run c [EThread; EThread] (x, M0 m)) = Ret true /\
  st (fst (run c [EThread; EThread] (x, M0 m))) = st x.
Proof.
  intros c m x Hm A B C D. unfold run. cbn [fold_left step]. unfold m0. rewrite (proj2 (Z.eqb_neq m 0) Hm), A, B. cbn -[Z.eqb].
  unfold m1. cbn [sel shown]. rewrite C, D, Z.eqb_refl. split; reflexivity.
Qed.
Print Assumptions C57_same_mode_refuted.
Example ex_C57_same_mode : snd (run cfg0 [EThread; EThread] (drive0 Fault (Some 1) 1, M0 1)) = Ret true.
Proof. reflexivity. Qed.
(** It also drops the target of the mode: the drive is halted until the next target. *)
Theorem C57_same_mode_target : forall c m x, m <> 0 -> alloc c m = true -> startok c m = true -> sel x = Some m -> shown x = m ->
  hast (fst (run c [EThread; EThread] (x, M0 m))) m = false.
Proof.
  intros c m x Hm A B C D. unfold run. cbn [fold_left step]. unfold m0. rewrite (proj2 (Z.eqb_neq m 0) Hm), A, B. cbn -[Z.eqb].
  unfold m1. cbn [sel shown]. rewrite C, D, Z.eqb_refl. cbn. rewrite ?Z.eqb_refl. reflexivity.
Qed.
Print Assumptions C57_same_mode_target.
(** A drive that displays the mode but cannot be enabled: the switch fails with the new mode selected. *)
Theorem C57_failed_refuted : exists c l x y, run c l (x, M0 3) = (y, Ret false) /\ sel x = Some 1 /\ sel y = Some 3.
Proof.
  exists cfg0, (firstn 6 good_switch ++ [ERead Fault 3; EThread; EThread; EThread; EThread; EThread; ETimeout]), (drive0 OperationEnable (Some 1) 1).
  eexists. split; [reflexivity|split; reflexivity].
Qed.
Print Assumptions C57_failed_refuted.
(** A mode without handler is refused: the mode before stays in use. *)
Theorem C57_unsupported : forall c m x, m <> 0 -> alloc c m = false -> run c [EThread] (x, M0 m) = (x, Ret false).
Proof. intros c m x Hm A. unfold run. cbn [fold_left step]. unfold m0. rewrite (proj2 (Z.eqb_neq m 0) Hm), A. reflexivity. Qed.
Print Assumptions C57_unsupported.
(** Mode 0 always succeeds, and no mode is executed then. *)
Theorem C57_no_mode : forall c x, snd (run c [EThread] (x, M0 0)) = Ret true /\ sel (fst (run c [EThread] (x, M0 0))) = None.
Proof. intros c x. split; reflexivity. Qed.
Print Assumptions C57_no_mode.

(** A drive without faults that does as it is told: the switch succeeds within five rounds, the
    drive is in operation with the new mode selected, and stays so, however many steps the thread
    gets in a round (12 at least). *)
Theorem C57_cooperative : forall c m x ns, m <> 0 -> alloc c m = true -> startok c m = true -> sel x <> Some m ->
  calm x -> reachable_from (st x) (swst c) -> (5 <= List.length ns)%nat -> Forall (fun n => (12 <= n)%nat) ns ->
  let s := rounds c m ns (x, M0 m) in snd s = Ret true /\ sel (fst s) = Some m /\ st (fst s) = OperationEnable.
Proof. exact cooperates. Qed.
Print Assumptions C57_cooperative.
(** From mode 1 to 3, switching in Switch on disabled *)
Example C57_cooperative_ex :
  let c := mkCfg (fun _ => true) (fun _ => true) SwitchOnDisabled in let x := drive0 OperationEnable (Some 1) 1 in
  calm x /\ reachable_from (st x) (swst c) /\
  map (fun k => st (fst (rounds c 3 (repeat 12%nat k) (x, M0 3)))) [1; 2; 3; 4; 5]%nat =
    [SwitchOnDisabled; ReadyToSwitchOn; SwitchedOn; OperationEnable; OperationEnable] /\
  snd (rounds c 3 (repeat 12%nat 4) (x, M0 3)) <> Ret true /\ snd (rounds c 3 (repeat 12%nat 5) (x, M0 3)) = Ret true.
Proof.
  split; [right; split; reflexivity|]. split; [right; split; [reflexivity|cbn; tauto]|]. split; [vm_compute; reflexivity|].
  split; [vm_compute; discriminate|vm_compute; reflexivity].
Qed.

(** Once the state for switching was reached, no result is given before the drive was commanded
    back to operation, whether the mode was displayed in time or not. *)
Theorem C57_reenabled : forall c m x l y b, run c l (x, M3 m) = (y, Ret b) ->
  exists a d ok k, l = a ++ d /\ snd (run c a (x, M3 m)) = S2 m ok (SLoop k) /\ tst (fst (run c a (x, M3 m))) = OperationEnable.
Proof.
  intros c m x l y b E.
  assert (K2 : forall l x q ok, match q with SEnter | SSet _ => True | _ => False end -> snd (run c l (x, S2 m ok q)) = Ret b ->
    exists a d k, l = a ++ d /\ snd (run c a (x, S2 m ok q)) = S2 m ok (SLoop k) /\ tst (fst (run c a (x, S2 m ok q))) = OperationEnable).
  { clear. induction l as [|e l IH]; intros x q ok Hq E; [discriminate E|]. cbn [run fold_left] in E.
    assert (Shift : forall x' q', step c e (x, S2 m ok q) = (x', S2 m ok q') -> match q' with SEnter | SSet _ => True | _ => False end ->
      exists a d k, e :: l = a ++ d /\ snd (run c a (x, S2 m ok q)) = S2 m ok (SLoop k) /\ tst (fst (run c a (x, S2 m ok q))) = OperationEnable).
    { intros x' q' S Hq'. rewrite S in E. destruct (IH x' q' ok Hq' E) as (a & d & k & -> & A & B). exists (e :: a), d, k.
      cbn [run fold_left app]. rewrite S. auto. }
    destruct e as [| | |s0 m0| |]; cbn [step] in *; try (eapply Shift; [reflexivity|exact Hq]; fail).
    - destruct q; try contradiction; cbn in *.
      + eapply Shift; [reflexivity|exact I].
      + exists [EThread], l, l0. split; [reflexivity|]. split; reflexivity.
    - destruct q; try contradiction; cbn in *; eapply Shift; try reflexivity; exact I. }
  revert x E. induction l as [|e l IH]; intros x E; [discriminate E|]. cbn [run fold_left] in E.
  assert (Stay : forall x', step c e (x, M3 m) = (x', M3 m) ->
    exists a d ok k, e :: l = a ++ d /\ snd (run c a (x, M3 m)) = S2 m ok (SLoop k) /\ tst (fst (run c a (x, M3 m))) = OperationEnable).
  { intros x' S. rewrite S in E. destruct (IH x' E) as (a & d & ok & k & -> & A & B). exists (e :: a), d, ok, k.
    cbn [run fold_left app]. rewrite S. auto. }
  assert (Go : forall x' ok, step c e (x, M3 m) = (x', S2 m ok SEnter) ->
    exists a d ok k, e :: l = a ++ d /\ snd (run c a (x, M3 m)) = S2 m ok (SLoop k) /\ tst (fst (run c a (x, M3 m))) = OperationEnable).
  { intros x' ok S. rewrite S in E. destruct (K2 l x' SEnter ok I) as (a & d & k & -> & A & B); [unfold run; rewrite E; reflexivity|].
    exists (e :: a), d, ok, k. cbn [run fold_left app]. rewrite S. auto. }
  destruct e as [| | |s0 m0| |]; cbn [step] in *; try (eapply Stay; reflexivity).
  - unfold m3 in *. destruct (shown x =? m); [eapply Go; reflexivity|eapply Stay; reflexivity].
  - unfold m3 in *. destruct (shown x =? m); eapply Go; reflexivity.
  - exfalso. assert (X : forall l x, snd (run c l (x, Exc)) = Exc).
    { clear. induction l as [|e l IH]; intro x; [reflexivity|]. cbn [run fold_left]. destruct e; cbn [step]; apply IH. }
    specialize (X l x). unfold run in X. rewrite E in X. discriminate X.
Qed.
Print Assumptions C57_reenabled.
(** The mode is not displayed in time *)
Example C57_reenabled_ex : snd (run cfg0 [EThread; ETimeout; EThread; EThread; EThread; EThread; ERead OperationEnable 1; EThread; EThread] (drive0 SwitchedOn None 1, M3 3)) = Ret false.
Proof. vm_compute. reflexivity. Qed.

(** ** C59: halt *)

(** Halting an enabled drive: the control word commands quick stop and the target state is quick stop. *)
Theorem C59_quick_stop : forall c x p, st x = OperationEnable ->
  let y := fst (run c [EHaltState; EHalt] (x, p)) in
  tst y = QuickStopActive /\ drive_step OperationEnable (rising (mcw x) (mcw y)) (mcw y) = QuickStopActive.
Proof.
  intros c x p H y. subst y. unfold run. cbn [fold_left step fst]. unfold halt. cbn [hloc]. rewrite H. cbn [state_eqb orb].
  destruct (set_transition_goal (mcw x) OperationEnable QuickStopActive false ltac:(discriminate)) as [g [G E]].
  cbn [goal_of] in G. subst g. destruct (transition OperationEnable QuickStopActive) as [o|] eqn:T; [|discriminate T].
  cbn [mcw]. rewrite E. split; [reflexivity|].
  cbn [with_cw mcw]. apply transition_drive; [exact T| |discriminate].
  intros [X|[X|[]]]; discriminate.
Qed.
Print Assumptions C59_quick_stop.
(** Halting a drive in fault changes nothing. *)
Theorem C59_fault : forall c x p, faulty (st x) ->
  let y := fst (run c [EHaltState; EHalt] (x, p)) in
  st y = st x /\ tst y = tst x /\ mcw y = mcw x /\ sel y = sel x /\ shown y = shown x /\ hast y = hast x /\
  snd (run c [EHaltState; EHalt] (x, p)) = p.
Proof.
  intros c x p F. unfold run. cbn [fold_left step fst].
  rewrite (halt_fault (mkM (st x) (tst x) (mcw x) (sel x) (shown x) (hast x) (Some (st x))) (st x) eq_refl F). repeat split.
Qed.
Print Assumptions C59_fault.
(** The state held by the halting thread is [hs], not a fault, and [hs] is not the target of
    the state switch in progress (or is Operation Enabled).  Once the halt is carried out the
    switch fails, unless a further halt meets the drive in the target state. *)
Theorem C59_cancels_partial : forall c target x q hs l y,
  target <> QuickStopActive -> switching q -> hloc x = Some hs -> ~ faulty hs -> (hs <> target \/ hs = OperationEnable) ->
  let s := step c EHalt (x, PState target q) in
  run c l s = (y, Ret true) -> target <> OperationEnable /\ halted_at c l s target.
Proof.
  intros c target x q hs l y NQ Sw Hl F N s E.
  assert (T : tst (halt x) <> target).
  { rewrite (halt_tst x hs Hl F). destruct (state_eqb hs OperationEnable) eqn:Eo; [congruence|].
    destruct N as [N| ->]; [exact N|]. rewrite state_eqb_refl in Eo. discriminate. }
  pose proof (K_run c target (halt x) q T Sw (halt_hloc x) NQ l) as [_ [_ K]].
  change (halt x, PState target q) with s in K. rewrite E in K. apply K. reflexivity.
Qed.
Print Assumptions C59_cancels_partial.
(** In particular the enabling of a drive never succeeds after a halt. *)
Theorem C59_enabling_cancelled : forall c x q hs l,
  switching q -> hloc x = Some hs -> ~ faulty hs ->
  snd (run c l (step c EHalt (x, PState OperationEnable q))) <> Ret true.
Proof.
  intros c x q hs l Sw Hl F E. destruct (run c l (step c EHalt (x, PState OperationEnable q))) as [y p] eqn:R.
  cbn [snd] in E. subst p.
  assert (N : hs <> OperationEnable \/ hs = OperationEnable) by (destruct hs; (left; discriminate) || (right; reflexivity)).
  destruct (C59_cancels_partial c OperationEnable x q hs l y ltac:(discriminate) Sw Hl F N R) as [A _]. apply A. reflexivity.
Qed.
Print Assumptions C59_enabling_cancelled.
(** The same holds for the enabling at the end of a mode switch, and for the switch to
    Operation Enabled at its beginning (the default switching state). *)
Theorem C59_mode_switch_cancelled : forall c x m ok q hs l,
  switching q -> hloc x = Some hs -> ~ faulty hs ->
  snd (run c l (step c EHalt (x, S2 m ok q))) <> Ret true /\
  (swst c = OperationEnable -> snd (run c l (step c EHalt (x, S1 m q))) <> Ret true).
Proof.
  intros c x m ok q hs l Sw Hl F. split.
  - cbn [step]. change (S2 m ok q) with (as_s2 m ok (PState OperationEnable q)). rewrite s2_run by reflexivity. cbn [snd].
    intro E. pose proof (C59_enabling_cancelled c x q hs l Sw Hl F) as K. cbn [step] in K.
    destruct (snd (run c l (halt x, PState OperationEnable q))) as [t u|k|k|k u|k|k|k o u|b|]; try discriminate E.
    cbn in E. destruct b; [|discriminate]. apply K. reflexivity.
  - intros W. cbn [step]. change (S1 m q) with (as_s1 m (PState OperationEnable q)).
    destruct (s1_run c m l (halt x) (PState OperationEnable q)) as [A B].
    + symmetry. exact W.
    + intros a b _. apply (C59_enabling_cancelled c x q hs a Sw Hl F).
    + rewrite B. cbn [snd]. intro E. destruct (snd (run c l (halt x, PState OperationEnable q))) as [t u|k|k|k u|k|k|k o u|b|]; try discriminate E.
      cbn in A, E. congruence.
Qed.
Print Assumptions C59_mode_switch_cancelled.
Example ex_C59_cancels : let x := mkM SwitchedOn OperationEnable 7 None 0 (fun _ => false) (Some SwitchedOn) in
  switching (SWait SwitchedOn) /\ ~ faulty SwitchedOn /\
  snd (run cfg0 [ERead OperationEnable 0; EThread; EThread; EThread; EThread; ETimeout] (step cfg0 EHalt (x, PState OperationEnable (SWait SwitchedOn)))) = Ret false.
Proof. split; [exact I|]. split; [intros [X|X]; discriminate|reflexivity]. Qed.

(** What stays open.  A halt between the first two accesses of switchState is lost. *)
Theorem C59_early_refuted : exists c x l, st x = OperationEnable /\
  snd (run c (EHaltState :: EHalt :: l) (x, PState OperationEnable (SSet (st x)))) = Ret true.
Proof. exists cfg0, (drive0 OperationEnable None 0), [EThread; EThread]. split; reflexivity. Qed.
Print Assumptions C59_early_refuted.
(** A halt while a mode switch waits for the display: the quick stop is undone, the switch succeeds. *)
Theorem C59_mode_switch_refuted : exists c x l y, st x = OperationEnable /\
  run c (EHaltState :: EHalt :: l) (x, M3 3) = (y, Ret true) /\ tst y = OperationEnable /\
  drive_step QuickStopActive (rising (mcw (fst (run c [EHaltState; EHalt] (x, M3 3)))) (mcw y)) (mcw y) = OperationEnable.
Proof.
  exists cfg0, (drive0 OperationEnable None 1),
    [ERead QuickStopActive 3; EThread; EThread; EThread; EThread; EThread; ERead OperationEnable 3; EThread; EThread].
  eexists. split; [reflexivity|]. split; [reflexivity|]. split; reflexivity.
Qed.
Print Assumptions C59_mode_switch_refuted.
(** A halt that read the state just before the drive was enabled: no quick stop, the enabled drive stays enabled. *)
Theorem C59_late_refuted : exists c x l y, st x = SwitchedOn /\ tst x = OperationEnable /\
  run c (EHaltState :: l ++ [EHalt]) (x, PState OperationEnable (SWait SwitchedOn)) = (y, Ret true) /\
  st y = OperationEnable /\ mcw y = mcw x.
Proof.
  exists cfg0, (mkM SwitchedOn OperationEnable 15 None 0 (fun _ => false) None), [ERead OperationEnable 0; EThread; EThread].
  eexists. split; [reflexivity|]. split; [reflexivity|]. split; [reflexivity|]. split; reflexivity.
Qed.
Print Assumptions C59_late_refuted.
(** A halt while a recovery waits in Fault does not stop the recovery. *)
Theorem C59_recover_refuted : exists c x l, st x = Fault /\ tst x = OperationEnable /\
  snd (run c (EHaltState :: EHalt :: l) (x, PState OperationEnable (SWait Fault))) = Ret true.
Proof.
  exists cfg0, (mkM Fault OperationEnable 128 None 0 (fun _ => false) None),
    [ERead OperationEnable 0; EThread; EThread]. split; [reflexivity|]. split; reflexivity.
Qed.
Print Assumptions C59_recover_refuted.
