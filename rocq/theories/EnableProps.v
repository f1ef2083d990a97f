(** The enabling procedure of CiA 402 motors: C49. *)
From Verif Require Import Base MotorModel MotorSpec MotorProofs EnableModel EnableSpec EnableProofs.

(** Six rounds suffice, whatever happens in between, in any order and any number; as the
    rest of the run is arbitrary the drive also stays enabled. What is missing of C49:
    the start conditions in [startable], see below. *)
Theorem C49_reached_partial : forall d rec c r, startable d rec c -> subseq (rounds 6) r ->
  finished (run r (entered d rec c)) = true /\ drive (run r (entered d rec c)) = OperationEnable.
Proof. exact reaches. Qed.
Print Assumptions C49_reached_partial.
(** Success is not reported too early. *)
Theorem C49_success : forall d rec c r, startable d rec c ->
  finished (run r (entered d rec c)) = true -> drive (run r (entered d rec c)) = OperationEnable.
Proof. exact never_early. Qed.
Print Assumptions C49_success.
(** Quick stop is not entered, and not again once left. *)
Theorem C49_no_quick_stop : forall d rec c r1 r2, startable d rec c ->
  drive (run r1 (entered d rec c)) <> QuickStopActive -> drive (run (r1 ++ r2) (entered d rec c)) <> QuickStopActive.
Proof. exact no_quick_stop. Qed.
Print Assumptions C49_no_quick_stop.
Theorem C49_never_quick_stop : forall d rec c r, startable d rec c -> d <> QuickStopActive ->
  drive (run r (entered d rec c)) <> QuickStopActive.
Proof. intros d rec c r S N. exact (no_quick_stop d rec c [] r S N). Qed.
Print Assumptions C49_never_quick_stop.

(** Init of a drive that is enabled already: reported as success at once, and the
    control word 0 switches the drive off for good. *)
Theorem C49_enabled_refuted : let s := entered OperationEnable 0x0F 0 in
  finished (run [EThread] s) = true /\
  forall r, drive (run ([EThread; EWrite None 0; EDrive] ++ r) s) = SwitchOnDisabled.
Proof.
  intro s. split; [reflexivity|]. intro r. unfold run. rewrite fold_left_app.
  change (fold_left step [EThread; EWrite None 0; EDrive] s) with (run [EThread; EWrite None 0; EDrive] s).
  change (fold_left step r (run [EThread; EWrite None 0; EDrive] s)) with (run r (run [EThread; EWrite None 0; EDrive] s)).
  pose proof (always_run (run [EThread; EWrite None 0; EDrive] s) (fun a => state_eqb (adrive a) SwitchOnDisabled) r) as H.
  apply state_eqb_eq. exact (H ltac:(vm_cast_no_check (eq_refl true))).
Qed.
Print Assumptions C49_enabled_refuted.
(** Recover during a fault reaction with the fault reset bit still set in the driver's
    word: the edge comes too early and the drive stays in Fault for ever. *)
Theorem C49_fault_reaction_refuted : let s := entered FaultReactionActive 0x8F 0x8F in
  forall r, let s' := run ([EWrite None 0; EWrite None 0; EDrive] ++ r) s in drive s' = Fault /\ finished s' = false.
Proof.
  intros s r s'. unfold s', run. rewrite fold_left_app.
  change (fold_left step [EWrite None 0; EWrite None 0; EDrive] s) with (run [EWrite None 0; EWrite None 0; EDrive] s).
  change (fold_left step r (run [EWrite None 0; EWrite None 0; EDrive] s)) with (run r (run [EWrite None 0; EWrite None 0; EDrive] s)).
  pose proof (always_run (run [EWrite None 0; EWrite None 0; EDrive] s) (fun a => state_eqb (adrive a) Fault && negb (afinished a)) r) as H.
  specialize (H ltac:(vm_cast_no_check (eq_refl true))). apply andb_prop in H. destruct H as [H1 H2]. split.
  - apply state_eqb_eq. exact H1.
  - apply negb_true_iff in H2. exact H2.
Qed.
Print Assumptions C49_fault_reaction_refuted.
(** Init while the drive boots with the command to get ready still in place: success may
    be reported for a drive that is being switched off. *)
Theorem C49_booting_refuted : exists r, let s := run r (entered NotReady 0x06 0) in finished s = true /\ drive s <> OperationEnable.
Proof.
  exists [EThread; EDrive; EStatus; EDrive; EWrite None 0; ERead; EThread; EThread; EStatus; EDrive; EWrite None 0; ERead; EThread; EThread; EStatus; EDrive; EWrite None 0; EDrive; ERead; EThread; EThread; EWrite None 0; EStatus; EDrive; ERead; EThread; EThread; EWrite None 0; EStatus; EDrive; EDrive; ERead; EThread; EThread; EWrite None 0; EStatus; EDrive; ERead; EThread; EThread].
  vm_compute. split; [reflexivity|discriminate].
Qed.
Print Assumptions C49_booting_refuted.

(** A drive in Fault, recovered *)
Example C49_ex : startable Fault 0x10F 0x10F /\
  let w := EWrite None 0 in let one := [EThread; EThread; w; w; EDrive; EStatus; ERead] in
  let r := one ++ one ++ one ++ one ++ one ++ one in
  subseq (rounds 6) r /\ received (run r (entered Fault 0x10F 0x10F)) = 0x010F.
Proof.
  split.
  - unfold startable. split; [discriminate|]. split; [right; reflexivity|]. split; [right; intros i _; reflexivity|].
    split; [intro H; contradiction|]. cbn. intros [H|[H|H]]; [discriminate H|discriminate H|contradiction].
  - split; [|vm_compute; reflexivity]. repeat (apply SubTake; [reflexivity|]). apply SubNil.
Qed.
