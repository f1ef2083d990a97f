(** Demands on switching modes and halting. *)
From Verif Require Import Base MotorModel MotorSpec ModeModel.

Definition before (c : cfg) (a : list event) (s : mot * pc) : mot := fst (run c a s).
(** The drive displayed mode [m] during the run, and was enabled then or later *)
Definition displayed_then_enabled (c : cfg) (l : list event) (s : mot * pc) (m : Z) : Prop :=
  exists a b d, l = a ++ b ++ d /\ shown (before c a s) = m /\ st (before c (a ++ b) s) = OperationEnable.
(** Mode [m] was displayed and active already at some time during the run *)
Definition was_active (c : cfg) (l : list event) (s : mot * pc) (m : Z) : Prop :=
  exists a b, l = a ++ b /\ shown (before c a s) = m /\ sel (before c a s) = Some m.
Definition displayed (c : cfg) (l : list event) (s : mot * pc) (m : Z) : Prop :=
  exists a b, l = a ++ b /\ shown (before c a s) = m.

(** The switch of the mode is going on *)
Definition in_progress (p : pc) : Prop :=
  match p with S1 _ _ | M2 _ | M3 _ | S2 _ false _ => True | _ => False end.

(** The state switch has begun and not ended *)
Definition switching (p : spc) : Prop :=
  match p with SLoop _ | STrans _ | SWait _ => True | _ => False end.
Definition faulty (s : state402) : Prop := s = Fault \/ s = FaultReactionActive.
(** A halt read state [s] during the run *)
Definition halted_at (c : cfg) (l : list event) (x : mot * pc) (s : state402) : Prop :=
  exists a b, l = a ++ EHaltState :: b /\ st (before c a x) = s.

(** One round with a drive that does as it is told: the switching thread gets [n] steps, the drive
    receives the control word, and reports the state that word leads to, and mode [m]. *)
Definition round (c : cfg) (m : Z) (s : mot * pc) (n : nat) : mot * pc :=
  let s1 := run c (repeat EThread n) s in
  step c (ERead (drive_step (st (fst s)) (rising (mcw (fst s)) (mcw (fst s1))) (mcw (fst s1))) m) s1.
Definition rounds (c : cfg) (m : Z) (ns : list nat) (s : mot * pc) : mot * pc := fold_left (round c m) ns s.
(** A drive without faults that was started, and that its present control word does not take out of operation *)
Definition calm (x : mot) : Prop :=
  In (st x) [SwitchOnDisabled; ReadyToSwitchOn; SwitchedOn; QuickStopActive] \/
  st x = OperationEnable /\ obey OperationEnable (command_of (mcw x)) = OperationEnable.
(** The switching state can be reached from [s]: any state is left for operation, and operation for any state. *)
Definition reachable_from (s target : state402) : Prop :=
  target = OperationEnable \/ s = OperationEnable /\ In target [SwitchOnDisabled; ReadyToSwitchOn; SwitchedOn; QuickStopActive].
