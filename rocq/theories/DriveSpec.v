(** Demands on the handlers of a motor, in terms of the status words and modes read from it. *)
From Verif Require Import Base MotorModel MotorSpec ModeModel HomingModel HomingSpec DriveModel.

(** Status word [sw] and mode [m] were read during the run, by the handler or by the loop *)
Definition read_in (l : list devent) (sw m : Z) : Prop := In (Own sw m) l \/ In (Loop sw m) l.
(** A word with state [s] was read during the run *)
Definition saw (l : list devent) (s : state402) : Prop := exists sw m, read_in l sw m /\ denotes s sw.
(** Mode [m] was displayed during the run *)
Definition saw_mode (l : list devent) (m : Z) : Prop := exists sw, read_in l sw m.
(** The end of homing was read from a drive in homing mode (6) which was seen enabled before *)
Definition saw_homed (l : list devent) : Prop :=
  exists l1 sw l2, l = l1 ++ Loop sw 6 :: l2 /\ homed sw /\ saw l1 OperationEnable.

(** Words read by the loop, one per cycle; the last of them, [w] before the first *)
Definition last_word (w : Z) (l : list (Z * Z)) : Z := last (map fst l) w.
(** A sequence of cycles *)
Definition cycles (d : dcfg) (ready : bool) (l : list (Z * Z)) (x : drv) : drv :=
  fold_left (fun x c => fst (read_state d ready (fst c) (snd c) x)) l x.
