(** The enabling procedure of a CiA 402 motor together with a conforming drive. Source:
    /repo/canopen_402/src/motor.cpp, handleInit 479-488, handleRecover 534-546,
    switchState 359-377, handleWrite 414-437, readState 379-408. *)
From Verif Require Import Base MotorModel MotorSpec.

(** The driver and the drive. The drive is in state [drive], has received the control
    word [received] last and [pending] an edge of its fault reset bit since its last
    step. [reported] is the state in the last status word it has sent. The driver knows
    state [known] (state_ of State402), its control word is [cw], [sfr] is
    start_fault_reset_. The thread in switchState(OperationEnable) holds [local]
    (its variable state) and is [waiting] in waitForNewState or not; it has
    [finished] with true. *)
Record sys := mkSys { drive : state402; received : Z; pending : bool; reported : state402;
  known : state402; local : state402; waiting : bool; cw : Z; sfr : bool; finished : bool }.

(** Events: a step of the thread, a cyclic write, a step of the drive, a status word
    sent by the drive, a cyclic read. Timeouts are left out: the thread waits as long as
    it takes. *)
Inductive event := EThread | EWrite (sel : option (Z * behaviour)) (shown : Z) | EDrive | EStatus | ERead.

Definition step (s : sys) (e : event) : sys :=
  match e with
  | EThread =>
    if finished s then s
    else if waiting s then
      (* motor.cpp:370, 72-78: woken if the known state differs *)
      if state_eqb (known s) (local s) then s
      else mkSys (drive s) (received s) (pending s) (reported s) (known s) (known s) false (cw s) (sfr s) false
    else if state_eqb (local s) OperationEnable then
      (* 363, 376 *)
      mkSys (drive s) (received s) (pending s) (reported s) (known s) (local s) false (cw s) (sfr s) true
    else
      (* 366; enabling is never refused *)
      let '(_, c, _) := set_transition (cw s) (local s) OperationEnable true in
      mkSys (drive s) (received s) (pending s) (reported s) (known s) (local s) true c (sfr s) false
  | EWrite sel shown =>
    let '(c, sent, f) := handle_write (known s) sel shown (sfr s) (cw s) in
    mkSys (drive s) sent (pending s || rising (received s) sent) (reported s) (known s) (local s) (waiting s) c f (finished s)
  | EDrive =>
    mkSys (drive_step (drive s) (pending s) (received s)) (received s) false (reported s) (known s) (local s) (waiting s) (cw s) (sfr s) (finished s)
  | EStatus => mkSys (drive s) (received s) (pending s) (drive s) (known s) (local s) (waiting s) (cw s) (sfr s) (finished s)
  | ERead => mkSys (drive s) (received s) (pending s) (reported s) (reported s) (local s) (waiting s) (cw s) (sfr s) (finished s)
  end.
Definition run (l : list event) (s : sys) : sys := fold_left step l s.

(** When switchState is entered: the state has been read and start_fault_reset_ is set.
    [c] is 0 after handleInit (482) and the old control word after handleRecover. *)
Definition entered (d : state402) (rec : Z) (c : Z) : sys := mkSys d rec false d d d false c true false.
