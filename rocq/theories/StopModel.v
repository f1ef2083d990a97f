(** The drives of a chain when a layer fails: the control loop of LayerModel, followed for one motor.
    Source: /repo/canopen_chain_node/src/ros_chain.cpp:73-92 (run), /repo/canopen_402/src/motor.cpp
    (readState 379-384, handleWrite 414-437, handleHalt 518-533).
    Simplification: no service switches the state or the mode of the motor meanwhile (those are the matter of
    ModeModel). *)
From Verif Require Import Base LayerModel.
From Verif Require MotorModel.
Import MotorModel (state402, state_eqb, decode, set_transition, handle_write, accesses, acts, bit, CW_Halt).

(** What surrounds the motor, for every moment (all that happened before): the status word its object delivers
    (None: an exception), the selected mode with its behaviour, mode_id_, and whether the write of the target
    throws. *)
Record env := mkEnv { sees : list event -> option Z; uses : list event -> option (Z * MotorModel.behaviour);
                      displays : list event -> Z; throws : list event -> bool }.
(** state_ of state_handler_, control_word_, start_fault_reset_ *)
Record drive := mkDrive { known : state402; word : Z; fault_reset : bool }.

(** motor.cpp:380-383, handleRead: an exception leaves the state as it is *)
Definition drive_read (sw : option Z) (d : drive) : drive :=
  match sw with Some w => mkDrive (decode w) (word d) (fault_reset d) | None => d end.
(** motor.cpp:518-533, handleHalt *)
Definition drive_halt (d : drive) : drive :=
  if state_eqb (known d) MotorModel.FaultReactionActive || state_eqb (known d) MotorModel.Fault then d
  else if state_eqb (known d) MotorModel.OperationEnable then
    let '(_, cw, _) := set_transition (word d) (known d) MotorModel.QuickStopActive false in
    mkDrive (known d) cw (fault_reset d)
  else d.
(** motor.cpp:414-437, handleWrite: the drive and the word written to 6040. An exception of the mode (motor.h:194)
    leaves its bits and the halt bit, and no word is written. *)
Definition drive_write (sel : option (Z * MotorModel.behaviour)) (shown : Z) (fails : bool) (d : drive) : drive * option Z :=
  let w0 := Z.lor (word d) (bit CW_Halt) in
  let usual := let '(cw, sent, sfr) := handle_write (known d) sel shown (fault_reset d) (word d) in
               (mkDrive (known d) cw sfr, Some sent) in
  match sel with
  | Some (m, b) =>
    if state_eqb (known d) MotorModel.OperationEnable && (m =? shown) && fails
    then (mkDrive (known d) (accesses (acts b w0) w0) (fault_reset d), None)
    else usual
  | None => usual
  end.

(** The handlers of layer [i] that the loop calls act on its drive. *)
Definition react (i : nat) (v : env) (past : list event) (e : event) (d : drive) : drive * option Z :=
  match e with
  | Start j o =>
    if Nat.eqb j i then
      match o with
      | ORead => (drive_read (sees v past) d, None)
      | OHalt => (drive_halt d, None)
      | OWrite => drive_write (uses v past) (displays v past) (throws v past) d
      | _ => (d, None)
      end
    else (d, None)
  | _ => (d, None)
  end.
(** The events [l] after [past]: the drive afterwards and the words written to it *)
Fixpoint follow (i : nat) (v : env) (past l : list event) (d : drive) : drive * list Z :=
  match l with
  | [] => (d, [])
  | e :: l =>
    let (d1, o) := react i v past e d in
    let (d2, ws) := follow i v (past ++ [e]) l d1 in
    (d2, match o with Some w => w :: ws | None => ws end)
  end.

(** ros_chain.cpp:77-80: a pass of the loop *)
Definition pass (b : behaviour) (t : tree) (w : world) : world := exec b t OWrite (exec b t ORead (with_status status0 w)).
