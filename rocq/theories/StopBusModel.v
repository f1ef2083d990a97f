(** The write pass of a motor that was halted, down to the frame: the parts of CycleModel in the error state. *)
From Coq Require Import Floats.SpecFloat.
From Verif Require Import Base CanModel StorageModel LayerModel PdoModel CycleModel StopModel.

(** motor.cpp:518-533, handleHalt *)
Definition motor_halt (m : motor) : motor :=
  let h := drive_halt (mkDrive (mo_state m) (mo_cw m) (mo_sfr m)) in with_cw (word h) (fault_reset h) m.
(** The write pass: the handle does nothing unless its layer is ready (handle_layer.cpp:147), the motor writes
    (motor.cpp:414-437), the node sends its transmit PDO (node.cpp:159-164). *)
Definition halted_pass (dv : device) (d : dict) (m : motor) (p : pdo) (w : pw) : outcome (motor * pdo * pw * option frame * bool) :=
  match motor_write dv d m w with
  | Undef => Undef
  | Ok (m1, w1, ok) =>
    match tpdo_sync p w1 with
    | Undef => Undef
    | Ok (p1, w2, f) => Ok (m1, p1, w2, f, ok)
    end
  end.
