(** What is expected when a layer fails. *)
From Verif Require Import Base LayerModel LayerSpec MotorSpec.
From Verif Require MotorModel.

(** A word that makes an enabled drive stop, whatever it was told before (CiA 402: transition 11) *)
Definition stops (w : Z) : Prop := forall edge, drive_step MotorModel.OperationEnable edge w = MotorModel.QuickStopActive.
(** A word with the same commands to the state machine: the same bits, except that the fault reset may be off *)
Definition same_command (v w : Z) : Prop :=
  (forall i, 0 <= i <= 3 -> Z.testbit w i = Z.testbit v i) /\ (Z.testbit w 7 = true -> Z.testbit v 7 = true).

(** The handlers of layer [i] in a log, in their order *)
Fixpoint calls_of (i : nat) (l : list event) : list op :=
  match l with
  | Start j o :: l => if Nat.eqb j i then o :: calls_of i l else calls_of i l
  | _ :: l => calls_of i l
  | [] => []
  end.
(** Calls that do not start anything: those of the loop, diagnostics, halts. *)
Definition quiet (o : op) : Prop := o = ORead \/ o = OWrite \/ o = ODiag \/ o = OHalt.
Definition writes (calls : list (op * status)) : nat := List.length (List.filter (fun c => op_eqb (fst c) OWrite) calls).
