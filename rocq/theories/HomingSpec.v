(** Demands on homing. *)
From Verif Require Import Base MotorModel HomingModel.

(** The last status word read during the run [l], [w0] if none *)
Fixpoint last_read (l : list hevent) (w0 : Z) : Z :=
  match l with
  | [] => w0
  | HRead w :: l => last_read l w
  | _ :: l => last_read l w0
  end.
(** A status word that reports the homing as done *)
Definition homed (w : Z) : Prop :=
  Z.testbit w 10 = true /\ Z.testbit w 12 = true /\ Z.testbit w 13 = false.
(** The drive has signalled the end of homing at the end of a part of the run *)
Definition signalled (l : list hevent) (w0 : Z) : Prop :=
  exists a b, l = a ++ b /\ homed (last_read a w0).
(** Times of a run at which the start bit is requested *)
Definition requested (l : list hevent) (s : hom * hpc) : Prop :=
  exists a b, l = a ++ b /\ execute (fst (hrun a s)) = true.
(** The status word at the start of the run is the one stored *)
Definition stored (x : hom) (w : Z) : Prop := status x = Z.land w HMASK.
(** The thread has ended *)
Definition ended (p : hpc) : Prop := exists b, p = HDone b.
(** The bits of a status word in homing mode (CiA 402): error, attained, target reached *)
Definition shows (err att reach : bool) (w : Z) : Prop :=
  Z.testbit w 13 = err /\ Z.testbit w 12 = att /\ Z.testbit w 10 = reach.
(** Homing not started; in progress; attained but the axis still moves; done *)
Definition h_idle := shows false false true.
Definition h_moving := shows false false false.
Definition h_stopping := shows false true false.
Definition h_done := shows false true true.
(** A stage of the run: only status words of the stage are read, and the thread wakes up at
    least [n] times after one was read *)
Definition stage (C : Z -> Prop) (n : nat) (l : list hevent) : Prop :=
  exists a w b, l = a ++ HRead w :: b /\ Forall (eq HThread) a /\ C w /\
    Forall (fun e => e = HThread \/ exists v, e = HRead v /\ C v) b /\
    (n <= List.length (filter (fun e => match e with HThread => true | _ => false end) b))%nat.
