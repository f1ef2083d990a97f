(** Demands on a layer used by two threads. *)
From Verif Require Import Base LayerModel RaceModel.

(** Nothing is going on *)
Definition quiet (l : layer) : Prop := sv l = SIdle /\ lo l = LIdle.
(** What the finished operations, one after the other, make of a layer *)
Fixpoint expected (h : list done) : lstate :=
  match h with
  | [] => Off
  | DShutdown :: _ => Off
  | DInit :: h => match expected h with Off => Ready | s => s end
  | DHalt :: h => match expected h with Ready => Error | s => s end
  | DRecover :: h => match expected h with Error => Ready | s => s end
  end.
(** The loop never halts the layer while a service is at work *)
Definition apart (es : list revent) (l : layer) : Prop :=
  forall e1 e2, es = e1 ++ e2 -> let l1 := rrun e1 l in
  sv l1 = SIdle \/ (match lo l1 with LHalt _ => False | _ => True end).
(** The state tells which handler ran last *)
Definition agrees (s : lstate) (r : list op) : Prop :=
  match r with
  | [] => s = Off
  | OInit :: _ | ORecover :: _ => s = Ready
  | OHalt :: _ => s = Error
  | OShutdown :: _ => s = Off
  | _ => False
  end.
(** The loop reads and writes, without error *)
Definition fine (e : revent) : Prop := match e with Cycle | Loop true | Service _ => True | _ => False end.
(** What the steps of the service report *)
Fixpoint reports (es : list revent) : list bool :=
  match es with [] => [] | Service ok :: t => ok :: reports t | _ :: t => reports t end.
