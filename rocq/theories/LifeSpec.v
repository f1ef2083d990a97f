(** What users of the CAN layer rely on. *)
From Verif Require Import Base SocketCanModel LifeModel.

(** Other threads are not interrupted in setNotReady. *)
Definition calm (e : event) : Prop := match e with Look | Act _ => False | _ => True end.
Definition no_call (e : event) : Prop := match e with Call _ => False | _ => True end.
Definition reachable (s : sys) : Prop := exists l, Forall calm l /\ s = run l sys0.

(** From [s0] a call of [o] is made which returns in state [s] with result [r] (error,
    warning). *)
Definition returns (o : op) (s0 s : sys) (r : bool * bool) : Prop :=
  exists l ok, Forall calm l /\ Forall no_call l /\ lp s0 = Idle /\
    res (run (Call o :: l) s0) = None /\ s = step (run (Call o :: l) s0) (Layer ok) /\ res s = Some r.

(** The driver works: its socket is open and a thread serves it. *)
Definition working (s : sys) : Prop := sk s = true /\ rt s = RServe /\ stopped s = false.
(** The driver is off: closed, without thread. *)
Definition off (s : sys) : Prop := ds s = Closed /\ sk s = false /\ rt s = RNone.

(** A piece of a schedule in which both threads make a step *)
Definition fair (l : list event) : Prop := In Driver l /\ exists ok, In (Layer ok) l.
