(** What users of a driver with its own thread rely on. *)
From Verif Require Import Base SocketCanModel LifeModel LifeSpec ThreadedModel.
Definition treachable (s : sys) : Prop := exists l, Forall calm l /\ s = trun l sys0.
(** From [s0] a call of [o] is made which returns [r] in state [s]. *)
Definition treturns (o : op) (s0 s : sys) (r : bool) : Prop :=
  exists l e, Forall calm l /\ Forall no_call l /\ calm e /\ no_call e /\ lp s0 = Idle /\
    res (trun (Call o :: l) s0) = None /\ s = tstep (trun (Call o :: l) s0) e /\ res s = Some (r, false).
