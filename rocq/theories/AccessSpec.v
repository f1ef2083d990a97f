(** What it means that threads do not use the same data at the same time. *)
From Coq Require Import List Arith Bool Lia.
From Verif Require Import LockModel LockSpec.
Import ListNotations.

(** The data an operation uses, and whether it writes it. *)
Definition touches (o : op) : option (var * bool) :=
  match o with
  | Do v w => Some (v, w)
  | Reg c _ | Unreg c _ => Some (VList c, true)
  | Calls c _ => Some (VList c, false)
  | Acq _ | Rel _ | New _ | Drop _ => None
  end.

(** Thread [i] is about to use [v]. *)
Definition at_access (s : sys) (i : nat) (v : var) (w : bool) : Prop :=
  exists held o todo, nth_error (ths s) i = Some (held, o :: todo) /\ touches o = Some (v, w).

(** Two threads are about to use [v], at least one of them to write it. *)
Definition race (s : sys) (v : var) : Prop :=
  exists i j w, i <> j /\ at_access s i v true /\ at_access s j v w.

(** The data for which the claim fails. *)
Definition exposed (v : var) : Prop :=
  match v with
  | VSocket | VSdo _ | VDirty _ _ | VNode _ | VLimits _ | VManager => True
  | _ => False
  end.

(** A race that calls can bring about, whatever other threads there are. *)
Definition can_race (v : var) : Prop :=
  exists todos, Forall (history full_call) todos /\ distinct_objects todos /\
  forall others, exists s, reach (start (todos ++ others)) s /\ race s v.
