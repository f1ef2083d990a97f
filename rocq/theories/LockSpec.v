(** What it means that threads do not block each other. *)
From Coq Require Import List Arith Bool Lia.
From Verif Require Import LockModel.
Import ListNotations.

(** [s] comes about from [s0]. *)
Definition reach (s0 s : sys) : Prop := exists sched, run sched s0 = Some s.

(** The mutex a thread asks for next. *)
Definition asks (s : sys) (i : nat) (l : lock) : Prop :=
  exists held todo, nth_error (ths s) i = Some (held, Acq l :: todo).
Definition holds (s : sys) (i : nat) (l : lock) : Prop :=
  exists held todo, nth_error (ths s) i = Some (held, todo) /\ In l held.
(** Thread [i] asks for a mutex that thread [j] holds. *)
Definition waits (s : sys) (i j : nat) : Prop := exists l, asks s i l /\ holds s j l.

Definition moves (s : sys) (i : nat) : Prop := step i s <> None.
Definition unfinished (s : sys) (i : nat) : Prop :=
  exists held todo, nth_error (ths s) i = Some (held, todo) /\ todo <> [].
Definition all_done (s : sys) : Prop := forall held todo, In (held, todo) (ths s) -> todo = [].

(** Whoever has to wait waits for somebody who can go on, or for somebody who
    waits for such a thread, and so on. *)
Inductive goes_on (s : sys) : nat -> Prop :=
| go_now : forall i, moves s i -> goes_on s i
| go_later : forall i j, waits s i j -> goes_on s j -> goes_on s i.

(** One step of any thread. *)
Definition next (s' s : sys) : Prop := exists i, step i s = Some s'.

(** The received PDOs a thread creates: each is either shown to the dispatcher
    or dropped again. *)
Definition created (t : list op) : list lock :=
  flat_map (fun o => match o with
                     | Drop l => [l]
                     | Reg CFrames (HRpdo n i) => [LRpdo n i]
                     | _ => []
                     end) t.
(** No object is created twice. *)
Definition distinct_objects (todos : list (list op)) : Prop := NoDup (flat_map created todos).

(** Thread [i] will never do anything again, whatever the others do. *)
Definition stuck_for_good (s : sys) (i : nat) : Prop :=
  unfinished s i /\ forall sched s', run sched s = Some s' ->
    nth_error (ths s') i = nth_error (ths s) i /\ ~ moves s' i.
