(** Notions used in the statements about the helper functions. *)
From Coq Require Import ZArith QArith List Bool.
From Coq Require Import Floats.SpecFloat.
From Verif Require Import Base UnitModel.
Import ListNotations.
Local Open Scope Q_scope.

(** The exact result is defined and has value [q]. *)
Definition is (x : option Q) (q : Q) : Prop := exists r, x = Some r /\ r == q.

Definition sum (l : list Q) : Q := fold_right Qplus 0 l.
Definition len (l : list Q) : Q := inject_Z (Z.of_nat (List.length l)).

(** The values of [l] are the leading defined values of a list. *)
Definition leading (l : list Q) (vals : list (option Q)) : Prop :=
  exists rest, vals = map Some l ++ rest /\ (rest = [] \/ exists t, rest = None :: t).

(** Exponential smoothing of [v0, v1, ...] with the newest value last: the newest one has weight
    a, each older one the (1-a)-fold of its successor, the oldest one the rest. *)
Fixpoint power (q : Q) (n : nat) : Q := match n with O => 1 | S n => q * power q n end.
Fixpoint weigh (a : Q) (l : list Q) : Q :=
  match l with [] => 0 | v :: t => a * power (1 - a) (List.length t) * v + weigh a t end.
Definition smoothed (a v0 : Q) (l : list Q) : Q := power (1 - a) (List.length l) * v0 + weigh a l.

(** A value smoothed with all of [l], one after the other. *)
Definition smooth_all (a : option Q) (v0 : option Q) (l : list (option Q)) : option Q :=
  fold_left (fun o v => smooth exact v o a) l v0.

(** [r] is the representative of [v] in [lo, hi). *)
Definition represents (r v lo hi : Q) : Prop :=
  lo <= r /\ r < hi /\ exists k : Z, r == v - inject_Z k * (hi - lo).

(** The function does not return. *)
Definition diverges {A} (f : nat -> option A) : Prop := forall n, f n = None.
