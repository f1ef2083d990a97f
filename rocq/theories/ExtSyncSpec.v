(** SYNC messages of another master at a fixed period, and messages in order. *)
From Verif Require Import Base.
(** the times of [n] messages, one every [step], the first one at [a] *)
Fixpoint periodic (a step : Z) (n : nat) : list Z :=
  match n with
  | O => []
  | S n => a :: periodic (a + step) step n
  end.
(** each later than the one before *)
Fixpoint increasing (l : list Z) : Prop :=
  match l with
  | a :: l => Forall (Z.lt a) l /\ increasing l
  | [] => True
  end.
(** [l] is what remains of [m] when some are left out *)
Inductive sublist : list Z -> list Z -> Prop :=
| sub_nil : forall m, sublist [] m
| sub_keep : forall a l m, sublist l m -> sublist (a :: l) (a :: m)
| sub_drop : forall a l m, sublist l m -> sublist l (a :: m).
