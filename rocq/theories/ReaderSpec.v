(** A bounded first-in first-out buffer that forgets the oldest entries. *)
From Verif Require Import Base ReaderModel.

Section Spec.
Context {A : Type}.

(** The last [n] elements; a limit of 0 means unlimited. *)
Definition newest (n : nat) (l : list A) : list A :=
  match n with O => l | _ => skipn (List.length l - n) l end.

(** [fifo ops limit on q limit' on' q' out]: starting with queue [q], the
    operations lead to queue [q'] handing out the frames [out]. *)
Inductive fifo : list (rop A) -> nat -> bool -> list A -> nat -> bool -> list A -> list A -> Prop :=
| fifo_nil : forall n on q, fifo [] n on q n on q []
| fifo_arrive_on : forall f ops n q n' on' q' out,
    fifo ops n true (newest n (q ++ [f])) n' on' q' out ->
    fifo (Arrive f :: ops) n true q n' on' q' out
| fifo_arrive_off : forall f ops n q n' on' q' out,
    fifo ops n false q n' on' q' out ->
    fifo (Arrive f :: ops) n false q n' on' q' out
| fifo_read : forall f ops n on q n' on' q' out,
    fifo ops n on q n' on' q' out ->
    fifo (Read :: ops) n on (f :: q) n' on' q' (f :: out)
| fifo_read_empty : forall ops n on n' on' q' out,
    fifo ops n on [] n' on' q' out ->
    fifo (Read :: ops) n on [] n' on' q' out
| fifo_peek : forall ops n on q n' on' q' out,
    fifo ops n on q n' on' q' out ->
    fifo (Peek :: ops) n on q n' on' q' out
| fifo_flush : forall ops n on q n' on' q' out,
    fifo ops n on [] n' on' q' out ->
    fifo (Flush :: ops) n on q n' on' q' out
| fifo_listen : forall ops n on q n' on' q' out,
    fifo ops n on [] n' on' q' out ->
    fifo (Listen :: ops) n on q n' on' q' out
| fifo_limit : forall m ops n on q n' on' q' out,
    fifo ops m on (newest m q) n' on' q' out ->
    fifo (SetMaxLen m :: ops) n on q n' on' q' out
| fifo_enable : forall b ops n on q n' on' q' out,
    fifo ops n b q n' on' q' out ->
    fifo (SetEnabled b :: ops) n on q n' on' q' out.

(** Frames handed out by a list of results. *)
Fixpoint handed_out (rs : list (rres A)) : list A :=
  match rs with
  | Got f :: t => f :: handed_out t
  | _ :: t => handed_out t
  | [] => []
  end.

(** Frames that arrived while reception was enabled. *)
Fixpoint received (on : bool) (ops : list (rop A)) : list A :=
  match ops with
  | Arrive f :: t => if on then f :: received on t else received on t
  | SetEnabled b :: t => received b t
  | _ :: t => received on t
  | [] => []
  end.

(** [sub a b]: [a] is obtained from [b] by deleting elements, order kept. *)
Inductive sub : list A -> list A -> Prop :=
| sub_nil : forall l, sub [] l
| sub_take : forall x a b, sub a b -> sub (x :: a) (x :: b)
| sub_drop : forall x a b, sub a b -> sub a (x :: b).

(** Only arrivals, reads and peeks: nothing that discards on purpose. *)
Definition plain (o : rop A) : Prop :=
  match o with Arrive _ | Read | Peek | SetEnabled _ => True | _ => False end.

End Spec.
