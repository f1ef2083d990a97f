(** What is demanded of the enabling procedure. *)
From Verif Require Import Base MotorModel MotorSpec EnableModel.

(** Kinds of events *)
Inductive kind := KThread | KWrite | KDrive | KStatus | KRead.
Definition kind_of (e : event) : kind :=
  match e with EThread => KThread | EWrite _ _ => KWrite | EDrive => KDrive | EStatus => KStatus | ERead => KRead end.
(** [l] occurs in [r] in this order, with anything in between *)
Inductive subseq : list kind -> list event -> Prop :=
| SubNil : forall r, subseq [] r
| SubTake : forall k l e r, kind_of e = k -> subseq l r -> subseq (k :: l) (e :: r)
| SubSkip : forall l e r, subseq l r -> subseq l (e :: r).

(** One round: the thread sees the state and commands, two words are written, the drive
    moves and tells, the driver reads. *)
Definition round : list kind := [KThread; KThread; KWrite; KWrite; KDrive; KStatus; KRead].
Definition rounds (n : nat) : list kind := List.concat (repeat round n).

(** Start conditions: a drive that is not enabled yet and at rest under the last word it
    received; the driver's word is 0 or agrees with that word; unless the drive is in
    Fault the driver's word has no fault reset bit; a drive that is still booting has not
    been told to get ready. *)
Definition at_rest (d : state402) (rec : Z) : Prop :=
  In d [Start; NotReady; FaultReactionActive] \/ drive_step d false rec = d.
Definition agree (a b : Z) : Prop := forall i, state_bit i -> Z.testbit a i = Z.testbit b i.
Definition startable (d : state402) (rec c : Z) : Prop :=
  d <> OperationEnable /\ at_rest d rec /\ (c = 0 \/ agree c rec) /\
  (d <> Fault -> Z.testbit c 7 = false) /\
  (In d [Start; NotReady] -> command_of rec <> Some CShutdown).
