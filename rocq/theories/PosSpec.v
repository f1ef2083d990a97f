(** Demands on the profiled position handshake. *)
From Verif Require Import Base MotorModel PosModel.

(** The drive looks at the objects between any two writes; [fresh]: it has not looked
    since the last write. *)
Fixpoint paced (fresh : bool) (l : list event) : Prop :=
  match l with
  | [] => True
  | PWrite :: r => fresh = false /\ paced true r
  | PDrive :: r => paced false r
  | _ :: r => paced fresh r
  end.
(** Commands of the application: not in the run *)
Definition settled (l : list event) : Prop :=
  Forall (fun e => match e with PSet _ | PRestart => False | _ => True end) l.
Inductive kind := KWrite | KDrive | KStatus | KRead.
Definition is_kind (k : kind) (e : event) : Prop :=
  match k, e with
  | KWrite, PWrite => True | KDrive, PDrive => True | KStatus, PStatus _ => True | KRead, PRead => True
  | _, _ => False
  end.
Inductive subseq : list kind -> list event -> Prop :=
| SubNil : forall r, subseq [] r
| SubTake : forall k l e r, is_kind k e -> subseq l r -> subseq (k :: l) (e :: r)
| SubSkip : forall l e r, subseq l r -> subseq l (e :: r).
Definition round : list kind := [KWrite; KDrive; KStatus; KRead].
