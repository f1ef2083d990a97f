(** What users know about layers. *)
From Verif Require Import Base LayerModel.

(** ** Status *)

Definition worst (a b : sev) : sev := if sev_z a <=? sev_z b then b else a.
Definition worst_of (s : sev) (rs : list (sev * text)) : sev :=
  fold_right worst s (map fst rs).
(** Texts joined by "; " *)
Fixpoint join (ts : list text) : text :=
  match ts with
  | [] => []
  | [t] => t
  | t :: r => t ++ str "; " ++ join r
  end.
Definition nonempty (t : text) : bool := match t with [] => false | _ => true end.
Definition reasons (rs : list (sev * text)) : list text := List.filter nonempty (map snd rs).

(** ** Lifecycle of one layer, as a protocol of its handlers *)

Inductive phase :=
| PhOff | PhInit | PhInitFailed | PhReady | PhError
| PhHalt | PhRecover | PhRecoverFailed | PhShutdown.

(** [lifecycle p o starts ok]: the next phase when a handler starts or ends. *)
Definition on_start (p : phase) (o : op) : option phase :=
  match p, o with
  | PhOff, OInit => Some PhInit
  | PhInitFailed, OShutdown => Some PhShutdown
  | PhReady, (ORead | OWrite | ODiag) => Some PhReady
  | PhReady, OHalt => Some PhHalt
  | PhReady, OShutdown => Some PhShutdown
  | PhError, (ORead | OWrite | ODiag) => Some PhError
  | PhError, ORecover => Some PhRecover
  | PhError, OShutdown => Some PhShutdown
  | PhRecoverFailed, OHalt => Some PhHalt
  | _, _ => None
  end.
Definition on_end (p : phase) (o : op) (ok : bool) : option phase :=
  match p, o with
  | PhInit, OInit => Some (if ok then PhReady else PhInitFailed)
  | PhReady, (ORead | OWrite | ODiag) => Some PhReady
  | PhError, (ORead | OWrite | ODiag) => Some PhError
  | PhHalt, OHalt => Some PhError
  | PhRecover, ORecover => Some (if ok then PhReady else PhRecoverFailed)
  | PhShutdown, OShutdown => Some PhOff
  | _, _ => None
  end.

Definition on_event (id : nat) (p : option phase) (e : event) : option phase :=
  match p with
  | None => None
  | Some p =>
    match e with
    | Start i o => if Nat.eqb i id then on_start p o else Some p
    | End i o ok => if Nat.eqb i id then on_end p o ok else Some p
    | Report _ _ => Some p
    end
  end.
(** The phase of layer [id] after a log, if the log obeys the protocol. *)
Definition phase_of (id : nat) (l : list event) : option phase :=
  fold_left (on_event id) l (Some PhOff).

(** ** Groups *)

Fixpoint ids (t : tree) : list nat :=
  match t with Leaf id => [id] | Group _ id ms => id :: List.concat (map ids ms) end.

Definition all_in (s : lstate) (t : tree) (w : world) : Prop := forall i, In i (ids t) -> lst w i = s.

(** The layers whose handler for [o] started, in order. *)
Definition op_eqb (a b : op) : bool :=
  match a, b with
  | ORead, ORead | OWrite, OWrite | ODiag, ODiag | OInit, OInit
  | OShutdown, OShutdown | OHalt, OHalt | ORecover, ORecover => true
  | _, _ => false
  end.
Fixpoint started (o : op) (l : list event) : list nat :=
  match l with
  | Start i o' :: r => if op_eqb o o' then i :: started o r else started o r
  | _ :: r => started o r
  | [] => []
  end.

(** The documented processing order of a whole tree: a group before its
    members; members in order of addition, except that stacks are written and
    shut down in reverse; the diagnostics of some groups skip the members. *)
Definition member_order (k : gkind) (o : op) (l : list (list nat)) : list (list nat) :=
  match k, o with
  | KStack, (OWrite | OShutdown) => rev l
  | KNoDiag, ODiag => []
  | _, _ => l
  end.
Fixpoint order (o : op) (t : tree) : list nat :=
  match t with
  | Leaf id => [id]
  | Group k id ms => id :: List.concat (member_order k o (map (order o) ms))
  end.

Definition is_group (t : tree) : Prop := match t with Group _ _ _ => True | Leaf _ => False end.

(** Everything reported, in order. *)
Fixpoint reports (l : list event) : list (sev * text) :=
  match l with
  | Report s r :: t => (s, r) :: reports t
  | _ :: t => reports t
  | [] => []
  end.

(** All layers of a tree are in the same state, one of [S]. *)
Definition uin (S : list lstate) (t : tree) (w : world) : Prop := exists s, In s S /\ all_in s t w.
Definition prefix (p l : list nat) : Prop := exists r, l = p ++ r.

(** No handler for [o] starts. *)
Fixpoint no_start (o : op) (l : list event) : Prop :=
  match l with
  | Start _ o' :: r => o' <> o /\ no_start o r
  | _ :: r => no_start o r
  | [] => True
  end.
