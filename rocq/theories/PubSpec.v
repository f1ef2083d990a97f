(** What to expect of published objects. *)
From Verif Require Import Base StorageModel StorageSpec PubModel.
From Verif Require LayerModel.

(** States of the chain in which it is in operation, well or not *)
Inductive operating : LayerModel.lstate -> Prop :=
| op_ready : operating LayerModel.Ready
| op_error : operating LayerModel.Error
| op_halt : operating LayerModel.Halt
| op_recover : operating LayerModel.Recover.

(** Devices and users handle values of the objects' types. *)
Definition ev_ok (types : nat -> ty) (e : pev) : Prop :=
  match e with
  | VWrite _ => True
  | VNext rds => forall o, reader_ok (types o) (rds o)
  | VOp o x => op_ok (types o) x
  end.
Definition inside (e : pev) : Prop := match e with VWrite _ => False | _ => True end.
(** All reads made for publishing succeed. *)
Definition answered (e : pev) : Prop :=
  match e with VNext rds => forall o b, snd (rds o b) = true | _ => True end.
Definition is_next (e : pev) : bool := match e with VNext _ => true | _ => false end.
Definition nexts (l : list pev) : nat := List.length (List.filter is_next l).
Definition messages (l : list (text * bytes)) : list seen := map (fun x => MMsg (fst x) (snd x)) l.

(** Objects as first obtained, with their entries in the dictionary *)
Definition objects_ok (types : nat -> ty) (entries : nat -> entry) (k : nat -> option bytes) (c : nat -> cell) : Prop :=
  forall o, entry_plain (types o) (entries o) /\ fresh (types o) (c o) (k o).
