(** Objects published on topics in every cycle of the control loop.
    Source: /repo/canopen_chain_node/src/ros_chain.cpp:20-38 (create), 40-66 (createPublishFunc),
            204-209 (RosChain::handleWrite), 547-560 (setup_node). *)
From Verif Require Import Base StorageModel.
From Verif Require LayerModel.

(** One function of publishers_: topic, object (nodes and keys are numbered), and whether the
    getter is Entry::get or Entry::get_cached, 30-31. *)
Record pub := mkPub { pb_topic : text; pb_obj : nat; pb_forced : bool }.

(** What can be seen: the loop over publishers_ begins, a message with its data (the bytes of the
    value; messages have the type of the object, 43-63), an exception that leaves handleWrite and
    becomes an error of the cycle (layer.h:59-61, 87-89). *)
Inductive seen := MPass | MMsg (topic : text) (b : bytes) | MError.

(** The objects' data, the publishers that remain in this cycle, and what happened. The object is
    locked while it is read (objdict.h:340), so other threads get in between only. *)
Record pst := mkP { cells : nat -> cell; todo : list pub; told : list seen }.

(** Steps: the loop gets to the publishers in a state; it calls the next one, and the
    objects answer as given; anybody accesses an object. *)
Inductive pev := VWrite (st : LayerModel.lstate) | VNext (rds : nat -> reader) | VOp (o : nat) (x : op).

Definition put (o : nat) (c : cell) (f : nat -> cell) : nat -> cell :=
  fun i => if (i =? o)%nat then c else f i.

(** 206: current_state > Shutdown *)
Definition after_shutdown (st : LayerModel.lstate) : bool := LayerModel.lgt st LayerModel.Shutdown.

Section Publish.
Variable entries : nat -> entry.
Variable publishers : list pub.

Definition pstep (e : pev) (s : pst) : outcome pst :=
  match e with
  | VWrite st =>
    match todo s with
    | [] => Ok (if after_shutdown st then mkP (cells s) publishers (told s ++ [MPass]) else s)
    | _ => Ok s
    end
  | VNext rds =>
    match todo s with
    | [] => Ok s
    | p :: l =>
      match step (entries (pb_obj p)) (OGet (negb (pb_forced p)) (rds (pb_obj p))) (cells s (pb_obj p)) with
      | Undef => Undef
      | Ok (c, _, RVal b) => Ok (mkP (put (pb_obj p) c (cells s)) l (told s ++ [MMsg (pb_topic p) b]))
      | Ok (c, _, _) => Ok (mkP (put (pb_obj p) c (cells s)) [] (told s ++ [MError]))
      end
    end
  | VOp o x =>
    match step (entries o) x (cells s o) with
    | Undef => Undef
    | Ok (c, _, _) => Ok (mkP (put o c (cells s)) (todo s) (told s))
    end
  end.

Fixpoint prun (l : list pev) (s : pst) : outcome pst :=
  match l with
  | [] => Ok s
  | e :: l => match pstep e s with Ok s1 => prun l s1 | Undef => Undef end
  end.
End Publish.
