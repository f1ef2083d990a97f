(** Publish/subscribe as users understand it. *)
From Verif Require Import Base DispatcherModel.

Section Spec.
Context {Obj : Type}.

(** The subscriptions alive after a history, in order of registration. *)
Fixpoint alive (live : list (Z * option Z)) (ops : list (dop Obj)) : list (Z * option Z) :=
  match ops with
  | [] => live
  | Create id k :: t => alive (live ++ [(id, k)]) t
  | Destroy id :: t => alive (List.filter (fun p => negb (fst p =? id)) live) t
  | _ :: t => alive live t
  end.

(** The environment's obligations: a new listener has an address different from
    all living ones; only living listeners are destroyed, once. *)
Fixpoint well_used (live : list (Z * option Z)) (ops : list (dop Obj)) : Prop :=
  match ops with
  | [] => True
  | Create id k :: t => ~ In id (map fst live) /\ well_used (live ++ [(id, k)]) t
  | Destroy id :: t => In id (map fst live) /\
                       well_used (List.filter (fun p => negb (fst p =? id)) live) t
  | _ :: t => well_used live t
  end.

Definition subscribed (live : list (Z * option Z)) (k : option Z) : list Z :=
  map fst (List.filter (fun p => match snd p, k with
                                 | None, None => true
                                 | Some a, Some b => a =? b
                                 | _, _ => false end) live).

(** Deliveries expected for one operation given the living subscriptions. *)
Definition expected (live : list (Z * option Z)) (o : dop Obj) : list (Z * Obj) :=
  match o with
  | Dispatch k x => map (fun l => (l, x)) (subscribed live (Some k) ++ subscribed live None)
  | DispatchAll x => map (fun l => (l, x)) (subscribed live None)
  | DispatchWithout x w =>
      map (fun l => (l, x)) (List.filter (fun l => negb (l =? w)) (subscribed live None))
  | _ => []
  end.

(** [ops = before ++ o :: after]: operation [o] produced exactly the deliveries
    expected from the subscriptions alive before it. *)
Definition deliveries_correct (ops : list (dop Obj)) (outs : list (list (Z * Obj))) : Prop :=
  List.length outs = List.length ops /\
  forall before o after, ops = before ++ o :: after ->
    nth_error outs (List.length before) = Some (expected (alive [] before) o).

End Spec.
