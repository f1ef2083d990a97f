(** Message dispatchers and the dummy bus. Source:
    /repo/socketcan_interface/include/socketcan_interface/dispatcher.h
    /repo/socketcan_interface/include/socketcan_interface/dummy.h
    All operations hold the dispatcher's mutex; an execution is a sequence of
    them. Listeners are identified by their address, modelled as a number
    chosen by the environment. Callbacks that destroy listeners while they are
    being called would deadlock on the mutex and are not modelled. *)
From Verif Require Import Base.

Section Dispatcher.
Context {Obj : Type}.

(** dispatcher.h:66 and 88: the general listener list and the map from keys to
    listener lists ([None]: no DispatcherBase yet). [guards] records for every
    living listener object the dispatcher its [guard_] points to
    (dispatcher.h:27): [None] the general one, [Some k] the one of key k. *)
Record dispatcher := mkDisp {
  general : list Z;
  filtered : Z -> option (list Z);
  guards : list (Z * option Z)
}.

Definition dinit : dispatcher := mkDisp [] (fun _ => None) [].

Definition set_key (m : Z -> option (list Z)) (k : Z) (v : option (list Z)) : Z -> option (list Z) :=
  fun x => if x =? k then v else m x.

Inductive dop :=
| Create (id : Z) (k : option Z)
| Destroy (id : Z)
| Dispatch (k : Z) (o : Obj)
| DispatchAll (o : Obj)                     (* SimpleDispatcher::dispatch *)
| DispatchWithout (o : Obj) (without : Z).

(** dispatcher.h:42-48, dispatch_nolock: the calls made, in order *)
Fixpoint dispatch_nolock (ls : list Z) (o : Obj) (loopback : option Z) : list (Z * Obj) :=
  match ls with
  | [] => []
  | l :: t =>
    if match loopback with Some w => w =? l | None => false end
    then dispatch_nolock t o loopback
    else (l, o) :: dispatch_nolock t o loopback
  end.

Definition remove_all (id : Z) (l : list Z) : list Z := List.filter (fun x => negb (x =? id)) l.

Fixpoint guard_of (g : list (Z * option Z)) (id : Z) : option (option Z) :=
  match g with
  | [] => None
  | (i, k) :: t => if i =? id then Some k else guard_of t id
  end.

(** dispatcher.h:68-71, 91-96 createListener; 30-35, 49-52 destructor and
    remove; 104-109 dispatch; 72-79 dispatch and dispatch_filtered *)
Definition dstep (d : dispatcher) (o : dop) : dispatcher * list (Z * Obj) :=
  match o with
  | Create id None =>
    (mkDisp (general d ++ [id]) (filtered d) (guards d ++ [(id, None)]), [])
  | Create id (Some k) =>
    let ls := match filtered d k with Some l => l | None => [] end in
    (mkDisp (general d) (set_key (filtered d) k (Some (ls ++ [id]))) (guards d ++ [(id, Some k)]), [])
  | Destroy id =>
    let g' := List.filter (fun p => negb (fst p =? id)) (guards d) in
    match guard_of (guards d) id with
    | None => (d, [])
    | Some None => (mkDisp (remove_all id (general d)) (filtered d) g', [])
    | Some (Some k) =>
      match filtered d k with
      | Some l => (mkDisp (general d) (set_key (filtered d) k (Some (remove_all id l))) g', [])
      | None => (mkDisp (general d) (filtered d) g', [])
      end
    end
  | Dispatch k o =>
    (mkDisp (general d) (set_key (filtered d) k (filtered d k)) (guards d),
     match filtered d k with Some l => dispatch_nolock l o None | None => [] end
       ++ dispatch_nolock (general d) o None)
  | DispatchAll o => (d, dispatch_nolock (general d) o None)
  | DispatchWithout o w => (d, dispatch_nolock (general d) o (Some w))
  end.

Fixpoint drun (d : dispatcher) (ops : list dop) : dispatcher * list (list (Z * Obj)) :=
  match ops with
  | [] => (d, [])
  | o :: t => let '(d1, x) := dstep d o in
              let '(d2, xs) := drun d1 t in (d2, x :: xs)
  end.

End Dispatcher.
Arguments dop : clear implicits.

(** dummy.h:54-101: interfaces attached to one DummyBus. Each has its receive
    queue [in_] and a loopback flag; the bus is a SimpleDispatcher whose
    listeners are the interfaces' [enqueue] functions (dummy.h:171, 75-80). *)
Section Bus.
Context {Obj : Type}.

Record iface := mkIface { if_id : Z; if_loopback : bool; if_in : list Obj }.

(** dummy.h:75-80 enqueue into interface [id] *)
Definition enqueue (id : Z) (o : Obj) (ifs : list iface) : list iface :=
  map (fun i => if if_id i =? id then mkIface (if_id i) (if_loopback i) (if_in i ++ [o]) else i) ifs.

(** dummy.h:92-101 send: loopback first, then dispatch to the bus without the
    sender's own listener (dummy.h:40-42). *)
Definition bus_send (sender : Z) (o : Obj) (ifs : list iface) : list iface :=
  let lb := existsb (fun i => (if_id i =? sender) && if_loopback i) ifs in
  let ifs1 := if lb then enqueue sender o ifs else ifs in
  fold_left (fun acc c => enqueue (fst c) (snd c) acc)
            (dispatch_nolock (map if_id ifs) o (Some sender)) ifs1.

End Bus.
Arguments iface : clear implicits.
