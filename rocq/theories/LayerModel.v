(** Layers, groups and stacks. Source:
    /repo/canopen_master/include/canopen_master/layer.h *)
From Verif Require Import Base.

(** layer.h:14-16, LayerStatus::State; UNBOUNDED has the value of STALE. *)
Inductive sev := OK | WARN | ERROR | STALE.
Definition sev_z (s : sev) : Z := match s with OK => 0 | WARN => 1 | ERROR => 2 | STALE => 3 end.
Definition UNBOUNDED : sev := STALE.

(** layer.h:17-18 *)
Record status := mkStatus { level : sev; reason : text }.
Definition status0 : status := mkStatus OK [].

(** layer.h:20-27, LayerStatus::set *)
Definition set (s : status) (l : sev) (r : text) : status :=
  mkStatus (if sev_z (level s) <? sev_z l then l else level s)
           (match r with
            | [] => reason s
            | _ => match reason s with [] => r | _ => reason s ++ str "; " ++ r end
            end).

(** layer.h:35, bounded<T>() *)
Definition bounded (b : sev) (s : status) : bool := sev_z (level s) <=? sev_z b.

(** layer.h:65-73 *)
Inductive lstate := Off | Init | Shutdown | Error | Halt | Recover | Ready.
Definition lz (s : lstate) : Z :=
  match s with Off => 0 | Init => 1 | Shutdown => 2 | Error => 3 | Halt => 4 | Recover => 5 | Ready => 6 end.
Definition lgt (a b : lstate) : bool := lz b <? lz a.

(** The entry points of a layer, layer.h:77-123. *)
Inductive op := ORead | OWrite | ODiag | OInit | OShutdown | OHalt | ORecover.

(** What happened, in order: a handler of a layer started, ended (with status
    still at most WARN or not), or something was reported. *)
Inductive event :=
| Start (id : nat) (o : op)
| End (id : nat) (o : op) (ok : bool)
| Report (l : sev) (r : text).

(** The states of all layers, the status object passed around, and the log. *)
Record world := mkW { lst : nat -> lstate; stat : status; log : list event }.

Definition okw (w : world) : bool := bounded WARN (stat w).
Definition add_log (e : event) (w : world) : world := mkW (lst w) (stat w) (log w ++ [e]).
Definition set_state (id : nat) (s : lstate) (w : world) : world :=
  mkW (fun i => if Nat.eqb i id then s else lst w i) (stat w) (log w).
Definition report (l : sev) (r : text) (w : world) : world :=
  add_log (Report l r) (mkW (lst w) (set (stat w) l r) (log w)).

(** layer.h:59-61: run a handler; exceptions become an error report, which is
    one of the possible behaviours of handlers. *)
Definition call_handler (h : op -> world -> world) (id : nat) (o : op) (w : world) : world :=
  let w1 := h o (add_log (Start id o) w) in add_log (End id o (okw w1)) w1.

(** layer.h:96-102 *)
Definition shutdown (h : op -> world -> world) (id : nat) (w : world) : world :=
  match lst w id with
  | Off => w
  | _ => set_state id Off (call_handler h id OShutdown (set_state id Shutdown w))
  end.

(** layer.h:103-109 *)
Definition halt (h : op -> world -> world) (id : nat) (w : world) : world :=
  if lgt (lst w id) Halt then
    set_state id Error (call_handler h id OHalt (set_state id Halt w))
  else w.

(** layer.h:77-123: read, write, diag, init, shutdown, halt, recover *)
Definition run_op (h : op -> world -> world) (id : nat) (o : op) (w : world) : world :=
  match o with
  | ORead | OWrite => if lgt (lst w id) Off then call_handler h id o w else w
  | ODiag => if lgt (lst w id) Shutdown then call_handler h id o w else w
  | OInit =>
    match lst w id with
    | Off =>
      let w1 := if okw w then call_handler h id OInit (set_state id Init w) else w in
      if okw w1 then set_state id Ready w1 else shutdown h id w1
    | _ => w
    end
  | OShutdown => shutdown h id w
  | OHalt => halt h id w
  | ORecover =>
    match lst w id with
    | Error =>
      let w1 := if okw w then call_handler h id ORecover (set_state id Recover w) else w in
      if okw w1 then set_state id Ready w1 else halt h id w1
    | _ => w
    end
  end.

(** layer.h:182-192, VectorHelper::call. Members are given as functions. *)
Fixpoint call_go (b : sev) (okay_on_start : bool) (cs : list (op -> world -> world)) (o : op) (w : world) : world :=
  match cs with
  | [] => w
  | c :: r =>
    let w1 := c o w in
    if okay_on_start && negb (bounded b (stat w1)) then w1 else call_go b okay_on_start r o w1
  end.
Definition call (b : sev) (cs : list (op -> world -> world)) (o : op) (w : world) : world :=
  call_go b (bounded b (stat w)) cs o w.

(** LayerGroup, LayerStack, LayerGroupNoDiag *)
Inductive gkind := KGroup | KStack | KNoDiag.

(** layer.h:200-206 (207-213 with the reversed list): call_or_fail. The group
    itself is halted, too; its halt handler is line 227. *)
Definition call_or_fail (cs : list (op -> world -> world)) (id : nat)
    (handleHalt : op -> world -> world) (o : op) (w : world) : world :=
  let w1 := call UNBOUNDED cs o w in
  if bounded WARN (stat w1) then w1
  else halt handleHalt id (call UNBOUNDED cs OHalt w1).

(** layer.h:215-228, 236-237, 245: handlers of groups *)
Definition group_handle (k : gkind) (id : nat) (cs : list (op -> world -> world)) (o : op) (w : world) : world :=
  let handleHalt := fun (_ : op) w => call UNBOUNDED cs OHalt w in
  match o with
  | ORead => call_or_fail cs id handleHalt ORead w
  | OWrite =>
    match k with
    | KStack => call_or_fail (rev cs) id handleHalt OWrite w
    | _ => call_or_fail cs id handleHalt OWrite w
    end
  | ODiag => match k with KNoDiag => w | _ => call UNBOUNDED cs ODiag w end
  | OInit => call WARN cs OInit w
  | OShutdown => match k with KStack => call UNBOUNDED (rev cs) OShutdown w | _ => call UNBOUNDED cs OShutdown w end
  | OHalt => handleHalt OHalt w
  | ORecover => call WARN cs ORecover w
  end.

(** A tree of layers, each with its own number. *)
Inductive tree :=
| Leaf (id : nat)
| Group (k : gkind) (id : nat) (ms : list tree).
Definition tid (t : tree) : nat := match t with Leaf id => id | Group _ id _ => id end.

(** Handlers of leaves do anything: their reports are an arbitrary function of
    everything that happened before. (They are assumed not to call entry points
    of other layers.) *)
Definition behaviour := list event -> nat -> op -> list (sev * text).

Definition leaf_handle (b : behaviour) (id : nat) (o : op) (w : world) : world :=
  fold_left (fun w r => report (fst r) (snd r) w) (b (log w) id o) w.

Fixpoint handle (b : behaviour) (t : tree) : op -> world -> world :=
  match t with
  | Leaf id => leaf_handle b id
  | Group k id ms => group_handle k id (map (fun m => run_op (handle b m) (tid m)) ms)
  end.

(** Calling an entry point of a layer with a given status. *)
Definition exec (b : behaviour) (t : tree) : op -> world -> world := run_op (handle b t) (tid t).

(** A history of calls, each with a status object of its own in any state. *)
Definition with_status (s : status) (w : world) : world := mkW (lst w) s (log w).
Definition exec_all (b : behaviour) (t : tree) (calls : list (op * status)) (w : world) : world :=
  fold_left (fun w c => exec b t (fst c) (with_status (snd c) w)) calls w.
Definition world0 : world := mkW (fun _ => Off) status0 [].
