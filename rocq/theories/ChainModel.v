(** The chain of canopen_chain_node: services, control loop, parameters.
    Source: /repo/canopen_chain_node/src/ros_chain.cpp,
    /repo/canopen_chain_node/include/canopen_chain_node/ros_chain.h,
    /repo/canopen_chain_node/src/sync_node.cpp. *)
From Verif Require Import Base LayerModel.

(** ** Services and the control loop *)

(** A thread executing run() (ros_chain.cpp:73-92) *)
Inductive th := TNew | TLoop | TEnd.
(** The layers, running_, the thread owned by thread_, and all threads ever created *)
Record chain := mkC { lay : world; running : bool; own : option nat; threads : list th }.
Definition chain0 : chain := mkC world0 false None [].
Definition with_lay (c : chain) (w : world) : chain := mkC w (running c) (own c) (threads c).
Definition with_th (c : chain) (i : nat) (t : th) : chain := mkC (lay c) (running c) (own c) (update_nth i t (threads c)).
Definition with_running (c : chain) (r : bool) : chain := mkC (lay c) r (own c) (threads c).

Section Chain.
(** The layers of the chain with their behaviour; reset_errors_before_recover_ *)
Variables (b : behaviour) (t : tree) (reset_first : bool).
Definition root (c : chain) : lstate := lst (lay c) (tid t).
Definition do (o : op) (c : chain) : chain := with_lay c (exec b t o (lay c)).
Definition fresh (c : chain) : chain := with_lay c (with_status status0 (lay c)).

(** 74: the thread begins *)
Definition begin (i : nat) (c : chain) : chain :=
  match nth_error (threads c) i with
  | Some TNew => with_running (with_th c i TLoop) true
  | _ => c
  end.
(** The end of handleShutdown (214-219).  The join lets a thread begin that did not run
    yet; it is interrupted afterwards. Without owned thread a null pointer is dereferenced. *)
Definition stop_thread (c : chain) : outcome chain :=
  if running c then
    match own c with
    | None => Undef
    | Some i =>
      let c1 := with_running c false in
      let c2 := begin i c1 in
      Ok (mkC (lay c2) (running c2) None (update_nth i TEnd (threads c2)))
    end
  else Ok c.

(** handle_init, 134-170.  The new thread may begin before the layers are initialised or
    later. Layer::init of the chain calls handleShutdown on failure; the shutdown at the end
    finds the chain off (exceptions that are no std::exception are not modelled). *)
Definition srv_init (begun : bool) (c : chain) : outcome (chain * bool) :=
  if lgt (root c) Off then Ok (c, true)
  else
    let i := List.length (threads c) in
    let c1 := mkC (lay c) (running c) (Some i) (threads c ++ [TNew]) in
    let c2 := if begun then begin i c1 else c1 in
    let c3 := do OInit (fresh c2) in
    if okw (lay c3) then Ok (c3, bounded OK (stat (lay c3)))
    else match stop_thread c3 with
         | Undef => Undef
         | Ok c4 => Ok (do ODiag c4, false)
         end.

(** handle_recover, 171-201.  [rs]: what resetErrors of the emergency handlers reports, None
    if it throws *)
Definition srv_recover (rs : option (list (sev * text))) (c : chain) : outcome (chain * bool) :=
  if lgt (root c) Init then
    let c1 := fresh c in
    let recover_ := fun c => let c2 := do ORecover c in
      let c3 := if okw (lay c2) then c2 else do ODiag c2 in Ok (c3, okw (lay c3)) in
    if reset_first then
      match rs with
      | None => Ok (c1, false)
      | Some rs =>
        let c2 := with_lay c1 (fold_left (fun w r => report (fst r) (snd r) w) rs (lay c1)) in
        if okw (lay c2) then recover_ c2
        else let c3 := do ODiag c2 in Ok (c3, okw (lay c3))
      end
    else recover_ c1
  else Ok (c, false).

(** handle_halt, 236-247 *)
Definition srv_halt (c : chain) : outcome (chain * bool) :=
  if lgt (root c) Init then Ok (do OHalt (fresh c), true) else Ok (c, true).
(** handle_shutdown, 222-234 *)
Definition srv_shutdown (c : chain) : outcome (chain * bool) :=
  if lgt (root c) Init then
    match stop_thread (do OShutdown (do OHalt (fresh c))) with
    | Undef => Undef
    | Ok c1 => Ok (c1, true)
    end
  else Ok (c, true).

(** 77-86: a pass of the control loop in thread [i] *)
Definition cycle (i : nat) (c : chain) : chain :=
  match nth_error (threads c) i with
  | Some TLoop => do OWrite (do ORead (fresh c))
  | _ => c
  end.
(** 76: the loop ends *)
Definition check (i : nat) (c : chain) : chain :=
  match nth_error (threads c) i with
  | Some TLoop => if running c then c else with_th c i TEnd
  | _ => c
  end.

(** Services exclude each other (mutex_); passes of the loop are taken to happen between
    them. *)
Inductive cevent :=
| VInit (begun : bool) | VRecover (rs : option (list (sev * text))) | VHalt | VShutdown
| VBegin (i : nat) | VCycle (i : nat) | VCheck (i : nat).
Definition unit_step (c : chain) : outcome (chain * option bool) := Ok (c, None).
Definition answer (r : outcome (chain * bool)) : outcome (chain * option bool) :=
  match r with Undef => Undef | Ok (c, x) => Ok (c, Some x) end.
Definition cstep (e : cevent) (c : chain) : outcome (chain * option bool) :=
  match e with
  | VInit g => answer (srv_init g c)
  | VRecover rs => answer (srv_recover rs c)
  | VHalt => answer (srv_halt c)
  | VShutdown => answer (srv_shutdown c)
  | VBegin i => unit_step (begin i c)
  | VCycle i => unit_step (cycle i c)
  | VCheck i => unit_step (check i c)
  end.
Fixpoint crun (l : list cevent) (c : chain) : outcome chain :=
  match l with
  | [] => Ok c
  | e :: l => match cstep e c with Undef => Undef | Ok (c', _) => crun l c' end
  end.
End Chain.

(** ** setup_sync, ros_chain.cpp:334-380. Parameters are ints; missing ones are their defaults
    (interval and overflow 0, update_ms the interval, hence 0).  The result: the properties of
    the sync layer if any (period and overflow, canopen.h:170-173) and the update interval *)
Definition setup_sync (interval overflow update : Z) : option (option (Z * Z) * Z) :=
  if interval <? 0 then None
  else
    let update_ms := if interval =? 0 then update else interval in
    if update_ms =? 0 then None
    else if interval =? 0 then Some (None, update_ms)
    else if (overflow =? 1) || (240 <? overflow) then None
    else Some (Some (u16 interval, u8 overflow), update_ms).
(** sync_node.cpp:46-69 *)
Definition sync_node_properties (interval overflow : Z) : option (Z * Z) :=
  if interval <=? 0 then None
  else if (overflow =? 1) || (240 <? overflow) then None
  else Some (u16 interval, u8 overflow).

(** ** Parameters: XmlRpcValue.  Structures are maps from names; other values (numbers,
    strings, arrays) are numbers here, the code does not look into them. *)
Inductive value :=
| Plain (z : Z)
| Struct (ms : list (text * value)).
Fixpoint text_eqb (a b : text) : bool :=
  match a, b with
  | [], [] => true
  | x :: a, y :: b => (x =? y) && text_eqb a b
  | _, _ => false
  end.
Fixpoint find (k : text) (ms : list (text * value)) : option value :=
  match ms with
  | [] => None
  | (k', v) :: ms => if text_eqb k k' then Some v else find k ms
  end.
Fixpoint replace (k : text) (v : value) (ms : list (text * value)) : list (text * value) :=
  match ms with
  | [] => []
  | (k', v') :: ms => if text_eqb k k' then (k', v) :: ms else (k', v') :: replace k v ms
  end.
(** MergedXmlRpcStruct(a, b), ros_chain.h:25-37: for each member of [b] insert, and merge
    structures that are there already. [merge_members a bs] adds the members [bs] to those of
    [a]. *)
Fixpoint merge_value (b : value) (a : value) : value :=
  match b with
  | Plain _ => a
  | Struct bs =>
    match a with
    | Plain _ => a
    | Struct ms =>
      Struct ((fix go (bs : list (text * value)) (ms : list (text * value)) : list (text * value) :=
        match bs with
        | [] => ms
        | (k, v) :: bs =>
          go bs match find k ms with
                | None => ms ++ [(k, v)]
                | Some (Struct x) => match v with Struct _ => replace k (merge_value v (Struct x)) ms | Plain _ => ms end
                | Some (Plain _) => ms
                end
        end) bs ms)
    end
  end.
(** The parameters of a node: its own merged with the defaults (setup_node, 481) *)
Definition node_params (params defaults : value) : value := merge_value defaults params.

(** ** The sync node, sync_node.cpp:18-36: what its periodic diagnostics do *)
Definition sync_tick (b : behaviour) (t : tree) (w : world) : world :=
  let w1 := exec b t ODiag (exec b t ORead (with_status status0 w)) in
  if negb (lz (lst w1 (tid t)) =? lz Off) && bounded UNBOUNDED (stat w1) then
    if okw w1 then w1 else exec b t ORecover (with_status status0 w1)
  else exec b t OInit (with_status status0 w1).

(** parseObjectName, ros_chain.cpp:413-418 *)
Fixpoint parse_object_name (s : text) : text * bool :=
  match s with
  | [] => ([], false)
  | c :: r => if c =? 33 then ([], true) else let (n, f) := parse_object_name r in (c :: n, f)
  end.
