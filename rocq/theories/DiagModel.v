(** Diagnostics: reports of layers and what is published for nodes and for the chain.
    Source: /repo/canopen_master/include/canopen_master/layer.h,
    /repo/canopen_chain_node/include/canopen_chain_node/ros_chain.h:40-92,
    /repo/canopen_chain_node/src/ros_chain.cpp:580-596. *)
From Verif Require Import Base LayerModel.
From Verif Require MotorModel ModeModel DriveModel EmcyModel NodeModel.

(** Values are printed with operator<<: numbers stay numbers here *)
Inductive dval := VN (z : Z) | VT (t : text).
(** LayerReport, layer.h:46-55 *)
Record report := mkR { rst : status; rvals : list (text * dval) }.
Definition report0 : report := mkR status0 [].
(** What a handler does to the report; it may end with an exception *)
Inductive act := ASet (l : sev) (r : text) | AAdd (k : text) (v : dval) | AThrow (what : text).
(** CATCH_LAYER_HANDLER_EXCEPTIONS, layer.h:57-59: exceptions become errors *)
Fixpoint run_acts (l : list act) (r : report) : report :=
  match l with
  | [] => r
  | ASet s t :: l => run_acts l (mkR (set (rst r) s t) (rvals r))
  | AAdd k v :: l => run_acts l (mkR (rst r) (rvals r ++ [(k, v)]))
  | AThrow t :: _ => mkR (set (rst r) ERROR t) (rvals r)
  end.
(** Layers with the state they are in. LayerGroup::handleDiag (214) calls all layers of the group,
    LayerGroupNoDiag::handleDiag (239) none. The bound of the calls is Unbounded (141-144), which
    no status exceeds. *)
Inductive dlayer :=
| DLeaf (s : lstate) (h : list act)
| DGroup (s : lstate) (nodiag : bool) (l : list dlayer).
(** Layer::diag, layer.h:85-87 *)
Fixpoint ldiag (t : dlayer) (r : report) : report :=
  match t with
  | DLeaf s h => if lgt s Shutdown then run_acts h r else r
  | DGroup s nodiag l =>
    if lgt s Shutdown then
      if nodiag then r else (fix all l r := match l with [] => r | c :: l => all l (ldiag c r) end) l r
    else r
  end.
(** DiagGroup::diag, layer.h:244-248 *)
Definition group_diag (l : list dlayer) (r : report) : report := fold_left (fun r c => ldiag c r) l r.

(** diagnostic_updater::DiagnosticStatusWrapper: level, message, values *)
Record stat := mkStat { slevel : Z; smsg : text; svals : list (text * dval) }.
(** Logger: entries with a level, the name shown, and the result of reading the object: text, or an
    exception. [log_entry], ros_chain.h:45-53, returns also whether the object was read. *)
Record lentry := mkLE { le_level : Z; le_name : text; le_read : option text }.
Definition log_entry (e : lentry) (s : stat) : stat * bool :=
  if le_level e <=? slevel s
  then (mkStat (slevel s) (smsg s) (svals s ++ [(le_name e, VT (match le_read e with Some t => t | None => str "<ERROR>" end))]), true)
  else (s, false).
Fixpoint log_entries (l : list lentry) (s : stat) : stat * list bool :=
  match l with
  | [] => (s, [])
  | e :: l => let (s1, b) := log_entry e s in let (s2, bs) := log_entries l s1 in (s2, b :: bs)
  end.
Definition summary (r : report) : stat := mkStat (sev_z (level (rst r))) (reason (rst r)) (rvals r).
(** Logger::log, ros_chain.h:77-91; [unknown]: the node is in state Unknown *)
Definition log (unknown : bool) (layers : list dlayer) (entries : list lentry) : stat * list bool :=
  if unknown then (mkStat (sev_z WARN) (str "Not initialized") [], [])
  else log_entries entries (summary (group_diag layers report0)).
(** RosChain::report_diagnostics, ros_chain.cpp:580-596 *)
Definition chain_log (s : lstate) (running : bool) (layers : list dlayer) : stat :=
  match s with
  | Off => mkStat (sev_z WARN) (str "Not initialized") []
  | _ => if negb running then mkStat (sev_z ERROR) (str "Thread is not running") []
         else summary (ldiag (DGroup s false layers) report0)
  end.

(** ** The handlers *)
(** Node::handleDiag, node.cpp:167-175 *)
Definition node_acts (state : Z) (heartbeat : bool) : list act :=
  if negb (state =? NodeModel.Operational) then [ASet ERROR (str "Mode not operational"); AAdd (str "Node state") (VN state)]
  else if negb heartbeat then [ASet ERROR (str "Heartbeat timeout")] else [].
(** Motor402::handleDiag, motor.cpp:438-470, see DriveModel *)
Definition motor_act (w : Z) (m : DriveModel.dmsg) : list act :=
  match m with
  | DriveModel.DWNotEnabled => [ASet WARN (str "Motor operation is not enabled")]
  | DriveModel.DEQuickStop => [ASet ERROR (str "Quick stop is active")]
  | DriveModel.DEFault => [ASet ERROR (str "Motor has fault")]
  | DriveModel.DEUnknown => [ASet ERROR (str "State is unknown"); AAdd (str "status_word") (VN w)]
  | DriveModel.DWWarning => [ASet WARN (str "Warning bit is set")]
  | DriveModel.DELimit => [ASet ERROR (str "Internal limit active")]
  end.
Definition motor_acts (x : DriveModel.drv) : list act := flat_map (motor_act (DriveModel.word x)) (DriveModel.diag x).
(** EMCYHandler::handleDiag, emcy.cpp:83-122: the error register (None: not readable), the number of
    errors and the entries as in EmcyModel; the list of errors is shown as the text [show], an
    exception has the text [what] *)
Definition emcy_acts (show : list EmcyModel.item -> text) (what : text) (r : option Z) (n : EmcyModel.num) (get : Z -> EmcyModel.entry) : list act :=
  match r with
  | None => [ASet ERROR (str "Could not read error error_register")]
  | Some v =>
    if v =? 0 then []
    else
      (if has v 1 then [ASet ERROR (str "Node has emergency error")]
       else if EmcyModel.relevant v then [ASet WARN (str "Error register is not zero")] else []) ++
      [AAdd (str "error_register") (VN v)] ++
      match n with
      | EmcyModel.NumThrows => [AThrow what]
      | _ =>
        match EmcyModel.list_errors get 0 (Z.to_nat (match n with EmcyModel.NumVal c => c | _ => 0 end)) with
        | None => [AThrow what]
        | Some its => [AAdd (str "errors") (VT (show its))]
        end
      end
  end.
(** CANLayer::handleDiag, can_layer.h:50-74: driver state (2 is ready), error of the system, internal
    error with its description and the error frame *)
Definition can_acts (driver : Z) (code internal : Z) (desc : option text) (frame : text) : list act :=
  (if driver =? 2 then [] else [ASet ERROR (str "CAN layer not ready"); AAdd (str "driver_state") (VN driver)]) ++
  (if code =? 0 then [] else [AAdd (str "socket_error") (VN code)]) ++
  (if internal =? 0 then [] else
     [AAdd (str "internal_error") (VN internal)] ++
     match desc with Some t => [AAdd (str "internal_error_desc") (VT t)] | None => [] end ++
     [AAdd (str "can_error_frame") (VT frame)]).
(** BCMsync::handleDiag, bcm_sync.h:86-93 *)
Definition bcm_acts (running : bool) (known started : text) : list act :=
  (if running then [] else [ASet WARN (str "sync is not running")]) ++
  [AAdd (str "sync_running") (VN (if running then 1 else 0)); AAdd (str "known_nodes") (VT known); AAdd (str "started_nodes") (VT started)].
