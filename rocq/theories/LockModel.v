(** Which mutexes the functions of the stack take, in which order, and which
    shared data they use while they hold them.

    Each function is written as a program over the operations that other
    threads can notice: taking and giving up a mutex, entering and leaving a
    list of listeners, calling the members of such a list, and reading and
    writing data that several threads use.  Everything else a function does is
    left out; which data is meant is listed at [var].  Branches are choices; every program
    may end early at any point, which stands for early returns and for
    exceptions, and gives up the mutexes it holds on the way out
    (scoped_lock).  Waiting on a condition gives the mutex up and takes it
    again, so it appears as two sections one after the other; all these waits
    have a time limit, so they end by themselves.

    Left out: the shared mutexes of the layer vectors (layer.h 154-180), which
    are taken exclusively only in add and destroy, that is before the chain
    runs and after it ended; LayerStatus::write_mutex_ (layer.h 13-42), under
    which nothing is called; the mutexes inside boost::asio and ROS. *)
From Coq Require Import List Arith Bool Lia.
Import ListNotations.

(** The readers with a buffer: the one of an SDO client (canopen.h 32-69,
    sdo.cpp 395) and the one that waits for SYNC (master_plugin.cpp 96). *)
Inductive reader := RSdo (n : nat) | RSync.

(** The mutexes.  [n] is a node of the chain, [i] a received PDO, [j] a sent
    PDO, [k] an object, [b] a PDO buffer, [w] a state waiter. *)
Inductive lock :=
| LChain                      (* RosChain::mutex_, ros_chain.h 164 *)
| LDiag                       (* RosChain::diag_mutex_, ros_chain.h 184 *)
| LRun                        (* no mutex: held while the thread of RosChain::run lives; join waits for it *)
| LDrv                        (* no mutex: held while the thread of DriverInterface::run lives *)
| LTimer                      (* Timer::mutex, timer.h 57 *)
| LVars (n : nat)             (* ObjectVariables::mutex_, handle_layer.h 52 *)
| LNode (n : nat)             (* Node::mutex, canopen.h 234 *)
| LCw (n : nat)               (* Motor402::cw_mutex_, motor.h 361 *)
| LMode (n : nat)             (* Motor402::mode_mutex_, motor.h 376 *)
| LMapper (n : nat)           (* PDOMapper::mutex_, canopen.h 72 *)
| LTpdo (n j : nat)           (* TPDO::mutex, canopen.h 113 *)
| LFrames                     (* SimpleDispatcher::mutex_ of the frames, dispatcher.h 64 *)
| LCond (n : nat)             (* Node::cond_mutex, canopen.h 235 *)
| LStorage (n : nat)          (* ObjectStorage::mutex_, objdict.h 461 *)
| LData (n k : nat)           (* ObjectStorage::Data::mutex, objdict.h 293 *)
| LSdo (n : nat)              (* SDOClient::mutex, canopen.h 36 *)
| LReader (r : reader)        (* BufferedReader::mutex_, reader.h 15 *)
| LBuf (n b : nat)            (* PDOMapper::Buffer::mutex, canopen.h 85 *)
| LRpdo (n i : nat)           (* RPDO::mutex, canopen.h 128 *)
| LNodes                      (* ManagingSyncLayer::nodes_mutex_, master_plugin.cpp 15 *)
| LNodeState (n : nat)        (* state_dispatcher_ of a node, canopen.h 244 *)
| LState (n : nat)            (* State402::mutex_, motor.h 56 *)
| LMap (n : nat)              (* Motor402::map_mutex_, motor.h 368 *)
| LHoming (n : nat)           (* DefaultHomingMode::mutex_, motor.h 270 *)
| LCan                        (* CANLayer::mutex_, can_layer.h 11 *)
| LBcm                        (* BCMsync::mutex_, bcm_sync.h 22 *)
| LSend                       (* send_mutex_, socketcan.h 263 *)
| LDriver                     (* state_mutex_, asio_base.h 21 *)
| LStateD                     (* mutex of the state dispatcher, asio_base.h 18 *)
| LWaiter (w : nat).          (* StateWaiter::mutex_, threading.h 10 *)

Lemma reader_dec : forall a b : reader, {a = b} + {a <> b}.
Proof. decide equality; apply Nat.eq_dec. Defined.
Lemma lock_dec : forall a b : lock, {a = b} + {a <> b}.
Proof. decide equality; try apply Nat.eq_dec; apply reader_dec. Defined.

(** The lists whose members are called: the listeners of the frame dispatcher
    (dispatcher.h 91-109) and the received PDOs of a mapper (pdo.cpp 326-331). *)
Inductive cont := CFrames | CRpdos (n : nat).

(** The data that several threads use.  Atomic members (std::atomic) are left
    out, and so are members that are set before the threads start or that only
    the control loop uses: the positions, filters and converters of a joint,
    the times of a SYNC layer, the frames of the reading chain. *)
Inductive var :=
| VDriver                     (* AsioDriver::state_, asio_base.h 20 *)
| VStateL                     (* the listeners of the state dispatcher, asio_base.h 18, dispatcher.h 39 *)
| VWaiter (w : nat)           (* StateWaiter::state_, threading.h 13 *)
| VSocket                     (* AsioDriver::socket_, asio_base.h 39 *)
| VReader (r : reader)        (* BufferedReader: buffer_, enabled_, max_len_, listener_, reader.h 14-19 *)
| VSdo (n : nat)              (* SDOClient: client_id, buffer, offset, total, done, last_msg, current_entry, canopen.h 34-46 *)
| VObjects (n : nat)          (* ObjectStorage::storage_, objdict.h 460 *)
| VData (n k : nat)           (* ObjectStorage::Data: buffer, valid, delegates, objdict.h 294-298 *)
| VBuf (n b : nat)            (* PDOMapper::Buffer: empty, buffer, canopen.h 87-88 *)
| VDirty (n b : nat)          (* PDOMapper::Buffer::dirty, canopen.h 86 *)
| VBufs (n i : nat)           (* PDO::buffers of a received PDO, canopen.h 97 *)
| VRpdo (n i : nat)           (* RPDO: frame, transmission_type, timeout, canopen.h 95-96, 133 *)
| VTpdo (n j : nat)           (* TPDO: frame, transmission_type, buffers, canopen.h 95-97 *)
| VTpdos (n : nat)            (* PDOMapper::tpdos_, canopen.h 137 *)
| VList (c : cont)            (* a list whose members are called *)
| VNode (n : nat)             (* Node::state_, canopen.h 249 *)
| VBeat (n : nat)             (* Node::heartbeat_timeout_, canopen.h 253 *)
| VNodeL (n : nat)            (* the listeners of state_dispatcher_, canopen.h 244 *)
| VNodes                      (* ManagingSyncLayer::nodes_, master_plugin.cpp 14 *)
| VState (n : nat)            (* State402::state_, motor.h 57 *)
| VCw (n : nat)               (* Motor402::control_word_, motor.h 360 *)
| VModes (n : nat)            (* Motor402::modes_, motor.h 369 *)
| VMode (n : nat)             (* Motor402: selected_mode_, mode_id_, motor.h 373-374; target_ of a mode, motor.h 143 *)
| VHoming (n : nat)           (* DefaultHomingMode::status_, motor.h 272 *)
| VVars (n : nat)             (* ObjectVariables::getters_, handle_layer.h 51 *)
| VLimits (n : nat)           (* HandleLayer::enable_limits_, handle_layer.h 132 *)
| VManager                    (* ControllerManagerLayer::cm_, controller_manager_layer.h 20 *)
| VError                      (* CANLayer::last_error_, can_layer.h 16 *)
| VBcm                        (* BCMsync: the sets, sync_running_, handler_, bcm_sync.h 26-35 *)
| VTimer.                     (* Timer: delegate, period, timer.h 56, 60 *)

(** Their members. *)
Inductive handler :=
| HNmt (n : nat)              (* Node::handleNMT, node.cpp 115-121, 177 *)
| HReader (r : reader)        (* BufferedReader::handleFrame, reader.h 29-38, 80-89 *)
| HRpdo (n i : nat)           (* RPDO::handleFrame, pdo.cpp 228, 298-324 *)
| HSync (n i : nat)           (* RPDO::sync called from PDOMapper::read, pdo.cpp 282-296, 329 *)
| HCan                        (* CANLayer::handleFrame, can_layer.h 18-22, 79 *)
| HEmcy (n : nat)             (* EMCYHandler::handleEMCY, emcy.cpp 43-51, 63 *)
| HBcm.                       (* BCMsync::handleFrame, bcm_sync.h 46-76, 117 *)

Lemma cont_dec : forall a b : cont, {a = b} + {a <> b}.
Proof. decide equality; apply Nat.eq_dec. Defined.
Lemma handler_dec : forall a b : handler, {a = b} + {a <> b}.
Proof. decide equality; try apply Nat.eq_dec; apply reader_dec. Defined.

(** What a thread does, seen from the other threads. *)
Inductive op :=
| Acq (l : lock)                                  (* take a mutex, waiting for it *)
| Rel (l : lock)                                  (* give it up *)
| New (l : lock)                                  (* take the mutex of an object that was just constructed *)
| Drop (l : lock)                                 (* give it up without having shown the object to anybody *)
| Reg (c : cont) (h : handler)                    (* enter a list *)
| Unreg (c : cont) (h : handler)                  (* leave it *)
| Do (v : var) (w : bool)                         (* read data, or write it ([w = true]) *)
| Calls (c : cont) (f : handler -> option (list op)). (* call the members; [f] is what each of them does *)

(** ** Programs *)

Inductive prog :=
| Nop
| Seq (p q : prog)
| Alt (p q : prog)                                (* one of the two *)
| Any (f : nat -> prog)                           (* any of them *)
| Rep (p : prog)                                  (* any number of times *)
| With (l : lock) (p : prog)                      (* scoped_lock *)
| Try (p : prog)                                  (* an exception or an early return does not go further *)
| Enter (c : cont) (h : handler)
| Leave (c : cont) (h : handler)
| Dispatch (c : cont)
| Rd (v : var)                                    (* read the data, or do not *)
| Wr (v : var)                                    (* read or write it, or do not *)
| Create (n i : nat) (p : prog).                  (* RPDO::create, see [rpdo_create] *)

Declare Scope prog_scope.
Notation "p ;; q" := (Seq p q) (at level 61, right associativity) : prog_scope.
Open Scope prog_scope.

Definition Opt (p : prog) : prog := Alt p Nop.
(** A section in which data is written or only read; waiting for a thread to end. *)
Definition touch (l : lock) (v : var) : prog := With l (Wr v).
Definition look (l : lock) (v : var) : prog := With l (Rd v).
Definition join (l : lock) : prog := With l Nop.

(** ** The CAN driver *)

(** StateDispatcher::dispatch (dispatcher.h 42-48, 63-66): each listener is a
    StateWaiter (threading.h 14-19). *)
Definition tell_state : prog :=
  With LStateD (Rd VStateL ;; Rep (Any (fun w => touch (LWaiter w) (VWaiter w) ;; Rd VStateL))).
(** AsioDriver::setErrorCode, setInternalError, setDriverState, setNotReady
    (asio_base.h 48-71): under the mutex of the state the listeners are told;
    setNotReady looks at the socket before it takes the mutex. *)
Definition state_change : prog := Rd VSocket ;; With LDriver (Wr VDriver ;; Opt tell_state).
(** AsioDriver::getState (asio_base.h 91-94). *)
Definition get_state : prog := look LDriver VDriver.
(** AsioDriver::send and SocketCANInterface::enqueue (asio_base.h 115-117,
    socketcan.h 213-234): a failing write changes the state under the mutex of
    the socket. *)
Definition send : prog :=
  get_state ;; Opt (With LSend (Wr VSocket ;; Opt (state_change ;; state_change))).
(** createMsgListener and the destructor of a listener (dispatcher.h 26-36,
    49-52, 58-62, 91-96). *)
Definition add_listener (h : handler) : prog := With LFrames (Enter CFrames h).
Definition drop_listener (h : handler) : prog := With LFrames (Leave CFrames h).
(** SocketCANInterface::readFrame and AsioDriver::frameReceived (socketcan.h
    208-211, 236-261, asio_base.h 70-82). *)
Definition read_frame : prog := Rep state_change ;; touch LSend VSocket.
(** FilteredDispatcher::dispatch on the strand (asio_base.h 45-47, dispatcher.h
    104-109): the listeners are called under the mutex of the dispatcher. *)
Definition deliver : prog := With LFrames (Dispatch CFrames).
(** What a thread in io_service::run does. *)
Definition io_work : prog := Rep (Alt read_frame (Try deliver)).
(** AsioDriver::run (asio_base.h 95-114). *)
Definition driver_run : prog :=
  With LDrv (state_change ;; get_state
             ;; Opt (state_change ;; touch LSend VSocket ;; io_work ;; state_change ;; state_change)
             ;; get_state ;; tell_state).
(** SocketCANInterface::init (socketcan.h 116-206). *)
Definition driver_init : prog := Wr VSocket ;; Rep state_change ;; get_state.
(** AsioDriver::shutdown (asio_base.h 24-30, 119-121): the socket is closed
    without a mutex. *)
Definition driver_shutdown : prog := Wr VSocket.
(** StateWaiter: constructor, wait and destructor (threading.h 9-37). *)
Definition waiter_new : prog := get_state ;; touch LStateD VStateL.
Definition waiter_wait : prog :=
  Any (fun w => look (LWaiter w) (VWaiter w) ;; Rep (look (LWaiter w) (VWaiter w))).
Definition waiter_end : prog := touch LStateD VStateL.

(** ** SDO and objects *)

(** BufferedReader::readUntil (reader.h 94-109). *)
Definition reader_wait (r : reader) : prog := touch (LReader r) (VReader r) ;; Rep (touch (LReader r) (VReader r)).
(** BufferedReader::listen (reader.h 80-89): the new listener is created, and
    the one before it destroyed, under the mutex of the reader. *)
Definition listen (r : reader) : prog :=
  With (LReader r) (Wr (VReader r) ;; add_listener (HReader r) ;; Opt (drop_listener (HReader r)) ;; Wr (VReader r)).
(** SDOClient::init (sdo.cpp 373-396): no mutex is taken. *)
Definition sdo_init (n : nat) : prog := Wr (VSdo n) ;; listen (RSdo n).
(** SDOClient::read and write (sdo.cpp 398-451); the timed lock may fail. *)
Definition sdo (n : nat) : prog :=
  Opt (With (LSdo n) (Wr (VSdo n) ;; touch (LReader (RSdo n)) (VReader (RSdo n))
                      ;; Try (Wr (VSdo n) ;; send ;; Rep (reader_wait (RSdo n) ;; Wr (VSdo n) ;; Opt send))
                      ;; Wr (VSdo n) ;; touch (LReader (RSdo n)) (VReader (RSdo n)))).
(** PDOMapper::Buffer: read and write (pdo.cpp 340-383). *)
Definition buf (n b : nat) : prog := With (LBuf n b) (Wr (VBuf n b) ;; Wr (VDirty n b)).
(** The delegates of an object: the SDO client, or the buffer of a PDO it is
    mapped to (pdo.cpp 361-383). *)
Definition delegate (n : nat) : prog := Alt (sdo n) (Any (fun b => buf n b)).
(** ObjectStorage::Data: get, set, set_cached, init, reset, force_write, size,
    set_delegates (objdict.h 317, 334-377, objdict.cpp 43-75). *)
Definition data (n k : nat) : prog := 
  With (LData n k) (Wr (VData n k) ;; Opt (delegate n) ;; Wr (VData n k) ;; Opt (delegate n) ;; Wr (VData n k)).
(** ObjectStorage: entry, map, init, init_all, reset (objdict.h 469-522,
    objdict.cpp 333-426). *)
Definition storage (n : nat) : prog := With (LStorage n) (Wr (VObjects n) ;; Rep (Any (fun k => data n k))).
(** An access through a name: getStringReader and getStringWriter
    (objdict.cpp 440-480). *)
Definition named_access (n : nat) : prog := storage n ;; Any (fun k => data n k).

(** ** PDO *)

(** PDO::parse_and_set_mapping (pdo.cpp 86-170) and the rest of init ([own] are
    the members of the PDO that are set); Buffer::clean (canopen.h 80, pdo.cpp
    143) takes no mutex although the delegates are set by then. *)
Definition parse_mapping (n : nat) (own : prog) : prog :=
  Rep (Any (fun k => Alt (storage n) (Alt (data n k) (Alt own (Wr (VDirty n k)))))).
(** RPDO::create and RPDO::init (pdo.cpp 185-188, 212-231, canopen.h 116-134):
    the object is new, its mutex is taken, the mapping is set; if all is well
    a listener is created under that mutex, and the object enters rpdos_. *)
Definition rpdo_create (n i : nat) : prog := 
  Try (Create n i (parse_mapping n (Wr (VRpdo n i) ;; Wr (VBufs n i)))).
(** TPDO::init (pdo.cpp 233-253). *)
Definition tpdo_create (n j : nat) : prog := Try (With (LTpdo n j) (parse_mapping n (Wr (VTpdo n j)))).
(** PDOMapper::init (pdo.cpp 175-209); clearing rpdos_ destroys the objects and
    with them their listeners. *)
Definition mapper_init (n : nat) : prog :=
  With (LMapper n)
    (Rep (Any (fun i => Leave (CRpdos n) (HSync n i) ;; drop_listener (HRpdo n i)))
     ;; Rep (Any (fun i => rpdo_create n i))
     ;; Wr (VTpdos n) ;; Rep (Any (fun j => tpdo_create n j ;; Wr (VTpdos n)))).
(** PDOMapper::read and write, TPDO::sync (pdo.cpp 255-280, 326-338). *)
Definition mapper_read (n : nat) : prog := With (LMapper n) (Dispatch (CRpdos n)).
Definition tpdo_sync (n j : nat) : prog :=
  With (LTpdo n j) (Rep (Any (fun b => Wr (VTpdo n j) ;; buf n b)) ;; Opt send).
Definition mapper_write (n : nat) : prog := With (LMapper n) (Rd (VTpdos n) ;; Rep (Any (fun j => tpdo_sync n j ;; Rd (VTpdos n)))).

(** ** Nodes *)

(** The object 1017, read by getHeartbeatInterval (canopen.h 254) and written
    by setHeartbeatInterval (canopen.h 255). *)
Definition hb_object : nat := 0x1017.
Definition heartbeat (n : nat) : prog := data n hb_object.
(** Node::switchState (node.cpp 94-114). *)
Definition switch_state (n : nat) : prog :=
  Wr (VNode n) ;; Opt (touch LNodes VNodes) ;; Wr (VNode n) ;; Opt (look (LNodeState n) (VNodeL n)).
(** Node::wait_for (node.cpp 122-140). *)
Definition wait_for (n : nat) : prog :=
  Rep (look (LCond n) (VNode n)) ;; With (LCond n) (Rd (VNode n) ;; Opt (heartbeat n) ;; switch_state n).
(** Node::reset_com and reset, start and prepare, stop, getState,
    checkHeartbeat (node.cpp 39-92, 141-145). *)
Definition node_reset (n : nat) : prog := 
  With (LNode n) (storage n ;; send ;; wait_for n ;; Wr (VNode n) ;; Opt (heartbeat n)).
Definition node_start (n : nat) : prog := With (LNode n) (Rd (VNode n) ;; send ;; wait_for n).
Definition node_stop (n : nat) : prog := With (LNode n) (Opt (touch LNodes VNodes) ;; Rd (VNode n) ;; send).
Definition node_state (n : nat) : prog := look (LNode n) (VNode n).
Definition check_heartbeat (n : nat) : prog := Opt (heartbeat n) ;; Opt (look (LCond n) (VBeat n)).
(** Node::handleRead, handleWrite, handleDiag (node.cpp 148-175). *)
Definition node_read (n : nat) : prog := check_heartbeat n ;; node_state n ;; mapper_read n.
Definition node_write (n : nat) : prog := node_state n ;; mapper_write n.
Definition node_diag (n : nat) : prog := node_state n ;; check_heartbeat n.
(** Node::handleInit (node.cpp 176-201); [ls] stands for sdo_.init(). *)
Definition node_init_with (ls : prog) (n : nat) : prog :=
  add_listener (HNmt n) ;; Opt (drop_listener (HNmt n)) ;; ls ;; node_reset n
  ;; mapper_init n ;; storage n ;; ls ;; node_start n.
Definition node_init (n : nat) : prog := node_init_with (sdo_init n) n.
(** Node::handleRecover and handleShutdown (node.cpp 202-215). *)
Definition node_recover (n : nat) : prog := node_start n.
Definition node_shutdown (n : nat) : prog :=
  Opt (heartbeat n) ;; Opt (heartbeat n) ;; node_stop n ;; drop_listener (HNmt n) ;; switch_state n.
(** EMCYHandler: constructor, handleDiag, handleInit, resetErrors (emcy.cpp
    53-70, 83-143). *)
Definition emcy_create (n : nat) : prog := storage n ;; Any (fun k => data n k) ;; add_listener (HEmcy n).
Definition emcy_access (n : nat) : prog := Rep (Any (fun k => Alt (storage n) (data n k))).

(** ** Motors *)

(** State402::getState, read and waitForNewState (motor.cpp 7-10, 65-78). *)
Definition st402 (n : nat) : prog := touch (LState n) (VState n) ;; Rep (touch (LState n) (VState n)).
(** Motor402::setTarget, getMode, allocMode (motor.cpp 245-289). *)
Definition set_target (n : nat) : prog := st402 n ;; touch (LMode n) (VMode n).
Definition get_mode (n : nat) : prog := look (LMode n) (VMode n).
Definition alloc_mode (n : nat) : prog := Any (fun k => data n k) ;; look (LMap n) (VModes n).
(** Motor402::switchState (motor.cpp 359-377): cw_mutex_ is given up before the
    wait. *)
Definition motor_switch (n : nat) : prog := st402 n ;; Rep (touch (LCw n) (VCw n) ;; st402 n).
(** Motor402::switchMode (motor.cpp 291-357): the polling read is done with
    mode_mutex_ given up (337-341). *)
Definition switch_mode (n : nat) : prog :=
  Alt (With (LMode n) (Wr (VMode n) ;; Any (fun k => data n k)))
      (alloc_mode n ;; Opt (touch (LHoming n) (VHoming n)) ;; touch (LMode n) (VMode n) ;; motor_switch n
       ;; Any (fun k => data n k) ;; Rep (Alt (look (LMode n) (VMode n)) (Any (fun k => data n k)))
       ;; With (LMode n) (Wr (VMode n) ;; Opt (Any (fun k => data n k))) ;; motor_switch n).
(** DefaultHomingMode::executeHoming (motor.cpp 190-243). *)
Definition execute_homing (n : nat) : prog := Any (fun k => data n k) ;; Rep (look (LHoming n) (VHoming n)).
(** Motor402::readState (motor.cpp 379-413), with the read of the homing mode
    (172-180). *)
Definition motor_read (n : nat) : prog :=
  Any (fun k => data n k) ;; st402 n ;; 
  With (LMode n) (Any (fun k => data n k) ;; Wr (VMode n) ;; Opt (touch (LHoming n) (VHoming n))).
(** Motor402::handleWrite (motor.cpp 414-437), with the write of a mode (motor.h
    190-201). *)
Definition motor_write (n : nat) : prog :=
  With (LCw n) (Wr (VCw n) ;; st402 n
                ;; Opt (With (LMode n) (Rd (VMode n) ;; Wr (VCw n) ;; Opt (Any (fun k => data n k))))
                ;; Wr (VCw n) ;; Any (fun k => data n k)).
(** Motor402::handleDiag, handleInit, handleShutdown, handleHalt,
    handleRecover (motor.cpp 438-547); registerMode (274-277). *)
Definition motor_diag (n : nat) : prog := st402 n.
Definition motor_init (n : nat) : prog :=
  Rep (storage n ;; touch (LMap n) (VModes n)) ;; motor_read n ;; touch (LCw n) (VCw n) ;; motor_switch n ;; alloc_mode n
  ;; switch_mode n ;; execute_homing n ;; switch_mode n.
Definition motor_shutdown (n : nat) : prog := Try (switch_mode n) ;; motor_switch n.
Definition motor_halt (n : nat) : prog := st402 n ;; touch (LCw n) (VCw n).
Definition motor_recover (n : nat) : prog := 
  With (LMode n) (Wr (VMode n) ;; Opt (touch (LHoming n) (VHoming n))) ;; motor_switch n.

(** HandleLayer: handleRead, handleWrite, canSwitch, switchMode,
    forwardForMode, and the variables of a unit formula (handle_layer.cpp
    59-91, 138-170, handle_layer.h 59-81). *)
Definition handle_read (n : nat) : prog := With (LVars n) (Wr (VVars n) ;; Rep (Any (fun k => data n k))).
Definition handle_write (n : nat) : prog := set_target n.
Definition get_variable (n : nat) : prog := With (LVars n) (Wr (VVars n) ;; storage n ;; Wr (VVars n)).
Definition can_switch (n : nat) : prog := alloc_mode n ;; get_mode n.
Definition handle_switch (n : nat) : prog := get_mode n ;; Opt (switch_mode n) ;; Opt (motor_halt n).
(** HandleLayer::enforceLimits and enableLimits (handle_layer.cpp 206-215). *)
Definition enforce_limits (n : nat) : prog := Rd (VLimits n).
Definition enable_limits (n : nat) : prog := Wr (VLimits n).

(** ** The other layers *)

(** CANLayer (can_layer.h 32-110); join waits for the thread of the driver. *)
Definition can_read : prog := get_state.
Definition can_diag : prog := get_state ;; Opt (look LCan VError).
Definition can_init : prog :=
  driver_init ;; Opt (waiter_new ;; Try (add_listener HCan ;; Opt (drop_listener HCan) ;; waiter_wait) ;; waiter_end)
  ;; get_state.
Definition can_shutdown : prog :=
  waiter_new ;; Try (drop_listener HCan ;; driver_shutdown ;; waiter_wait ;; join LDrv) ;; waiter_end.
Definition can_recover : prog := get_state ;; Opt (can_shutdown ;; can_init).
(** SimpleSyncLayer::handleWrite, ExternalSyncLayer::handleRead and handleInit
    (master_plugin.cpp 68-77, 98-111). *)
Definition sync_write : prog := Opt send.
Definition ext_sync_read : prog := Opt (reader_wait RSync).
Definition ext_sync_init : prog := listen RSync.
(** BCMsync (bcm_sync.h 86-137). *)
Definition bcm_diag : prog := look LBcm VBcm.
Definition bcm_halt : prog := touch LBcm VBcm.
Definition bcm_init : prog := With LBcm (Wr VBcm ;; Opt (add_listener HBcm) ;; Wr VBcm).
Definition bcm_shutdown : prog := With LBcm (Wr VBcm ;; Opt (drop_listener HBcm) ;; Wr VBcm).
Definition bcm_recover : prog := Try bcm_shutdown ;; bcm_init.

(** ControllerManagerLayer (controller_manager_layer.cpp 6-51); update and
    enforce of the joints (robot_layer.cpp 77-81). *)
Definition manager_read : prog := Rd VManager.
Definition manager_write : prog := Rd VManager ;; Rep (Any (fun n => enforce_limits n)).
Definition manager_change : prog := Wr VManager.

(** ** The chain *)

(** The layers of a chain in any order and number. *)
Definition pass (f : nat -> prog) (p : prog) : prog := Rep (Try (Alt (Any f) p)).
Definition read_pass : prog :=
  pass (fun n => Alt (node_read n) (Alt (motor_read n) (handle_read n))) (Alt can_read (Alt ext_sync_read manager_read)).
Definition write_pass : prog :=
  pass (fun n => Alt (node_write n) (Alt (motor_write n) (handle_write n))) (Alt can_read (Alt sync_write manager_write)).
Definition diag_pass : prog :=
  pass (fun n => Alt (node_diag n) (Alt (motor_diag n) (Alt (emcy_access n) (named_access n)))) can_diag.
Definition halt_pass : prog := pass motor_halt Nop.
Definition recover_pass : prog :=
  pass (fun n => Alt (node_recover n) (Alt (motor_recover n) (emcy_access n))) (Alt can_recover manager_read).
Definition shutdown_pass : prog :=
  pass (fun n => Alt (node_shutdown n) (motor_shutdown n)) (Alt can_shutdown manager_change).
Definition init_pass_with (ls : nat -> prog) (es : prog) : prog :=
  pass (fun n => Alt (node_init_with (ls n) n) (Alt (motor_init n) (Alt (emcy_access n) (handle_read n))))
       (Alt can_init (Alt manager_change es)).

(** RosChain::run (ros_chain.cpp 73-92), with the publishers (203-208). *)
Definition chain_run : prog :=
  With LRun (Rep (Try (read_pass ;; write_pass ;; Rep (Any (fun n => Any (fun k => data n k)))))).
(** RosChain::handleShutdown (ros_chain.cpp 210-220). *)
Definition chain_shutdown : prog := With LDiag (touch LTimer VTimer ;; shutdown_pass ;; Opt (join LRun)).
(** The services (ros_chain.cpp 134-201, 222-279). *)
Definition srv_init_with (ls : nat -> prog) (es : prog) : prog :=
  With LChain (Try (init_pass_with ls es ;; Alt diag_pass (touch LTimer VTimer)) ;; Opt chain_shutdown).
Definition srv_init : prog := srv_init_with sdo_init ext_sync_init.
Definition srv_recover : prog := With LChain (recover_pass ;; Opt diag_pass).
Definition srv_halt : prog := With LChain halt_pass.
Definition srv_shutdown : prog := With LChain (halt_pass ;; chain_shutdown).
Definition srv_object : prog := Any (fun n => named_access n).
(** RosChain::report_diagnostics (580-596), the heartbeat timer (timer.h
    61-70), the destructor (636-643). *)
Definition report_diagnostics : prog := With LDiag (Opt diag_pass).
Definition timer_handler : prog := With LTimer (Rd VTimer ;; Opt send ;; Rd VTimer).
Definition chain_end : prog := Try halt_pass ;; chain_shutdown.
(** A mode switch asked for by the controller manager (robot_layer.cpp
    106-246). *)
Definition controller_switch : prog :=
  Rep (Any (fun n => Alt (can_switch n) (Alt (handle_switch n) (Alt (get_mode n) (enable_limits n))))).
(** Setting up nodes and joints (ros_chain.cpp 404-574, canopen_motor_node
    motor_chain.cpp 30-106). *)
Definition setup_parts : prog :=
  Rep (Any (fun n => Alt (storage n) (Alt (emcy_create n) (Alt (get_variable n) (touch (LMap n) (VModes n)))))).

(** What the members of the lists do when they are called. *)
Definition handle (h : handler) : prog :=
  match h with
  | HNmt n => With (LCond n) (Opt (heartbeat n) ;; Wr (VBeat n) ;; switch_state n)
  | HReader r => touch (LReader r) (VReader r)
  | HRpdo n i => Rep (Any (fun b => Rd (VBufs n i) ;; buf n b)) ;; touch (LRpdo n i) (VRpdo n i)
  | HSync n i => With (LRpdo n i) (Wr (VRpdo n i) ;; Opt send)
  | HCan => touch LCan VError
  | HEmcy n => Nop
  | HBcm => touch LBcm VBcm
  end.

(** The entry points that threads use, without [BufferedReader::listen] and
    without the functions of BCMsync that add or remove its listener. *)
Inductive call : prog -> Prop :=
| call_run : call chain_run
| call_driver : call driver_run
| call_io : call io_work
| call_init : call (srv_init_with (fun _ => Nop) Nop)
| call_recover : call srv_recover
| call_halt : call srv_halt
| call_shutdown : call srv_shutdown
| call_object : call srv_object
| call_diag : call report_diagnostics
| call_timer : call timer_handler
| call_end : call chain_end
| call_switch : call controller_switch
| call_setup : call setup_parts
| call_bcm : call bcm_diag
| call_bcm_halt : call bcm_halt.

(** All entry points. *)
Inductive full_call : prog -> Prop :=
| full_of : forall p, call p -> full_call p
| full_init : full_call srv_init
| full_node : forall n, full_call (node_init n)
| full_sync : full_call ext_sync_init
| full_bcm_init : full_call bcm_init
| full_bcm_shutdown : full_call bcm_shutdown
| full_bcm_recover : full_call bcm_recover
| full_node_shutdown : forall n, full_call (node_shutdown n).

(** ** Running a program *)

(** [runs p r t]: a run of [p] does [t]; it ends regularly ([r = true]) or by
    an early return or an exception. *)
Inductive runs : prog -> bool -> list op -> Prop :=
| r_stop : forall p, runs p false []
| r_nop : runs Nop true []
| r_seq : forall p q t u r, runs p true t -> runs q r u -> runs (Seq p q) r (t ++ u)
| r_seq_stop : forall p q t, runs p false t -> runs (Seq p q) false t
| r_alt1 : forall p q r t, runs p r t -> runs (Alt p q) r t
| r_alt2 : forall p q r t, runs q r t -> runs (Alt p q) r t
| r_any : forall f k r t, runs (f k) r t -> runs (Any f) r t
| r_rep0 : forall p, runs (Rep p) true []
| r_rep : forall p r t u, runs p true t -> runs (Rep p) r u -> runs (Rep p) r (t ++ u)
| r_rep_stop : forall p t, runs p false t -> runs (Rep p) false t
| r_with : forall l p r t, runs p r t -> runs (With l p) r (Acq l :: t ++ [Rel l])
| r_try : forall p r t, runs p r t -> runs (Try p) true t
| r_enter : forall c h, runs (Enter c h) true [Reg c h]
| r_leave : forall c h, runs (Leave c h) true [Unreg c h]
| r_dispatch : forall c f r,
    (forall h b, f h = Some b -> runs (handle h) true b \/ runs (handle h) false b) ->
    runs (Dispatch c) r [Calls c f]
| r_rd : forall v k, runs (Rd v) true (repeat (Do v false) k)
| r_wr : forall v ws, runs (Wr v) true (map (Do v) ws)
| r_create_fails : forall n i p r t, runs p r t ->
    runs (Create n i p) false (New (LRpdo n i) :: t ++ [Drop (LRpdo n i)])
| r_create : forall n i p t, runs p true t ->
    runs (Create n i p) true
      (New (LRpdo n i) :: t ++ [Acq LFrames; Reg CFrames (HRpdo n i); Rel LFrames; Rel (LRpdo n i);
                               Reg (CRpdos n) (HSync n i)]).

(** What a thread does in its life: calls one after the other. *)
Inductive history (calls : prog -> Prop) : list op -> Prop :=
| h_nil : history calls []
| h_call : forall p r t u, calls p -> runs p r t -> history calls u -> history calls (t ++ u).

(** ** Threads *)

(** The mutexes a thread holds and what it still has to do. *)
Definition thread := (list lock * list op)%type.
Record sys := mkSys { ths : list thread; regs : list (cont * handler) }.

Definition has (l : lock) (t : thread) : bool := if in_dec lock_dec l (fst t) then true else false.
Definition taken (l : lock) (s : sys) : bool := existsb (has l) (ths s).

Fixpoint remove1 {A} (dec : forall a b : A, {a = b} + {a <> b}) (x : A) (xs : list A) : list A :=
  match xs with
  | [] => []
  | y :: ys => if dec x y then ys else y :: remove1 dec x ys
  end.

Lemma entry_dec : forall a b : cont * handler, {a = b} + {a <> b}.
Proof. decide equality; [apply handler_dec | apply cont_dec]. Defined.

Fixpoint set_nth {A} (i : nat) (x : A) (xs : list A) : list A :=
  match xs, i with
  | [], _ => []
  | _ :: ys, 0 => x :: ys
  | y :: ys, S j => y :: set_nth j x ys
  end.

(** The code of the members of a list; after each the list is looked at again
    for the next one. *)
Definition member_code (c : cont) (f : handler -> option (list op)) (r : list (cont * handler)) : list op :=
  flat_map (fun e => if cont_dec c (fst e) then match f (snd e) with Some b => b ++ [Do (VList c) false] | None => [] end else []) r.

(** One operation of thread [i]; none if it has ended or has to wait. *)
Definition step (i : nat) (s : sys) : option sys :=
  match nth_error (ths s) i with
  | Some (held, o :: todo) =>
    let go h t r := Some (mkSys (set_nth i (h, t) (ths s)) r) in
    match o with
    | Acq l => if taken l s then None else go (l :: held) todo (regs s)
    | New l => go (l :: held) todo (regs s)
    | Rel l | Drop l => go (remove1 lock_dec l held) todo (regs s)
    | Do _ _ => go held todo (regs s)
    | Reg c h => go held todo ((c, h) :: regs s)
    | Unreg c h => go held todo (remove1 entry_dec (c, h) (regs s))
    | Calls c f => go held (member_code c f (regs s) ++ todo) (regs s)
    end
  | _ => None
  end.

(** The threads run in any order. *)
Fixpoint run (sched : list nat) (s : sys) : option sys :=
  match sched with
  | [] => Some s
  | i :: rest => match step i s with Some s' => run rest s' | None => None end
  end.

Definition start (todos : list (list op)) : sys := mkSys (map (fun t => ([], t)) todos) [].
