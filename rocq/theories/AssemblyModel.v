(** How a motor chain is put together from its parameters, and which joints it offers. Source:
    /repo/canopen_motor_node/src/motor_chain.cpp, /repo/canopen_chain_node/src/ros_chain.cpp (282-470,
    606-634), /repo/canopen_motor_node/src/robot_layer.cpp (26-72).
    Plugins (driver, master, motor), the URDF, filters and the descriptions of devices are parameters.
    A set-up that fails ends the program (canopen_motor_chain_node.cpp:16-18), so what it leaves behind
    is not represented. *)
From Verif Require Import Base CanModel LayerModel EdsModel ChainModel SetupModel.
From Verif Require CtrlModel.

(** The layers of the chain in the order of add; groups with the numbers of their members *)
Inductive layer :=
| LCan (device : text) (loopback : bool)
| LSync (interval overflow : Z)
| LNodes | LMotors | LRobot
| LControllers (period : Z)
| LEmcy.

(** Parameters of the bus, ros_chain.cpp:283-317 *)
Record bus_params := mkBus { b_device : option text; b_loopback : option bool; b_plugin : option text; b_master_type : option text; b_master : option text }.
(** Parameters of synchronisation, of the heartbeat (text of the frame and rate) and of the controllers *)
Record chain_params := mkParams {
  p_bus : bus_params; p_interval : Z; p_overflow : Z; p_update : Z;
  p_hb : option text * option Z; p_nodes : config; p_defaults : value; p_realtime : bool }.

(** A motor with its handle: name of the motor, joint *)
Record motor := mkMotor { m_name : text; m_joint : text }.
(** [stack]: what was added to the chain; the members of the groups nodes_, motors_, robot_layer_ (its
    handles) and emcy_handlers_; [lookup]: handles_ of the robot layer *)
Record build := mkBuild { stack : list layer; nodes : list snode; motors : list motor; handles : list text; lookup : list (text * nat); emcys : list Z;
                          update_ms : Z; heartbeat : option (frame * Z) }.
Definition build0 : build := mkBuild [] [] [] [] [] [] 0 None.
Definition add (l : layer) (b : build) : build :=
  mkBuild (stack b ++ [l]) (nodes b) (motors b) (handles b) (lookup b) (emcys b) (update_ms b) (heartbeat b).

Section Assembly.
Variable plain : Z -> pval.
Variable load : text -> list (text * text) -> option EdsModel.dict.
Variable package : text -> text.
Variable join : text -> text -> text.
(** createInstance of the driver, allocateInstance of the master, getSync give an object *)
Variable driver_ok : text -> bool.
Variable master_ok : text -> text -> bool.
Variable sync_ok : Z -> Z -> bool.
(** The joints of the URDF; allocation of a motor (allocator, name, settings, dictionary); construction
    of the handle and of its filters (joint, parameters, dictionary) *)
Variable urdf : text -> bool.
Variable motor_ok : text -> text -> option value -> EdsModel.dict -> bool.
Variable handle_ok : text -> value -> EdsModel.dict -> bool.
(** Contents of uninitialised frames *)
Variable junk : bytes.

(** setup_bus, ros_chain.cpp:282-332 *)
Definition setup_bus (p : bus_params) (b : build) : option build :=
  match b_device p with
  | None => None
  | Some device =>
    let loopback := match b_loopback p with Some l => l | None => false end in
    let plugin := match b_plugin p with Some t => t | None => str "can::SocketCANInterface" end in
    if negb (driver_ok plugin) then None
    else match b_master_type p with
         | Some _ => None
         | None =>
           let master := match b_master p with Some t => t | None => str "canopen::SimpleMaster::Allocator" end in
           if negb (master_ok master device) then None
           else Some (add (LCan device loopback) b)
         end
  end.
(** setup_sync, ros_chain.cpp:334-380, see ChainModel *)
Definition setup_sync (p : chain_params) (b : build) : option build :=
  match ChainModel.setup_sync (p_interval p) (p_overflow p) (p_update p) with
  | None => None
  | Some (s, u) =>
    let b := mkBuild (stack b) (nodes b) (motors b) (handles b) (lookup b) (emcys b) u (heartbeat b) in
    match s with
    | None => Some b
    | Some (i, o) => if sync_ok i o then Some (add (LSync i o) b) else None
    end
  end.
(** setup_heartbeat, ros_chain.cpp:382-411; rates are whole numbers here *)
Definition setup_heartbeat (p : chain_params) (b : build) : option build :=
  match p_hb p with
  | (None, None) => Some b
  | (m, r) =>
    let rate := match r with Some r => r | None => 0 end in
    if rate <=? 0 then None
    else let f := toframe junk (match m with Some m => m | None => [] end) in
         if negb (frame_isValid f) then None
         else Some (mkBuild (stack b) (nodes b) (motors b) (handles b) (lookup b) (emcys b) (update_ms b) (Some (f, rate)))
  end.

(** nodeAdded, motor_chain.cpp:9-59. [joint] is a reference to [name] (12), so the motor is named after
    the joint. A member that is no text is an exception; None: the set-up fails. *)
Definition node_added (merged : value) (name : text) (d : EdsModel.dict) : option motor :=
  match (match member (str "name") merged with None => Some name | Some v => as_text plain v end) with
  | None => None
  | Some n =>
    match (match member (str "joint") merged with None => Some n | Some v => as_text plain v end) with
    | None => None
    | Some joint =>
      if negb (urdf joint) then None
      else match (match member (str "motor_allocator") merged with None => Some (str "canopen::Motor402::Allocator") | Some v => as_text plain v end) with
           | None => None
           | Some alloc =>
             if negb (motor_ok alloc (joint ++ str "_motor") (member (str "motor_layer") merged) d) then None
             else if negb (handle_ok joint merged d) then None
             else Some (mkMotor (joint ++ str "_motor") joint)
           end
    end
  end.
Definition added (merged : value) (name : text) (d : EdsModel.dict) : bool :=
  match node_added merged name d with Some _ => true | None => false end.

(** handles_.insert, robot_layer.cpp:26-29: an entry that exists is kept *)
Definition robot_add (joint : text) (b : build) : build :=
  let i := List.length (handles b) in
  mkBuild (stack b) (nodes b) (motors b) (handles b ++ [joint])
          (match lookup_node joint (lookup b) with Some _ => lookup b | None => lookup b ++ [(joint, i)] end)
          (emcys b) (update_ms b) (heartbeat b).
(** setup_node, ros_chain.cpp:471-577 (see SetupModel) with the motor chain's nodeAdded; a node, its
    motor, its handle and its emergency handler are appended to their groups *)
Definition setup_node (params : value) (name : text) (defaults : value) (b : build) : option build :=
  match SetupModel.setup_node plain load package join added params name defaults with
  | None => None
  | Some s =>
    match node_added (node_params params defaults) name (s_dict s) with
    | None => None
    | Some m =>
      let b := mkBuild (stack b) (nodes b) (motors b ++ [m]) (handles b) (lookup b) (emcys b) (update_ms b) (heartbeat b) in
      let b := robot_add (m_joint m) b in
      Some (mkBuild (stack b) (nodes b ++ [s]) (motors b) (handles b) (lookup b) (emcys b ++ [s_id s]) (update_ms b) (heartbeat b))
    end
  end.
Fixpoint setup_each (l : list (text * value)) (defaults : value) (b : build) : option build :=
  match l with
  | [] => Some b
  | (n, v) :: l => match setup_node v n defaults b with None => None | Some b => setup_each l defaults b end
  end.
(** setup_nodes, ros_chain.cpp:442-469 *)
Definition setup_nodes (p : chain_params) (b : build) : option build :=
  let b := add LNodes b in
  match (match p_nodes p with CArray l => named plain l | CStruct ms => Some ms end) with
  | None => None
  | Some l => setup_each l (p_defaults p) b
  end.

(** RosChain::setup_chain, ros_chain.cpp:613-634 *)
Definition ros_setup_chain (p : chain_params) (b : build) : option build :=
  match setup_bus (p_bus p) b with
  | None => None
  | Some b => match setup_sync p b with
              | None => None
              | Some b => match setup_heartbeat p b with
                          | None => None
                          | Some b => setup_nodes p b
                          end
              end
  end.
(** MotorChain::setup_chain, motor_chain.cpp:61-84 *)
Definition motor_setup_chain (p : chain_params) (b : build) : option build :=
  match ros_setup_chain p b with
  | None => None
  | Some b =>
    let b := add LRobot (add LMotors b) in
    Some (add (LControllers (CtrlModel.fixed_period (p_realtime p) (update_ms b))) b)
  end.
(** RosChain::setup, ros_chain.cpp:606-611, for both kinds of chains *)
Definition setup (chain : chain_params -> build -> option build) (p : chain_params) : option build :=
  match chain p build0 with None => None | Some b => Some (add LEmcy b) end.
Definition motor_chain : chain_params -> option build := setup motor_setup_chain.
End Assembly.

(** ** The layers as a tree (LayerModel) *)

(** Who is who: the chain itself, its direct layers, and the members of node number [i] *)
Inductive role := RChain | RCan | RSync | RNodes | RMotors | RRobot | RControllers | REmcys
| RNode (i : nat) | RMotor (i : nat) | RHandle (i : nat) | REmcy (i : nat).
Definition rid (r : role) : nat :=
  match r with
  | RChain => 0 | RCan => 1 | RSync => 2 | RNodes => 3 | RMotors => 4 | RRobot => 5 | RControllers => 6 | REmcys => 7
  | RNode i => 8 + 4 * i | RMotor i => 9 + 4 * i | RHandle i => 10 + 4 * i | REmcy i => 11 + 4 * i
  end%nat.
Definition members (f : nat -> role) (n : nat) : list tree := map (fun i => Leaf (rid (f i))) (seq 0 n).
(** The classes of the layers: nodes_, motors_, emcy_handlers_ and the robot layer are LayerGroupNoDiag
    (ros_chain.cpp:443-446, motor_chain.cpp:62, robot_layer.h:21), the chain is a LayerStack (ros_chain.cpp:597) *)
Definition layer_tree (b : build) (l : layer) : tree :=
  match l with
  | LCan _ _ => Leaf (rid RCan)
  | LSync _ _ => Leaf (rid RSync)
  | LNodes => Group KNoDiag (rid RNodes) (members RNode (List.length (nodes b)))
  | LMotors => Group KNoDiag (rid RMotors) (members RMotor (List.length (motors b)))
  | LRobot => Group KNoDiag (rid RRobot) (members RHandle (List.length (handles b)))
  | LControllers _ => Leaf (rid RControllers)
  | LEmcy => Group KNoDiag (rid REmcys) (members REmcy (List.length (emcys b)))
  end.
Definition chain_tree (b : build) : tree := Group KStack (rid RChain) (map (layer_tree b) (stack b)).

(** ** The robot layer: registration of handles, robot_layer.cpp:41-70. [first]: first_init_; [reg]: the
    joints registered with the interfaces, with the number of their handle *)
Record robot := mkRobot { first : bool; reg : list (text * nat) }.
Definition robot0 : robot := mkRobot true [].
Fixpoint register_all (urdf : text -> bool) (l : list (text * nat)) (r : list (text * nat)) : list (text * nat) * bool :=
  match l with
  | [] => (r, true)
  | (j, i) :: l => if urdf j then register_all urdf l (r ++ [(j, i)]) else (r, false)
  end.
(** The second result: no error, the handles are initialised *)
Definition robot_init (urdf : text -> bool) (l : list (text * nat)) (x : robot) : robot * bool :=
  if first x then
    match register_all urdf l (reg x) with
    | (r, true) => (mkRobot false r, true)
    | (r, false) => (mkRobot true r, false)
    end
  else (x, true).
