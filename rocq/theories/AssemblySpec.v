(** Demands on the assembly of motor chains. *)
From Verif Require Import Base CanModel LayerModel LayerSpec EdsModel ChainModel ChainSpec SetupModel SetupSpec AssemblyModel.

Definition or_default {A} (a : A) (o : option A) : A := match o with Some x => x | None => a end.

Section Spec.
Variable plain : Z -> pval.
Variable urdf : text -> bool.
Variable motor_ok : text -> text -> option value -> EdsModel.dict -> bool.
Variable handle_ok : text -> value -> EdsModel.dict -> bool.
Variable defaults : value.

(** The joint of a node: the parameter "joint" if there is one, else the parameter "name", else the
    name in the list of nodes *)
Definition joint_of (name : text) (params : value) (j : text) : Prop :=
  given_text plain params defaults (str "joint") j \/
  (not_given params defaults (str "joint") /\
   (given_text plain params defaults (str "name") j \/ (not_given params defaults (str "name") /\ j = name))).
(** The name is a text, whether it is used or not *)
Definition name_fine (params : value) : Prop :=
  not_given params defaults (str "name") \/ exists t, given_text plain params defaults (str "name") t.
Definition allocator_of (params : value) (a : text) : Prop :=
  given_text plain params defaults (str "motor_allocator") a \/
  (not_given params defaults (str "motor_allocator") /\ a = str "canopen::Motor402::Allocator").
Definition settings_of (params : value) (o : option value) : Prop :=
  match o with
  | Some v => given params defaults (str "motor_layer") v
  | None => not_given params defaults (str "motor_layer")
  end.
(** The motor of a node with the dictionary [d] *)
Record drives (name : text) (params : value) (d : EdsModel.dict) (m : motor) : Prop := {
  dr_name_fine : name_fine params;
  dr_joint : joint_of name params (m_joint m);
  dr_name : m_name m = m_joint m ++ str "_motor";
  dr_urdf : urdf (m_joint m) = true;
  dr_motor : exists a o, allocator_of params a /\ settings_of params o /\ motor_ok a (m_name m) o d = true;
  dr_handle : handle_ok (m_joint m) (node_params params defaults) d = true }.
End Spec.

(** What has to hold for the bus, the synchronisation and the heartbeat *)
Definition bus_fine (driver_ok : text -> bool) (master_ok : text -> text -> bool) (p : bus_params) (device : text) : Prop :=
  b_device p = Some device /\ b_master_type p = None /\
  driver_ok (or_default (str "can::SocketCANInterface") (b_plugin p)) = true /\
  master_ok (or_default (str "canopen::SimpleMaster::Allocator") (b_master p)) device = true.
Definition sync_fine (sync_ok : Z -> Z -> bool) (p : chain_params) : Prop :=
  (p_interval p = 0 /\ p_update p <> 0) \/
  (0 < p_interval p /\ p_overflow p <> 1 /\ p_overflow p <= 240 /\ sync_ok (p_interval p mod 65536) (p_overflow p mod 256) = true).
Definition heartbeat_fine (junk : bytes) (p : chain_params) (h : option (frame * Z)) : Prop :=
  match h with
  | None => p_hb p = (None, None)
  | Some (f, r) => 0 < r /\ snd (p_hb p) = Some r /\ exists m, fst (p_hb p) = Some m /\ f = toframe junk m /\ frame_isValid f = true
  end.

(** The time between updates in milliseconds *)
Definition update_of (p : chain_params) : Z := if p_interval p =? 0 then p_update p else p_interval p.
(** The layers, bottom up *)
Definition stack_of (p : chain_params) (device : text) : list layer :=
  [LCan device (or_default false (b_loopback (p_bus p)))] ++
  (if p_interval p =? 0 then [] else [LSync (p_interval p mod 65536) (p_overflow p mod 256)]) ++
  [LNodes; LMotors; LRobot; LControllers (if p_realtime p then 0 else 1000000 * update_of p); LEmcy].

(** The order of a cycle over [n] nodes: bottom up, top down *)
Definition each (f : nat -> role) (n : nat) : list role := map f (seq 0 n).
Definition levels (sync : bool) (n : nat) : list (list role) :=
  [[RCan]] ++ (if sync then [[RSync]] else []) ++
  [RNodes :: each RNode n; RMotors :: each RMotor n; RRobot :: each RHandle n; [RControllers]; REmcys :: each REmcy n].
Definition bottom_up (sync : bool) (n : nat) : list role := RChain :: List.concat (levels sync n).
Definition top_down (sync : bool) (n : nat) : list role := RChain :: List.concat (rev (levels sync n)).
(** [a] and [b] both occur once, [a] first *)
Definition before {A} (l : list A) (a b : A) : Prop := NoDup l /\ exists l1 l2 l3, l = l1 ++ a :: l2 ++ b :: l3.
(** The height of a layer in the chain: the bus, synchronisation, nodes, motors, joints, controllers,
    emergency messages; the chain itself contains them *)
Definition height (r : role) : option nat :=
  match r with
  | RChain => None
  | RCan => Some 1%nat
  | RSync => Some 2%nat
  | RNodes | RNode _ => Some 3%nat
  | RMotors | RMotor _ => Some 4%nat
  | RRobot | RHandle _ => Some 5%nat
  | RControllers => Some 6%nat
  | REmcys | REmcy _ => Some 7%nat
  end.
Definition below (a b : role) : Prop := exists h k, height a = Some h /\ height b = Some k /\ (h < k)%nat.
(** The layers of a chain of [n] nodes *)
Definition present (sync : bool) (n : nat) (r : role) : Prop :=
  match r with
  | RSync => sync = true
  | RNode i | RMotor i | RHandle i | REmcy i => (i < n)%nat
  | _ => True
  end.

(** [k] attempts to initialise the robot layer: its state, and whether none reported an error *)
Fixpoint inits (urdf : text -> bool) (l : list (text * nat)) (k : nat) (x : robot) : robot * bool :=
  match k with
  | O => (x, true)
  | S k => let (x, ok) := robot_init urdf l x in let (y, oks) := inits urdf l k x in (y, ok && oks)
  end.
