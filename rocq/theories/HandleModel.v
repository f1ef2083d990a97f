(** Joint handles: interface_mapping.h, handle_layer.h/.cpp of canopen_motor_node.
    A handle connects one joint of ros_control with one motor.
    Simplifications: doubles are opaque numbers that are only copied and converted; the
    conversion expressions (muParser) are arbitrary functions of the command; filters, joint
    limits and the registration with ros_control are left out. The motor is seen through
    MotorBase (base.h): its mode, the modes it supports, whether its layer is ready. *)
From Coq Require Import ZArith List Bool.
From Verif Require Import Base.
Import ListNotations.
Local Open Scope Z_scope.

(** The three joint handles jph_, jvh_, jeh_. handle_layer.h:104 *)
Inductive kind := KPos | KVel | KEff.
Definition kind_eqb (a b : kind) : bool :=
  match a, b with KPos, KPos | KVel, KVel | KEff, KEff => true | _, _ => false end.

(** Names of hardware interfaces: those of the three kinds, and all other names. *)
Inductive iface := IJoint (k : kind) | IOther (n : Z).
Definition iface_eqb (a b : iface) : bool :=
  match a, b with IJoint k, IJoint l => kind_eqb k l | IOther m, IOther n => m =? n | _, _ => false end.

(** interface_mapping.h:16-29 *)
Definition mapping : list (kind * Z) :=
  [ (KPos, 1); (KPos, 7); (KPos, 8); (KVel, 2); (KVel, 3); (KVel, 9); (KEff, 4); (KEff, 10) ].
(** getInterfaceModes, interface_mapping.h:30-36 *)
Definition interface_modes (k : kind) : list Z :=
  map snd (List.filter (fun p => kind_eqb (fst p) k) mapping).
(** hasConflict, interface_mapping.h:37-43 *)
Definition has_conflict (i : iface) (m : Z) : bool :=
  match List.find (fun p => snd p =? m) mapping with
  | Some (k, _) => negb (iface_eqb (IJoint k) i)
  | None => false
  end.

(** State of a handle. [mode], [lready] and [sup] are those of its motor: getMode(), layer state
    is Ready, isModeSupported(); [cmds] is commands_, [jh] is jh_, [fwd] is forward_command_,
    [lim] is enable_limits_. handle_layer.h:90-132 *)
Record hand := mkHand { mode : Z; lready : bool; sup : Z -> bool; cmds : list (Z * option kind);
                        jh : option kind; fwd : bool; lim : bool }.
Definition with_mode (m : Z) (h : hand) : hand := mkHand m (lready h) (sup h) (cmds h) (jh h) (fwd h) (lim h).
Definition with_jh (k : option kind) (h : hand) : hand := mkHand (mode h) (lready h) (sup h) (cmds h) k (fwd h) (lim h).
Definition with_fwd (b : bool) (h : hand) : hand := mkHand (mode h) (lready h) (sup h) (cmds h) (jh h) b (lim h).
(** enableLimits, handle_layer.cpp:213-215 *)
Definition with_lim (b : bool) (h : hand) : hand := mkHand (mode h) (lready h) (sup h) (cmds h) (jh h) (fwd h) b.
Definition with_cmds (c : list (Z * option kind)) (h : hand) : hand := mkHand (mode h) (lready h) (sup h) c (jh h) (fwd h) (lim h).

(** Constructor, handle_layer.cpp:26-30 *)
Definition new_handle (m : Z) (r : bool) (s : Z -> bool) : hand := mkHand m r s [(0, None)] None false true.

(** commands_.find(m): the newest entry counts, since commands_[m] = jh overwrites. *)
Definition command (c : list (Z * option kind)) (m : Z) : option (option kind) :=
  option_map snd (List.find (fun p => fst p =? m) c).

(** addHandle, handle_layer.h:111-128 *)
Definition add_handle (k : kind) (h : hand) : hand :=
  if existsb (sup h) (interface_modes k)
  then with_cmds (rev (map (fun m => (m, Some k)) (interface_modes k)) ++ cmds h) h
  else h.
(** registerHandle for the three interfaces, robot_layer.cpp:68-70 *)
Definition register_handles (h : hand) : hand := add_handle KEff (add_handle KVel (add_handle KPos h)).

(** select, handle_layer.cpp:19-24 *)
Definition select (m : Z) (h : hand) : bool * hand :=
  match command (cmds h) m with
  | None => (false, h)
  | Some k => (true, with_jh k h)
  end.

(** canSwitch, handle_layer.cpp:59-69 *)
Inductive can := NotSupported | NotReadyToSwitch | ReadyToSwitch | NoNeedToSwitch.
Definition can_switch (m : Z) (h : hand) : can :=
  if negb (sup h m) || match command (cmds h) m with None => true | _ => false end then NotSupported
  else if mode h =? m then NoNeedToSwitch
  else if lready h then ReadyToSwitch
  else NotReadyToSwitch.

(** What the motor does when it is asked to enter a mode: it enters it, or it fails, is halted
    and is left in some mode (motor.cpp:254-261, 291-355, see ModeModel). Entering No_Mode (0)
    always works (motor.cpp:293-300). *)
Inductive entered := Entered | Failed (rest : Z).

(** switchMode, handle_layer.cpp:71-83 *)
Definition switch_mode (m : Z) (r : entered) (h : hand) : bool * hand :=
  if mode h =? m then select m h
  else
    let h := with_jh None (with_fwd false h) in
    if m =? 0 then select 0 (with_mode 0 h)
    else match r with
         | Entered => select m (with_mode m h)
         | Failed rest => (false, with_mode rest h)
         end.

(** forwardForMode, handle_layer.cpp:85-91 *)
Definition forward_for (m : Z) (h : hand) : bool * hand :=
  if mode h =? m then (true, with_fwd true h) else (false, h).

(** A handle with its values: the commands of ros_control and the measured values.
    handle_layer.h:92-94 *)
Record joint := mkJoint { hd : hand; cmd : kind -> Z; act : kind -> Z }.
Definition setv (f : kind -> Z) (k : kind) (v : Z) : kind -> Z := fun l => if kind_eqb l k then v else f l.

(** handleWrite, handle_layer.cpp:146-170; [conv] are the conversions to the device. The second
    result is the value given to setTarget. *)
Definition joint_write (conv : kind -> Z -> Z) (ready : bool) (x : joint) : joint * option Z :=
  if ready then
    match (if fwd (hd x) then jh (hd x) else None) with
    | Some KPos => (mkJoint (hd x) (setv (setv (cmd x) KVel (act x KVel)) KEff (act x KEff)) (act x), Some (conv KPos (cmd x KPos)))
    | Some KVel => (mkJoint (hd x) (setv (setv (cmd x) KPos (act x KPos)) KEff (act x KEff)) (act x), Some (conv KVel (cmd x KVel)))
    | Some KEff => (mkJoint (hd x) (setv (setv (cmd x) KPos (act x KPos)) KVel (act x KVel)) (act x), Some (conv KEff (cmd x KEff)))
    | None => (mkJoint (hd x) (act x) (act x), None)
    end
  else (x, None).

(** What happens to a joint: mode switches, enabling of forwarding, new commands by controllers,
    new measured values (handleRead, 138-145), writes with the state of the layer, and changes
    of the motor's mode by the motor itself (Motor402::handleInit). *)
Inductive jevent :=
| JSwitch (m : Z) (r : entered)
| JForward (m : Z)
| JCommand (k : kind) (v : Z)
| JRead (v : kind -> Z)
| JWrite (ready : bool)
| JMotor (m : Z) (r : bool).
Definition jstep (conv : kind -> Z -> Z) (x : joint) (e : jevent) : joint * option Z :=
  match e with
  | JSwitch m r => (mkJoint (snd (switch_mode m r (hd x))) (cmd x) (act x), None)
  | JForward m => (mkJoint (snd (forward_for m (hd x))) (cmd x) (act x), None)
  | JCommand k v => (mkJoint (hd x) (setv (cmd x) k v) (act x), None)
  | JRead v => (mkJoint (hd x) (cmd x) v, None)
  | JWrite ready => joint_write conv ready x
  | JMotor m r => (mkJoint (mkHand m r (sup (hd x)) (cmds (hd x)) (jh (hd x)) (fwd (hd x)) (lim (hd x))) (cmd x) (act x), None)
  end.
Definition jrun (conv : kind -> Z -> Z) (l : list jevent) (x : joint) : joint :=
  fold_left (fun x e => fst (jstep conv x e)) l x.
