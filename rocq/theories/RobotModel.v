(** Controller switches: robot_layer.h/.cpp of canopen_motor_node.
    Names of joints and controllers are numbers, since they are only compared. A handle is
    identified with the name of its joint (handles_ maps names to handles, robot_layer.h:35). *)
From Coq Require Import ZArith List Bool.
From Verif Require Import Base HandleModel.
Import ListNotations.
Local Open Scope Z_scope.

(** Parameters of a controller: required_drive_mode, required_drive_modes, enforce_limits.
    robot_layer.cpp:82-91, 149 *)
Record params := mkParams { pdefault : option Z; plookup : option (list (Z * Z)); plimits : bool }.
(** hasModes, hasMixedModes, getMode, robot_layer.cpp:92-104 *)
Definition has_modes (p : params) : bool :=
  match pdefault p, plookup p with None, None => false | _, _ => true end.
Definition has_mixed_modes (p : params) : bool := match plookup p with Some _ => true | None => false end.
Definition get_mode (p : params) (j : Z) : option Z :=
  match List.find (fun e => fst e =? j) (match plookup p with Some l => l | None => [] end) with
  | Some (_, m) => Some m
  | None => pdefault p
  end.

(** A controller in a switch request with its claimed resources (ros_control's ControllerInfo). *)
Record controller := mkCtrl { cname : Z; claims : list (iface * list Z) }.

(** SwitchData, robot_layer.h:37-41 *)
Record sdata := mkSd { sjoint : Z; smode : Z; slimits : bool }.

(** handles_ ([present] tells which joints have a handle, [hands] their state), switch_map_ and
    the controllers given to stopControllers (robot_layer.cpp:18-24). *)
Record robot := mkR { present : Z -> bool; hands : Z -> hand; reg : list (Z * list sdata); stopping : list Z }.
Definition with_hands (h : Z -> hand) (x : robot) : robot := mkR (present x) h (reg x) (stopping x).
Definition with_reg (r : list (Z * list sdata)) (x : robot) : robot := mkR (present x) (hands x) r (stopping x).
Definition set_hand (j : Z) (h : hand) (f : Z -> hand) : Z -> hand := fun i => if i =? j then h else f i.

Definition registered (r : list (Z * list sdata)) (c : Z) : option (list sdata) :=
  option_map snd (List.find (fun e => fst e =? c) r).
(** switch_map_.insert: keeps an entry that exists. *)
Definition register (c : Z) (l : list sdata) (r : list (Z * list sdata)) : list (Z * list sdata) :=
  match registered r c with Some _ => r | None => r ++ [(c, l)] end.

(** claimed_interfaces.insert *)
Definition insert_iface (i : iface) (l : list iface) : list iface :=
  if existsb (iface_eqb i) l then l else l ++ [i].

(** The checks of one claimed joint, robot_layer.cpp:130-174. *)
Definition check_joint (p : params) (x : robot) (i : iface) (j : Z) (ifs : list iface) : option sdata :=
  if negb (has_modes p) then None
  else if (1 <? Z.of_nat (List.length ifs)) && negb (has_mixed_modes p) then None
  else if negb (present x j) then None
  else match get_mode p j with
       | None => None
       | Some m =>
           if has_conflict i m then None
           else match can_switch m (hands x j) with
                | NotSupported | NotReadyToSwitch => None
                | ReadyToSwitch | NoNeedToSwitch => Some (mkSd j m (plimits p))
                end
       end.
(** Loop over the joints of one interface, 129-175; the result are the interfaces seen and the
    switch data. *)
Fixpoint check_joints (p : params) (x : robot) (i : iface) (js : list Z) (ifs : list iface) (acc : list sdata)
  : option (list iface * list sdata) :=
  match js with
  | [] => Some (ifs, acc)
  | j :: t =>
      let ifs := insert_iface i ifs in
      match check_joint p x i j ifs with
      | None => None
      | Some d => check_joints p x i t ifs (acc ++ [d])
      end
  end.
(** Loop over the claimed resources, 128-176. *)
Fixpoint check_claims (p : params) (x : robot) (l : list (iface * list Z)) (ifs : list iface) (acc : list sdata)
  : option (list sdata) :=
  match l with
  | [] => Some acc
  | (i, js) :: t =>
      match check_joints p x i js ifs acc with
      | None => None
      | Some (ifs, acc) => check_claims p x t ifs acc
      end
  end.
(** Loop over the controllers to start, 120-179. Entries made before a failure stay. *)
Fixpoint check_starts (ps : Z -> params) (starts : list controller) (x : robot) : bool * robot :=
  match starts with
  | [] => (true, x)
  | c :: t =>
      match check_claims (ps (cname c)) x (claims c) [] [] with
      | None => (false, x)
      | Some l => check_starts ps t (with_reg (register (cname c) l (reg x)) x)
      end
  end.

(** to_stop, an unordered_set of handles. *)
Definition stop_insert (l s : list Z) : list Z := fold_left (fun s j => if existsb (Z.eqb j) s then s else s ++ [j]) l s.
Definition stop_erase (j : Z) (s : list Z) : list Z := List.filter (fun i => negb (i =? j)) s.

(** switchMode(No_Mode) for each joint of a list; it never asks the motor (see [switch_mode]). *)
Definition stop_joint (f : Z -> hand) (j : Z) : Z -> hand := set_hand j (snd (switch_mode 0 Entered (f j))) f.
Definition stop_joints (l : list Z) (f : Z -> hand) : Z -> hand := fold_left stop_joint l f.

(** Second loop for a controller, 196-209. [env n] is what the motor does at the n-th mode
    switch; the result is success, the number of switches, the handles and to_stop. *)
Fixpoint enter_modes (env : nat -> entered) (all l : list sdata) (n : nat) (f : Z -> hand) (ts : list Z)
  : bool * nat * (Z -> hand) * list Z :=
  match l with
  | [] => (true, n, f, ts)
  | d :: t =>
      let r := switch_mode (smode d) (env n) (f (sjoint d)) in
      if fst r
      then enter_modes env all t (S n) (set_hand (sjoint d) (with_lim (slimits d) (snd r)) f) (stop_erase (sjoint d) ts)
      else (false, S n, set_hand (sjoint d) (snd r) f, stop_insert (map sjoint all) ts)
  end.
(** switch_map_.at *)
Definition container (r : list (Z * list sdata)) (c : Z) : list sdata :=
  match registered r c with Some l => l | None => [] end.
(** Loop over the controllers to start, 190-210; the last result are the failed controllers. *)
Fixpoint perform (env : nat -> entered) (r : list (Z * list sdata)) (starts : list Z) (n : nat) (f : Z -> hand) (ts : list Z)
  : (Z -> hand) * list Z * list Z :=
  match starts with
  | [] => (f, ts, [])
  | c :: t =>
      let l := container r c in
      match enter_modes env l l n (stop_joints (map sjoint l) f) ts with
      | (ok, n, f, ts) =>
          match perform env r t n f ts with
          | (f, ts, failed) => (f, ts, if ok then failed else c :: failed)
          end
      end
  end.

(** prepareSwitch, robot_layer.cpp:106-220. [order] is the order in which the set to_stop is
    traversed. All controllers are registered when switch_map_.at is used (185, 191). *)
Definition prepare_switch (ps : Z -> params) (env : nat -> entered) (order : list Z -> list Z)
  (starts stops : list controller) (x : robot) : bool * robot :=
  if forallb (fun c => match registered (reg x) (cname c) with Some _ => true | None => false end) stops then
    match check_starts ps starts x with
    | (false, x) => (false, x)
    | (true, x) =>
        let ts := fold_left (fun s c => stop_insert (map sjoint (container (reg x) (cname c))) s) stops [] in
        match perform env (reg x) (map cname starts) 0 (hands x) ts with
        | (f, ts, failed) => (true, mkR (present x) (stop_joints (order ts) f) (reg x) (stopping x ++ failed))
        end
    end
  else (false, x).

(** Loop over the joints of a controller in doSwitch, 227-236: on failure the failed joint (and
    only it) is stopped, once for each joint of the controller. *)
Fixpoint forward_all (n : nat) (l : list sdata) (f : Z -> hand) : bool * (Z -> hand) :=
  match l with
  | [] => (true, f)
  | d :: t =>
      let r := forward_for (smode d) (f (sjoint d)) in
      if fst r then forward_all n t (set_hand (sjoint d) (snd r) f)
      else (false, stop_joints (repeat (sjoint d) n) f)
  end.
(** doSwitch, robot_layer.cpp:222-246 *)
Fixpoint do_starts (r : list (Z * list sdata)) (starts : list Z) (f : Z -> hand) : (Z -> hand) * list Z :=
  match starts with
  | [] => (f, [])
  | c :: t =>
      match registered r c with
      | None => match do_starts r t f with (f, failed) => (f, c :: failed) end
      | Some l =>
          match forward_all (List.length l) l f with
          | (ok, f) => match do_starts r t f with (f, failed) => (f, if ok then failed else c :: failed) end
          end
      end
  end.
Definition do_switch (starts : list controller) (x : robot) : robot :=
  match do_starts (reg x) (map cname starts) (hands x) with
  | (f, failed) => mkR (present x) f (reg x) (stopping x ++ failed)
  end.

(** Histories of requests; [REnv] is everything the motors do by themselves: their modes, layer
    states and supported modes change in any way. *)
Definition motors_change (g : Z -> hand) (x : robot) : robot :=
  with_hands (fun j => mkHand (mode (g j)) (lready (g j)) (sup (g j)) (cmds (hands x j)) (jh (hands x j)) (fwd (hands x j)) (lim (hands x j))) x.
Inductive revent :=
| RPrepare (ps : Z -> params) (env : nat -> entered) (order : list Z -> list Z) (starts stops : list controller)
| RDo (starts : list controller)
| REnv (f : Z -> hand).
Definition rstep (x : robot) (e : revent) : robot :=
  match e with
  | RPrepare ps env order starts stops => snd (prepare_switch ps env order starts stops x)
  | RDo starts => do_switch starts x
  | REnv f => motors_change f x
  end.
Definition rrun (l : list revent) (x : robot) : robot := fold_left rstep l x.
Definition new_robot (p : Z -> bool) (f : Z -> hand) : robot := mkR p f [] [].
