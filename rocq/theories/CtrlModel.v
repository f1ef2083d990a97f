(** The controller manager layer.  Source: /repo/canopen_motor_node/src/controller_manager_layer.cpp,
    /repo/canopen_motor_node/include/canopen_motor_node/controller_manager_layer.h,
    /repo/canopen_motor_node/src/motor_chain.cpp:62-86, and the entry points of layers,
    /repo/canopen_master/include/canopen_master/layer.h:77-123.
    Times are nanoseconds; the way of a duration through double (line 21) is not modelled. *)
From Verif Require Import Base LayerModel.

(** What can be seen from outside, in order.  A controller manager was made ([i] is its number),
    or destroyed; controllers are to be reset; the update of manager [i] begins, with the times of
    the steady clock and of ROS, the period and the reset flag; the limits are enforced; a report. *)
Inductive mark :=
| MStart (i : nat) (t : Z)
| MStop (i : nat)
| MRecover
| MUpdate (i : nat) (t now period : Z) (recover : bool)
| MEnforce (period : Z) (recover : bool)
| MReport (l : sev).

(** The control loop in write() of the layer: not there; called with the state [s]; cm_ was found
    (line 14); inside update of manager [i] (line 28) *)
Inductive wpc := WIdle | WCall (s : lstate) | WFound | WUpdate (i : nat) (period : Z) (recover : bool).

(** [cm]: cm_, by number; [made]: how many were made; [rflag]: recover_; [last]: last_time_;
    [clock]: get_abs_time() *)
Record ctrl := mkCtrl { ls : lstate; cm : option nat; made : nat; rflag : bool; last : Z; clock : Z; pc : wpc; tr : list mark }.
(** The constructor leaves recover_ and last_time_ undetermined (h:32-34). *)
Definition ctrl0 (r : bool) (l c : Z) : ctrl := mkCtrl Off None 0 r l c WIdle [].

Definition with_ls (s : lstate) (x : ctrl) : ctrl := mkCtrl s (cm x) (made x) (rflag x) (last x) (clock x) (pc x) (tr x).
Definition with_pc (p : wpc) (x : ctrl) : ctrl := mkCtrl (ls x) (cm x) (made x) (rflag x) (last x) (clock x) p (tr x).
Definition say (m : mark) (x : ctrl) : ctrl := mkCtrl (ls x) (cm x) (made x) (rflag x) (last x) (clock x) (pc x) (tr x ++ [m]).

Section Ctrl.
(** fixed_period_ *)
Variable fixed : Z.

(** handleShutdown, cpp:51-53 *)
Definition handle_shutdown (x : ctrl) : ctrl :=
  match cm x with
  | Some i => say (MStop i) (mkCtrl (ls x) None (made x) (rflag x) (last x) (clock x) (pc x) (tr x))
  | None => x
  end.
(** layer.h:96-102 *)
Definition shutdown (x : ctrl) : ctrl :=
  match ls x with Off => x | _ => with_ls Off (handle_shutdown (with_ls Shutdown x)) end.
(** layer.h:103-109; handleHalt does nothing (h:43) *)
Definition halt (x : ctrl) : ctrl := if lgt (ls x) Halt then with_ls Error x else x.
(** handleInit, cpp:36-44. [fails]: the constructor of the controller manager throws, which
    counts as an error (layer.h:59-61).  The flag: the status is still at most a warning *)
Definition handle_init (fails : bool) (x : ctrl) : ctrl * bool :=
  match cm x with
  | Some _ => (say (MReport WARN) x, true)
  | None =>
    let x1 := mkCtrl (ls x) None (made x) true (clock x) (clock x) (pc x) (tr x) in
    if fails then (say (MReport ERROR) x1, false)
    else (say (MStart (made x) (clock x)) (mkCtrl (ls x) (Some (made x)) (S (made x)) true (clock x) (clock x) (pc x) (tr x)), true)
  end.
(** layer.h:86-95. [ok]: the status passed is at most a warning *)
Definition init (ok fails : bool) (x : ctrl) : ctrl :=
  match ls x with
  | Off =>
    if ok then
      let (x1, ok1) := handle_init fails (with_ls Init x) in
      if ok1 then with_ls Ready x1 else shutdown x1
    else shutdown x
  | _ => x
  end.
(** handleRecover, cpp:46-49 *)
Definition handle_recover (x : ctrl) : ctrl * bool :=
  match cm x with
  | None => (say (MReport ERROR) x, false)
  | Some _ => (say MRecover (mkCtrl (ls x) (cm x) (made x) true (last x) (clock x) (pc x) (tr x)), true)
  end.
(** layer.h:110-123 *)
Definition recover (ok : bool) (x : ctrl) : ctrl :=
  match ls x with
  | Error =>
    if ok then
      let (x1, ok1) := handle_recover (with_ls Recover x) in
      if ok1 then with_ls Ready x1 else halt x1
    else halt x
  | _ => x
  end.

(** A step of the control loop.  handleRead (cpp:6-10) and the gate of Layer::read are a step of
    their own, without lasting effect.  [now]: ros::Time::now(); [fails]: an exception leaves
    update (or enforce), which counts as an error.  The update is undefined behaviour when cm_
    was reset after the test at line 14, or is reset while the update runs. *)
Inductive move := DoRead | DoWrite (now : Z) (fails : bool).
Definition loop (m : move) (x : ctrl) : outcome ctrl :=
  match m with
  | DoRead =>
    (* layer.h:77-79, cpp:6-10 *)
    match pc x with
    | WIdle => match cm x with
               | None => Ok (if lgt (ls x) Shutdown then say (MReport ERROR) x else x)
               | Some _ => Ok x
               end
    | _ => Ok x
    end
  | DoWrite now fails =>
    match pc x with
    | WIdle => Ok (if lgt (ls x) Off then with_pc (WCall (ls x)) x else x)       (* layer.h:80-82 *)
    | WCall s =>
      if lgt s Shutdown then                                                     (* 13 *)
        match cm x with
        | None => Ok (with_pc WIdle (say (MReport ERROR) x))                     (* 14-15 *)
        | Some _ => Ok (with_pc WFound x)
        end
      else Ok (with_pc WIdle x)
    | WFound =>                                                                  (* 17-28 *)
      let period := if fixed =? 0 then clock x - last x else fixed in
      match cm x with
      | None => Undef
      | Some i => Ok (say (MUpdate i (clock x) now period (rflag x))
                   (mkCtrl (ls x) (cm x) (made x) false (clock x) (clock x) (WUpdate i period (rflag x)) (tr x)))
      end
    | WUpdate i period r =>                                                      (* 28-29 *)
      match cm x with
      | Some j => if Nat.eqb i j then
                    Ok (with_pc WIdle (if fails then say (MReport ERROR) x else say (MEnforce period r) x))
                  else Undef
      | None => Undef
      end
    end
  end.

(** Time passes; the services call the entry points; the loop runs. *)
Inductive cevent := CTick (d : Z) | CInit (ok fails : bool) | CRecover (ok : bool) | CHalt | CShutdown | CLoop (m : move).
Definition tick (d : Z) (x : ctrl) : ctrl := mkCtrl (ls x) (cm x) (made x) (rflag x) (last x) (clock x + Z.max 0 d) (pc x) (tr x).
Definition step (e : cevent) (x : ctrl) : outcome ctrl :=
  match e with
  | CTick d => Ok (tick d x)
  | CInit ok fails => Ok (init ok fails x)
  | CRecover ok => Ok (recover ok x)
  | CHalt => Ok (halt x)
  | CShutdown => Ok (shutdown x)
  | CLoop m => loop m x
  end.
Fixpoint run (l : list cevent) (x : ctrl) : outcome ctrl :=
  match l with
  | [] => Ok x
  | e :: l => match step e x with Undef => Undef | Ok x' => run l x' end
  end.
End Ctrl.

(** motor_chain.cpp:66-78: the fixed period, from the update interval in milliseconds (0 if the
    real-time period is to be used) *)
Definition fixed_period (use_realtime_period : bool) (update_ms : Z) : Z :=
  if use_realtime_period then 0 else update_ms * 1000000.
