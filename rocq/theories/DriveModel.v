(** The handlers of a motor: reading its state, diagnostics, init, recover and shutdown.
    Source: /repo/canopen_402/src/motor.cpp:379-549. States and modes are switched as in
    ModeModel, homing is that of HomingModel. *)
From Verif Require Import Base MotorModel ModeModel HomingModel.

(** What the threads share: the members of ModeModel, the default homing handler, status_word_
    and start_fault_reset_ *)
Record drv := mkDrv { mo : mot; ho : hom; word : Z; sfr : bool }.
(** The mode handlers: those of ModeModel; whether the handler of mode 6 is a HomingMode; the
    homing method (object 6098: present, value); [mode_ok m sw]: the result of read(sw) of the
    handler of mode [m] *)
Record dcfg := mkD { dc : cfg; is_homing : bool; hvalid : bool; hmethod : Z; mode_ok : Z -> Z -> bool }.

(** SW_Internal_limit and SW_Warning, motor.h:29-33 *)
Definition SW_Limit : Z := 11.
Definition SW_Warning : Z := 7.
Definition HOMING : Z := 6.
Definition has (w b : Z) : bool := negb (Z.land w (2 ^ b) =? 0).

(** What readState reports: errors and warnings *)
Inductive rmsg := EHandler | WMode | WLimit | ELimit.
(** readState, 379-410, with the values read: status word and displayed mode. [ready]: the layer
    is Ready. The whole function is one step: the mode is read under mode_mutex_; between storing
    the status word and that no other thread writes these members. *)
Definition read_state (d : dcfg) (ready : bool) (sw m : Z) (x : drv) : drv * list rmsg :=
  let old := word x in
  let is_sel := match sel (mo x) with Some k => k =? m | None => false end in
  let h := if is_sel && (m =? HOMING) then hread sw (ho x) else ho x in
  let a := if is_sel && negb (mode_ok d m sw) then [EHandler] else [] in
  let b := match sel (mo x) with Some k => if k =? m then [] else [WMode] | None => [] end in
  let c := if has sw SW_Limit then [if has old SW_Limit || negb ready then WLimit else ELimit] else [] in
  (mkDrv (fst (step (dc d) (ERead (decode sw) m) (mo x, Ret true))) h sw (sfr x), a ++ b ++ c).

(** handleDiag, 438-470: reports of the motor *)
Inductive dmsg := DWNotEnabled | DEQuickStop | DEFault | DEUnknown | DWWarning | DELimit.
Definition diag (x : drv) : list dmsg :=
  match st (mo x) with
  | NotReady | SwitchOnDisabled | ReadyToSwitchOn | SwitchedOn => [DWNotEnabled]
  | OperationEnable => []
  | QuickStopActive => [DEQuickStop]
  | Fault | FaultReactionActive => [DEFault]
  | Start => [DEUnknown]
  end ++ (if has (word x) SW_Warning then [DWWarning] else []) ++ (if has (word x) SW_Limit then [DELimit] else []).
Definition is_error (m : dmsg) : bool := match m with DWNotEnabled | DWWarning => false | _ => true end.

(** The errors put into the status by the handlers; [ETrans] and [ELate] are those of switchState
    itself (369, 374). The messages of switchMode and executeHoming come on top of [EEnter] and
    [EHome] and are left out. *)
Inductive hmsg := ETrans | ELate | ENotEnabled | EWrongHandler | EEnter | EHome | ERestart.
(** The handlers up to the next point at which another thread can intervene *)
Inductive dpc :=
| IRead                          (* 483: readState *)
| IClear                         (* 487-491: control_word_ = 0 *)
| IEnable (q : spc)              (* 492: switchState *)
| IAlloc                         (* 497-507: handler of the homing mode *)
| IMode (p : pc)                 (* 509: switchMode(Homing) *)
| IHomeStart                     (* 514: executeHoming *)
| IHome (p : hpc)
| INoMode                        (* 519: switchMode(No_Mode) *)
| RMode                          (* handleRecover 535-544 *)
| REnable (q : spc)              (* 545 *)
| DMode                          (* handleShutdown 522: switchMode(No_Mode) *)
| DDisable (q : spc)             (* 523 *)
| Done (e : list hmsg)           (* returned, with the errors reported *)
| Thrown.                        (* left by an exception; Layer reports it as error *)

Inductive devent :=
| Thread                         (* the thread in the handler goes on *)
| Timeout                        (* its deadline passes *)
| Throw                          (* a transfer of it fails *)
| Own (sw m : Z)                 (* it reads status word and mode itself (483) *)
| Loop (sw m : Z)                (* the control loop reads them (handleRead) *)
| HaltState | Halt.              (* handleHalt as in ModeModel *)

Definition with_mo (x : drv) (y : mot) : drv := mkDrv y (ho x) (word x) (sfr x).
Definition with_ho (x : drv) (h : hom) : drv := mkDrv (mo x) h (word x) (sfr x).
(** A step of switchState: the errors it reports itself when it ends *)
Definition own_error (q q' : spc) : list hmsg :=
  match q, q' with STrans _, SRet false => [ETrans] | SWait _, SRet false => [ELate] | _, _ => [] end.
Definition in_switch (x : drv) (q : spc) (r : mot * spc) (k : spc -> dpc) (done : bool -> list hmsg -> dpc) : drv * dpc :=
  (with_mo x (fst r), match snd r with SRet b => done b (own_error q (snd r)) | p => k p end).
Definition enabled_then (next : dpc) (b : bool) (e : list hmsg) : dpc := if b then next else Done (e ++ [ENotEnabled]).
(** After switchMode(Homing) *)
Definition after_mode (p : pc) : dpc :=
  match p with Ret true => IHomeStart | Ret false => Done [EEnter] | Exc => Thrown | p => IMode p end.
Definition after_home (p : hpc) : dpc :=
  match p with HDone true => INoMode | HDone false => Done [EHome] | p => IHome p end.

Definition thread (d : dcfg) (x : drv) (p : dpc) : drv * dpc :=
  match p with
  | IClear => (mkDrv (with_cw (mo x) 0) (ho x) (word x) true, IEnable SEnter)
  | IEnable q => in_switch x q (switch_step OperationEnable q (mo x)) IEnable (enabled_then IAlloc)
  | IAlloc => (x, if negb (alloc (dc d) HOMING) then Done [] else if is_homing d then IMode (M0 HOMING) else Done [EWrongHandler])
  | IMode p =>
    let (y, p') := step (dc d) EThread (mo x, p) in
    let h := match p with M0 m => if alloc (dc d) m then hstart (ho x) else ho x | _ => ho x end in
    (mkDrv y h (word x) (sfr x), after_mode p')
  | IHomeStart => let (h, p') := execute_homing (hvalid d) (hmethod d) (ho x) in (with_ho x h, after_home p')
  | IHome p => let (h, p') := hstep HThread (ho x, p) in (with_ho x h, after_home p')
  | INoMode => (with_mo x (with_sel (mo x) None), Done [])
  | RMode =>
    match sel (mo x) with
    | Some k =>
      let y := mkM (st (mo x)) (tst (mo x)) (mcw (mo x)) (sel (mo x)) (shown (mo x)) (fun j => if j =? k then false else hast (mo x) j) (hloc (mo x)) in
      (mkDrv y (if k =? HOMING then hstart (ho x) else ho x) (word x) true,
       if startok (dc d) k then REnable SEnter else Done [ERestart])
    | None => (mkDrv (mo x) (ho x) (word x) true, REnable SEnter)
    end
  | REnable q => in_switch x q (switch_step OperationEnable q (mo x)) REnable (enabled_then (Done []))
  | DMode => (with_mo x (with_sel (mo x) None), DDisable SEnter)
  | DDisable q => in_switch x q (switch_step SwitchOnDisabled q (mo x)) DDisable (fun _ e => Done e)
  | IRead | Done _ | Thrown => (x, p)
  end.
Definition timeout (d : dcfg) (x : drv) (p : dpc) : drv * dpc :=
  match p with
  | IEnable q => in_switch x q (mo x, switch_timeout q (mo x)) IEnable (enabled_then IAlloc)
  | IMode p => let (y, p') := step (dc d) ETimeout (mo x, p) in (with_mo x y, after_mode p')
  | IHome p => let (h, p') := hstep HTimeout (ho x, p) in (with_ho x h, after_home p')
  | REnable q => in_switch x q (mo x, switch_timeout q (mo x)) REnable (enabled_then (Done []))
  | DDisable q => in_switch x q (mo x, switch_timeout q (mo x)) DDisable (fun _ e => Done e)
  | _ => (x, p)
  end.
Definition throw (d : dcfg) (x : drv) (p : dpc) : drv * dpc :=
  match p with
  | IRead | IAlloc => (x, Thrown)
  | IMode p => let (y, p') := step (dc d) EThrow (mo x, p) in (with_mo x y, after_mode p')
  | IHomeStart => (x, Thrown)
  | _ => (x, p)
  end.
Definition dstep (d : dcfg) (e : devent) (s : drv * dpc) : drv * dpc :=
  let (x, p) := s in
  match e with
  | Thread => thread d x p
  | Timeout => timeout d x p
  | Throw => throw d x p
  | Own sw m => match p with IRead => (fst (read_state d false sw m x), IClear) | _ => s end
  | Loop sw m => (fst (read_state d false sw m x), p)
  | HaltState => (with_mo x (fst (step (dc d) EHaltState (mo x, Ret true))), p)
  | Halt => (with_mo x (fst (step (dc d) EHalt (mo x, Ret true))), p)
  end.
Definition drun (d : dcfg) (l : list devent) (s : drv * dpc) : drv * dpc := fold_left (fun s e => dstep d e s) l s.
