(** CiA 402 motors: states, transitions, control word, modes. Source:
    /repo/canopen_402/src/motor.cpp and /repo/canopen_402/include/canopen_402/motor.h *)
From Coq Require Export SpecFloat.
From Verif Require Import Base.

(** motor.h:37-50, State402::InternalState; Unknown and Start are the same value *)
Inductive state402 := Start | NotReady | SwitchOnDisabled | ReadyToSwitchOn | SwitchedOn
  | OperationEnable | QuickStopActive | FaultReactionActive | Fault.
Definition state_eq_dec : forall a b : state402, {a = b} + {a <> b}.
Proof. decide equality. Defined.
Definition state_eqb (a b : state402) : bool := if state_eq_dec a b then true else false.

(** motor.cpp:12-64, State402::read: the state of a status word. Bits: 0 ready, 1
    switched on, 2 operation enabled, 3 fault, 5 quick stop, 6 switch on disabled. *)
Definition decode (sw : Z) : state402 :=
  let r := 1 in let s := 2 in let o := 4 in let f := 8 in let q := 32 in let d := 64 in
  let st := Z.land sw (d + q + f + o + s + r) in
  if (st =? 0) || (st =? q) then NotReady
  else if (st =? d) || (st =? d + q) then SwitchOnDisabled
  else if st =? q + r then ReadyToSwitchOn
  else if st =? q + s + r then SwitchedOn
  else if st =? q + o + s + r then OperationEnable
  else if st =? o + s + r then QuickStopActive
  else if (st =? f + o + s + r) || (st =? q + f + o + s + r) then FaultReactionActive
  else if (st =? f) || (st =? q + f) then Fault
  else Start.

(** motor.h:83-103, bits of the control word *)
Definition CW_SwitchOn := 0.
Definition CW_EnableVoltage := 1.
Definition CW_QuickStop := 2.
Definition CW_EnableOperation := 3.
Definition CW_FaultReset := 7.
Definition CW_Halt := 8.
Definition bit (n : Z) : Z := 2^n.

(** motor.h:61-68, Op: bits to set, bits to reset. Words are 16 bit. *)
Record op := mkOp { to_set : Z; to_reset : Z }.
Definition apply_op (o : op) (cw : Z) : Z := Z.lor (Z.land cw (Z.lnot (to_reset o))) (to_set o).

(** motor.cpp:82-118, TransitionTable *)
Definition disable_voltage := mkOp 0 (bit CW_FaultReset + bit CW_EnableVoltage).
Definition automatic := mkOp 0 0.
Definition shutdown := mkOp (bit CW_QuickStop + bit CW_EnableVoltage) (bit CW_FaultReset + bit CW_SwitchOn).
Definition switch_on := mkOp (bit CW_QuickStop + bit CW_EnableVoltage + bit CW_SwitchOn) (bit CW_FaultReset + bit CW_EnableOperation).
Definition enable_operation := mkOp (bit CW_QuickStop + bit CW_EnableVoltage + bit CW_SwitchOn + bit CW_EnableOperation) (bit CW_FaultReset).
Definition quickstop := mkOp (bit CW_EnableVoltage) (bit CW_FaultReset + bit CW_QuickStop).
Definition fault_reset := mkOp (bit CW_FaultReset) 0.
Definition transition (from to : state402) : option op :=
  match from, to with
  | ReadyToSwitchOn, SwitchOnDisabled => Some disable_voltage
  | OperationEnable, SwitchOnDisabled => Some disable_voltage
  | SwitchedOn, SwitchOnDisabled => Some disable_voltage
  | QuickStopActive, SwitchOnDisabled => Some disable_voltage
  | Start, NotReady => Some automatic
  | NotReady, SwitchOnDisabled => Some automatic
  | FaultReactionActive, Fault => Some automatic
  | SwitchOnDisabled, ReadyToSwitchOn => Some shutdown
  | SwitchedOn, ReadyToSwitchOn => Some shutdown
  | OperationEnable, ReadyToSwitchOn => Some shutdown
  | ReadyToSwitchOn, SwitchedOn => Some switch_on
  | OperationEnable, SwitchedOn => Some switch_on
  | SwitchedOn, OperationEnable => Some enable_operation
  | QuickStopActive, OperationEnable => Some enable_operation
  | ReadyToSwitchOn, QuickStopActive => Some quickstop
  | SwitchedOn, QuickStopActive => Some quickstop
  | OperationEnable, QuickStopActive => Some quickstop
  | Fault, SwitchOnDisabled => Some fault_reset
  | _, _ => None
  end.

(** motor.cpp:119-143, nextStateForEnabling *)
Definition next_for_enabling (s : state402) : state402 :=
  match s with
  | Start => NotReady
  | Fault | NotReady => SwitchOnDisabled
  | SwitchOnDisabled => ReadyToSwitchOn
  | ReadyToSwitchOn => SwitchedOn
  | SwitchedOn | QuickStopActive | OperationEnable => OperationEnable
  | FaultReactionActive => Fault
  end.

(** motor.cpp:145-161, setTransition; [hops]: [next] is not null. The result,
    the control word afterwards, and *next if it was written. *)
Definition set_transition (cw : Z) (from to : state402) (hops : bool) : bool * Z * option state402 :=
  if state_eqb from to then (true, cw, None)
  else
    let hop := if hops && state_eqb to OperationEnable then next_for_enabling from else to in
    let next := if hops then Some hop else None in
    match transition from hop with
    | Some o => (true, apply_op o cw, next)
    | None => (false, cw, next)
    end.

(** ** Writing the control word *)

(** motor.h:106-127, WordAccessor with the mask of OpModeAccesser (motor.h:133):
    bits 4, 5, 6 and 9 *)
Definition MODE_MASK : Z := bit 4 + bit 5 + bit 6 + bit 9.
Inductive acc := Set_ (b : Z) | Reset_ (b : Z) | Assign (v : Z).
Definition access (a : acc) (w : Z) : Z :=
  match a with
  | Set_ b => Z.lor w (Z.land MODE_MASK (bit b))
  | Reset_ b => Z.land w (Z.lnot (Z.land MODE_MASK (bit b)))
  | Assign v => Z.lor (Z.land w (Z.lnot MODE_MASK)) (Z.land v MODE_MASK)
  end.
Definition accesses (l : list acc) (w : Z) : Z := fold_left (fun w a => access a w) l w.

(** What the write function of the selected mode does with the word it is given,
    and its result *)
Record behaviour := mkBeh { acts : Z -> list acc; okay : Z -> bool }.

(** motor.cpp:414-437, handleWrite for current_state > Off: the control word
    afterwards, the word sent, and start_fault_reset_ afterwards. [sel] is the id
    and behaviour of selected_mode_, [shown] is mode_id_. *)
Definition handle_write (s : state402) (sel : option (Z * behaviour)) (shown : Z) (sfr : bool) (cw : Z) : Z * Z * bool :=
  let w0 := Z.lor cw (bit CW_Halt) in
  let w :=
    if state_eqb s OperationEnable then
      match sel with
      | Some (m, b) =>
        if m =? shown then
          let w1 := accesses (acts b w0) w0 in
          if okay b w0 then Z.land w1 (Z.lnot (bit CW_Halt)) else w1
        else access (Assign 0) w0
      | None => access (Assign 0) w0
      end
    else w0 in
  (w, if sfr then Z.land w (Z.lnot (bit CW_FaultReset)) else w, false).

(** ** Targets *)

(** Doubles are the standard library's [spec_float]: sign, mantissa m, exponent e
    stand for +-m * 2^e. *)

(** motor.h:142-181, ModeTargetHelper<T> for an integer type T with limits lo, hi *)
Record tgt := mkTgt { target : Z; has_target : bool }.

(** Value of a finite double times 2^max(-e,0), an integer *)
Definition signed (s : bool) (m : positive) : Z := if s then Z.neg m else Z.pos m.
Definition scaled (s : bool) (m : positive) (e : Z) : Z := signed s m * 2^(Z.max e 0).
Definition scale (e : Z) : Z := 2^(Z.max (- e) 0).

Inductive cast := Fits (v : Z) | NegOverflow | PosOverflow.
(** boost::numeric_cast<T>(double): range checks val <= lo - 1 and val >= hi + 1,
    then truncation towards zero. Assumes that lo - 1 and hi + 1 are doubles, as for
    all types up to 32 bit. NaN does not get here (motor.h:151). *)
Definition numeric_cast (lo hi : Z) (v : spec_float) : cast :=
  match v with
  | S754_infinity true => NegOverflow
  | S754_infinity false => PosOverflow
  | S754_finite s m e =>
    if scaled s m e <=? (lo - 1) * scale e then NegOverflow
    else if (hi + 1) * scale e <=? scaled s m e then PosOverflow
    else Fits (Z.quot (scaled s m e) (scale e))
  | _ => Fits 0
  end.

(** motor.h:150-178, setTarget *)
Definition helper_set_target (lo hi : Z) (v : spec_float) (t : tgt) : bool * tgt :=
  match v with
  | S754_nan => (false, t)
  | _ =>
    match numeric_cast lo hi v with
    | Fits n => (true, mkTgt n true)
    | NegOverflow => (true, mkTgt lo true)
    | PosOverflow => (true, mkTgt hi true)
    end
  end.
(** motor.h:180, start *)
Definition helper_start (t : tgt) : tgt := mkTgt (target t) false.

(** motor.cpp:245-251, Motor402::setTarget; the selected mode is [None], a mode with
    a target of a type with limits lo, hi, or a mode without targets (homing:
    motor.h:137, Mode::setTarget returns false) *)
Inductive selected := SNone | STarget (lo hi : Z) (t : tgt) | SNoTarget.
Definition set_target (s : state402) (sel : selected) (v : spec_float) : bool * selected :=
  if state_eqb s OperationEnable then
    match sel with
    | SNone => (false, sel)
    | SNoTarget => (false, sel)
    | STarget lo hi t => let (ok, t') := helper_set_target lo hi v t in (ok, STarget lo hi t')
    end
  else (false, sel).

(** motor.h:191-200, ModeForwardHelper::write; CW_MASK is [mask] *)
Definition forward_beh (mask : Z) (t : tgt) : behaviour :=
  mkBeh (fun w => if has_target t then [Assign (Z.lor (Z.land w MODE_MASK) mask)]
                  else [Assign (Z.land (Z.land w MODE_MASK) (Z.lnot mask))])
        (fun _ => has_target t).
(** motor.h:195, the value written to the target object *)
Definition forward_out (t : tgt) : option Z := if has_target t then Some (target t) else None.
(** motor.h:203-209, modes by forwarding: id, object, sub index, CW_MASK, limits *)
Definition MASK456 : Z := bit 4 + bit 5 + bit 6.
Definition I16 : Z * Z := (- 2^15, 2^15 - 1).
Definition I32 : Z * Z := (- 2^31, 2^31 - 1).
Definition forward_modes : list (Z * Z * Z * Z * (Z * Z)) :=
  [(3, 0x60FF, 0, 0, I32); (4, 0x6071, 0, 0, I16); (8, 0x607A, 0, 0, I32); (9, 0x60FF, 0, 0, I32);
   (10, 0x6071, 0, 0, I16); (2, 0x6042, 0, MASK456, I16); (7, 0x60C1, 1, bit 4, I32)].
Definition forward_mode (m : Z) : option (Z * Z * Z * Z * (Z * Z)) :=
  List.find (fun r => fst (fst (fst (fst r))) =? m) forward_modes.
(** A target set in such a mode (motor.h:150-178) and written (191-200): object, sub index
    and value, if anything is written *)
Definition forward_target (m : Z) (v : spec_float) (t : tgt) : option (Z * Z * Z) :=
  match forward_mode m with
  | None => None
  | Some (_, idx, sub, _, (lo, hi)) =>
    match forward_out (snd (helper_set_target lo hi v t)) with Some n => Some (idx, sub, n) | None => None end
  end.
(** The behaviour of such a mode in handleWrite *)
Definition forward_mode_beh (m : Z) (t : tgt) : option behaviour :=
  match forward_mode m with None => None | Some (_, _, _, mask, _) => Some (forward_beh mask t) end.

(** motor.cpp:181-188, DefaultHomingMode::write *)
Definition homing_beh (execute : bool) : behaviour :=
  mkBeh (fun _ => Assign 0 :: if execute then [Set_ 4] else []) (fun _ => execute).

(** ** The control word over time *)

(** What touches control_word_ and start_fault_reset_: handleInit (motor.cpp:480-484),
    handleRecover (535), switchState and handleHalt (366, 529: setTransition), and
    handleWrite. *)
Inductive wevent :=
| EInit | ERecover
| ETransition (from to : state402) (hops : bool)
| EWrite (s : state402) (sel : option (Z * behaviour)) (shown : Z).
Record wst := mkW { wcw : Z; wsfr : bool }.
(** The word written to 6040, if any *)
Definition wstep (x : wst) (e : wevent) : wst * option Z :=
  match e with
  | EInit => (mkW 0 true, None)
  | ERecover => (mkW (wcw x) true, None)
  | ETransition f t h => let '(_, cw, _) := set_transition (wcw x) f t h in (mkW cw (wsfr x), None)
  | EWrite s sel shown => let '(cw, sent, sfr) := handle_write s sel shown (wsfr x) (wcw x) in (mkW cw sfr, Some sent)
  end.
Fixpoint wrun (l : list wevent) (x : wst) : wst * list Z :=
  match l with
  | [] => (x, [])
  | e :: r =>
    let (x1, o) := wstep x e in
    let (x2, ws) := wrun r x1 in
    (x2, match o with Some w => w :: ws | None => ws end)
  end.

(** ** Supported modes *)

(** motor.cpp:268-273, isModeSupportedByDevice; [w6502] is the cached object 6502, None
    if the object does not exist. None: exception. *)
Definition by_device (w6502 : option Z) (mode : Z) : option bool :=
  match w6502 with
  | None => None
  | Some w => Some ((0 <? mode) && (mode <=? 32) && has w (2^(mode - 1)))
  end.
(** motor.cpp:279-289, allocMode *)
Definition alloc_mode (w6502 : option Z) (modes : list Z) (mode : Z) : option bool :=
  match by_device w6502 mode with
  | None => None
  | Some b => Some (b && existsb (Z.eqb mode) modes)
  end.
(** motor.cpp:252, isModeSupported *)
Definition is_mode_supported (w6502 : option Z) (modes : list Z) (mode : Z) : option bool :=
  if mode =? 6 then Some false else alloc_mode w6502 modes mode.
(** motor.h:317-335, motor.cpp:274-277 and 472-474: the modes registered by handleInit
    from the allocators added for [ids] *)
Definition init_modes (w6502 : option Z) (ids : list Z) : option (list Z) :=
  fold_right (fun m acc => match by_device w6502 m, acc with
                           | Some b, Some l => Some (if b then m :: l else l)
                           | _, _ => None
                           end) (Some []) ids.
Definition default_modes : list Z := [1; 2; 3; 4; 6; 7; 8; 9; 10].
