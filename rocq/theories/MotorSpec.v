(** CiA 402 as users know it: status words and a conforming drive. *)
From Verif Require Import Base MotorModel.

(** ** Status words: mask and value of each state *)
Definition denotes (s : state402) (sw : Z) : Prop :=
  match s with
  | NotReady => Z.land sw 0x4F = 0x00
  | SwitchOnDisabled => Z.land sw 0x4F = 0x40
  | ReadyToSwitchOn => Z.land sw 0x6F = 0x21
  | SwitchedOn => Z.land sw 0x6F = 0x23
  | OperationEnable => Z.land sw 0x6F = 0x27
  | QuickStopActive => Z.land sw 0x6F = 0x07
  | FaultReactionActive => Z.land sw 0x4F = 0x0F
  | Fault => Z.land sw 0x4F = 0x08
  | Start => False
  end.

(** ** A conforming drive *)
Inductive command := CShutdown | CSwitchOn | CEnable | CDisableVoltage | CQuickStop.
(** Command of a control word, given its bits 0, 1, 2, 3 and 7; none while bit 7
    (fault reset) is set. *)
Definition command_bits (b0 b1 b2 b3 b7 : bool) : option command :=
  if b7 then None
  else if negb b1 then Some CDisableVoltage
  else if negb b2 then Some CQuickStop
  else if negb b0 then Some CShutdown
  else if b3 then Some CEnable else Some CSwitchOn.
Definition command_of (w : Z) : option command :=
  command_bits (Z.testbit w 0) (Z.testbit w 1) (Z.testbit w 2) (Z.testbit w 3) (Z.testbit w 7).

(** The state after a command; the numbers are those of the transitions in CiA
    402. Enable operation in state Ready to switch on does both transitions. *)
Definition obey (s : state402) (c : option command) : state402 :=
  match s, c with
  | SwitchOnDisabled, Some CShutdown => ReadyToSwitchOn        (* 2 *)
  | ReadyToSwitchOn, Some CSwitchOn => SwitchedOn              (* 3 *)
  | ReadyToSwitchOn, Some CEnable => SwitchedOn                (* 3, then 4 *)
  | ReadyToSwitchOn, Some CDisableVoltage => SwitchOnDisabled  (* 7 *)
  | ReadyToSwitchOn, Some CQuickStop => SwitchOnDisabled       (* 7 *)
  | SwitchedOn, Some CEnable => OperationEnable                (* 4 *)
  | SwitchedOn, Some CShutdown => ReadyToSwitchOn              (* 6 *)
  | SwitchedOn, Some CDisableVoltage => SwitchOnDisabled       (* 10 *)
  | SwitchedOn, Some CQuickStop => SwitchOnDisabled            (* 10 *)
  | OperationEnable, Some CSwitchOn => SwitchedOn              (* 5 *)
  | OperationEnable, Some CShutdown => ReadyToSwitchOn         (* 8 *)
  | OperationEnable, Some CDisableVoltage => SwitchOnDisabled  (* 9 *)
  | OperationEnable, Some CQuickStop => QuickStopActive        (* 11 *)
  | QuickStopActive, Some CDisableVoltage => SwitchOnDisabled  (* 12 *)
  | QuickStopActive, Some CEnable => OperationEnable           (* 16 *)
  | _, _ => s
  end.
(** Fault reset is the rising edge of bit 7. *)
Definition rising (old new : Z) : bool := negb (Z.testbit old 7) && Z.testbit new 7.
(** The transition a drive makes next: automatic ones, fault reset after an edge,
    otherwise the command of the last word. *)
Definition drive_step (s : state402) (edge : bool) (w : Z) : state402 :=
  match s with
  | Start => NotReady                                          (* 0 *)
  | NotReady => SwitchOnDisabled                               (* 1 *)
  | FaultReactionActive => Fault                               (* 14 *)
  | Fault => if edge then SwitchOnDisabled else Fault          (* 15 *)
  | _ => obey s (command_of w)
  end.

(** The bits of the control word that belong to the state machine *)
Definition state_bit (i : Z) : Prop := 0 <= i <= 3 \/ i = 7.
Definition mode_bit (i : Z) : Prop := 4 <= i <= 6 \/ i = 9.

(** The transitions of CiA 402 that can be requested *)
Definition standard : list (state402 * state402) :=
  [(Start, NotReady); (NotReady, SwitchOnDisabled); (SwitchOnDisabled, ReadyToSwitchOn); (ReadyToSwitchOn, SwitchedOn);
   (SwitchedOn, OperationEnable); (OperationEnable, SwitchedOn); (SwitchedOn, ReadyToSwitchOn);
   (ReadyToSwitchOn, SwitchOnDisabled); (OperationEnable, ReadyToSwitchOn); (OperationEnable, SwitchOnDisabled);
   (SwitchedOn, SwitchOnDisabled); (OperationEnable, QuickStopActive); (QuickStopActive, SwitchOnDisabled);
   (FaultReactionActive, Fault); (Fault, SwitchOnDisabled); (QuickStopActive, OperationEnable)].

(** The transitions the driver has besides the standard's: quick stop where the drive
    is not enabled *)
Definition extra : list (state402 * state402) :=
  [(ReadyToSwitchOn, QuickStopActive); (SwitchedOn, QuickStopActive)].
(** Where a request leads next: requests for Operation Enabled with [hops] go by the
    next state on the way *)
Definition way : list (state402 * state402) :=
  [(Start, NotReady); (NotReady, SwitchOnDisabled); (Fault, SwitchOnDisabled); (SwitchOnDisabled, ReadyToSwitchOn);
   (ReadyToSwitchOn, SwitchedOn); (SwitchedOn, OperationEnable); (QuickStopActive, OperationEnable);
   (FaultReactionActive, Fault)].
Definition goal_of (from to : state402) (hops : bool) (g : state402) : Prop :=
  if hops then (to = OperationEnable /\ In (from, g) way) \/ (to <> OperationEnable /\ g = to) else g = to.

(** ** Targets *)

(** [v] is the number num/den *)
Definition represents (v : spec_float) (num den : Z) : Prop :=
  0 < den /\
  match v with
  | S754_zero _ => num = 0
  | S754_finite s m e =>
    let sm := if s then Z.neg m else Z.pos m in
    if 0 <=? e then num = den * (sm * 2^e) else num * 2^(- e) = den * sm
  | _ => False
  end.
(** [t] is num/den without its fractional part *)
Definition truncation (num den t : Z) : Prop :=
  (0 <= num /\ 0 <= t /\ t * den <= num < (t + 1) * den) \/
  (num < 0 /\ t <= 0 /\ (t - 1) * den < num <= t * den).

(** Target objects of CiA 402, part 2, by mode: index, sub index and limits of the data type *)
Inductive target_object : Z -> Z -> Z -> Z -> Z -> Prop :=
| TVelocity : target_object 2 0x6042 0 (-32768) 32767
| TProfiledVelocity : target_object 3 0x60FF 0 (-2147483648) 2147483647
| TProfiledTorque : target_object 4 0x6071 0 (-32768) 32767
| TInterpolated : target_object 7 0x60C1 1 (-2147483648) 2147483647
| TSyncPosition : target_object 8 0x607A 0 (-2147483648) 2147483647
| TSyncVelocity : target_object 9 0x60FF 0 (-2147483648) 2147483647
| TSyncTorque : target_object 10 0x6071 0 (-32768) 32767.
(** Bits of the control word that switch the mode on: ramp generator in velocity mode,
    interpolation in interpolated position mode *)
Definition mode_on_bit (m i : Z) : Prop := (m = 2 /\ 4 <= i <= 6) \/ (m = 7 /\ i = 4).

(** ** Control words over time *)
Definition is_write (e : wevent) : bool := match e with EWrite _ _ _ => true | _ => false end.
Definition restart (e : wevent) : bool := match e with EInit | ERecover => true | _ => false end.

(** Modes of operation of CiA 402 the driver has classes for (object 6060) *)
Inductive known_mode : Z -> Prop :=
| KProfiledPosition : known_mode 1
| KVelocity : known_mode 2
| KProfiledVelocity : known_mode 3
| KProfiledTorque : known_mode 4
| KHoming : known_mode 6
| KInterpolated : known_mode 7
| KCyclicPosition : known_mode 8
| KCyclicVelocity : known_mode 9
| KCyclicTorque : known_mode 10.
