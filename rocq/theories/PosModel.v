(** Profiled position mode and its handshake with the drive. Source:
    /repo/canopen_402/include/canopen_402/motor.h:211-250. *)
From Verif Require Import Base MotorModel.

(** motor.h:211-215: sw_, last_target_ (None: NaN; otherwise an int32, exact in a
    double), and the members of ModeTargetHelper *)
Record pp := mkPP { psw : Z; plast : option Z; ptgt : tgt }.
(** motor.h:217-226: bits of the status and control word *)
Definition SW_ACK : Z := bit 12.
Definition SW_ERROR : Z := bit 13.
Definition NEW_POINT : Z := 4.
Definition IMMEDIATE : Z := 5.

(** motor.h:230, start *)
Definition pp_start (p : pp) : pp := mkPP 0 None (helper_start (ptgt p)).
(** motor.h:231, read *)
Definition pp_read (sw : Z) (p : pp) : pp * bool := (mkPP sw (plast p) (ptgt p), Z.land sw SW_ERROR =? 0).
(** motor.h:155-178 with 245-251 of motor.cpp *)
Definition pp_set (v : Z) (p : pp) : pp := mkPP (psw p) (plast p) (mkTgt v true).
Definition last_is (p : pp) (v : Z) : bool := match plast p with Some l => v =? l | None => false end.
(** motor.h:232-249, write: new state, control word, value written to 607A, result *)
Definition pp_write (p : pp) (w : Z) : pp * Z * option Z * bool :=
  let w := access (Set_ IMMEDIATE) w in
  if has_target (ptgt p) then
    let t := target (ptgt p) in
    if (Z.land (psw p) SW_ACK =? 0) && negb (last_is p t) then
      if Z.testbit w NEW_POINT then (p, access (Reset_ NEW_POINT) w, None, true)
      else (mkPP (psw p) (Some t) (ptgt p), access (Set_ NEW_POINT) w, Some t, true)
    else if has (psw p) SW_ACK then (p, access (Reset_ NEW_POINT) w, None, true)
    else (p, w, None, true)
  else (p, w, None, false).

(** ** With a drive *)

(** [pcw] and [pobj] are the control word and object 607A as written last, [rword] the
    word the drive has seen last; it has taken [taken] and acknowledges [ack]. [rep] is
    the status word sent last. *)
Record sys := mkS { mode : pp; pcw : Z; pobj : Z; rword : Z; taken : option Z; ack : bool; rep : Z }.
Inductive event :=
| PSet (v : Z)      (* setTarget *)
| PRestart          (* start() of the mode *)
| PWrite            (* handleWrite with the mode active *)
| PDrive            (* the drive looks at the objects *)
| PStatus (sw : Z)  (* the drive sends a status word; bit 12 is replaced by its ack *)
| PRead.            (* readState with the mode active *)
Definition status_with (sw : Z) (a : bool) : Z := Z.lor (Z.land sw (Z.lnot SW_ACK)) (if a then SW_ACK else 0).
(** The drive takes the position at a rising edge of new-setpoint and acknowledges; it
    withdraws the acknowledge when new-setpoint is low. *)
Definition drive_sees (s : sys) : sys :=
  let old := Z.testbit (rword s) NEW_POINT in let new := Z.testbit (pcw s) NEW_POINT in
  if new then
    if old then mkS (mode s) (pcw s) (pobj s) (pcw s) (taken s) (ack s) (rep s)
    else mkS (mode s) (pcw s) (pobj s) (pcw s) (Some (pobj s)) true (rep s)
  else mkS (mode s) (pcw s) (pobj s) (pcw s) (taken s) false (rep s).
Definition step (s : sys) (e : event) : sys :=
  match e with
  | PSet v => mkS (pp_set v (mode s)) (pcw s) (pobj s) (rword s) (taken s) (ack s) (rep s)
  | PRestart => mkS (pp_start (mode s)) (pcw s) (pobj s) (rword s) (taken s) (ack s) (rep s)
  | PWrite =>
    let '(p, w, o, _) := pp_write (mode s) (pcw s) in
    mkS p w (match o with Some v => v | None => pobj s end) (rword s) (taken s) (ack s) (rep s)
  | PDrive => drive_sees s
  | PStatus sw => mkS (mode s) (pcw s) (pobj s) (rword s) (taken s) (ack s) (status_with sw (ack s))
  | PRead => mkS (fst (pp_read (rep s) (mode s))) (pcw s) (pobj s) (rword s) (taken s) (ack s) (rep s)
  end.
Definition run (l : list event) (s : sys) : sys := fold_left step l s.
(** After the mode has been started *)
Definition init (w sw : Z) : sys := mkS (mkPP 0 None (mkTgt 0 false)) w 0 w None (Z.testbit w NEW_POINT) sw.
