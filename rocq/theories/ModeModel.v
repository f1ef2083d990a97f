(** Switching states and modes of a motor, and halting it, as interleaving of threads.
    Source: /repo/canopen_402/src/motor.cpp. *)
From Verif Require Import Base MotorModel.

(** What the threads share: the known state (state_ of State402), target_state_,
    control_word_, selected_mode_ (its id), mode_id_, has_target_ of the mode handlers,
    and the local variable of a thread in handleHalt. *)
Record mot := mkM { st : state402; tst : state402; mcw : Z; sel : option Z; shown : Z; hast : Z -> bool; hloc : option state402 }.
(** allocMode (279-289) finds a handler; its start() succeeds; switching_state_ *)
Record cfg := mkCfg { alloc : Z -> bool; startok : Z -> bool; swst : state402 }.

(** ** switchState, motor.cpp:359-377. Time between any two accesses to shared members. *)
Inductive spc :=
| SEnter                      (* 360-361 *)
| SSet (l : state402)         (* 362 *)
| SLoop (l : state402)        (* 363 *)
| STrans (l : state402)       (* 364-369, under cw_mutex_ *)
| SWait (l : state402)        (* 370 *)
| SRet (b : bool).
Definition with_tst (x : mot) (t : state402) : mot := mkM (st x) t (mcw x) (sel x) (shown x) (hast x) (hloc x).
Definition with_cw (x : mot) (c : Z) : mot := mkM (st x) (tst x) c (sel x) (shown x) (hast x) (hloc x).
Definition with_sel (x : mot) (m : option Z) : mot := mkM (st x) (tst x) (mcw x) m (shown x) (hast x) (hloc x).
Definition switch_step (target : state402) (p : spc) (x : mot) : mot * spc :=
  match p with
  | SEnter => (x, SSet (st x))
  | SSet l => (with_tst x target, SLoop l)
  | SLoop l => if state_eqb l (tst x) then (x, SRet (state_eqb l target)) else (x, STrans l)
  | STrans l =>
    let '(ok, c, next) := set_transition (mcw x) l (tst x) true in
    let n := match next with Some n => n | None => Start end in
    if ok then (with_cw x c, if state_eqb l n then SLoop l else SWait l) else (x, SRet false)
  | SWait l => if state_eqb (st x) l then (x, p) else (x, SLoop (st x))
  | SRet b => (x, p)
  end.
(** 72-78: the wait ends at its deadline *)
Definition switch_timeout (p : spc) (x : mot) : spc :=
  match p with
  | SWait l => if state_eqb (st x) l then SRet false else SLoop (st x)
  | _ => p
  end.

(** ** switchMode, motor.cpp:291-357, and the callers of switchState *)
Inductive pc :=
| PState (target : state402) (p : spc)   (* switchState from handleInit, handleRecover or handleShutdown *)
| M0 (m : Z)                             (* 293-311 *)
| M1 (m : Z)                             (* 313-322 *)
| S1 (m : Z) (p : spc)                   (* 324 *)
| M2 (m : Z)                             (* 326 *)
| M3 (m : Z)                             (* 330-350 *)
| S2 (m : Z) (ok : bool) (p : spc)       (* 353 *)
| Ret (b : bool)
| Exc.                                   (* left by an exception *)

(** 293-311: the start() of handlers with targets drops the target (motor.h:180) *)
Definition m0 (c : cfg) (m : Z) (x : mot) : mot * pc :=
  if m =? 0 then (with_sel x None, Ret true)
  else if negb (alloc c m) then (x, Ret false)
  else
    let x' := mkM (st x) (tst x) (mcw x) (sel x) (shown x) (fun k => if k =? m then false else hast x k) (hloc x) in
    if startok c m then (x', M1 m) else (x', Ret false).
Definition m1 (m : Z) (x : mot) : mot * pc :=
  match sel x with
  | Some k => if (shown x =? m) && (k =? m) then (x, Ret true) else (with_sel x None, S1 m SEnter)
  | None => (with_sel x None, S1 m SEnter)
  end.
Definition m3 (m : Z) (x : mot) (late : bool) : mot * pc :=
  if shown x =? m then (with_sel x (Some m), S2 m true SEnter)
  else if late then (x, S2 m false SEnter) else (x, M3 m).

Inductive event :=
| EThread                              (* the switching thread *)
| ETimeout                             (* its deadline passes *)
| EThrow                               (* an SDO transfer of it fails *)
| ERead (s : state402) (m : Z)         (* readState 379-396: known state and displayed mode *)
| EHaltState                           (* handleHalt 519: reads the state *)
| EHalt.                               (* handleHalt 520-532, under cw_mutex_ *)

(** handleHalt, 522-532 *)
Definition halt (x : mot) : mot :=
  match hloc x with
  | None => x
  | Some s =>
    let x' := mkM (st x) (tst x) (mcw x) (sel x) (shown x) (hast x) None in
    if state_eqb s FaultReactionActive || state_eqb s Fault then x'
    else if state_eqb s OperationEnable then
      let '(_, c, _) := set_transition (mcw x) s QuickStopActive false in
      with_cw (with_tst x' QuickStopActive) c
    else with_tst x' s
  end.

Definition after_switch (r : mot * spc) (k : spc -> pc) (done : bool -> pc) : mot * pc :=
  (fst r, match snd r with SRet b => done b | p => k p end).
Definition step (c : cfg) (e : event) (s : mot * pc) : mot * pc :=
  let (x, p) := s in
  match e with
  | ERead s m => (mkM s (tst x) (mcw x) (sel x) m (hast x) (hloc x), p)
  | EHaltState => (mkM (st x) (tst x) (mcw x) (sel x) (shown x) (hast x) (Some (st x)), p)
  | EHalt => (halt x, p)
  | EThread =>
    match p with
    | PState t q => after_switch (switch_step t q x) (PState t) Ret
    | M0 m => m0 c m x
    | M1 m => m1 m x
    | S1 m q => after_switch (switch_step (swst c) q x) (S1 m) (fun b => if b then M2 m else Ret false)
    | M2 m => (x, M3 m)
    | M3 m => m3 m x false
    | S2 m ok q => after_switch (switch_step OperationEnable q x) (S2 m ok) (fun b => Ret (b && ok))
    | Ret _ | Exc => s
    end
  | ETimeout =>
    match p with
    | PState t q => after_switch (x, switch_timeout q x) (PState t) Ret
    | S1 m q => after_switch (x, switch_timeout q x) (S1 m) (fun b => if b then M2 m else Ret false)
    | M3 m => m3 m x true
    | S2 m ok q => after_switch (x, switch_timeout q x) (S2 m ok) (fun b => Ret (b && ok))
    | _ => s
    end
  | EThrow =>
    match p with
    | M0 m => if m =? 0 then s else (x, Exc)
    | M2 m | M3 m => (x, Exc)
    | _ => s
    end
  end.
Definition run (c : cfg) (l : list event) (s : mot * pc) : mot * pc := fold_left (fun s e => step c e s) l s.
