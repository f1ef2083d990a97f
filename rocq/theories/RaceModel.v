(** One layer used by two threads: the services of the chain, which exclude each other, and the
    control loop.  The state of a layer is atomic, but every entry point reads and writes it
    several times.  Source: /repo/canopen_master/include/canopen_master/layer.h,
    /repo/canopen_chain_node/src/ros_chain.cpp:73-92, 134-247. *)
From Verif Require Import Base LayerModel.

(** Where a thread is inside shutdown (layer.h:96-102) or halt (103-109): before the test of
    the state, before the first assignment, before or inside the handler, before the last
    assignment *)
Inductive at4 := P0 | P1 | P2 | P3.
(** The thread of a service: init (86-95) and recover (110-123) go on with shutdown and halt
    when their handlers fail *)
Inductive spc := SIdle | SInit (k : at4) | SShut (k : at4) | SHalt (k : at4) | SRec (k : at4).
(** The control loop: read or write (77-82; the state is read twice), or a halt that follows
    an error (200-206).  [LCall c]: inside the handler, called with current_state [c] *)
Inductive lpc := LIdle | LTest | LArg | LCall (c : lstate) | LHalt (k : at4).
(** What was finished, the latest first.  A failed init ends as shutdown, a failed recover as
    halt. *)
Inductive done := DInit | DShutdown | DHalt | DRecover.
(** [ran]: the handlers of init, shutdown, halt and recover that ran, the latest first; [seen]:
    the states handed to the handlers of read and write *)
Record layer := mkL { st : lstate; sv : spc; lo : lpc; hist : list done; ran : list op; seen : list lstate }.
Definition layer0 : layer := mkL Off SIdle LIdle [] [] [].

Inductive service := CallInit | CallShutdown | CallHalt | CallRecover.
(** A service begins; its thread takes a step ([ok]: what the handler reports in the end); the
    control loop begins a pass; it takes a step *)
Inductive revent := Begin (s : service) | Service (ok : bool) | Cycle | Loop (ok : bool).

Definition goto (s : spc) (l : layer) : layer := mkL (st l) s (lo l) (hist l) (ran l) (seen l).
Definition assign (x : lstate) (l : layer) : layer := mkL x (sv l) (lo l) (hist l) (ran l) (seen l).
Definition enter (o : op) (l : layer) : layer := mkL (st l) (sv l) (lo l) (hist l) (o :: ran l) (seen l).
Definition finish (d : done) (l : layer) : layer := mkL (st l) SIdle (lo l) (d :: hist l) (ran l) (seen l).
Definition lgoto (p : lpc) (l : layer) : layer := mkL (st l) (sv l) p (hist l) (ran l) (seen l).
Definition lfinish (d : done) (l : layer) : layer := mkL (st l) (sv l) LIdle (d :: hist l) (ran l) (seen l).
Definition is_off (s : lstate) : bool := match s with Off => true | _ => false end.
Definition is_error (s : lstate) : bool := match s with Error => true | _ => false end.

(** A step of the service *)
Definition service_step (ok : bool) (l : layer) : layer :=
  match sv l with
  | SIdle => l
  | SInit P0 => if is_off (st l) then goto (SInit P1) l else finish DInit l
  | SInit P1 => goto (SInit P2) (assign Init l)
  | SInit P2 => goto (if ok then SInit P3 else SShut P0) (enter OInit l)
  | SInit P3 => finish DInit (assign Ready l)
  | SShut P0 => if is_off (st l) then finish DShutdown l else goto (SShut P1) l
  | SShut P1 => goto (SShut P2) (assign Shutdown l)
  | SShut P2 => goto (SShut P3) (enter OShutdown l)
  | SShut P3 => finish DShutdown (assign Off l)
  | SHalt P0 => if lgt (st l) Halt then goto (SHalt P1) l else finish DHalt l
  | SHalt P1 => goto (SHalt P2) (assign Halt l)
  | SHalt P2 => goto (SHalt P3) (enter OHalt l)
  | SHalt P3 => finish DHalt (assign Error l)
  | SRec P0 => if is_error (st l) then goto (SRec P1) l else finish DRecover l
  | SRec P1 => goto (SRec P2) (assign Recover l)
  | SRec P2 => goto (if ok then SRec P3 else SHalt P0) (enter ORecover l)
  | SRec P3 => finish DRecover (assign Ready l)
  end.
(** A step of the control loop *)
Definition loop_step (ok : bool) (l : layer) : layer :=
  match lo l with
  | LIdle => l
  | LTest => if lgt (st l) Off then lgoto LArg l else lgoto LIdle l
  | LArg => mkL (st l) (sv l) (LCall (st l)) (hist l) (ran l) (st l :: seen l)
  | LCall _ => lgoto (if ok then LIdle else LHalt P0) l
  | LHalt P0 => if lgt (st l) Halt then lgoto (LHalt P1) l else lfinish DHalt l
  | LHalt P1 => lgoto (LHalt P2) (assign Halt l)
  | LHalt P2 => lgoto (LHalt P3) (enter OHalt l)
  | LHalt P3 => lfinish DHalt (assign Error l)
  end.
Definition rstep (e : revent) (l : layer) : layer :=
  match e with
  | Begin s =>
    match sv l with
    | SIdle => goto (match s with CallInit => SInit P0 | CallShutdown => SShut P0 | CallHalt => SHalt P0 | CallRecover => SRec P0 end) l
    | _ => l
    end
  | Service ok => service_step ok l
  | Cycle => match lo l with LIdle => lgoto LTest l | _ => l end
  | Loop ok => loop_step ok l
  end.
Definition rrun (es : list revent) (l : layer) : layer := fold_left (fun l e => rstep e l) es l.
