(** The life of a CAN driver under CANLayer, as interleaving of threads: the thread calling
    the layer, the thread executing run() of the driver, and other users of the driver.
    Source: /repo/canopen_master/include/canopen_master/can_layer.h,
    /repo/socketcan_interface/include/socketcan_interface/threading.h (StateWaiter),
    /repo/socketcan_interface/include/socketcan_interface/asio_base.h,
    /repo/socketcan_interface/include/socketcan_interface/socketcan.h.
    Error codes, frames and diagnostics are left out (see SocketCanModel). *)
From Verif Require Import Base SocketCanModel.

(** AsioDriver::run, asio_base.h:95-114, by what comes next. [REval], [RSet]: setNotReady
    (70-72) looks at the socket, then changes the state; the same at the end. [RServe] is
    io_service_.run(), which returns when the service was stopped; the work object keeps it
    running otherwise. *)
Inductive rpc :=
| RNone                  (* there is no thread *)
| REval | RSet (b : bool) | RCheck | RReset | RReady | RServe
| REval2 | RSet2 (b : bool) | RCopy | RTell (s : drv)
| REnd.                  (* the function has returned, the thread is not joined *)

(** The calling thread in handleInit (can_layer.h:70-88), handleShutdown (89-101) and
    handleRecover (105-110). Interrupting the thread (97) has no effect on it: it does not reach
    an interruption point. *)
Inductive op := OInit | OShutdown | ORecover.
Inductive lpc :=
| Idle
| IThread                        (* 71-73 *)
| ICopy | IListen (s : drv)      (* 76, StateWaiter: threading.h:21-24 *)
| ISpawn                         (* 78 *)
| IWait                          (* 81 *)
| IFinal                         (* 85 *)
| VCheck                         (* 106 *)
| SCopy (again : bool) | SListen (again : bool) (s : drv) (* 90; [again]: called by handleRecover *)
| SClose (again : bool) | SStop (again : bool) (* 92: asio_base.h:24-30 *)
| SWait (again : bool)           (* 93 *)
| SJoin (again : bool).          (* 96-100 *)

(** Driver state, socket_.is_open(), io_service stopped, the driver's thread, the copy of the
    state in the current waiter, threads that are in setNotReady between its two accesses, the
    calling thread, errors and warnings of the running call, and the result of the last
    finished call (error, warning). *)
Record sys := mkSys { ds : drv; sk : bool; stopped : bool; rt : rpc; copy : option drv; others : list bool;
  lp : lpc; err : bool; warn : bool; res : option (bool * bool) }.
Definition sys0 : sys := mkSys Closed false false RNone None [] Idle false false None.

(** setDriverState, asio_base.h:63-69, with StateWaiter::updateState, threading.h:14-19 *)
Definition set_ds (x : drv) (s : sys) : sys :=
  if drv_eqb (ds s) x then s
  else mkSys x (sk s) (stopped s) (rt s) (match copy s with Some _ => Some x | None => None end) (others s) (lp s) (err s) (warn s) (res s).
Definition with_rt (r : rpc) (s : sys) : sys := mkSys (ds s) (sk s) (stopped s) r (copy s) (others s) (lp s) (err s) (warn s) (res s).
Definition with_lp (l : lpc) (s : sys) : sys := mkSys (ds s) (sk s) (stopped s) (rt s) (copy s) (others s) l (err s) (warn s) (res s).
Definition with_sk (b : bool) (s : sys) : sys := mkSys (ds s) b (stopped s) (rt s) (copy s) (others s) (lp s) (err s) (warn s) (res s).
Definition with_stopped (b : bool) (s : sys) : sys := mkSys (ds s) (sk s) b (rt s) (copy s) (others s) (lp s) (err s) (warn s) (res s).
Definition with_copy (c : option drv) (s : sys) : sys := mkSys (ds s) (sk s) (stopped s) (rt s) c (others s) (lp s) (err s) (warn s) (res s).
Definition with_others (l : list bool) (s : sys) : sys := mkSys (ds s) (sk s) (stopped s) (rt s) (copy s) l (lp s) (err s) (warn s) (res s).
Definition with_err (s : sys) : sys := mkSys (ds s) (sk s) (stopped s) (rt s) (copy s) (others s) (lp s) true (warn s) (res s).
Definition with_warn (s : sys) : sys := mkSys (ds s) (sk s) (stopped s) (rt s) (copy s) (others s) (lp s) (err s) true (res s).
Definition finish (s : sys) : sys := mkSys (ds s) (sk s) (stopped s) (rt s) None (others s) Idle (err s) (warn s) (Some (err s, warn s)).
Definition not_ready (b : bool) : drv := if b then Open else Closed.

(** A step of run() *)
Definition driver_step (s : sys) : sys :=
  match rt s with
  | RNone | REnd => s
  | REval => with_rt (RSet (sk s)) s
  | RSet b => with_rt RCheck (set_ds (not_ready b) s)
  | RCheck => with_rt (if drv_eqb (ds s) Open then RReset else RCopy) s
  | RReset => with_rt RReady (with_stopped false s)
  | RReady => with_rt RServe (set_ds Ready s)
  | RServe => if stopped s then with_rt REval2 s else s
  | REval2 => with_rt (RSet2 (sk s)) s
  | RSet2 b => with_rt RCopy (set_ds (not_ready b) s)
  | RCopy => with_rt (RTell (ds s)) s
  | RTell x => with_rt REnd (with_copy (match copy s with Some _ => Some x | None => None end) s)
  end.

(** SocketCANInterface::init, socketcan.h:137-206; [ok]: the system calls succeed. *)
Definition driver_init (ok : bool) (s : sys) : bool * sys :=
  match ds s with
  | Closed => if ok then (true, set_ds Open (with_sk true s)) else (false, s)
  | x => (drv_eqb x Ready, s)
  end.

(** A step of the calling thread; [ok] is used by driver_init. *)
Definition layer_step (ok : bool) (s : sys) : sys :=
  match lp s with
  | Idle => s
  | IThread =>
    match rt s with
    | RNone => let (r, s1) := driver_init ok s in if r then with_lp ICopy s1 else with_lp IFinal (with_err s1)
    | _ => with_lp IFinal (with_warn s)
    end
  | ICopy => with_lp (IListen (ds s)) s
  | IListen x => with_lp ISpawn (with_copy (Some x) s)
  | ISpawn => with_lp IWait (with_rt REval s)
  | IWait => match copy s with Some Ready => with_lp IFinal (with_copy None s) | _ => s end
  | IFinal => finish (if drv_eqb (ds s) Ready then s else with_err s)
  | VCheck => if drv_eqb (ds s) Ready then finish s else with_lp (SCopy true) s
  | SCopy a => with_lp (SListen a (ds s)) s
  | SListen a x => with_lp (SClose a) (with_copy (Some x) s)
  | SClose a => with_lp (SStop a) (with_sk false s)
  | SStop a => with_lp (SWait a) (with_stopped true s)
  | SWait a => match copy s with Some Closed => with_lp (SJoin a) s | _ => s end
  | SJoin a =>
    match rt s with
    | RNone | REnd => let s1 := with_copy None (with_rt RNone s) in if a then with_lp IThread s1 else finish s1
    | _ => s
    end
  end.
(** The deadline of a wait passes: threading.h:25-36. A change that comes later has no effect
    on the result of the wait. *)
Definition deadline (s : sys) : sys :=
  match lp s with
  | IWait => match copy s with Some Ready => with_lp IFinal (with_copy None s) | _ => with_lp IFinal (with_copy None (with_err s)) end
  | SWait a => match copy s with Some Closed => with_lp (SJoin a) s | _ => with_lp (SJoin a) (with_warn s) end
  | _ => s
  end.

Inductive event :=
| Call (o : op)        (* a handler of the layer is called *)
| Layer (ok : bool)    (* the calling thread continues *)
| Deadline
| Driver               (* the thread of the driver continues *)
| NotReady             (* another thread executes setNotReady (after a failed transmission or
                          reception) undisturbed *)
| Look | Act (n : nat). (* the same in two pieces *)
Definition step (s : sys) (e : event) : sys :=
  match e with
  | Call o =>
    match lp s with
    | Idle => mkSys (ds s) (sk s) (stopped s) (rt s) None (others s)
                (match o with OInit => IThread | OShutdown => SCopy false | ORecover => VCheck end) false false None
    | _ => s
    end
  | Layer ok => layer_step ok s
  | Deadline => deadline s
  | Driver => driver_step s
  | NotReady => set_ds (not_ready (sk s)) s
  | Look => with_others (others s ++ [sk s]) s
  | Act n => match nth_error (others s) n with
             | Some b => with_others (firstn n (others s) ++ skipn (S n) (others s)) (set_ds (not_ready b) s)
             | None => s
             end
  end.
Definition run (l : list event) (s : sys) : sys := fold_left step l s.
