(** ThreadedInterface: a driver with its own thread, as used by the bridges and tools.
    Source: /repo/socketcan_interface/include/socketcan_interface/threading.h:38-88, with the driver of LifeModel.
    The state is that of LifeModel; [res] is the result of the last finished call: for init the returned value (first component).
    The places of the calling thread are those of LifeModel, with these lines:
    IThread: 64, ICopy, IListen: 65 (StateWaiter, 21-24), ISpawn: 66, IWait: 67, IFinal: 69,
    SClose, SStop: 73 (asio_base.h:24-30), SJoin: 74 (44-48). Interrupting the thread (45) has no effect on it. *)
From Verif Require Import Base SocketCanModel LifeModel.

(** The call returns; init returns [r]. The waiter is gone. *)
Definition return_ (r : bool) (s : sys) : sys := mkSys (ds s) (sk s) (stopped s) (rt s) None (others s) Idle false false (Some (r, false)).
Definition tlayer_step (ok : bool) (s : sys) : sys :=
  match lp s with
  | IThread =>
    match rt s with
    | RNone => let (r, s1) := driver_init ok s in if r then with_lp ICopy s1 else with_lp IFinal s1
    | _ => with_lp IFinal s
    end
  | ICopy => with_lp (IListen (ds s)) s
  | IListen x => with_lp ISpawn (with_copy (Some x) s)
  | ISpawn => with_lp IWait (with_rt REval s)
  | IWait => match copy s with Some Ready => return_ true s | _ => s end
  | IFinal => return_ (drv_eqb (ds s) Ready) s
  | SClose a => with_lp (SStop a) (with_sk false s)
  | SStop a => with_lp (SJoin a) (with_stopped true s)
  | SJoin a => match rt s with RNone | REnd => return_ true (with_rt RNone s) | _ => s end
  | _ => s
  end.
(** the deadline of the wait in init, threading.h:25-36 *)
Definition tdeadline (s : sys) : sys :=
  match lp s with
  | IWait => match copy s with Some Ready => return_ true s | _ => return_ false s end
  | _ => s
  end.
(** Events are those of LifeModel; there is no recover (such a call is no event here). *)
Definition tstep (s : sys) (e : event) : sys :=
  match e with
  | Call OInit => match lp s with Idle => mkSys (ds s) (sk s) (stopped s) (rt s) None (others s) IThread false false None | _ => s end
  | Call OShutdown => match lp s with Idle => mkSys (ds s) (sk s) (stopped s) (rt s) None (others s) (SClose false) false false None | _ => s end
  | Call ORecover => s
  | Layer ok => tlayer_step ok s
  | Deadline => tdeadline s
  | Driver => driver_step s
  | NotReady => set_ds (not_ready (sk s)) s
  | Look => with_others (others s ++ [sk s]) s
  | Act n => match nth_error (others s) n with
             | Some b => with_others (firstn n (others s) ++ skipn (S n) (others s)) (set_ds (not_ready b) s)
             | None => s
             end
  end.
Definition trun (l : list event) (s : sys) : sys := fold_left tstep l s.
