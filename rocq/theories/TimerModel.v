(** The heartbeat of the chain: canopen::Timer and its use by RosChain.
    Source: /repo/canopen_master/include/canopen_master/timer.h,
    /repo/canopen_chain_node/src/ros_chain.cpp,
    /repo/canopen_chain_node/include/canopen_chain_node/ros_chain.h. *)
From Verif Require Import Base CanModel LayerModel ChainModel.

(** The members of Timer (timer.h:15-60): period (indeterminate until start), whether delegate
    is set, and of the asio timer: its expiry time, the number of pending waits, and the
    completions that wait for the thread, true if the time passed, false if cancelled.
    [clock]: the current time in ns. [beats]: the calls of the delegate, the latest first, with
    their time and result. *)
Record timer := mkTimer {
  clock : Z; period : option Z; armed : bool; expiry : Z; waits : nat; queue : list bool;
  beats : list (Z * bool) }.
Definition timer0 : timer := mkTimer 0 None false 0 0 [] [].

(** basic_waitable_timer::cancel: pending waits complete with operation_aborted; completions
    that are queued already stay. *)
Definition cancel (t : timer) : timer :=
  mkTimer (clock t) (period t) (armed t) (expiry t) 0 (queue t ++ repeat false (waits t)) (beats t).
(** expires_at (and expires_from_now): cancels, then sets the expiry *)
Definition expires_at (e : Z) (t : timer) : timer :=
  let t := cancel t in mkTimer (clock t) (period t) (armed t) e (waits t) (queue t) (beats t).
(** async_wait *)
Definition async_wait (t : timer) : timer :=
  mkTimer (clock t) (period t) (armed t) (expiry t) (S (waits t)) (queue t) (beats t).

(** stop, timer.h:24-27 *)
Definition stop (t : timer) : timer := cancel t.
(** restart, timer.h:37-41: reads period *)
Definition restart (t : timer) : outcome timer :=
  match period t with
  | None => Undef
  | Some p => Ok (async_wait (expires_at (clock t + p) t))
  end.
(** start with start_now = false, timer.h:28-36 *)
Definition start_later (p : Z) (t : timer) : timer :=
  mkTimer (clock t) (Some p) true (expiry t) (waits t) (queue t) (beats t).
(** start with start_now = true *)
Definition start (p : Z) (t : timer) : timer :=
  let t := start_later p t in async_wait (expires_at (clock t + p) t).

(** handler, timer.h:59-68, run for the first completion of the queue; [ok] is what the
    delegate returns.  The delegate is HeartbeatSender::send (ros_chain.h:174-180). *)
Definition handler (ok : bool) (t : timer) : outcome timer :=
  match queue t with
  | [] => Ok t
  | ec :: q =>
    let t := mkTimer (clock t) (period t) (armed t) (expiry t) (waits t) q (beats t) in
    if ec && armed t then
      let t := mkTimer (clock t) (period t) (armed t) (expiry t) (waits t) (queue t) ((clock t, ok) :: beats t) in
      if ok then
        match period t with
        | None => Undef
        | Some p => Ok (async_wait (expires_at (expiry t + p) t))
        end
      else Ok t
    else Ok t
  end.

(** Time passes; the waits of an expired timer complete; the thread takes one completion. *)
Inductive tevent := TPass (d : nat) | TExpire | TRun (ok : bool).
Definition tstep (e : tevent) (t : timer) : outcome timer :=
  match e with
  | TPass d => Ok (mkTimer (clock t + Z.of_nat d) (period t) (armed t) (expiry t) (waits t) (queue t) (beats t))
  | TExpire =>
    if expiry t <=? clock t
    then Ok (mkTimer (clock t) (period t) (armed t) (expiry t) 0 (queue t ++ repeat true (waits t)) (beats t))
    else Ok t
  | TRun ok => handler ok t
  end.
Fixpoint trun (l : list tevent) (t : timer) : outcome timer :=
  match l with
  | [] => Ok t
  | e :: l => match tstep e t with Undef => Undef | Ok t' => trun l t' end
  end.

(** ** setup_heartbeat, ros_chain.cpp:383-412.  A rate is a fraction of beats per second with
    positive denominator (doubles are taken to be exact; NaN is left out); [junk]: what the
    payload of the frame contains before.  The period is 1/rate in ns, cut off; the conversion
    of a duration that does not fit into 64 bits is undefined.  None: setup fails.
    Some None: nothing to do. *)
Definition hb_period (num den : Z) : outcome Z :=
  let p := (1000000000 * den) / num in if p <? 2^63 then Ok p else Undef.
Definition setup_heartbeat (junk : bytes) (msg : option text) (rate : option (Z * Z)) : outcome (option (option (frame * Z))) :=
  match msg, rate with
  | None, None => Ok (Some None)
  | _, _ =>
    let '(num, den) := match rate with Some r => r | None => (0, 1) end in
    if num <=? 0 then Ok None
    else
      let f := toframe junk (match msg with Some m => m | None => [] end) in
      if frame_isValid f then
        match hb_period num den with Undef => Undef | Ok p => Ok (Some (Some (f, p))) end
      else Ok None
  end.
(** The timer after setup *)
Definition setup_timer (s : option (frame * Z)) : timer :=
  match s with None => timer0 | Some (_, p) => start_later p timer0 end.

(** ** The chain with its timer: handle_init restarts the timer after a successful
    initialisation (ros_chain.cpp:151-154), handleShutdown stops it (212), also when the
    initialisation failed; nothing else does.  Success is read off the state of the chain. *)
Section Heart.
Variables (b : behaviour) (tr : tree) (reset_first : bool).
Inductive hevent := HChain (e : cevent) | HTimer (e : tevent).
Definition hstep (e : hevent) (s : chain * timer) : outcome (chain * timer) :=
  let '(c, t) := s in
  match e with
  | HTimer e => match tstep e t with Undef => Undef | Ok t' => Ok (c, t') end
  | HChain e =>
    match cstep b tr reset_first e c with
    | Undef => Undef
    | Ok (c', _) =>
      match e with
      | VInit _ =>
        if lgt (root tr c) Off then Ok (c', t)
        else if lgt (root tr c') Off then match restart t with Undef => Undef | Ok t' => Ok (c', t') end
        else Ok (c', stop t)
      | VShutdown => if lgt (root tr c) Init then Ok (c', stop t) else Ok (c', t)
      | _ => Ok (c', t)
      end
    end
  end.
Fixpoint hrun (l : list hevent) (s : chain * timer) : outcome (chain * timer) :=
  match l with
  | [] => Ok s
  | e :: l => match hstep e s with Undef => Undef | Ok s' => hrun l s' end
  end.
End Heart.
