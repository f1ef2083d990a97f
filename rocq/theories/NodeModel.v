(** Nodes: NMT state, heartbeat supervision, commands. Source:
    /repo/canopen_master/src/node.cpp and
    /repo/canopen_master/include/canopen_master/canopen.h *)
From Verif Require Import Base.

(** canopen.h:191-193 *)
Definition Unknown := 255.
Definition BootUp := 0.
Definition Stopped := 4.
Definition Operational := 5.
Definition PreOperational := 127.

(** node.cpp:10-16, NMTcommand::Command *)
Inductive cmd := Start | Stop | Prepare | Reset | ResetCom.
Definition cmd_code (c : cmd) : Z :=
  match c with Start => 1 | Stop => 2 | Prepare => 128 | Reset => 129 | ResetCom => 130 end.

(** The heartbeat object 1017: not in the dictionary, without cached value, or
    with a cached value. *)
Inductive hb := HbNone | HbUnread | HbVal (v : Z).

(** The members of Node that matter here. Times are in nanoseconds. [n_def] is
    the value of object 1017 after a reset of the storage, [n_conf] the one
    setHeartbeatInterval configures (desc().value()). *)
Record node := mkNode {
  n_id : Z;
  n_sync : bool;
  n_listening : bool;
  n_state : Z;
  n_hb : hb;
  n_def : hb;
  n_conf : Z;
  n_deadline : Z
}.
Definition with_state (n : node) (s : Z) : node :=
  mkNode (n_id n) (n_sync n) (n_listening n) s (n_hb n) (n_def n) (n_conf n) (n_deadline n).
Definition with_hb (n : node) (h : hb) : node :=
  mkNode (n_id n) (n_sync n) (n_listening n) (n_state n) h (n_def n) (n_conf n) (n_deadline n).
Definition with_deadline (n : node) (t : Z) : node :=
  mkNode (n_id n) (n_sync n) (n_listening n) (n_state n) (n_hb n) (n_def n) (n_conf n) t.
Definition with_listening (n : node) (l : bool) : node :=
  mkNode (n_id n) (n_sync n) l (n_state n) (n_hb n) (n_def n) (n_conf n) (n_deadline n).

(** What a node does: NMT frames (node.cpp:20-25: two bytes, command and node
    id), calls of the sync layer, of state listeners, accesses to object 1017. *)
Inductive act :=
| Send (data : bytes)
| Add
| Remove
| Notify (s : Z)
| ReadHb (v : option Z)
| WriteHb (v : Z) (ok : bool).

Definition send_cmd (n : node) (c : cmd) : act := Send [cmd_code c; n_id n].

(** node.cpp:94-114, switchState *)
Definition switch_state (s : Z) (n : node) : node * list act :=
  let changed := negb (n_state n =? s) in
  let sync :=
    if s =? Operational then if changed && n_sync n then [Add] else []
    else if (s =? BootUp) || (s =? PreOperational) || (s =? Stopped)
    then if changed && n_sync n then [Remove] else []
    else [] in
  if changed then (with_state n s, sync ++ [Notify s]) else (n, sync).

(** canopen.h:254, getHeartbeatInterval. [rd] is the answer of the device
    should the value have to be read, None an exception. *)
Definition interval (rd : option Z) (n : node) : node * list act * option Z :=
  match n_hb n with
  | HbNone => (n, [], Some 0)
  | HbVal v => (n, [], Some v)
  | HbUnread =>
    match rd with
    | Some v => (with_hb n (HbVal v), [ReadHb (Some v)], Some v)
    | None => (with_hb n (HbVal 0), [ReadHb None], None)
    end
  end.

(** canopen.h:255, setHeartbeatInterval; [ok] whether the write succeeds. *)
Definition set_interval (v : Z) (ok : bool) (n : node) : node * list act * bool :=
  match n_hb n with
  | HbNone => (n, [], true)
  | _ => (with_hb n (HbVal v), [WriteHb v ok], ok)
  end.

Definition ms : Z := 1000000.

(** node.cpp:115-121, handleNMT, called in the thread that receives frames. If
    the interval must be read there the read cannot be answered, because the
    answer would be received by the same thread: it throws. [true] tells that
    the frame was handled. *)
Definition handle_nmt (now s : Z) (n : node) : node * list act * bool :=
  let '(n1, a, v) := interval None n in
  match v with
  | None => (n1, a, false)
  | Some v =>
    let n2 := if v =? 0 then n1 else with_deadline n1 (now + 3 * v * ms) in
    let '(n3, a3) := switch_state s n2 in (n3, a ++ a3, true)
  end.

(** node.cpp:141-145, checkHeartbeat. If the value had to be read the function
    would block; its value is given in [rd]. *)
Definition check_heartbeat (now : Z) (rd : option Z) (n : node) : node * list act * option bool :=
  let '(n1, a, v) := interval rd n in
  match v with
  | None => (n1, a, None)
  | Some v => (n1, a, Some (if v =? 0 then true else now <=? n_deadline n1))
  end.

(** node.cpp:148-158, handleRead: what is reported. [run] is current_state > Init. *)
Inductive readres := HeartbeatProblem | NotOperational | ReadPdo | ReadThrow | NotRunning.
Definition handle_read (run : bool) (now : Z) (rd : option Z) (n : node) : node * list act * readres :=
  if run then
    let '(n1, a, c) := check_heartbeat now rd n in
    (n1, a, match c with
            | None => ReadThrow
            | Some false => HeartbeatProblem
            | Some true => if n_state n1 =? Operational then ReadPdo else NotOperational
            end)
  else (n, [], NotRunning).

(** ** Commands *)

(** The state a command waits for, node.cpp:48, 59, 74, 82 *)
Definition target (c : cmd) : option Z :=
  match c with
  | Start => Some Operational
  | Prepare => Some PreOperational
  | Reset | ResetCom => Some BootUp
  | Stop => None
  end.
Definition is_reset (c : cmd) : bool := match c with Reset | ResetCom => true | _ => false end.
Definition timeout (c : cmd) : Z := (if is_reset c then 10 else 2) * 1000 * ms.

(** Where the commanding thread is: outside of commands, in the loop of wait_for
    (with abs_time), or behind it in reset/reset_com (lines 51 and 62). *)
Inductive phase := Idle | Waiting (c : cmd) (abs_time : Z) | Confirmed (c : cmd).
Record st := mkSt { s_node : node; s_phase : phase }.

Inductive event :=
| Call (c : cmd) (now : Z)             (* a command is called *)
| Nmt (s : Z) (now : Z)                (* the receiving thread got a heartbeat *)
| Wake                                 (* the waiting thread looks at the state *)
| TimedOut (rd : option Z) (now : Z)   (* wait_until returned timeout *)
| Finish (ok : bool)                   (* the end of a reset; [ok]: write of 1017 *)
| Listen                               (* line 177, start of handleInit *)
| ShutdownNode (rd : option Z) (ok : bool). (* handleShutdown; [ok]: write of 1017 *)

Inductive result := RTrue | RFalse | RThrow.

(** node.cpp:44-92, the commands, and 122-140, wait_for, as steps. The mutex of
    the node admits one command at a time: a call while another one runs waits,
    i.e. is not a step. *)
Definition call (c : cmd) (now : Z) (n : node) : st * list act * option result :=
  match c with
  | Stop => (mkSt n Idle, (if n_sync n then [Remove] else []) ++ [send_cmd n Stop], Some RTrue)
  | Start | Prepare => (mkSt n (Waiting c (now + timeout c)), [send_cmd n c], None)
  | Reset | ResetCom =>
    (mkSt (match n_hb n with HbNone => n | _ => with_hb n (n_def n) end) (Waiting c (now + timeout c)), [send_cmd n c], None)
  end.

(** wait_for returns 1 *)
Definition confirm (c : cmd) (n : node) : st * list act * option result :=
  if is_reset c then (mkSt n (Confirmed c), [], None) else (mkSt n Idle, [], Some RTrue).

(** node.cpp:132-137; the result -1 is failure for resets (line 48: != 1) and
    success for prepare and start (0 != ...) *)
Definition give_up (c : cmd) (s : Z) (rd : option Z) (n : node) : st * list act * option result :=
  let '(n1, a, v) := interval rd n in
  match v with
  | None => (mkSt n1 Idle, a, Some RThrow)
  | Some v =>
    if v =? 0 then
      let '(n2, a2) := switch_state s n1 in
      (mkSt n2 Idle, a ++ a2, Some (if is_reset c then RFalse else RTrue))
    else (mkSt n1 Idle, a, Some RFalse)
  end.

(** node.cpp:210-215, handleShutdown *)
Definition shutdown (rd : option Z) (ok : bool) (n : node) : node * list act * bool :=
  let '(n1, a, v) := interval rd n in
  match v with
  | None => (n1, a, false)
  | Some v =>
    let '(n2, a2, r) := if 0 <? v then set_interval 0 ok n1 else (n1, [], true) in
    if r then
      let '(n3, a3) := switch_state Unknown (with_listening n2 false) in
      (n3, a ++ a2 ++ (if n_sync n2 then [Remove] else []) ++ [send_cmd n2 Stop] ++ a3, true)
    else (n2, a ++ a2, false)
  end.

(** Result of a step: the event is not possible in this state, an exception
    leaves the receiving thread (which ends the program), or the new state with
    what was done and the result of a finished command. *)
Inductive sout (A : Type) := Impossible | Crash | Done (a : A).
Arguments Impossible {A}.
Arguments Crash {A}.
Arguments Done {A} a.

Definition step (e : event) (x : st) : sout (st * list act * option result) :=
  let n := s_node x in
  match e, s_phase x with
  | Call c now, Idle => Done (call c now n)
  | Nmt s now, p =>
    if n_listening n then
      let '(n1, a, ok) := handle_nmt now s n in
      if ok then Done (mkSt n1 p, a, None) else Crash
    else Impossible
  | Wake, Waiting c t =>
    match target c with
    | Some s => if n_state n =? s then Done (confirm c n) else Done (x, [], None)
    | None => Impossible
    end
  | TimedOut rd now, Waiting c t =>
    match target c with
    | Some s =>
      if now <? t then Impossible
      else if n_state n =? s then Done (confirm c n) else Done (give_up c s rd n)
    | None => Impossible
    end
  | Finish ok, Confirmed c =>
    let '(n1, a, r) := set_interval (n_conf n) ok (with_state n PreOperational) in
    Done (mkSt n1 Idle, a, Some (if r then RTrue else RThrow))
  | Listen, Idle => Done (mkSt (with_listening n true) Idle, [], None)
  | ShutdownNode rd ok, Idle =>
    let '(n1, a, r) := shutdown rd ok n in
    Done (mkSt n1 Idle, a, Some (if r then RTrue else RThrow))
  | _, _ => Impossible
  end.

(** A run with everything that was done and all results. *)
Fixpoint run (es : list event) (x : st) : sout (st * list act * list result) :=
  match es with
  | [] => Done (x, [], [])
  | e :: t =>
    match step e x with
    | Impossible => Impossible
    | Crash => Crash
    | Done (x1, a, r) =>
      match run t x1 with
      | Impossible => Impossible
      | Crash => Crash
      | Done (x2, a2, rs) => Done (x2, a ++ a2, (match r with Some r => [r] | None => [] end) ++ rs)
      end
    end
  end.

(** node.cpp:31-38: a node as constructed *)
Definition new_node (id : Z) (sync : bool) (def : hb) (conf : Z) : node :=
  mkNode id sync false Unknown def def conf 0.

(** ** Initialisation *)

(** Outcome of one step of handleInit: it succeeds, reports failure by its
    result, or throws (TimeoutException or something else). *)
Inductive sres := SOk | SFail | STimeout | SThrow.
Inductive bact := BListen | BSdoInit | BResetCom | BPdoInit | BInitAll | BStart.
Inductive berr := ErrReset | ErrStart | ErrPdo | ErrException.

(** node.cpp:176-201, handleInit. [o] gives the outcome of each step; SDOClient::init
    and init_all have no result (failure means exception). An exception that is
    not handled here is reported by the layer (layer.h:59-61). PDOMapper::init
    has reported an error itself when it returns false (pdo.cpp:204-212). *)
Record boot := mkBoot { o_sdo : sres; o_reset : sres; o_pdo : sres; o_all : sres; o_sdo2 : sres; o_start : sres }.
Definition void (s : sres) (k : list bact * option berr) : list bact * option berr :=
  match s with SOk | SFail => k | STimeout | SThrow => ([], Some ErrException) end.
Definition prefix (b : bact) (k : list bact * option berr) : list bact * option berr := (b :: fst k, snd k).
Definition handle_init (o : boot) : list bact * option berr :=
  prefix BListen (prefix BSdoInit (void (o_sdo o) (prefix BResetCom (
    match o_reset o with
    | SFail | STimeout => ([], Some ErrReset)
    | SThrow => ([], Some ErrException)
    | SOk => prefix BPdoInit (
      match o_pdo o with
      | SFail => ([], Some ErrPdo)
      | STimeout | SThrow => ([], Some ErrException)
      | SOk => prefix BInitAll (void (o_all o) (prefix BSdoInit (void (o_sdo2 o) (prefix BStart (
        match o_start o with
        | SOk => ([], None)
        | SFail | STimeout => ([], Some ErrStart)
        | SThrow => ([], Some ErrException)
        end)))))
      end)
    end)))).

(** node.cpp:202-209, handleRecover *)
Definition handle_recover (start : sres) : list bact * option berr :=
  ([BStart], match start with
             | SOk | SFail => None
             | STimeout => Some ErrStart
             | SThrow => Some ErrException
             end).
