(** Sync layers. Sources: /repo/canopen_master/src/master_plugin.cpp (SimpleSyncLayer),
    /repo/canopen_master/include/canopen_master/bcm_sync.h (BCMsync),
    /repo/socketcan_interface/include/socketcan_interface/bcm.h *)
From Verif Require Import Base CanModel.

(** ** SimpleSyncLayer *)

(** master_plugin.cpp:9-17, 44-47. Times and durations are in milliseconds.
    [y_nodes] is the set nodes_, without duplicates; nodes_size_ is its size. *)
Record sync := mkSync {
  y_step : Z; y_half : Z;
  y_overflow : Z;
  y_frame : frame;
  y_nodes : list Z;
  y_read : Z; y_write : Z
}.

(** master_plugin.cpp:26-29, 82-92, constructor. [None]: it throws. The frame
    constructor leaves the data uninitialised ([junk]). *)
Definition new_sync (junk : bytes) (h : header) (period overflow : Z) : option sync :=
  let f := Frame junk h 0 in
  if (overflow =? 1) || (240 <? overflow) then None
  else Some (mkSync period (period / 2) overflow
               (if 1 <? overflow then mkFrame h 1 (update_nth 0 1 junk) else f) [] 0 0).

(** master_plugin.cpp:49-60, resetCounter and tryUpdateCounter *)
Definition update_counter (overflow : Z) (f : frame) : frame :=
  if 0 <? f_dlc f then
    mkFrame (f_hdr f) (f_dlc f)
      (update_nth 0 (if overflow <=? nth 0 (f_data f) 0 then 1 else u8 (nth 0 (f_data f) 0 + 1)) (f_data f))
  else f.

(** std::set<void*>::insert and erase *)
Definition set_insert (p : Z) (l : list Z) : list Z := if existsb (Z.eqb p) l then l else p :: l.
Definition set_erase (p : Z) (l : list Z) : list Z := filter (fun q => negb (q =? p)) l.

(** Calls of the layer at time [now]. [active] is [current_state > Init],
    [lag] >= 0 the time a wait takes longer than it has to, [late] >= 0 the time
    that sending takes. *)
Inductive event :=
| AddNode (p : Z)
| RemoveNode (p : Z)
| InitSync (now : Z)
| ReadSync (active : bool) (now lag : Z)
| WriteSync (active : bool) (now lag late : Z).

(** boost::this_thread::sleep_until: returns at once if the time has passed *)
Definition sleep_until (t now lag : Z) : Z := Z.max t now + lag.

(** New state, frame sent and when, time of return *)
Definition step (e : event) (y : sync) : sync * option (Z * frame) * Z :=
  match e with
  | AddNode p =>                                              (* 31-35 *)
    (mkSync (y_step y) (y_half y) (y_overflow y) (y_frame y) (set_insert p (y_nodes y)) (y_read y) (y_write y), None, 0)
  | RemoveNode p =>                                           (* 36-40 *)
    (mkSync (y_step y) (y_half y) (y_overflow y) (y_frame y) (set_erase p (y_nodes y)) (y_read y) (y_write y), None, 0)
  | InitSync now =>                                           (* 78-81 *)
    (mkSync (y_step y) (y_half y) (y_overflow y) (y_frame y) (y_nodes y) (now + y_half y) (now + y_step y), None, now)
  | ReadSync active now lag =>                                (* 62-67 *)
    if active then
      (mkSync (y_step y) (y_half y) (y_overflow y) (y_frame y) (y_nodes y) (y_read y) (y_write y + y_step y), None,
       sleep_until (y_read y) now lag)
    else (y, None, now)
  | WriteSync active now lag late =>                          (* 68-77 *)
    if active then
      let t := sleep_until (y_write y) now lag in
      let f := update_counter (y_overflow y) (y_frame y) in
      (mkSync (y_step y) (y_half y) (y_overflow y) f (y_nodes y) (t + late + y_half y) (y_write y),
       match y_nodes y with [] => None | _ => Some (t, f) end, t + late)
    else (y, None, now)
  end.

Fixpoint run (es : list event) (y : sync) : sync * list (option (Z * frame) * Z) :=
  match es with
  | [] => (y, [])
  | e :: r => let '(y1, o, t) := step e y in let '(y2, os) := run r y1 in (y2, (o, t) :: os)
  end.

(** ** BCMsync *)

(** bcm_sync.h:20-37. [b_sock]: the BCM socket is open. [b_tx]: the kernel sends
    the sync messages set up with this socket. [b_leak]: the kernel sends those
    set up with a socket that was dropped without closing it. *)
Record bcm := mkBcm {
  b_ignored : list Z; b_monitored : list Z;
  b_known : list Z; b_started : list Z;
  b_running : bool;
  b_handler : bool;
  b_sock : bool; b_tx : bool; b_leak : bool
}.

(** bcm_sync.h:143-144 *)
Definition new_bcm (ignored monitored : list Z) : bcm := mkBcm ignored monitored [] [] false false false false false.

Definition mem (p : Z) (l : list Z) : bool := existsb (Z.eqb p) l.

(** bcm_sync.h:39-44, skipNode; [None]: skip, otherwise known_nodes_ afterwards *)
Definition skip_node (id : Z) (b : bcm) : option (list Z) :=
  if mem id (b_ignored b) then None
  else if negb (match b_monitored b with [] => true | _ => false end) && negb (mem id (b_monitored b)) then None
  else Some (set_insert id (b_known b)).

Definition with_nodes (b : bcm) (known started : list Z) : bcm :=
  mkBcm (b_ignored b) (b_monitored b) known started (b_running b) (b_handler b) (b_sock b) (b_tx b) (b_leak b).
Definition with_tx (b : bcm) (running tx : bool) : bcm :=
  mkBcm (b_ignored b) (b_monitored b) (b_known b) (b_started b) running (b_handler b) (b_sock b) tx (b_leak b).

(** bcm.h:81-105, startTX and stopTX as far as success is concerned: the write
    fails if the socket is not open, or if the kernel says so ([ok] = false). *)
Definition toggle (ok : bool) (b : bcm) : bcm :=
  (* bcm_sync.h:70-75 *)
  let w := ok && b_sock b in
  match b_started b, b_running b with
  | [], true => with_tx b (negb w) (if w then false else b_tx b)
  | _ :: _, false => with_tx b w (if w then true else b_tx b)
  | _, _ => b
  end.

(** bcm_sync.h:46-76, handleFrame. Only identifier, length and data are looked at. *)
Definition handle_frame (f : frame) (ok : bool) (b : bcm) : bcm :=
  if h_id (f_hdr f) =? 0 then
    if 1 <? f_dlc f then
      let cmd := nth 0 (f_data f) 0 in
      let id := nth 1 (f_data f) 0 in
      match skip_node id b with
      | None => b
      | Some k =>
        toggle ok (with_nodes b k
          (if cmd =? 1 then if negb (id =? 0) then set_insert id (b_started b) else fold_right set_insert (b_started b) k
           else if negb (id =? 0) then set_erase id (b_started b) else []))
      end
    else toggle ok b
  else if h_id (f_hdr f) / 128 =? 14 then
    (* (frame.id & ~127) == 0x700 *)
    let id := h_id (f_hdr f) mod 128 in
    match skip_node id b with
    | None => b
    | Some k =>
      toggle ok (with_nodes b k
        (if (0 <? f_dlc f) && (nth 0 (f_data f) 0 =? 4) then set_erase id (b_started b) else b_started b))
    end
  else toggle ok b.

Inductive bevent :=
| BInit (sock_ok filter_ok : bool)
| BFrame (f : frame) (ok : bool)
| BHalt (ok : bool)
| BShutdown
| BRecover (sock_ok filter_ok : bool).

(** bcm_sync.h:95-118, handleInit. bcm.h:56-80: BCMsocket::init does not close
    the socket it had. *)
Definition bcm_init (sock_ok filter_ok : bool) (b : bcm) : bcm :=
  mkBcm (b_ignored b) (b_monitored b) (b_known b) [] (b_running b)
    (if sock_ok && filter_ok then true else b_handler b) sock_ok false (b_leak b || b_tx b).
(** bcm_sync.h:119-123, handleShutdown: closing the socket removes its
    transmissions. sync_running_ is not touched. *)
Definition bcm_shutdown (b : bcm) : bcm :=
  mkBcm (b_ignored b) (b_monitored b) (b_known b) (b_started b) (b_running b) false false false (b_leak b).
(** bcm_sync.h:125-132, handleHalt *)
Definition bcm_halt (ok : bool) (b : bcm) : bcm :=
  if b_running b then
    mkBcm (b_ignored b) (b_monitored b) (b_known b) [] false (b_handler b) (b_sock b)
      (if ok && b_sock b then false else b_tx b) (b_leak b)
  else b.

Definition bstep (e : bevent) (b : bcm) : bcm :=
  match e with
  | BInit s f => bcm_init s f b
  | BFrame f ok => if b_handler b then handle_frame f ok b else b
  | BHalt ok => bcm_halt ok b
  | BShutdown => bcm_shutdown b
  | BRecover s f => bcm_init s f (bcm_shutdown b)   (* 134-137 *)
  end.
Definition brun (es : list bevent) (b : bcm) : bcm := fold_left (fun b e => bstep e b) es b.

(** bcm_sync.h:143-155, the frames: [overflow] frames with a counter, or one without *)
Definition sync_frames (junk : bytes) (h : header) (overflow : Z) : list frame :=
  if overflow =? 0 then [Frame junk h 0]
  else map (fun i => mkFrame h 1 (update_nth 0 (u8 (i + 1)) junk)) (range overflow).

(** bcm.h:22-43, 81-99: the message for the kernel: id, seconds and microseconds
    of the second interval, and for each frame its id, length and data. *)
Record bcm_msg := mkMsg { m_id : Z; m_sec : Z; m_usec : Z; m_frames : list (Z * Z * bytes) }.
Definition start_tx (period_ms : Z) (h : header) (fs : list frame) : bcm_msg :=
  let id := Z.lor (h_id h) (if h_ext h then 2^31 else 0) in
  let usec := period_ms * 1000 in
  mkMsg id (usec / 1000000) (usec mod 1000000)
    (map (fun f => (id, f_dlc f, firstn (Z.to_nat (f_dlc f)) (f_data f))) fs).
