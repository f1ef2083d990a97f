(** ExternalSyncLayer: the master that follows the SYNC messages of another one.
    Source: /repo/canopen_master/src/master_plugin.cpp, with BufferedReader (ReaderModel).
    Time is a number of nanoseconds. The environment gives the times at which SYNC messages arrive, the start of each
    read and two delays of it: from the message (or the end of the waiting) to the continuation, and after the sleep. *)
From Verif Require Import Base ReaderModel.

(** The reader of the layer, with the time of arrival for each message; the messages still to come, the first one first;
    step_ and half_step_, master_plugin.cpp:13, 27 *)
Record xsync := mkX { x_reader : reader Z; x_coming : list Z; x_step : Z; x_half : Z }.
Definition x_with (x : xsync) (r : reader Z) (c : list Z) : xsync := mkX r c (x_step x) (x_half x).
(** ManagingSyncLayer, master_plugin.cpp:27, period_ms_ is an int (integer division) and ExternalSyncLayer, 115-116: reader_(true, 1) *)
Definition new_xsync (period_ms : Z) (coming : list Z) : xsync :=
  mkX (rinit true 1) coming (period_ms * 1000000) (Z.quot period_ms 2 * 1000000).

(** Everything that arrives until [t] reaches the reader (its listener runs in the thread of the driver). *)
Fixpoint deliver (t : Z) (r : reader Z) (coming : list Z) : reader Z * list Z :=
  match coming with
  | [] => (r, [])
  | a :: c => if a <=? t then deliver t (fst (rstep r (Arrive a))) c else (r, coming)
  end.

(** readUntil at [now] with its deadline: the time at which it goes on (without delays), master_plugin.cpp:101, reader.h:94-99 *)
Definition wake (now deadline : Z) (r : reader Z) (coming : list Z) : Z :=
  match buffer_ r with
  | _ :: _ => now
  | [] => match coming with
          | a :: _ => if a <=? deadline then a else deadline
          | [] => deadline
          end
  end.

(** What a read did: when it ended, and the message it took *)
Record xread := mkRead { r_end : Z; r_sync : option Z }.
(** handleRead in a state after Init, master_plugin.cpp:98-105 *)
Definition handle_read (x : xsync) (now delay1 delay2 : Z) : xsync * xread :=
  let '(r, c) := deliver now (x_reader x) (x_coming x) in
  let t := wake now (now + x_step x) r c + delay1 in
  let '(r, c) := deliver t r c in
  match rstep r Read with
  | (r, Got a) => let e := t + x_half x + delay2 in
                  let '(r, c) := deliver e r c in
                  (x_with x r c, mkRead e (Some a))
  | (r, _) => (x_with x r c, mkRead t None)
  end.
(** handleInit, master_plugin.cpp:111-113: listen; what arrived before is not heard and not kept *)
Definition handle_init (x : xsync) (now : Z) : xsync :=
  let '(r, c) := deliver now (x_reader x) (x_coming x) in x_with x (fst (rstep r Listen)) c.

(** A cycle: the time the caller needs between the reads, and the two delays *)
Record cycle := mkCycle { c_work : Z; c_delay1 : Z; c_delay2 : Z }.
(** The update loop: read, work, read, ...; RosChain::run (ros_chain.cpp) with this layer; the reads in order *)
Fixpoint cycles (x : xsync) (now : Z) (cs : list cycle) : xsync * list xread :=
  match cs with
  | [] => (x, [])
  | c :: cs => let '(x, r) := handle_read x now (c_delay1 c) (c_delay2 c) in
               let '(x, rs) := cycles x (r_end r + c_work c) cs in (x, r :: rs)
  end.
