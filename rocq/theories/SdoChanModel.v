(** The SDO client on the bus: its identifiers and the reader between the
    interface and the transfer loop.
    Source: /repo/canopen_master/src/sdo.cpp
            /repo/canopen_master/include/canopen_master/canopen.h
            /repo/socketcan_interface/include/socketcan_interface/reader.h *)
From Verif Require Import Base CanModel KeyModel StorageModel PdoModel ReaderModel SdoModel.

(** ** Identifiers *)

(** sdo.cpp:20-31, SDOid::header: bits 30 and 31 are ignored *)
Definition sdo_header (val : Z) : header := Header val (Z.testbit val 29) false false.
(** sdo.cpp:378-383, 389-394: the value of the object or, if anything throws,
    the default. [node_id] is a uint8_t. *)
Definition sdo_id (d : dict) (sub default node_id : Z) : header :=
  match lookup (key_sub 0x1200 sub) d with
  | Some e =>
    match apply_u32 node_id (e_value e) with
    | Some v => sdo_header v
    | None => MsgHeader (default + node_id) false
    end
  | None => MsgHeader (default + node_id) false
  end.
Definition sdo_client_id (d : dict) (node_id : Z) : header := sdo_id d 1 0x600 node_id.
Definition sdo_server_id (d : dict) (node_id : Z) : header := sdo_id d 2 0x580 node_id.

(** ** The client *)

(** A call of read or write (sdo.cpp:436-451) once the mutex is held. *)
Record call := mkCall { k_index : Z; k_sub : Z; k_write : bool; k_data : bytes }.
(** sdo.cpp:399-411 *)
Definition start (k : call) : sdo :=
  if k_write k then start_write (k_index k) (k_sub k) (k_data k)
  else start_read (k_index k) (k_sub k) (k_data k).

(** Where the thread is: outside transmitAndWait; before the first send with the
    reader enabled (line 405); in the loop (416-427); behind it. *)
Inductive phase :=
| PIdle
| PEnabled (k : call)
| PLoop (k : call) (s : sdo)
| PLeft (k : call) (r : sdo_result).

Record client := mkClient {
  c_client : header;
  c_server : header;
  c_reader : reader frame;
  c_phase : phase
}.

(** canopen.h:66 and sdo.cpp:373-396, init: listen clears the buffer *)
Definition client_init (d : dict) (node_id : Z) : client :=
  mkClient (sdo_client_id d node_id) (sdo_server_id d node_id)
    (fst (rstep (rinit false 1) Listen)) PIdle.

(** What may happen: a frame is received by the interface, somebody calls read or
    write, the thread in the call takes its next step, or its wait of one second
    is over. *)
Inductive event :=
| EFrame (f : frame)
| ECall (k : call)
| EStep
| ETimeout.

(** What can be seen: frames received, calls and their results, frames sent, and
    what the loop gets from the reader. *)
Inductive obs :=
| ORecv (f : frame)
| OStart (k : call)
| OSent (f : frame)
| OTaken (f : frame)
| OTimedOut
| OReturn (r : sdo_result).

(** canopen.h, FrameOverlay, with sdo.cpp:100-110 etc.: all messages are sent with
    the client's identifier and 8 bytes *)
Definition to_frame (c : client) (m : msg) : frame := mkFrame (c_client c) 8 m.
Definition with_phase (c : client) (p : phase) : client :=
  mkClient (c_client c) (c_server c) (c_reader c) p.
Definition with_reader (c : client) (r : reader frame) : client :=
  mkClient (c_client c) (c_server c) r (c_phase c).

Definition cstep (c : client) (e : event) : outcome (client * list obs) :=
  match e with
  (* reader.h:80-84, 29-38: the listener is registered for one header *)
  | EFrame f =>
    Ok (if key (f_hdr f) =? key (c_server c)
        then with_reader c (fst (rstep (c_reader c) (Arrive f))) else c, [ORecv f])
  (* sdo.cpp:399-405; while a call is active others wait for the mutex *)
  | ECall k =>
    match c_phase c with
    | PIdle => Ok (with_phase (with_reader c (fst (rstep (c_reader c) (SetEnabled true)))) (PEnabled k), [OStart k])
    | _ => Ok (c, [])
    end
  | EStep =>
    match c_phase c with
    | PIdle => Ok (c, [])
    (* sdo.cpp:407-411 *)
    | PEnabled k => Ok (with_phase c (PLoop k (start k)), [OSent (to_frame c (s_last (start k)))])
    | PLoop k s =>
      if s_done s then Ok (with_phase c (PLeft k (finish s true)), [])
      else
        match rstep (c_reader c) Read with
        | (rd, Got f) =>
          (* sdo.cpp:423-426 *)
          match process_frame (k_index k) (k_sub k) (f_dlc f) (f_data f) s with
          | Undef => Undef
          | Ok (s1, out, continue) =>
            Ok (with_phase (with_reader c rd) (if continue then PLoop k s1 else PLeft k (finish s1 true)),
                OTaken f :: map (fun m => OSent (to_frame c m)) out)
          end
        | _ => Ok (c, [])
        end
    (* reader.h:45, ~ScopedEnabler: the reader was disabled before; sdo.cpp:428-432 *)
    | PLeft k r => Ok (with_phase (with_reader c (fst (rstep (c_reader c) (SetEnabled false)))) PIdle, [OReturn r])
    end
  (* reader.h:96-102 with sdo.cpp:417-422: nothing came *)
  | ETimeout =>
    match c_phase c with
    | PLoop k s =>
      if s_done s then Ok (c, [])
      else
        match rstep (c_reader c) Read with
        | (_, Got _) => Ok (c, [])
        | _ =>
          let a := abort_request (k_index k) (k_sub k) 0x05040000 in
          Ok (with_phase c (PLeft k (finish (set_last s a) true)), [OTimedOut; OSent (to_frame c a)])
        end
    | _ => Ok (c, [])
    end
  end.

Fixpoint crun (c : client) (es : list event) : outcome (client * list obs) :=
  match es with
  | [] => Ok (c, [])
  | e :: t =>
    match cstep c e with
    | Undef => Undef
    | Ok (c1, o1) =>
      match crun c1 t with
      | Undef => Undef
      | Ok (c2, o2) => Ok (c2, o1 ++ o2)
      end
    end
  end.
