(** The nodes of socketcan_bridge: messages and frames through driver, filters
    and conversions. Source:
    /repo/socketcan_bridge/src/socketcan_to_topic.cpp
    /repo/socketcan_bridge/src/topic_to_socketcan.cpp
    /repo/socketcan_bridge/src/socketcan_bridge_node.cpp
    /repo/socketcan_interface/include/socketcan_interface/string.h *)
From Verif Require Import Base CanModel FilterModel SocketCanModel BridgeModel.

(** A value of the parameter server, as far as the node looks at it. *)
Inductive param := PInt (z : Z) | PText (t : text) | POther.

(** socketcan_to_topic.cpp:35-47, tofilter of a value: an int becomes 32 bits
    wide, anything else must be a text; [None]: an exception. *)
Definition tofilter_param (p : param) : option filter :=
  match p with
  | PInt z => Some (tofilter_id (z mod 2^32))
  | PText t => Some (tofilter t)
  | POther => None
  end.
(** string.h:34-40, tofilters *)
Fixpoint tofilters (ps : list param) : option (list filter) :=
  match ps with
  | [] => Some []
  | p :: t =>
    match tofilter_param p, tofilters t with
    | Some f, Some fs => Some (f :: fs)
    | _, _ => None
    end
  end.

(** The listener of the node: for all frames, or for those that pass a filter. *)
Inductive listener := LAll | LFiltered (fs : list filter).
(** socketcan_to_topic.cpp:61-87, setup: [can_ids] is the parameter, if it is
    set. [None]: an exception ends the node. (The parameter is a list here; what
    is neither list, text nor structure ends the node as well, and an empty text
    or structure counts as an empty list.) *)
Definition setup (can_ids : option (list param)) : option listener :=
  match can_ids with
  | None => Some LAll
  | Some ps => option_map LFiltered (tofilters ps)
  end.

(** What happens to a running node: the driver does something (frames arrive,
    its state changes), or a message arrives on sent_messages; [wec] is the
    result of the write that it may lead to. *)
Inductive revent := Bus (e : SocketCanModel.event) | Topic (m : message) (wec : Z).
(** Published on received_messages; given to the kernel; not sent because the
    driver would not take it; not sent because it is no frame. *)
Inductive rout := Published (m : message) | Written (k : kframe) | Failed | Refused.

(** filter.h:54-63 and socketcan_to_topic.cpp:90-117 *)
Definition heard (l : listener) (f : frame) : list frame :=
  match l with LAll => [f] | LFiltered fs => filtered_callback fs f end.
Definition publish (l : listener) (o : output) : list rout :=
  match o with
  | Deliver f => flat_map (fun g => match frameCallback g with Some m => [Published m] | None => [] end) (heard l f)
  | _ => []
  end.
(** topic_to_socketcan.cpp:48-74 *)
Definition sent (o : output) : list rout :=
  match o with
  | Sent true (Some k) => [Written k]
  | Sent _ _ => [Failed]
  | _ => []
  end.
Definition rstep (l : listener) (d : driver) (e : revent) : outcome (driver * list rout) :=
  match e with
  | Bus e =>
    match SocketCanModel.step d e with
    | Ok (d1, o) => Ok (d1, flat_map (publish l) o)
    | Undef => Undef
    end
  | Topic m wec =>
    match msgCallback m with
    | None => Ok (d, [Refused])
    | Some f =>
      match SocketCanModel.step d (ESend f wec) with
      | Ok (d1, o) => Ok (d1, flat_map sent o)
      | Undef => Undef
      end
    end
  end.
Fixpoint rrun (l : listener) (d : driver) (es : list revent) : outcome (driver * list rout) :=
  match es with
  | [] => Ok (d, [])
  | e :: t =>
    match rstep l d e with
    | Undef => Undef
    | Ok (d1, o1) =>
      match rrun l d1 t with
      | Undef => Undef
      | Ok (d2, o2) => Ok (d2, o1 ++ o2)
      end
    end
  end.
