(** Who sends what on a CANopen bus with the predefined connection set (CiA 301),
    and what the nodes of a master should make of it. *)
From Verif Require Import Base CanModel CanSpec PdoModel SdoChanModel BusModel.
From Verif Require NodeModel.

(** The identifiers of the messages of device [d]: emergency, the four process
    data objects it transmits, SDO responses, heartbeat. *)
Definition own_ids (d : Z) : list Z :=
  [0x80 + d; 0x180 + d; 0x280 + d; 0x380 + d; 0x480 + d; 0x580 + d; 0x700 + d].
Definition device (d : Z) : Prop := 1 <= d <= 127.
Definition own_header (d : Z) (h : header) : Prop :=
  h_ext h = false /\ h_rtr h = false /\ h_err h = false /\ In (h_id h) (own_ids d).

(** The headers a node listens to. *)
Definition address (u : unit_) (h : header) : Prop :=
  h = heartbeat_header (u_node u) \/ h = c_server (u_sdo u) \/ u_emcy_header u = Some h
  \/ exists p, In p (u_rpdos u) /\ p_listen p = Some h.
Definition id_of (u : unit_) : Z := NodeModel.n_id (u_node u).
Definition predefined (u : unit_) : Prop := device (id_of u) /\ forall h, address u h -> own_header (id_of u) h.

(** A history of the bus: frames with their senders, 0 standing for the master
    and everybody else who is no device, and what the master does itself. *)
Inductive happens := Sent (d : Z) (now : Z) (f : frame) | Done (i : nat) (g : unit_ -> unit_).
Definition event_of (x : happens) : event :=
  match x with Sent _ now f => Frame_ now f | Done i g => Local i g end.
(** Devices send their own messages, the others none of them; the master may do
    anything to a node but give it another id or other addresses. *)
Definition fair (x : happens) : Prop :=
  match x with
  | Sent d _ f => header_ok (f_hdr f) /\
      ((device d /\ own_header d (f_hdr f)) \/ (d = 0 /\ forall p, device p -> ~ own_header p (f_hdr f)))
  | Done _ g => forall u, id_of (g u) = id_of u /\ forall h, address (g u) h -> address u h
  end.

(** The part of a history that concerns node number [i], which stands for device [d]. *)
Fixpoint concerning (i : nat) (d : Z) (h : list happens) : list event :=
  match h with
  | [] => []
  | Sent s now f :: t => if s =? d then Frame_ now f :: concerning i d t else concerning i d t
  | Done j g :: t => if (i =? j)%nat then Local 0 g :: concerning i d t else concerning i d t
  end.

(** Nodes that can take every frame: the interval of the heartbeat is known and
    the buffers of the PDOs exist. *)
Definition sound (u : unit_) : Prop :=
  NodeModel.n_hb (u_node u) <> NodeModel.HbUnread
  /\ forall p b, In p (u_rpdos u) -> In b (p_bufs p) -> w_bufs (u_world u) b <> None.
(** Heartbeats of the nodes have one byte. *)
Definition heartbeats_fit (c : list unit_) (e : event) : Prop :=
  match e with
  | Frame_ _ f => forall u, In u c -> key (f_hdr f) = key (heartbeat_header (u_node u)) -> f_dlc f = 1
  | Local _ g => forall u, id_of (g u) = id_of u /\ (sound u -> sound (g u))
  end.
