(** ROS messages as descriptions of CAN frames. *)
From Verif Require Import Base CanModel CanSpec BridgeModel.

(** A message value: 32 bit identifier, byte length, 8 bytes. *)
Definition message_ok (m : message) : Prop :=
  0 <= m_id m < 2^32 /\ 0 <= m_dlc m < 256 /\
  List.length (m_data m) = 8%nat /\ bytes_ok (m_data m).

(** The message says exactly what the frame is. *)
Definition denotes (m : message) (f : frame) : Prop :=
  m_id m = h_id (f_hdr f) /\ m_ext m = h_ext (f_hdr f) /\ m_rtr m = h_rtr (f_hdr f) /\
  m_err m = h_err (f_hdr f) /\ m_dlc m = f_dlc f /\ m_data m = f_data f.
