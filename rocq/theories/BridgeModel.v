(** The bridge between CAN frames and ROS messages. Source:
    /repo/socketcan_bridge/include/socketcan_bridge/topic_to_socketcan.h
    /repo/socketcan_bridge/include/socketcan_bridge/socketcan_to_topic.h
    /repo/socketcan_bridge/src/topic_to_socketcan.cpp
    /repo/socketcan_bridge/src/socketcan_to_topic.cpp *)
From Verif Require Import Base CanModel.

(** /repo/can_msgs/msg/Frame.msg without the header (time stamp, frame id):
    uint32 id, bools, uint8 dlc, uint8[8] data *)
Record message := mkMsg {
  m_id : Z;
  m_rtr : bool;
  m_ext : bool;
  m_err : bool;
  m_dlc : Z;
  m_data : bytes
}.

(** socketcan_to_topic.h:59-71 *)
Definition convertSocketCANToMessage (f : frame) : message :=
  mkMsg (h_id (f_hdr f)) (h_rtr (f_hdr f)) (h_ext (f_hdr f)) (h_err (f_hdr f))
        (f_dlc f) (firstn 8 (f_data f)).

(** topic_to_socketcan.h:53-65; the identifier is assigned to a 29 bit field. *)
Definition convertMessageToSocketCAN (m : message) : frame :=
  mkFrame (mkHeader (m_id m mod 2^29) (m_ext m) (m_rtr m) (m_err m))
          (m_dlc m) (firstn 8 (m_data m)).

(** topic_to_socketcan.cpp:48-74, msgCallback: the frame handed to the driver, if any *)
Definition msgCallback (m : message) : option frame :=
  let f := convertMessageToSocketCAN m in
  if frame_isValid f then Some f else None.

(** socketcan_to_topic.cpp:90-117, frameCallback: the message published, if any *)
Definition frameCallback (f : frame) : option message :=
  if frame_isValid f then Some (convertSocketCANToMessage f) else None.
