(** Property C13. *)
From Verif Require Import Base CanModel CanSpec BridgeModel BridgeSpec BridgeProofs.

Theorem C13_conversion_round_trip : forall f, frame_ok f ->
  convertMessageToSocketCAN (convertSocketCANToMessage f) = f.
Proof. exact convert_back. Qed.
Print Assumptions C13_conversion_round_trip.

(** Exactly the valid frames are published, as what they are. *)
Theorem C13_published : forall f m, frame_ok f ->
  (frameCallback f = Some m <-> denotes m f /\ valid_frame f).
Proof. exact frame_published. Qed.
Print Assumptions C13_published.

(** Full statement: [forall m f, message_ok m ->
    (msgCallback m = Some f <-> denotes m f /\ valid_frame f)].
    Missing: identifiers of 2^29 and more, which lose their upper bits. *)
Theorem C13_sent_partial : forall m f, message_ok m -> m_id m < 2^29 ->
  (msgCallback m = Some f <-> denotes m f /\ valid_frame f).
Proof. exact msg_sent. Qed.
Print Assumptions C13_sent_partial.

Theorem C13_sent_refuted : exists m f, message_ok m /\ msgCallback m = Some f /\ ~ denotes m f.
Proof. exact wrong_id_sent. Qed.
Print Assumptions C13_sent_refuted.

(** For every message, what is sent is a valid frame, and it is what the
    message denotes except for the upper three bits of the identifier. *)
Theorem C13_sent_any_id : forall m f, message_ok m ->
  msgCallback m = Some f ->
  valid_frame f /\ denotes (mkMsg (m_id m mod 2^29) (m_rtr m) (m_ext m) (m_err m) (m_dlc m) (m_data m)) f.
Proof. exact msg_sent_any. Qed.
Print Assumptions C13_sent_any_id.

(** Two bridges in a row relay every valid frame unchanged. *)
Theorem C13_relay : forall f m, valid_frame f -> frameCallback f = Some m -> msgCallback m = Some f.
Proof. exact relay. Qed.
Print Assumptions C13_relay.

Example C13_example :
  let f := mkFrame (mkHeader 2047 false true false) 2 [1;2;3;4;5;6;7;8] in
  let m := mkMsg 2047 true false false 2 [1;2;3;4;5;6;7;8] in
  valid_frame f /\ message_ok m /\ m_id m < 2^29 /\ frameCallback f = Some m /\ msgCallback m = Some f /\
  msgCallback (mkMsg 2048 true false false 2 [1;2;3;4;5;6;7;8]) = None /\
  msgCallback (mkMsg 5 true false false 9 [1;2;3;4;5;6;7;8]) = None.
Proof. repeat split; cbn; try lia; try (repeat constructor; cbn; lia). Qed.
