(** Properties C01, C02, C03. *)
From Verif Require Import Base CanModel CanSpec CanProofs.

(** C01. The full statement
      forall f lc t junk, valid_frame f -> tostring_frame f lc = Ok t ->
        same_frame (toframe junk t) f
    is false: extended frames with an identifier below 0x800 come back as
    standard frames. *)
Theorem C01_frame_text_round_trip_refuted :
  exists f t junk, valid_frame f /\ tostring_frame f true = Ok t /\
                   ~ same_frame (toframe junk t) f.
Proof. exact short_extended_lost. Qed.
Print Assumptions C01_frame_text_round_trip_refuted.

(** Missing for C01: extended identifiers below 0x800. *)
Theorem C01_frame_text_round_trip_partial : forall f lc t junk,
  valid_frame f ->
  (h_ext (f_hdr f) = true -> 2^11 <= h_id (f_hdr f)) ->
  tostring_frame f lc = Ok t ->
  same_frame (toframe junk t) f.
Proof. exact frame_round_trip. Qed.
Print Assumptions C01_frame_text_round_trip_partial.

(** Every valid frame can be printed. *)
Theorem C01_text_defined : forall f lc, valid_frame f -> exists t, tostring_frame f lc = Ok t.
Proof. exact tostring_defined. Qed.
Print Assumptions C01_text_defined.

(** The remaining frames lose exactly the extended flag. *)
Theorem C01_short_extended_becomes_standard : forall f lc t junk,
  valid_frame f -> h_ext (f_hdr f) = true -> h_id (f_hdr f) < 2^11 ->
  tostring_frame f lc = Ok t ->
  let g := toframe junk t in
  h_id (f_hdr g) = h_id (f_hdr f) /\ h_ext (f_hdr g) = false /\
  f_dlc g = f_dlc f /\ payload g = payload f.
Proof. exact frame_short_extended. Qed.
Print Assumptions C01_short_extended_becomes_standard.

Example C01_example :
  let f := mkFrame (mkHeader 74565 true true false) 3 [222;173;190;0;0;0;0;0] in
  valid_frame f /\ (h_ext (f_hdr f) = true -> 2^11 <= h_id (f_hdr f)) /\
  tostring_frame f true = Ok (str "40012345#deadbe") /\
  same_frame (toframe [9;9;9;9;9;9;9;9] (str "40012345#deadbe")) f.
Proof.
  repeat split; cbn; try lia; try (repeat constructor; cbn; lia).
Qed.

(** C02. Encoding and decoding payloads. *)
Theorem C02_hex_round_trip : forall bs lc pad, bytes_ok bs ->
  hex2buffer (buffer2hex bs lc) pad = Some bs.
Proof. exact hex2buffer_buffer2hex. Qed.
Print Assumptions C02_hex_round_trip.

Theorem C02_hex_decode_strict : forall t bs,
  hex2buffer t false = Some bs <-> hex_text t bs.
Proof. exact hex2buffer_strict. Qed.
Print Assumptions C02_hex_decode_strict.

Theorem C02_hex_decode_padded : forall t bs,
  hex2buffer t true = Some bs <->
  (exists p, (p = t \/ (Z.odd (Z.of_nat (List.length t)) = true /\ p = str "0" ++ t)) /\ hex_text p bs).
Proof. exact hex2buffer_padded. Qed.
Print Assumptions C02_hex_decode_padded.

Example C02_example :
  hex2buffer (str "fF0aB") true = Some [15; 240; 171] /\
  hex2buffer (str "fF0aB") false = None /\
  hex_text (str "0fF0aB") [15; 240; 171] /\
  buffer2hex [15; 240; 171] false = str "0FF0AB".
Proof.
  repeat split. apply hex2buffer_strict. reflexivity.
Qed.

(** C03. The full statement
      forall t junk, frame_isValid (toframe junk t) = true -> frame_text t
    is false: an unreadable payload is silently taken as an empty one. *)
Theorem C03_malformed_text_rejected_refuted :
  exists t junk, ~ frame_text t /\ frame_isValid (toframe junk t) = true.
Proof. exact bad_payload_accepted. Qed.
Print Assumptions C03_malformed_text_rejected_refuted.

(** What does hold: a valid result needs a '#', its payload is either exactly
    what the text spells (at most 8 bytes) or empty when the text is not hex.
    Missing for C03: rejection of unreadable payloads and header texts. *)
Theorem C03_malformed_text_partial : forall junk s,
  frame_isValid (toframe junk s) = true ->
  exists pre post, s = pre ++ [35] ++ post /\ ~ In 35 pre /\
    ((hex_text post (payload (toframe junk s)) /\ (List.length (payload (toframe junk s)) <= 8)%nat)
     \/ (payload (toframe junk s) = [] /\ f_dlc (toframe junk s) = 0 /\ forall bs, ~ hex_text post bs)).
Proof. exact toframe_shape. Qed.
Print Assumptions C03_malformed_text_partial.

(** Well formed text is accepted with exactly the spelled header and payload. *)
Theorem C03_wellformed_text_accepted : forall junk pre post bs,
  ~ In 35 pre -> header_isValid (toheader pre) = true -> hex_text post bs ->
  (List.length bs <= 8)%nat ->
  let g := toframe junk (pre ++ [35] ++ post) in
  frame_isValid g = true /\ f_hdr g = toheader pre /\ payload g = bs.
Proof. exact toframe_accepts. Qed.
Print Assumptions C03_wellformed_text_accepted.

Example C03_example :
  frame_isValid (toframe (repeat 0 8) (str "7f#0102030405060708")) = true /\
  frame_isValid (toframe (repeat 0 8) (str "7f#010203040506070809")) = false /\
  frame_isValid (toframe (repeat 0 8) (str "7f")) = false.
Proof. repeat split. Qed.
