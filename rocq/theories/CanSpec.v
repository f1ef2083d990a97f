(** What a user knows about CAN frames and hexadecimal text. *)
From Verif Require Import Base CanModel.

(** A hexadecimal digit character and its value, in either case. *)
Definition hex_digit (c v : Z) : Prop :=
  0 <= v /\
  (nth_error (str "0123456789abcdef") (Z.to_nat v) = Some c \/
   nth_error (str "0123456789ABCDEF") (Z.to_nat v) = Some c).

(** [hex_text t bs]: the text [t] spells the bytes [bs], two digits per byte,
    high digit first. *)
Inductive hex_text : text -> bytes -> Prop :=
| hex_nil : hex_text [] []
| hex_cons : forall c1 c2 hi lo t bs,
    hex_digit c1 hi -> hex_digit c2 lo -> hex_text t bs ->
    hex_text (c1 :: c2 :: t) (16 * hi + lo :: bs).

(** A header value of the C++ type: the identifier is a 29 bit field. *)
Definition header_ok (h : header) : Prop := 0 <= h_id h < 2^29.

(** A frame value of the C++ type: 8 bytes of data, length is a byte. *)
Definition frame_ok (f : frame) : Prop :=
  header_ok (f_hdr f) /\ 0 <= f_dlc f < 256 /\
  List.length (f_data f) = 8%nat /\ bytes_ok (f_data f).

(** A legal CAN frame: at most 8 bytes, 11 bit identifier unless extended. *)
Definition valid_frame (f : frame) : Prop :=
  frame_ok f /\ f_dlc f <= 8 /\ (h_ext (f_hdr f) = false -> h_id (f_hdr f) < 2^11).

(** Observable equality: header, length and the payload bytes. *)
Definition same_frame (f g : frame) : Prop :=
  f_hdr f = f_hdr g /\ f_dlc f = f_dlc g /\ payload f = payload g.

(** The documented text form of a frame: header, '#', at most 8 hex bytes. *)
Definition frame_text (t : text) : Prop :=
  exists pre post bs,
    t = pre ++ [35] ++ post /\ ~ In 35 pre /\
    pre <> [] /\ Forall (fun c => exists v, hex_digit c v) pre /\
    hex_text post bs /\ (List.length bs <= 8)%nat.
