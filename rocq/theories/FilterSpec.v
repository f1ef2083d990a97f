(** What filters mean, independent of their implementation. *)
From Verif Require Import Base CanModel CanSpec.

(** The 32 bit word that filters look at: identifier in bits 0..28, remote flag
    in bit 30, extended flag in bit 31; error frames are represented by the
    error flag (bit 29) alone. *)
Definition filter_word (h : header) : Z :=
  if h_err h then 2^29
  else h_id h + b2z (h_rtr h) * 2^30 + b2z (h_ext h) * 2^31.

(** Agreement of two words on all bits selected by a mask. *)
Definition agree (mask a b : Z) : Prop :=
  forall i, 0 <= i -> Z.testbit mask i = true -> Z.testbit a i = Z.testbit b i.

(** [hex_number t v]: [t] is a non-empty string of hex digits with value [v]. *)
Fixpoint digits_value (t : text) (acc v : Z) : Prop :=
  match t with
  | [] => v = acc
  | c :: r => exists d, hex_digit c d /\ digits_value r (16 * acc + d) v
  end.
Definition hex_number (t : text) (v : Z) : Prop := t <> [] /\ digits_value t 0 v.

(** The word denoted by an identifier text: 8 digits with an identifier that
    does not fit 11 bits imply the extended flag. *)
Definition id_word (t : text) (v : Z) : Z :=
  if (List.length t =? 8)%nat && (2^11 <=? v mod 2^29) && (v <? 2^31) then v + 2^31 else v.

(** The frame delivered to a filtered listener. *)
Definition selected (p : header -> Prop) (fs out : list frame) : Prop :=
  exists keep : frame -> bool, (forall f, keep f = true <-> p (f_hdr f)) /\
  out = List.filter keep fs.
