(** What the users of the tools type and expect. *)
From Verif Require Import Base CanModel CanSpec.

(** A decimal number. *)
Definition number (t : text) (n : Z) : Prop :=
  t <> [] /\ Forall (fun c => 48 <= c <= 57) t /\ fold_left (fun a c => 10 * a + (c - 48)) t 0 = n.

(** The optional argument OVERFLOW. *)
Definition overflow_arg (args : list text) (o : Z) : Prop :=
  (args = [] /\ o = 0) \/ exists t, args = [t] /\ number t o /\ (o = 0 \/ 2 <= o <= 240).

(** An argument +ID or -ID. *)
Definition id_arg (t : text) (z : Z) : Prop :=
  exists d, (t = 43 :: d /\ number d z /\ 1 <= z <= 127) \/ (t = 45 :: d /\ number d (- z) /\ -127 <= z <= -1).
(** Nothing, or "--" and whatever stands behind it. *)
Definition end_args (args : list text) : Prop := args = [] \/ exists x r, args = (45 :: 45 :: x) :: r.

(** Which nodes are watched: with a list of +IDs only these, and never a -ID. *)
Definition wanted (zs : list Z) (q : Z) : Prop := ~ In (- q) zs /\ ((forall z, In z zs -> z < 0) \/ In q zs).

(** The frames of two lines of candump that a user cannot tell apart. *)
Definition looks_like (f g : frame) : Prop :=
  h_err (f_hdr f) = h_err (f_hdr g) /\ (h_err (f_hdr f) = false -> h_ext (f_hdr f) = h_ext (f_hdr g)) /\
  h_id (f_hdr f) = h_id (f_hdr g) /\ h_rtr (f_hdr f) = h_rtr (f_hdr g) /\
  (h_rtr (f_hdr f) = false -> f_dlc f = f_dlc g /\ payload f = payload g).
