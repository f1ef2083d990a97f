(** Demands on the object services. *)
From Verif Require Import Base KeyModel StorageModel StorageSpec SdoModel SdoSpec EdsSpec TextSpec RemoteModel RemoteSpec SetupModel ServiceModel.
From Verif Require EdsModel StorageProofs.

Definition addressed (q : request) : text := match q with GetObject m _ _ | SetObject m _ _ _ => m end.
Definition object (q : request) : text := match q with GetObject _ o _ | SetObject _ o _ _ => o end.

(** The object with key [k] of a device is an integer of type [T]. *)
Definition integer (d : dev) (k : Z) (e : EdsModel.dentry) (T : ity) : Prop :=
  EdsModel.lookup (v_dict d) k = Some e /\ exists kd, kind_of (EdsModel.d_type e) = Some kd /\ integers kd = Some T.

(** Dictionaries: no two entries for one object, defaults of integers of the type or relative to the
    node id, and of the right size *)
Record device_ok (d : dev) : Prop := {
  dk_range : forall k e, EdsModel.lookup (v_dict d) k = Some e -> object_ok (EdsModel.d_index e) (EdsModel.d_sub e);
  dk_once : forall k k' e e', EdsModel.lookup (v_dict d) k = Some e -> EdsModel.lookup (v_dict d) k' = Some e' ->
    EdsModel.d_index e = EdsModel.d_index e' -> EdsModel.d_sub e = EdsModel.d_sub e' -> k = k';
  dk_typed : forall k e T, integer d k e T -> let h := EdsModel.d_def e in
    (h_type h = None /\ h_data h = None) \/ h_type h = Some (TInt T) \/ (h_type h = Some (TOff T) /\ h_data h <> None);
  dk_default : forall k e T b, integer d k e T -> h_data (EdsModel.d_def e) = Some b ->
    (h_type (EdsModel.d_def e) = Some (TInt T) -> Z.of_nat (List.length b) = i_size T) /\ Z.of_nat (List.length (v_nv d k)) = i_size T
}.
(** The device holds integers of the right size. *)
Definition holds_integers (d : dev) : Prop :=
  forall k e T, integer d k e T -> exists x, holds T (v_objs d (EdsModel.d_index e) (EdsModel.d_sub e)) x.

(** What may happen: requests to integer objects or to what does not exist; changes to other values of the type *)
Definition event_ok (w : chain) (x : sevent) : Prop :=
  match x with
  | Request q _ _ => forall d e, lookup_node (addressed q) w = Some d -> EdsModel.lookup (v_dict d) (key_fromString (object q)) = Some e ->
                     exists T, integer d (key_fromString (object q)) e T
  | Changed m i s b => forall d k e T, lookup_node m w = Some d -> integer d k e T -> EdsModel.d_index e = i -> EdsModel.d_sub e = s -> exists x, holds T b x
  end.

Definition start_ok (w : chain) : Prop := forall m d, lookup_node m w = Some d -> device_ok d /\ holds_integers d /\ v_cells d = [].
