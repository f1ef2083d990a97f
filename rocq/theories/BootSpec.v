(** What the author of a configuration relies on. *)
From Verif Require Import Base CanModel CanSpec KeyModel KeySpec StorageModel EdsModel EdsSpec.

(** Values that do not depend on the node id *)
Definition absolute (x : value) : Prop := forall y, x <> NodeIdPlus y.
(** The bytes [b] are the value [x] of an object of the kind [k]. *)
Definition carries (k : kind) (x : value) (b : bytes) : Prop :=
  match x with
  | Number y => exists T, integers k = Some T /\ Z.of_nat (List.length b) = i_size T /\ Forall byte_ok b /\ of_le b = y mod 2^(8 * i_size T)
  | NodeIdPlus _ => False
  | Floating f => b = f
  end.
(** Floating point numbers have the size of their type. *)
Definition floats_ok (objs : list (Z * obj)) : Prop :=
  forall k i s x b n, okey_ok k -> wanted objs k = Some (i, s, x) -> v_init x = Some (Floating b) -> kind_of (v_type x) = Some (Float n) ->
    List.length b = n /\ Forall byte_ok b.
(** No PDO buffer is connected to the key. *)
Definition unmapped (s : storage) (k : Z) : Prop := forall c, StorageModel.lookup k s = Some c -> c_wr c = O.
(** The object has not been accessed, or is known to hold its default value. *)
Definition unchanged (s : storage) (k : Z) (kd : kind) (d : option value) : Prop :=
  forall c, StorageModel.lookup k s = Some c -> c_valid c = true -> exists x, d = Some x /\ carries kd x (c_buf c).
