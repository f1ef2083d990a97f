(** What users of an object of a device rely on. *)
From Verif Require Import Base CanModel KeyModel StorageModel StorageSpec SdoModel SdoSpec RemoteModel.

(** Values that fit into the SDO client: numbers of the size of the type, strings
    of 1 to 255 bytes. *)
Definition fits (t : ty) (b : bytes) : Prop :=
  bytes_ok b /\ (1 <= List.length b < 256)%nat /\ value_ok t b.

(** Strings can be read only from servers that indicate their size. *)
Definition server_ok (t : ty) (v : server) : Prop := t = TStr -> v_sized v = true.

Definition act_ok (t : ty) (a : act) : Prop :=
  match a with
  | AGet _ v _ => server_ok t v
  | ASet b v _ | ASetCached b v _ => fits t b
  | ADevice b => fits t b
  end.

(** The server answers all requests of a transfer (it may refuse them). *)
Definition answering (n : nat) : Prop := (40 <= n)%nat.
Definition act_answered (a : act) : Prop :=
  match a with AGet _ _ n | ASet _ _ n | ASetCached _ _ n => answering n | ADevice _ => True end.

(** Only the master changes the object. *)
Definition passive (a : act) : Prop := match a with ADevice _ => False | _ => True end.

Definition not_failed (r : result) : Prop := r <> RThrow DeviceError.
