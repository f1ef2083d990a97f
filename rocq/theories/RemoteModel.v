(** An object of a device as seen through the object storage and the SDO client:
    the delegates of the storage are SDO transfers with the server of the device.
    Source: /repo/canopen_master/include/canopen_master/canopen.h (57-63: the
            storage of the client gets SDOClient::read and SDOClient::write)
            /repo/canopen_master/include/canopen_master/objdict.h
            /repo/canopen_master/src/sdo.cpp *)
From Verif Require Import Base CanModel KeyModel StorageModel SdoModel SdoSpec.

(** The server [v] answers [n] requests, then it stays silent. *)
Definition talked (v : server) (index sub : Z) (client : list input -> outcome (list msg * sdo_result))
  (obj : bytes) (n : nat) : list input * bytes :=
  let '(ins, st) := talk v index sub client obj n in (ins ++ [ITimeout], snd st).

(** sdo.cpp:436-443 with 398-434, SDOClient::read: the caller's buffer, assigned
    only if no exception is thrown (line 432). Undefined behaviour is not told
    apart from an exception here: it is excluded for the transfers considered,
    see [remote_read_defined]. *)
Definition remote_read (v : server) (index sub : Z) (obj : bytes) (n : nat) : reader := fun buf =>
  let '(ins, _) := talked v index sub (sdo_read index sub buf) obj n in
  match sdo_read index sub buf ins with
  | Ok (_, SReturn b) => (b, true)
  | _ => (buf, false)
  end.

(** sdo.cpp:444-451, SDOClient::write: content of the object afterwards and
    whether write returned *)
Definition remote_write (v : server) (index sub : Z) (obj : bytes) (n : nat) (data : bytes) : bytes * bool :=
  let '(ins, obj') := talked v index sub (sdo_write index sub data) obj n in
  match sdo_write index sub data ins with
  | Ok (_, SReturn _) => (obj', true)
  | _ => (obj', false)
  end.

(** What happens to the object: accesses of the user through the storage
    (objdict.h:339-377), each with the server's behaviour meanwhile, and changes
    made by the device. *)
Inductive act :=
| AGet (cached : bool) (v : server) (n : nat)
| ASet (b : bytes) (v : server) (n : nat)
| ASetCached (b : bytes) (v : server) (n : nat)
| ADevice (b : bytes).

(** The data a write of [b] hands over to the delegate: objdict.h:363-365 and
    373-375, the buffer after the assignment. *)
Definition handed (c : cell) (b : bytes) : bytes :=
  match assign c b with Ok c1 => c_buf c1 | Undef => [] end.

(** Cell, content of the object, and what the access did. *)
Definition act_step (e : entry) (index sub : Z) (a : act) (c : cell) (obj : bytes)
  : outcome (cell * bytes * list event * result) :=
  let after ev obj' := match ev with [] => obj | _ => obj' end in
  match a with
  | AGet cached v n =>
    match step e (OGet cached (remote_read v index sub obj n)) c with
    | Undef => Undef
    | Ok (c1, ev, r) =>
      Ok (c1, after ev (snd (talked v index sub (sdo_read index sub (c_buf (allocate c))) obj n)), ev, r)
    end
  | ASet b v n =>
    let w := remote_write v index sub obj n (handed c b) in
    match step e (OSet b (snd w)) c with
    | Undef => Undef
    | Ok (c1, ev, r) => Ok (c1, after ev (fst w), ev, r)
    end
  | ASetCached b v n =>
    let w := remote_write v index sub obj n (handed c b) in
    match step e (OSetCached b (snd w)) c with
    | Undef => Undef
    | Ok (c1, ev, r) => Ok (c1, after ev (fst w), ev, r)
    end
  | ADevice b => Ok (c, b, [], RDone)
  end.

Fixpoint act_run (e : entry) (index sub : Z) (l : list act) (c : cell) (obj : bytes)
  : outcome (cell * bytes * list result) :=
  match l with
  | [] => Ok (c, obj, [])
  | a :: t =>
    match act_step e index sub a c obj with
    | Undef => Undef
    | Ok (c1, obj1, _, r) =>
      match act_run e index sub t c1 obj1 with
      | Undef => Undef
      | Ok (c2, obj2, rs) => Ok (c2, obj2, r :: rs)
      end
    end
  end.
