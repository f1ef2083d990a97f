(** Configured values on their way to the device while a node boots.
    Source: /repo/canopen_master/src/objdict.cpp:43-56 and 392-419,
            /repo/canopen_master/include/canopen_master/canopen.h:57-63 (the delegates of the storage),
            /repo/canopen_master/src/node.cpp:188-191 (after the PDO setup). *)
From Verif Require Import Base KeyModel StorageModel SdoModel SdoSpec RemoteModel EdsModel ServiceModel.

(** objdict.cpp:392-407, init_nolock, for the entry [e] with the key [k]; [s] are the cells of the
    storage and [o] the objects of the device. A cell that is not connected to a PDO buffer is written by
    SDO: the server behaves as [v] and answers [n] requests meanwhile. The write of a PDO buffer does not fail. *)
Definition init_object (v : server) (n : nat) (k : Z) (e : dentry) (s : storage) (o : Z -> Z -> bytes)
  : outcome (storage * (Z -> Z -> bytes) * bool) :=
  let direct := match StorageModel.lookup k s with Some c => Nat.eqb (c_wr c) 0 | None => true end in
  let w := remote_write v (d_index e) (d_sub e) (o (d_index e) (d_sub e)) n
             (match h_data (d_init e) with Some b => b | None => [] end) in
  match init_nolock k (entry_of e) (if direct then snd w else true) s with
  | Undef => Undef
  | Ok (s1, ev, ok) =>
    Ok (s1, match ev with
            | [] => o
            | _ => if direct then put_object (d_index e) (d_sub e) (fst w) o else o
            end, ok)
  end.

(** objdict.cpp:412-419, init_all with the entries in the order of the map. False: an exception has
    left it. *)
Fixpoint init_device (v : Z -> server) (n : Z -> nat) (l : EdsModel.dict) (s : storage) (o : Z -> Z -> bytes)
  : outcome (storage * (Z -> Z -> bytes) * bool) :=
  match l with
  | [] => Ok (s, o, true)
  | (k, e) :: l =>
    match init_object (v k) (n k) k e s o with
    | Undef => Undef
    | Ok (s1, o1, false) => Ok (s1, o1, false)
    | Ok (s1, o1, true) => init_device v n l s1 o1
    end
  end.
