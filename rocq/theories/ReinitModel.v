(** A node that is initialised again or recovered, and what its device holds afterwards.
    Source: /repo/canopen_master/src/node.cpp:44-54 and 176-209,
            /repo/canopen_master/src/objdict.cpp:67-75, 392-426. *)
From Verif Require Import Base StorageModel SdoModel SdoSpec NodeModel EdsModel ServiceModel BootModel.

(** The cells of the storage and the objects of the device *)
Definition held_by := (storage * (Z -> Z -> bytes))%type.

Section Steps.
(** How the servers behave, how many requests they answer, and the order of the map (see BootModel) *)
Variables (v : Z -> server) (n : Z -> nat) (order : EdsModel.dict).
(** What a device does with its objects when it gets the NMT command Reset_Com *)
Variable rebooted : (Z -> Z -> bytes) -> Z -> Z -> bytes.
(** What PDOMapper::init (pdo.cpp:190-229) does: it accesses the PDO parameters and connects cells. Any function here *)
Variable mapped : held_by -> held_by.

(** One action of Node::handleInit or handleRecover. node.cpp:46-47: reset_com resets the storage and sends
    Reset_Com. node.cpp:188, 191: PDOs, init_all. The listener, SDOClient::init and the NMT command Start do
    not change objects. The cells of the storage belong to the entries [order] of the dictionary. False: an
    exception has left the action. *)
Definition act (a : bact) (h : held_by) : outcome (held_by * bool) :=
  match a with
  | BResetCom => Ok ((storage_reset (map (fun ke => (fst ke, entry_of (snd ke))) order) (fst h), rebooted (snd h)), true)
  | BPdoInit => Ok (mapped h, true)
  | BInitAll =>
    match init_device v n order (fst h) (snd h) with
    | Undef => Undef
    | Ok (s, o, ok) => Ok ((s, o), ok)
    end
  | BListen | BSdoInit | BStart => Ok (h, true)
  end.
(** The actions that have been carried out, in their order. False: the last one threw. *)
Fixpoint acts (l : list bact) (h : held_by) : outcome (held_by * bool) :=
  match l with
  | [] => Ok (h, true)
  | a :: l =>
    match act a h with
    | Undef => Undef
    | Ok (h1, false) => Ok (h1, false)
    | Ok (h1, true) => acts l h1
    end
  end.
(** node.cpp:176-201; [b] gives the outcomes of the steps (see NodeModel) *)
Definition initialise (b : boot) (h : held_by) : outcome (held_by * bool) := acts (fst (handle_init b)) h.
(** node.cpp:202-209 *)
Definition recovered (start : sres) (h : held_by) : outcome (held_by * bool) := acts (fst (handle_recover start)) h.
End Steps.
