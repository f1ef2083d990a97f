(** What the receiving thread does with the frames of a bus with several nodes:
    it calls the listeners that the nodes of a chain have registered.
    Source: /repo/canopen_master/src/node.cpp, sdo.cpp, emcy.cpp, pdo.cpp,
            /repo/socketcan_interface/include/socketcan_interface/dispatcher.h *)
From Verif Require Import Base CanModel KeyModel StorageModel PdoModel ReaderModel SdoModel SdoChanModel.
From Verif Require NodeModel EmcyModel.

(** The parts of a node that receive frames: canopen.h:225-258 (the node, its
    SDO client and its PDO mapper) and emcy.cpp:53-70 (the emergency handler;
    no header if the listener could not be created). *)
Record unit_ := mkUnit {
  u_node : NodeModel.node;
  u_sdo : client;
  u_emcy_header : option header;
  u_emcy : EmcyModel.emcy;
  u_rpdos : list pdo;
  u_world : pw
}.

(** emcy.cpp:53-70, constructor: [v] is the value of object 1014, if it can be read *)
Definition new_emcy_header (v : option Z) : option header := option_map EmcyModel.emcy_header v.
(** node.cpp:177 *)
Definition heartbeat_header (n : NodeModel.node) : header := MsgHeader (0x700 + NodeModel.n_id n) false.

(** node.cpp:115-121, handleNMT; [Undef]: the assertion of line 119 fails or an
    exception leaves the receiving thread, either of which ends the process.
    (With NDEBUG the first byte is taken whatever the length is.) *)
Definition on_nmt (now : Z) (f : frame) (u : unit_) : outcome unit_ :=
  if NodeModel.n_listening (u_node u) && (key (f_hdr f) =? key (heartbeat_header (u_node u))) then
    if f_dlc f =? 1 then
      match NodeModel.handle_nmt now (nth 0 (f_data f) 0) (u_node u) with
      | (n, _, true) => Ok (mkUnit n (u_sdo u) (u_emcy_header u) (u_emcy u) (u_rpdos u) (u_world u))
      | (_, _, false) => Undef
      end
    else Undef
  else Ok u.

(** reader.h:29-38, as in [cstep] of SdoChanModel *)
Definition on_sdo (f : frame) (u : unit_) : outcome unit_ :=
  match cstep (u_sdo u) (EFrame f) with
  | Ok (c, _) => Ok (mkUnit (u_node u) c (u_emcy_header u) (u_emcy u) (u_rpdos u) (u_world u))
  | Undef => Undef
  end.

(** emcy.cpp:43-51 *)
Definition on_emcy (f : frame) (u : unit_) : outcome unit_ :=
  Ok (match u_emcy_header u with
      | Some h =>
        if key (f_hdr f) =? key h
        then mkUnit (u_node u) (u_sdo u) (u_emcy_header u)
               (fst (EmcyModel.step (EmcyModel.Emergency (f_data f)) (u_emcy u))) (u_rpdos u) (u_world u)
        else u
      | None => u
      end).

(** pdo.cpp:228 and 298-324 *)
Definition hears (p : pdo) (f : frame) : bool :=
  match p_listen p with Some h => key (f_hdr f) =? key h | None => false end.
Fixpoint on_rpdos (f : frame) (ps : list pdo) (w : pw) : outcome (list pdo * pw) :=
  match ps with
  | [] => Ok ([], w)
  | p :: t =>
    match (if hears p f then rpdo_handle p f w else Ok (p, w)) with
    | Undef => Undef
    | Ok (p1, w1) =>
      match on_rpdos f t w1 with
      | Undef => Undef
      | Ok (t1, w2) => Ok (p1 :: t1, w2)
      end
    end
  end.
Definition on_pdo (f : frame) (u : unit_) : outcome unit_ :=
  match on_rpdos f (u_rpdos u) (u_world u) with
  | Ok (ps, w) => Ok (mkUnit (u_node u) (u_sdo u) (u_emcy_header u) (u_emcy u) ps w)
  | Undef => Undef
  end.

Definition bind {A B} (x : outcome A) (f : A -> outcome B) : outcome B :=
  match x with Ok a => f a | Undef => Undef end.
Definition receive (now : Z) (f : frame) (u : unit_) : outcome unit_ :=
  bind (on_nmt now f u) (fun u1 => bind (on_sdo f u1) (fun u2 => bind (on_emcy f u2) (on_pdo f))).

(** A frame is received (dispatcher.h:104-109: the listeners of its header are
    called); or another thread of the master does something to node number [i]. *)
Inductive event := Frame_ (now : Z) (f : frame) | Local (i : nat) (g : unit_ -> unit_).

Fixpoint all_receive (now : Z) (f : frame) (c : list unit_) : outcome (list unit_) :=
  match c with
  | [] => Ok []
  | u :: t => bind (receive now f u) (fun u1 => bind (all_receive now f t) (fun t1 => Ok (u1 :: t1)))
  end.
Fixpoint change (i : nat) (g : unit_ -> unit_) (c : list unit_) : list unit_ :=
  match c, i with
  | [], _ => []
  | u :: t, O => g u :: t
  | u :: t, S j => u :: change j g t
  end.
Definition step (e : event) (c : list unit_) : outcome (list unit_) :=
  match e with
  | Frame_ now f => all_receive now f c
  | Local i g => Ok (change i g c)
  end.
Fixpoint run (es : list event) (c : list unit_) : outcome (list unit_) :=
  match es with
  | [] => Ok c
  | e :: t => bind (step e c) (run t)
  end.
