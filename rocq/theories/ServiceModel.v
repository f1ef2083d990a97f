(** The services get_object and set_object, from names and texts to the devices.
    Source: /repo/canopen_chain_node/src/ros_chain.cpp:249-281,
            /repo/canopen_master/include/canopen_master/objdict.h:474-505,
            /repo/canopen_master/src/objdict.cpp:439-480. *)
From Verif Require Import Base KeyModel StorageModel SdoModel SdoSpec TextModel RemoteModel SetupModel.
From Verif Require EdsModel ChainModel.

(** A device: the dictionary of its node, the values of default values that depend on the node id
    (by key), the cells of its object storage, and the objects it holds itself *)
Record dev := mkDev { v_dict : EdsModel.dict; v_nv : Z -> bytes; v_cells : list (Z * cell); v_objs : Z -> Z -> bytes }.
(** nodes_lookup_ *)
Definition chain := list (text * dev).
Fixpoint put_node (n : text) (d : dev) (l : chain) : chain :=
  match l with
  | [] => []
  | (m, a) :: l => if ChainModel.text_eqb n m then (m, d) :: l else (m, a) :: put_node n d l
  end.
Definition put_object (i s : Z) (b : bytes) (f : Z -> Z -> bytes) : Z -> Z -> bytes :=
  fun i' s' => if (i' =? i) && (s' =? s) then b else f i' s'.

(** objdict.h:164-188. A constant flag that was never set counts as false here (see C75). *)
Definition entry_of (e : EdsModel.dentry) : entry :=
  mkEntry (EdsModel.d_readable e) (EdsModel.d_writable e) (match EdsModel.d_const e with Some b => b | None => false end) (EdsModel.d_def e) (EdsModel.d_init e).

(** ObjectDict::get (objdict.h:198-200), the type of the value (objdict.cpp:447, 473) and
    ObjectStorage::entry (objdict.h:474-494): the entry and its cell, created if need be; None: exception *)
Definition find_cell (d : dev) (k : Z) : option (EdsModel.dentry * cell) :=
  match EdsModel.lookup (v_dict d) k with
  | None => None
  | Some e =>
    match EdsModel.type_of (EdsModel.d_type e) with
    | None => None
    | Some t =>
      match lookup k (v_cells d) with
      | Some c => Some (e, c)
      | None => match entry_cell t (entry_of e) (v_nv d k) with Some c => Some (e, c) | None => None end
      end
    end
  end.

Inductive message := NoMessage | NodeNotFound | Exception.
Record reply := mkReply { success : bool; msg : message; value : text }.
Inductive request := GetObject (node object : text) (cached : bool) | SetObject (node object : text) (cached : bool) (value : text).

Section Service.
Variable real : nat -> text -> option bytes.
Variable raw_string : text -> bytes.
Variable raw_offset : ity -> Z -> bytes.
Variable show_real : nat -> bytes -> text.

(** The bytes a text is converted to (objdict.cpp:458-464), if it is *)
Definition parsed (dt : Z) (s : text) : bytes :=
  match EdsModel.type_of dt, EdsModel.read_value real raw_string raw_offset dt (Some s) with
  | Some t, Some h => match hold_get t h with Some b => b | None => [] end
  | _, _ => []
  end.

(** Accesses on the bus: node, index, sub-index, access *)
Definition access := (text * Z * Z * event)%type.
(** handle_get_object and handle_set_object; the server of the device behaves as [v] and answers
    [n] requests. Both return true always. *)
Definition serve (v : server) (n : nat) (q : request) (w : chain) : outcome (chain * list access * reply) :=
  let node := match q with GetObject m _ _ | SetObject m _ _ _ => m end in
  let object := match q with GetObject _ o _ | SetObject _ o _ _ => o end in
  match lookup_node node w with
  | None => Ok (w, [], mkReply false NodeNotFound [])
  | Some d =>
    let k := key_fromString object in
    match find_cell d k with
    | None => Ok (w, [], mkReply false Exception [])
    | Some (e, c) =>
      let i := EdsModel.d_index e in let s := EdsModel.d_sub e in let obj := v_objs d i s in
      let '(r, obj') :=
        match q with
        | GetObject _ _ cached =>
          (text_read show_real (EdsModel.d_type e) (entry_of e) c cached (remote_read v i s obj n),
           snd (talked v i s (sdo_read i s (c_buf (allocate c))) obj n))
        | SetObject _ _ cached t =>
          let r := remote_write v i s obj n (handed c (parsed (EdsModel.d_type e) t)) in
          (text_write real raw_string raw_offset (EdsModel.d_type e) (entry_of e) c cached t (snd r), fst r)
        end in
      match r with
      | Undef => Undef
      | Ok (c1, ev, res) =>
        let obj1 := match ev with [] => obj | _ => obj' end in
        Ok (put_node node (mkDev (v_dict d) (v_nv d) (store k c1 (v_cells d)) (put_object i s obj1 (v_objs d))) w,
            map (fun x => (node, i, s, x)) ev,
            match res with TText t => mkReply true NoMessage t | TDone => mkReply true NoMessage [] | TFail => mkReply false Exception [] end)
      end
    end
  end.

(** Histories: requests with the behaviour of the device meanwhile, and changes by devices *)
Inductive sevent := Request (q : request) (v : server) (n : nat) | Changed (node : text) (i s : Z) (b : bytes).
Definition device_change (node : text) (i s : Z) (b : bytes) (w : chain) : chain :=
  match lookup_node node w with
  | Some d => put_node node (mkDev (v_dict d) (v_nv d) (v_cells d) (put_object i s b (v_objs d))) w
  | None => w
  end.
Fixpoint serve_all (l : list sevent) (w : chain) : outcome (chain * list access * list reply) :=
  match l with
  | [] => Ok (w, [], [])
  | Request q v n :: l =>
    match serve v n q w with
    | Undef => Undef
    | Ok (w1, a, r) => match serve_all l w1 with Undef => Undef | Ok (w2, a2, rs) => Ok (w2, a ++ a2, r :: rs) end
    end
  | Changed m i s b :: l => serve_all l (device_change m i s b w)
  end.
End Service.
