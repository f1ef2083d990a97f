(** The nodes of a chain: how they are made from the parameters, and the services for objects.
    Source: /repo/canopen_chain_node/src/ros_chain.cpp (413-440, 442-580, 250-282, 17-70) and
            /repo/canopen_chain_node/include/canopen_chain_node/ros_chain.h (56-71). *)
From Verif Require Import Base KeyModel StorageModel EdsModel TextModel ChainModel.

(** Values of parameters that are no structures *)
Inductive pval := PInt (z : Z) | PText (t : text) | PList (l : list pval) | POther.

Section Setup.
(** What a [Plain] value of the parameters is *)
Variable plain : Z -> pval.
(** ObjectDict::fromFile for a path and an overlay (see EdsModel); None: exception *)
Variable load : text -> list (text * text) -> option EdsModel.dict.
(** ros::package::getPath; empty: unknown package.  [join]: boost::filesystem, p / file *)
Variable package : text -> text.
Variable join : text -> text -> text.
(** nodeAdded: true for RosChain (579-581); a MotorChain adds the motor and its handles
    (motor_chain.cpp:10-59) and may refuse *)
Variable added : value -> text -> EdsModel.dict -> bool.

(** A member of a structure (hasMember and operator[]) *)
Definition member (k : text) (v : value) : option value :=
  match v with Struct ms => find k ms | Plain _ => None end.
(** Conversions of XmlRpcValue are exceptions for other types *)
Definition as_int (v : value) : option Z := match v with Plain z => match plain z with PInt i => Some i | _ => None end | Struct _ => None end.
Definition as_text (v : value) : option text := match v with Plain z => match plain z with PText t => Some t | _ => None end | Struct _ => None end.
Fixpoint texts (l : list pval) : option (list text) :=
  match l with
  | [] => Some []
  | PText t :: l => option_map (cons t) (texts l)
  | _ :: _ => None
  end.
(** Lists of texts: objs.size() is an exception unless an array or a structure (the number of
    members; objs[i] is an exception then unless it is empty) *)
Definition as_texts (v : value) : option (list text) :=
  match v with
  | Plain z => match plain z with PList l => texts l | _ => None end
  | Struct [] => Some []
  | Struct _ => None
  end.

(** An object to log: level, key, shown name, forced; to publish: topic, key, data type, forced *)
Record logged := mkLogged { l_level : Z; l_key : Z; l_name : text; l_forced : bool }.
Record published := mkPublished { p_topic : text; p_key : Z; p_type : Z; p_forced : bool }.
(** A node: its identifier (uint8_t, canopen.h:117), dictionary, name in diagnostics, name for
    services and topics, logged and published objects *)
Record snode := mkSnode { s_id : Z; s_dict : EdsModel.dict; s_diag : text; s_name : text; s_log : list logged; s_pub : list published }.

(** Logger::add, ros_chain.h:59-71, with getStringReader (objdict.cpp:445-448): None is an
    exception (unknown object, unknown data type) *)
Definition log_object (d : EdsModel.dict) (level : Z) (obj : text) (forced : bool) : option logged :=
  let k := key_fromString obj in
  match EdsModel.lookup d k with
  | None => None
  | Some e => match type_of (d_type e) with
              | None => None
              | Some _ => Some (mkLogged level k (match d_desc e with [] => obj | n => n end) forced)
              end
  end.
(** addLoggerEntries, 420-440 *)
Fixpoint log_all (d : EdsModel.dict) (level : Z) (l : list text) : option (list logged) :=
  match l with
  | [] => Some []
  | o :: l =>
    let (n, f) := parse_object_name o in
    match log_object d level n f with
    | None => None
    | Some x => option_map (cons x) (log_all d level l)
    end
  end.
Definition log_entries (d : EdsModel.dict) (merged : value) (param : text) (level : Z) : option (list logged) :=
  match member param merged with
  | None => Some []
  | Some v => match as_texts v with None => None | Some l => log_all d level l end
  end.

(** createPublishFunc, 40-66: all data types of the dictionary have messages but the others
    (default: return 0) *)
Definition publish_object (d : EdsModel.dict) (node_name obj : text) (forced : bool) : option published :=
  let k := key_fromString obj in
  match EdsModel.lookup d k with
  | None => None
  | Some e => match type_of (d_type e) with
              | None => None
              | Some _ => Some (mkPublished (node_name ++ str "_" ++ obj) k (d_type e) forced)
              end
  end.
Fixpoint publish_all (d : EdsModel.dict) (node_name : text) (l : list text) : option (list published) :=
  match l with
  | [] => Some []
  | o :: l =>
    let (n, f) := parse_object_name o in
    match publish_object d node_name n f with
    | None => None
    | Some x => option_map (cons x) (publish_all d node_name l)
    end
  end.

(** dcf_overlay, 489-502: a structure of texts.  The order of the members is the one of the
    structure here, in the code the one of their names. *)
Fixpoint overlay_of (ms : list (text * value)) : option (list (text * text)) :=
  match ms with
  | [] => Some []
  | (k, v) :: ms => match as_text v with None => None | Some t => option_map (cons (k, t)) (overlay_of ms) end
  end.
Definition overlay (merged : value) : option (list (text * text)) :=
  match member (str "dcf_overlay") merged with
  | None => Some []
  | Some (Struct ms) => overlay_of ms
  | Some (Plain _) => None
  end.

(** 504-526: the path of the description.  merged["eds_file"] adds an empty member if there is
    none, whose conversion fails.  A package parameter that is no text is ignored. *)
Definition eds_path (merged : value) : option text :=
  match member (str "eds_file") merged with
  | None => None
  | Some v =>
    match as_text v with
    | None => None
    | Some eds =>
      Some match member (str "eds_pkg") merged with
           | None => eds
           | Some w => match as_text w with
                       | None => eds
                       | Some pkg => match package pkg with [] => eds | p => join p eds end
                       end
           end
    end
  end.

(** setup_node, 471-577.  None: it
    returns false or is left by an exception, the set-up of the chain fails.  The emergency
    handler needs object 1001 (emcy.cpp:54).  The parameters handed to nodeAdded include the
    name (483-485). That an object has default values its type does not fit is not considered
    (exceptions of ObjectStorage::entry). *)
Definition setup_node (params : value) (name : text) (defaults : value) : option snode :=
  match member (str "id") params with
  | None => None
  | Some vid =>
    match as_int vid with
    | None => None
    | Some node_id =>
      let merged := node_params params defaults in
      match overlay merged with
      | None => None
      | Some ov =>
        match eds_path merged with
        | None => None
        | Some path =>
          match load path ov with
          | None => None
          | Some d =>
            if negb (added merged name d) then None else
            match log_entries d merged (str "log") 0, log_entries d merged (str "log_warn") 1, log_entries d merged (str "log_error") 2 with
            | Some l0, Some l1, Some l2 =>
              match (match member (str "name") merged with None => Some name | Some v => as_text v end) with
              | None => None
              | Some node_name =>
                match (match member (str "publish") merged with
                       | None => Some []
                       | Some v => match as_texts v with None => None | Some l => publish_all d node_name l end
                       end) with
                | None => None
                | Some pubs =>
                  match EdsModel.lookup d (key_index 4097) with
                  | None => None
                  | Some _ => Some (mkSnode (u8 node_id) d name node_name (l0 ++ l1 ++ l2) pubs)
                  end
                end
              end
            | _, _, _ => None
            end
          end
        end
      end
    end
  end.

(** setup_nodes, 442-469.  The parameter "nodes": an array whose elements have names, or a
    structure. *)
Inductive config := CArray (l : list value) | CStruct (ms : list (text * value)).
Fixpoint named (l : list value) : option (list (text * value)) :=
  match l with
  | [] => Some []
  | v :: l => match member (str "name") v with
              | None => None
              | Some n => match as_text n with None => None | Some t => option_map (cons (t, v)) (named l) end
              end
  end.
Fixpoint setup_all (l : list (text * value)) (defaults : value) : option (list snode) :=
  match l with
  | [] => Some []
  | (n, v) :: l => match setup_node v n defaults with
                   | None => None
                   | Some x => option_map (cons x) (setup_all l defaults)
                   end
  end.
(** The checks of an array are made one by one; that the set-up fails is all that matters here. *)
Definition setup_nodes (c : config) (defaults : value) : option (list snode) :=
  match c with
  | CArray l => match named l with None => None | Some ms => setup_all ms defaults end
  | CStruct ms => setup_all ms defaults
  end.
End Setup.

(** nodes_lookup_: insert keeps the node that is there (569); find (252) *)
Fixpoint lookup_node {A} (n : text) (l : list (text * A)) : option A :=
  match l with
  | [] => None
  | (m, a) :: l => if text_eqb n m then Some a else lookup_node n l
  end.
