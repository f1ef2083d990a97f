(** Demands on the nodes made from the parameters. *)
From Verif Require Import Base KeyModel StorageModel EdsModel TextModel ChainModel ChainSpec SetupModel.

Section Spec.
Variable plain : Z -> pval.
Variable load : text -> list (text * text) -> option EdsModel.dict.
Variable package : text -> text.
Variable join : text -> text -> text.
Variable added : value -> text -> EdsModel.dict -> bool.
Variables params defaults : value.

(** The value given for a parameter: the node's own, else the default.  For a structure of the
    node see C62. *)
Definition given (k : text) (v : value) : Prop :=
  match at_path [k] params with
  | Some (Plain z) => v = Plain z
  | Some (Struct _) => at_path [k] (node_params params defaults) = Some v
  | None => at_path [k] defaults = Some v
  end.
Definition not_given (k : text) : Prop := at_path [k] params = None /\ at_path [k] defaults = None.
Definition given_text (k t : text) : Prop := exists z, given k (Plain z) /\ plain z = PText t.
(** A list of texts, empty if not given (or an empty structure) *)
Definition given_texts (k : text) (l : list text) : Prop :=
  (not_given k /\ l = []) \/ (given k (Struct []) /\ l = []) \/ (exists z, given k (Plain z) /\ plain z = PList (map PText l)).

(** The entry of the overlay for an object: the node's own, else the default, unless the node's
    overlay is no structure *)
Definition overlaid (o t : text) : Prop :=
  exists z, plain z = PText t /\
    (plain_at [str "dcf_overlay"; o] params = Some z \/
     (plain_at [str "dcf_overlay"; o] defaults = Some z /\ ~ blocked [str "dcf_overlay"; o] params /\ ~ struct_at [str "dcf_overlay"; o] params)).
(** Everything in it is a text *)
Definition overlay_fine : Prop :=
  (forall z, ~ given (str "dcf_overlay") (Plain z)) /\
  (forall o, at_path [str "dcf_overlay"; o] params <> None \/
             (at_path [str "dcf_overlay"; o] defaults <> None /\ ~ blocked [str "dcf_overlay"; o] params) ->
             exists t, overlaid o t).
Definition overlay_names_once (ov : list (text * text)) : Prop := NoDup (map fst ov).

(** The file: as given, below the package if that is known *)
Definition file_of (path : text) : Prop :=
  exists f, given_text (str "eds_file") f /\
    ((exists p, given_text (str "eds_pkg") p /\ package p <> [] /\ path = join (package p) f) \/
     (path = f /\ (forall p, given_text (str "eds_pkg") p -> package p = []))).

(** A text naming an object: what is before the first "!", and whether there is one *)
Definition names (o n : text) (forced : bool) : Prop :=
  if forced then exists r, o = n ++ bang :: r /\ ~ In bang n else o = n /\ ~ In bang o.
(** An object of the dictionary with a data type that is known *)
Definition object (d : EdsModel.dict) (n : text) (k : Z) (e : dentry) : Prop :=
  k = key_fromString n /\ EdsModel.lookup d k = Some e /\ type_of (d_type e) <> None.
Definition logs (d : EdsModel.dict) (level : Z) (o : text) (x : logged) : Prop :=
  exists n e, names o n (l_forced x) /\ object d n (l_key x) e /\ l_level x = level /\
    ((d_desc e = [] /\ l_name x = n) \/ (d_desc e <> [] /\ l_name x = d_desc e)).
Definition publishes (d : EdsModel.dict) (node_name o : text) (x : published) : Prop :=
  exists n e, names o n (p_forced x) /\ object d n (p_key x) e /\ p_type x = d_type e /\
    p_topic x = node_name ++ str "_" ++ n.

(** The node that the parameters, with this name in the list of nodes, describe *)
Record describes (name : text) (s : snode) : Prop := {
  d_id : exists z i, at_path [str "id"] params = Some (Plain z) /\ plain z = PInt i /\ s_id s = i mod 256;
  d_diag : s_diag s = name;
  d_name : given_text (str "name") (s_name s) \/ (not_given (str "name") /\ s_name s = name);
  d_dict : exists path ov, file_of path /\ overlay_names_once ov /\ (forall o t, In (o, t) ov <-> overlaid o t) /\
             load path ov = Some (s_dict s);
  d_fine : overlay_fine;
  d_added : added (node_params params defaults) name (s_dict s) = true;
  d_log : exists o0 o1 o2 l0 l1 l2, given_texts (str "log") o0 /\ given_texts (str "log_warn") o1 /\ given_texts (str "log_error") o2 /\
             s_log s = l0 ++ l1 ++ l2 /\
             Forall2 (logs (s_dict s) 0) o0 l0 /\ Forall2 (logs (s_dict s) 1) o1 l1 /\ Forall2 (logs (s_dict s) 2) o2 l2;
  d_pub : exists os, given_texts (str "publish") os /\ Forall2 (publishes (s_dict s) (s_name s)) os (s_pub s);
  d_emcy : EdsModel.lookup (s_dict s) (key_index 4097) <> None }.
End Spec.

(** The list of nodes: named structures.  In an array every element has its name. *)
Definition entries_of (plain : Z -> pval) (c : config) (l : list (text * value)) : Prop :=
  match c with
  | CStruct ms => l = ms
  | CArray vs => Forall2 (fun v e => v = snd e /\ exists z, at_path [str "name"] v = Some (Plain z) /\ plain z = PText (fst e)) vs l
  end.
