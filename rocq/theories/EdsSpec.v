(** Electronic data sheets (CiA 306) as their authors know them. *)
From Verif Require Import Base CanModel CanSpec KeyModel KeySpec StorageModel EdsModel.

(** Section and key names are case insensitive. [has l k a]: [l] has an item named
    [k]; [lacks l k]: it has none. *)
Definition names_equal (a b : text) : Prop := map lower a = map lower b.
Definition has {A} (l : list (text * A)) (k : text) (a : A) : Prop :=
  exists k', In (k', a) l /\ names_equal k k'.
Definition lacks {A} (l : list (text * A)) (k : text) : Prop :=
  forall k' a, In (k', a) l -> ~ names_equal k k'.
(** A file without duplicates. *)
Definition unique {A} (l : list (text * A)) : Prop := NoDup (map (fun x => map lower (fst x)) l).
Definition well_formed (pt : ini) : Prop := unique pt /\ forall k s, In (k, s) pt -> unique s.

(** Values of objects. *)
Inductive value :=
| Number (x : Z)          (* an integer *)
| NodeIdPlus (x : Z)      (* node id plus an integer *)
| Floating (b : bytes).   (* a floating point number by its representation *)

Inductive access := RO | WO | RW | RWR | RWW | CONST.
Definition access_word (a : access) : text :=
  match a with RO => str "ro" | WO => str "wo" | RW => str "rw" | RWR => str "rwr" | RWW => str "rww" | CONST => str "const" end.
Definition can_read (a : access) : bool := match a with WO => false | _ => true end.
Definition can_write (a : access) : bool := match a with RO | CONST => false | _ => true end.

(** A variable: an object without sub-objects, or a sub-object. *)
Record var := mkVar {
  v_code : Z; v_type : Z; v_access : access; v_map : bool; v_name : text;
  v_def : option value; v_init : option value
}.

(** Objects: variables, or arrays and records with sub-objects 0, 1, 2, ... *)
Inductive obj := OVar (v : var) | OSubs (code : Z) (l : list var).

(** Data types of CiA 301. *)
Inductive kind := Signed (n : Z) | Unsigned (n : Z) | Float (n : nat) | Octets.
Definition kind_of (c : Z) : option kind :=
  match c with
  | 2 => Some (Signed 1) | 3 => Some (Signed 2) | 4 => Some (Signed 4) | 21 => Some (Signed 8)
  | 5 => Some (Unsigned 1) | 6 => Some (Unsigned 2) | 7 => Some (Unsigned 4) | 27 => Some (Unsigned 8)
  | 8 => Some (Float 4) | 16 => Some (Float 8)
  | 9 | 10 | 11 | 15 => Some Octets
  | _ => None
  end.
Definition integers (k : kind) : option ity :=
  match k with Signed n => Some (mkIty true n) | Unsigned n => Some (mkIty false n) | _ => None end.

(** Truth values, with space around them. *)
Definition truth_text (b : bool) (t : text) : Prop :=
  exists w0 w w1, spaces w0 /\ spaces w1 /\ t = w0 ++ w ++ w1 /\
    (if b then w = str "1" \/ w = str "true" else w = str "0" \/ w = str "false").

Section Showing.
Variable real : nat -> text -> option bytes.

(** The text [t] shows the value [v] of the kind [k]. *)
Definition shows_value (k : kind) (t : text) (v : value) : Prop :=
  match v with
  | Number x => exists T w0 n w1, integers k = Some T /\ in_type T x /\ numeral n x /\ spaces w0 /\ spaces w1 /\ t = w0 ++ n ++ w1
  | NodeIdPlus x => exists T w0 word w1, integers k = Some T /\ in_type T x /\ spaces w0 /\ nodeid_word word /\ spaces w1 /\
      (x = 0 /\ t = w0 ++ word ++ w1 \/
       exists w2 w3 n, spaces w2 /\ spaces w3 /\ numeral n x /\
         (t = w0 ++ word ++ w1 ++ str "+" ++ w2 ++ n ++ w3 \/ t = w0 ++ n ++ w1 ++ str "+" ++ w2 ++ word ++ w3))
  | Floating b => exists n, k = Float n /\ real n t = Some b
  end.
Definition shows_option (k : kind) (s : section) (key : text) (v : option value) : Prop :=
  match v with
  | None => lacks s key
  | Some v => exists t, has s key t /\ shows_value k t v
  end.

(** The section [s] shows the variable [v]. *)
Definition shows_number (s : section) (key : text) (x : Z) : Prop :=
  exists t, has s key t /\ unsigned_numeral t x.
Record shows_var (s : section) (v : var) : Prop := {
  sv_code : shows_number s (str "ObjectType") (v_code v) \/ lacks s (str "ObjectType") /\ v_code v = 7;
  sv_small : v_code v < 2^16;
  sv_type : shows_number s (str "DataType") (v_type v) /\ v_type v < 2^16;
  sv_access : exists t, has s (str "AccessType") t /\ names_equal t (access_word (v_access v));
  sv_map : (exists t, has s (str "PDOMapping") t /\ truth_text (v_map v) t) \/ lacks s (str "PDOMapping") /\ v_map v = false;
  sv_name : (exists p, has s (str "ParameterName") p /\
             (has s (str "Denotation") (v_name v) \/ lacks s (str "Denotation") /\ p = v_name v));
  sv_values : exists k, kind_of (v_type v) = Some k /\
              shows_option k s (str "DefaultValue") (v_def v) /\ shows_option k s (str "ParameterValue") (v_init v)
}.

(** A hexadecimal number without leading zeros. *)
Definition hexadecimal (t : text) (x : Z) : Prop := digits 16 t x /\ (hd 0 t <> 48 \/ t = str "0").

(** The sections of the file show the object [o] named [name], which is 0x and
    the hexadecimal index. *)
Definition shows_obj (pt : ini) (name : text) (o : obj) : Prop :=
  match o with
  | OVar v => (v_code v = 7 \/ v_code v = 2) /\ exists s, has pt name s /\ shows_var s v
  | OSubs code l =>
    (code = 8 \/ code = 9) /\ (exists s p, has pt name s /\ shows_number s (str "ObjectType") code /\
      has s (str "ParameterName") p /\ lacks s (str "CompactSubObj") /\
      shows_number s (str "SubNumber") (Z.of_nat (List.length l))) /\ (List.length l < 256)%nat /\
    forall i v, nth_error l i = Some v ->
      exists t s, hexadecimal t (Z.of_nat i) /\ has pt (name ++ str "sub" ++ t) s /\ shows_var s v
  end.

(** Sub-object [j] as [sub] says: a variable, or missing. *)
Definition shown_sub (pt : ini) (n : text) (sub : Z -> option var) (j : Z) : Prop :=
  match sub j with
  | Some v => exists t s, hexadecimal t j /\ has pt (n ++ str "sub" ++ t) s /\ shows_var s v
  | None => exists t, hexadecimal t j /\ lacks pt (n ++ str "sub" ++ t)
  end.

(** A decimal number without leading zeros. *)
Definition decimal (t : text) (x : Z) : Prop := digits 10 t x /\ hd 0 t <> 48.

(** The list of objects [group] of the file has the given objects in its order. *)
Definition shows_group (pt : ini) (group : text) (l : list (Z * obj)) : Prop :=
  (lacks pt group /\ l = []) \/
  exists s, has pt group s /\ shows_number s (str "SupportedObjects") (Z.of_nat (List.length l)) /\ Z.of_nat (List.length l) < 2^16 /\
    forall i x o, nth_error l i = Some (x, o) ->
      exists t n, decimal t (Z.of_nat i + 1) /\ has s t (str "0x" ++ n) /\ digits 16 n x /\ x < 2^16 /\ shows_obj pt n o.

Definition shows_file (pt : ini) (objs : list (Z * obj)) : Prop :=
  well_formed pt /\
  (exists di, has pt (str "DeviceInfo") di /\
    (forall k t, In (k, t) di -> forall r, k = str "BaudRate_" ++ r -> exists b, truth_text b t)) /\
  (forall s, has pt (str "DummyUsage") s -> forall k t, In (k, t) s -> forall r, k = str "Dummy" ++ r -> exists b, truth_text b t) /\
  exists l1 l2 l3, objs = l1 ++ l2 ++ l3 /\
    shows_group pt (str "MandatoryObjects") l1 /\ shows_group pt (str "OptionalObjects") l2 /\
    shows_group pt (str "ManufacturerObjects") l3.
End Showing.

(** What the dictionary should have under a key: the variable with its index and
    sub-index. *)
Fixpoint obj_at (objs : list (Z * obj)) (i : Z) : option obj :=
  match objs with
  | [] => None
  | (x, o) :: t => if i =? x then Some o else obj_at t i
  end.
Definition wanted (objs : list (Z * obj)) (k : okey) : option (Z * Z * var) :=
  match k with
  | KIndex i => match obj_at objs i with Some (OVar v) => Some (i, 0, v) | _ => None end
  | KSub i s => match obj_at objs i with
                | Some (OSubs _ l) => match nth_error l (Z.to_nat s) with Some v => Some (i, s, v) | None => None end
                | _ => None
                end
  end.

(** A stored value: typed, and with the bytes of the value in little endian
    order. Values relative to the node id are marked as such; [raw] gives their
    representation. *)
Definition stored (raw : ity -> Z -> bytes) (k : kind) (v : option value) (h : hold) : Prop :=
  match v with
  | None => h_data h = None /\
      h_type h = Some (match k with Signed n => TInt (mkIty true n) | Unsigned n => TInt (mkIty false n) | Float n => TReal n | Octets => TStr end)
  | Some (Number x) => exists T b, integers k = Some T /\ h = mkHold (Some (TInt T)) (Some b) /\
      Z.of_nat (List.length b) = i_size T /\ Forall byte_ok b /\ of_le b = x mod 2^(8 * i_size T)
  | Some (NodeIdPlus x) => exists T, integers k = Some T /\ h = mkHold (Some (TOff T)) (Some (raw T x))
  | Some (Floating b) => exists n, k = Float n /\ h = mkHold (Some (TReal n)) (Some b)
  end.

(** The dictionary entry of the variable [v] with index [i] and sub-index [s]. *)
Definition describes (raw : ity -> Z -> bytes) (i s : Z) (v : var) (e : dentry) : Prop :=
  d_code e = v_code v /\ d_index e = i /\ d_sub e = s /\ d_type e = v_type v /\
  d_const e = Some (match v_access v with CONST => true | _ => false end) /\
  d_readable e = can_read (v_access v) /\ d_writable e = can_write (v_access v) /\
  d_mappable e = v_map v /\ d_desc e = v_name v /\
  exists k, kind_of (v_type v) = Some k /\ stored raw k (v_def v) (d_def e) /\ stored raw k (v_init v) (d_init e).

(** Compact objects: sub-object 0 holds the number of elements, and is read only. *)
Definition describes_nr (i m : Z) (e : dentry) : Prop :=
  d_code e = 7 /\ d_index e = i /\ d_sub e = 0 /\ d_type e = 5 /\ d_readable e = true /\ d_writable e = false /\ d_mappable e = false /\
  d_def e = mkHold (Some (TInt (mkIty false 1))) (Some [m]) /\ h_data (d_init e) = None.
(** The elements are variables like the object as a whole, and have no configured value. *)
Definition describes_element (raw : ity -> Z -> bytes) (i s : Z) (v : var) (e : dentry) : Prop :=
  d_code e = 7 /\ d_index e = i /\ d_sub e = s /\ d_type e = v_type v /\
  (d_readable e = can_read (v_access v) /\ d_writable e = can_write (v_access v)) /\ d_mappable e = v_map v /\
  exists k, kind_of (v_type v) = Some k /\ stored raw k (v_def v) (d_def e) /\ stored raw k None (d_init e).

(** Configuration by overlay. *)
Definition with_init (v : var) (x : value) : var :=
  mkVar (v_code v) (v_type v) (v_access v) (v_map v) (v_name v) (v_def v) (Some x).
Fixpoint change_at {A} (f : A -> A) (n : nat) (l : list A) : list A :=
  match l, n with
  | [], _ => []
  | a :: t, O => f a :: t
  | a :: t, S n => a :: change_at f n t
  end.
(** The objects with [x] as configured value of the object [k]. *)
Definition configure (k : okey) (x : value) (io : Z * obj) : Z * obj :=
  match k, io with
  | KIndex j, (i, OVar v) => if i =? j then (i, OVar (with_init v x)) else io
  | KSub j s, (i, OSubs c l) => if i =? j then (i, OSubs c (change_at (fun v => with_init v x) (Z.to_nat s) l)) else io
  | _, _ => io
  end.
(** Names of objects and sub-objects. *)
Definition section_name (name : text) (k : okey) : Prop :=
  match k with
  | KIndex i => hexadecimal name i
  | KSub i s => exists n t, hexadecimal n i /\ hexadecimal t s /\ names_equal name (n ++ str "sub" ++ t)
  end.
(** [overlays real objs ov objs']: the items of [ov] name objects of [objs], show values of their
    types, and setting them one after the other gives [objs']. *)
Inductive overlays (real : nat -> text -> option bytes) : list (Z * obj) -> list (text * text) -> list (Z * obj) -> Prop :=
| ov_nil : forall objs, overlays real objs [] objs
| ov_cons : forall objs name t ov objs' k x i s v kd,
    okey_ok k -> section_name name k -> wanted objs k = Some (i, s, v) -> kind_of (v_type v) = Some kd -> shows_value real kd t x ->
    overlays real (map (configure k x) objs) ov objs' -> overlays real objs ((name, t) :: ov) objs'.
(** No section name begins with the digit 0. *)
Definition no_leading_zero (pt : ini) : Prop := forall k s, In (k, s) pt -> hd 0 k <> 48.

(** A number of the device information, in decimal digits, of [bits] bits; 0 if
    it is not given. *)
Definition info_number (di : section) (key : text) (bits x : Z) : Prop :=
  (exists t w0 n w1, has di key t /\ spaces w0 /\ spaces w1 /\ t = w0 ++ n ++ w1 /\ digits 10 n x /\ x < 2^bits) \/
  lacks di key /\ x = 0.
