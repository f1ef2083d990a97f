(** Reading of EDS files into an object dictionary, and access to objects by text.
    Source: /repo/canopen_master/src/objdict.cpp *)
From Verif Require Import Base CanModel KeyModel StorageModel.

(** boost::property_tree::iptree as made by read_ini: sections with keys and
    texts. The INI syntax itself is in IniModel. *)
Definition section := list (text * text).
Definition ini := list (text * section).

(** Child of an iptree by name: names are compared without case. Paths with a
    dot and empty paths are not modelled: a name with a dot is no child. *)
Definition same_name (a b : text) : bool := bytes_eqb (map lower a) (map lower b).
Fixpoint child {A} (k : text) (l : list (text * A)) : option A :=
  match l with
  | [] => None
  | (k', a) :: t => if same_name k k' then Some a else child k t
  end.

(** get<bool> of boost's stream translator: a number 0 or 1, otherwise the
    words true and false; nothing but white space may follow. *)
Definition bool_word (s : text) : option (bool * text) :=
  match match_lit (str "true") s with
  | Some r => Some (true, r)
  | None => match match_lit (str "false") s with Some r => Some (false, r) | None => None end
  end.
Definition get_bool (s : text) : option bool :=
  let '(neg, s1) := scan_sign (skip_space s) in
  let '(v, any, r) := scan_digits 10 s1 0 false in
  match (if any && ((v =? 0) || (v =? 1) && negb neg) then Some (v =? 1, r) else bool_word (skip_space r)) with
  | Some (b, r) => match skip_space r with [] => Some b | _ => None end
  | None => None
  end.

(** get<unsigned> of [bits] bits: decimal, the whole text. *)
Definition get_unsigned (bits : Z) (s : text) : option Z :=
  let '(neg, s1) := scan_sign (skip_space s) in
  let '(v, any, r) := scan_digits 10 s1 0 false in
  if any && (v <? 2^bits) then
    match skip_space r with [] => Some (if neg then (- v) mod 2^bits else v) | _ => None end
  else None.

(** boost::lexical_cast<std::string> of a number below 10^5 *)
Fixpoint dec_digits (fuel : nat) (n : Z) (acc : text) : text :=
  match fuel with
  | O => acc
  | S k => let acc' := 48 + n mod 10 :: acc in if n / 10 =? 0 then acc' else dec_digits k (n / 10) acc'
  end.
Definition print_dec (n : Z) : text := dec_digits 20 n [].

Definition U8 := mkIty false 1.
Definition U16 := mkIty false 2.

(** objdict.h:542-558 and 560-583, the C++ type of a data type; None: bad_cast. *)
Definition type_of (c : Z) : option ty :=
  if c =? 2 then Some (TInt (mkIty true 1))
  else if c =? 3 then Some (TInt (mkIty true 2))
  else if c =? 4 then Some (TInt (mkIty true 4))
  else if c =? 5 then Some (TInt (mkIty false 1))
  else if c =? 6 then Some (TInt (mkIty false 2))
  else if c =? 7 then Some (TInt (mkIty false 4))
  else if c =? 8 then Some (TReal 4)
  else if (c =? 9) || (c =? 10) || (c =? 11) || (c =? 15) then Some TStr
  else if c =? 16 then Some (TReal 8)
  else if c =? 21 then Some (TInt (mkIty true 8))
  else if c =? 27 then Some (TInt (mkIty false 8))
  else None.

(** objdict.h:164-188, ObjectDict::Entry; None for the member [constant] if no
    value was assigned. *)
Record dentry := mkDentry {
  d_code : Z;
  d_index : Z;
  d_sub : Z;
  d_type : Z;
  d_const : option bool;
  d_readable : bool;
  d_writable : bool;
  d_mappable : bool;
  d_desc : text;
  d_def : hold;
  d_init : hold
}.
Definition dict := list (Z * dentry).
Fixpoint lookup (d : dict) (k : Z) : option dentry :=
  match d with
  | [] => None
  | (k', e) :: t => if k =? k' then Some e else lookup t k
  end.
(** objdict.h:211-213, insert: an entry that exists stays. *)
Definition insert (is_sub : bool) (e : dentry) (d : dict) : dict :=
  let k := if is_sub then key_sub (d_index e) (d_sub e) else key_index (d_index e) in
  match lookup d k with Some _ => d | None => d ++ [(k, e)] end.

Section Reading.
(** Text of a floating point number (boost), None: not a number. *)
Variable real : nat -> text -> option bytes.
(** The object representations of a String and of a NodeIdOffset: they hold
    pointers. *)
Variable raw_string : text -> bytes.
Variable raw_offset : ity -> Z -> bytes.

(** objdict.cpp:138-190, ReadAnyValue::read_value for the text of the key, if it
    exists. None: exception. HoldAny(String(...)) takes the constructor template
    (objdict.h:66-69), which stores the bytes of the String object itself. The
    condition in parse_octets (line 151) is inverted. *)
Definition read_value (data_type : Z) (o : option text) : option hold :=
  match type_of data_type with
  | None => None
  | Some (TInt T) =>
    Some (match o with
          | None => mkHold (Some (TInt T)) None
          | Some s => match parse_int T s with
                      | Plain v => mkHold (Some (TInt T)) (Some (le_bytes (ty_size (TInt T)) v))
                      | Offset v => mkHold (Some (TOff T)) (Some (raw_offset T v))
                      end
          end)
  | Some (TReal n) =>
    match o with
    | None => Some (mkHold (Some (TReal n)) None)
    | Some s => match real n s with Some b => Some (mkHold (Some (TReal n)) (Some b)) | None => None end
    end
  | Some t =>
    Some (mkHold (Some t)
      (match o with
       | None => None
       | Some s =>
         if (data_type =? 10) || (data_type =? 15) then
           match hex2buffer s true with Some _ => None | None => Some (raw_string s) end
         else Some (raw_string s)
       end))
  end.

(** objdict.cpp:206-219, read_var *)
Definition read_var (e : dentry) (s : section) : option dentry :=
  match child (str "DataType") s with
  | None => None
  | Some t =>
    let dt := int_from_string U16 t in
    let m := match child (str "PDOMapping") s with Some b => match get_bool b with Some b => b | None => false end | None => false end in
    match child (str "AccessType") s with
    | None => None
    | Some a =>
      match set_access a with
      | None => None
      | Some (r, w, c) =>
        match read_value dt (child (str "DefaultValue") s), read_value dt (child (str "ParameterValue") s) with
        | Some d, Some i => Some (mkDentry (d_code e) (d_index e) (d_sub e) dt (Some c) r w m (d_desc e) d i)
        | _, _ => None
        end
      end
    end
  end.

Definition with_sub (e : dentry) (s : Z) : dentry :=
  mkDentry (d_code e) (d_index e) s (d_type e) (d_const e) (d_readable e) (d_writable e) (d_mappable e) (d_desc e) (d_def e) (d_init e).

(** The section of an object: pt.get_child_optional(name.substr(2)); substr
    throws for names of less than two characters (None). *)
Definition object_section (pt : ini) (name : text) : option (option section) :=
  match name with
  | _ :: _ :: n => Some (child n pt)
  | _ => None
  end.

(** objdict.cpp:221-230, the members set before the kind of object is looked at *)
Definition start_entry (s : section) (name : text) : option dentry :=
  match child (str "ParameterName") s with
  | None => None
  | Some p =>
    Some (mkDentry
      (int_from_string U16 (match child (str "ObjectType") s with Some t => t | None => str "7" end))
      (int_from_string U16 name) 0 0 None false false false
      (match child (str "Denotation") s with Some t => t | None => p end) no_value no_value)
  end.

(** objdict.cpp:221-271, parse_object with a sub-index (it is read as a variable
    whatever its object type is) *)
Definition parse_sub (pt : ini) (name : text) (i : Z) (d : dict) : option dict :=
  match object_section pt name with
  | None => None
  | Some None => Some d
  | Some (Some s) =>
    match start_entry s name with
    | None => None
    | Some e => match read_var (with_sub e i) s with
                | None => None
                | Some e => Some (insert true e d)
                end
    end
  end.

(** Lines 256-262: the sub-objects 0 .. n-1 *)
Fixpoint parse_subs (pt : ini) (name : text) (i : Z) (n : nat) (d : dict) : option dict :=
  match n with
  | O => Some d
  | S n => match parse_sub pt (name ++ str "sub" ++ print_hex i true) i d with
           | None => None
           | Some d => parse_subs pt name (i + 1) n d
           end
  end.

(** Lines 246-253: the sub-objects 1 .. n-1 of a compact object. The name of the
    object is stored as description, the names read at lines 247-248 are not
    used. Their values are looked up by pt.count("...Value.i"), which does not
    take paths and never finds anything. *)
Fixpoint compact_subs (e : dentry) (name : text) (init : hold) (i : Z) (n : nat) (d : dict) : dict :=
  match n with
  | O => d
  | S n => compact_subs e name init (i + 1) n
             (insert true (mkDentry 7 (d_index e) i (d_type e) None (d_readable e) (d_writable e) (d_mappable e) name (d_def e) init) d)
  end.

(** objdict.cpp:221-271, parse_object *)
Definition parse_object (pt : ini) (name : text) (d : dict) : option dict :=
  match object_section pt name with
  | None => None
  | Some None => Some d
  | Some (Some s) =>
    match start_entry s name with
    | None => None
    | Some e =>
      if (d_code e =? 7) || (d_code e =? 2) then
        match read_var e s with None => None | Some e => Some (insert false e d) end
      else if (d_code e =? 8) || (d_code e =? 9) then
        let subs := int_from_string U8 (match child (str "CompactSubObj") s with Some t => t | None => [] end) in
        if negb (subs =? 0) then
          let d := insert true (mkDentry 7 (d_index e) 0 5 None true false false (str "NrOfObjects")
                     (mkHold (Some (TInt U8)) (Some [subs])) no_value) d in
          match read_var e s with
          | None => None
          | Some e => match read_value (d_type e) None with
                      | None => None
                      | Some i => Some (compact_subs e name i 1 (Z.to_nat (subs - 1)) d)
                      end
          end
        else
          match child (str "SubNumber") s with
          | None => None
          | Some t => parse_subs pt name 0 (Z.to_nat (int_from_string U8 t)) d
          end
      else None
    end
  end.

(** objdict.cpp:273-282, parse_objects *)
Fixpoint parse_names (pt : ini) (objects : section) (i : Z) (n : nat) (d : dict) : option dict :=
  match n with
  | O => Some d
  | S n => match child (print_dec (i + 1)) objects with
           | None => None
           | Some name => match parse_object pt name d with
                          | None => None
                          | Some d => parse_names pt objects (i + 1) n d
                          end
           end
  end.
Definition parse_objects (pt : ini) (key : text) (d : dict) : option dict :=
  match child key pt with
  | None => Some d
  | Some objects =>
    parse_names pt objects 0
      (Z.to_nat (int_from_string U16 (match child (str "SupportedObjects") objects with Some t => t | None => [] end))) d
  end.

(** put("ParameterValue", v), line 328 *)
Fixpoint put (k v : text) (s : section) : section :=
  match s with
  | [] => [(k, v)]
  | (k', v') :: t => if same_name k k' then (k', v) :: t else (k', v') :: put k v t
  end.
Fixpoint set_parameter (name v : text) (pt : ini) : option ini :=
  match pt with
  | [] => None
  | (n, s) :: t => if same_name name n then Some ((n, put (str "ParameterValue") v s) :: t)
                   else match set_parameter name v t with Some t => Some ((n, s) :: t) | None => None end
  end.
Fixpoint apply_overlay (ov : list (text * text)) (pt : ini) : option ini :=
  match ov with
  | [] => Some pt
  | (n, v) :: t => match set_parameter n v pt with Some pt => apply_overlay t pt | None => None end
  end.

(** The members of DeviceInfo that other code uses or that identify the device;
    read_optional, line 192. The other members and the sets of baud rates and
    dummies are left out, but a value of these sets that is no truth value is an
    exception (lines 306-322). *)
Record info := mkInfo { vendor : Z; product : Z; revision : Z; nr_rx : Z; nr_tx : Z }.
Definition read_unsigned (bits : Z) (k : text) (s : section) : Z :=
  match child k s with Some t => match get_unsigned bits t with Some v => v | None => 0 end | None => 0 end.
Definition read_info (di : section) : info :=
  mkInfo (read_unsigned 32 (str "VendorNumber") di) (read_unsigned 32 (str "ProductNumber") di)
    (read_unsigned 32 (str "RevisionNumber") di) (read_unsigned 16 (str "NrOfRXPDO") di) (read_unsigned 16 (str "NrOfTXPDO") di).
Definition flags_ok (prefix : text) (s : section) : bool :=
  forallb (fun kv => match match_lit prefix (fst kv) with
                     | Some _ => match get_bool (snd kv) with Some _ => true | None => false end
                     | None => true
                     end) s.

(** objdict.cpp:283-337, ObjectDict::fromFile. None: exception. *)
Definition from_file (pt : ini) (ov : list (text * text)) : option (info * dict) :=
  match child (str "DeviceInfo") pt with
  | None => None
  | Some di =>
    if flags_ok (str "BaudRate_") di && match child (str "DummyUsage") pt with Some s => flags_ok (str "Dummy") s | None => true end then
      match apply_overlay ov pt with
      | None => None
      | Some pt =>
        match parse_objects pt (str "MandatoryObjects") [] with
        | None => None
        | Some d =>
          match parse_objects pt (str "OptionalObjects") d with
          | None => None
          | Some d =>
            match parse_objects pt (str "ManufacturerObjects") d with
            | None => None
            | Some d => Some (read_info di, d)
            end
          end
        end
      end
    else None
  end.
End Reading.
