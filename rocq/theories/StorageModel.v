(** Object storage: cached access to the objects of a device.
    Source: /repo/canopen_master/include/canopen_master/objdict.h
            /repo/canopen_master/src/objdict.cpp *)
From Verif Require Import Base CanModel KeyModel.

(** Little endian byte strings: the object representation of an integer. *)
Fixpoint le_bytes (n : nat) (x : Z) : bytes :=
  match n with
  | O => []
  | S k => (x mod 256) :: le_bytes k (x / 256)
  end.
Fixpoint of_le (b : bytes) : Z :=
  match b with
  | [] => 0
  | x :: t => x + 256 * of_le t
  end.

(** C++ types of object values (objdict.h:542-558) and NodeIdOffset<T>. *)
Inductive ty :=
| TInt (i : ity)
| TReal (n : nat)          (* float: 4 bytes, double: 8 bytes *)
| TStr                     (* class String, objdict.h:44-54 *)
| TOff (i : ity).          (* NodeIdOffset<T>, objdict.h:241-264 *)

Definition ity_eqb (a b : ity) : bool :=
  Bool.eqb (i_signed a) (i_signed b) && (i_size a =? i_size b).
(** TypeGuard::operator==, objdict.h:34-36 *)
Definition ty_eqb (a b : ty) : bool :=
  match a, b with
  | TInt i, TInt j => ity_eqb i j
  | TReal n, TReal m => Nat.eqb n m
  | TStr, TStr => true
  | TOff i, TOff j => ity_eqb i j
  | _, _ => false
  end.

(** sizeof(T) on a 64 bit machine. *)
Definition ty_size (t : ty) : nat :=
  match t with
  | TInt i => Z.to_nat (i_size i)
  | TReal n => n
  | TStr => 24
  | TOff _ => 16
  end.

(** IEEE equality of the float or double with the given object representation:
    NaN differs from everything, the two zeros are equal. *)
Definition real_nan (n : nat) (x : Z) : bool :=
  let mant := if Nat.eqb n 4 then 23 else 52 in
  let expo := if Nat.eqb n 4 then 8 else 11 in
  ((x / 2^mant) mod 2^expo =? 2^expo - 1) && negb (x mod 2^mant =? 0).
Definition real_zero (n : nat) (x : Z) : bool := x mod 2^(8 * Z.of_nat n - 1) =? 0.
Definition real_eqb (n : nat) (a b : bytes) : bool :=
  let x := of_le a in let y := of_le b in
  negb (real_nan n x) && negb (real_nan n y) && ((x =? y) || (real_zero n x && real_zero n y)).

Fixpoint bytes_eqb (a b : bytes) : bool :=
  match a, b with
  | [], [] => true
  | x :: s, y :: t => (x =? y) && bytes_eqb s t
  | _, _ => false
  end.

(** operator== of the type T. Values are given by their object representation
    (a String by its content). *)
Definition val_eqb (t : ty) (a b : bytes) : bool :=
  match t with
  | TReal n => real_eqb n a b
  | _ => bytes_eqb a b
  end.

(** objdict.h:56-94, HoldAny: a type guard (possibly invalid) and a buffer
    (possibly empty). *)
Record hold := mkHold { h_type : option ty; h_data : option bytes }.
Definition no_value : hold := mkHold None None.

(** objdict.h:164-188, ObjectDict::Entry: the parts used by the storage. *)
Record entry := mkEntry {
  e_readable : bool;
  e_writable : bool;
  e_constant : bool;
  e_def : hold;
  e_init : hold
}.

(** objdict.cpp:83-108, set_access: None models the ParseException. Readable,
    writable, constant. *)
Definition set_access (access : text) : option (bool * bool * bool) :=
  let a := map lower access in
  if bytes_eqb a (str "ro") then Some (true, false, false)
  else if bytes_eqb a (str "wo") then Some (false, true, false)
  else if bytes_eqb a (str "rw") then Some (true, true, false)
  else if bytes_eqb a (str "rwr") then Some (true, true, false)
  else if bytes_eqb a (str "rww") then Some (true, true, false)
  else if bytes_eqb a (str "const") then Some (true, false, true)
  else None.

(** objdict.h:289-332, ObjectStorage::Data without its mutex (every operation
    holds it from begin to end). Delegates are identified by numbers; 0 is the
    delegate of the storage (SDO), others belong to PDO buffers. *)
Record cell := mkCell {
  c_type : ty;
  c_valid : bool;
  c_buf : bytes;
  c_rd : nat;
  c_wr : nat
}.

(** Calls of the delegates: bytes and whether the call returned normally. For a
    read the bytes are the content of the buffer afterwards. *)
Inductive event :=
| EvRead (d : nat) (b : bytes) (ok : bool)
| EvWrite (d : nat) (b : bytes) (ok : bool).

Inductive exc := NoReadAccess | NoWriteAccess | NotValid | DeviceError.
Inductive result := RVal (b : bytes) | RDone | RThrow (x : exc).

(** std::vector::resize *)
Definition resize (n : nat) (b : bytes) : bytes := firstn n b ++ repeat 0 (n - List.length b).

(** What a delegate does to the buffer when it reads, and whether it succeeds. *)
Definition reader := bytes -> bytes * bool.

Definition set_buf (c : cell) (b : bytes) : cell :=
  mkCell (c_type c) true b (c_rd c) (c_wr c).

(** objdict.h:300-305 and objdict.cpp:19-24, access<T> of a valid buffer: reads
    sizeof(T) bytes, undefined if the buffer is shorter. *)
Definition access (c : cell) : outcome bytes :=
  match c_type c with
  | TStr => Ok (c_buf c)
  | t => if (List.length (c_buf c) <? ty_size t)%nat then Undef
         else Ok (firstn (ty_size t) (c_buf c))
  end.

(** objdict.h:306-312 and objdict.cpp:25-29, allocate<T> *)
Definition allocate (c : cell) : cell :=
  match c_type c with
  | TStr => set_buf c []
  | t => if c_valid c then c else set_buf c (resize (ty_size t) (c_buf c))
  end.

(** [allocate<T>() = val] *)
Definition assign (c : cell) (v : bytes) : outcome cell :=
  let c1 := allocate c in
  match c_type c with
  | TStr => Ok (set_buf c1 v)
  | t => if (List.length (c_buf c1) <? ty_size t)%nat then Undef
         else Ok (set_buf c1 (v ++ skipn (ty_size t) (c_buf c1)))
  end.

Definition ret (c : cell) (ev : list event) (r : result) : outcome (cell * list event * result) :=
  Ok (c, ev, r).

(** objdict.h:339-354, Data::get<T>(cached) *)
Definition data_get (e : entry) (c : cell) (cached : bool) (rd : reader) :=
  if negb (e_readable e) then ret c [] (RThrow NoReadAccess)
  else
    let cached := cached || e_constant e in
    if negb (c_valid c) || negb cached then
      let c1 := allocate c in
      let '(b, ok) := rd (c_buf c1) in
      let c2 := set_buf c1 b in
      let ev := [EvRead (c_rd c) b ok] in
      if ok then match access c2 with
                 | Ok v => ret c2 ev (RVal v)
                 | Undef => Undef
                 end
      else ret c2 ev (RThrow DeviceError)
    else match access c with
         | Ok v => ret c [] (RVal v)
         | Undef => Undef
         end.

(** The common tail of set and set_cached: assign, then call the delegate. *)
Definition data_write (c : cell) (v : bytes) (wr : bool) :=
  match assign c v with
  | Undef => Undef
  | Ok c1 => ret c1 [EvWrite (c_wr c) (c_buf c1) wr] (if wr then RDone else RThrow DeviceError)
  end.

(** objdict.h:355-366, Data::set<T> *)
Definition data_set (e : entry) (c : cell) (v : bytes) (wr : bool) :=
  if negb (e_writable e) then
    if negb (c_valid c) then ret c [] (RThrow NotValid)
    else match access c with
         | Undef => Undef
         | Ok h => ret c [] (if val_eqb (c_type c) h v then RDone else RThrow NoWriteAccess)
         end
  else data_write c v wr.

(** objdict.h:367-377, Data::set_cached<T> *)
Definition data_set_cached (e : entry) (c : cell) (v : bytes) (wr : bool) :=
  let go := if negb (e_writable e) then ret c [] (RThrow NoWriteAccess) else data_write c v wr in
  if negb (c_valid c) then go
  else match access c with
       | Undef => Undef
       | Ok h => if val_eqb (c_type c) v h then ret c [] RDone else go
       end.

(** objdict.cpp:43-56, Data::init *)
Definition data_init (e : entry) (c : cell) (wr : bool) :=
  match h_data (e_init e) with
  | None => ret c [] RDone
  | Some iv =>
    let changed := match h_data (e_def e) with
                   | Some dv => c_valid c && negb (bytes_eqb (c_buf c) dv)
                   | None => false
                   end in
    if changed then ret c [] RDone
    else if negb (c_valid c) || negb (bytes_eqb (c_buf c) iv) then
      let c1 := set_buf c iv in
      let differs := match h_data (e_def e) with
                     | Some dv => negb (bytes_eqb iv dv)
                     | None => true
                     end in
      if e_writable e && differs then
        ret c1 [EvWrite (c_wr c) iv wr] (if wr then RDone else RThrow DeviceError)
      else ret c1 [] RDone
    else ret c [] RDone
  end.

(** objdict.cpp:57-65, Data::force_write *)
Definition data_force (e : entry) (c : cell) (rd : reader) (wr : bool) :=
  if negb (c_valid c) && e_readable e then
    let '(b, ok) := rd (c_buf c) in
    let ev := [EvRead (c_rd c) b ok] in
    if ok then ret (set_buf c b) (ev ++ [EvWrite (c_wr c) b wr])
                   (if wr then RDone else RThrow DeviceError)
    else ret (mkCell (c_type c) (c_valid c) b (c_rd c) (c_wr c)) ev (RThrow DeviceError)
  else if c_valid c then
    ret c [EvWrite (c_wr c) (c_buf c) wr] (if wr then RDone else RThrow DeviceError)
  else ret c [] RDone.

(** objdict.cpp:67-75, Data::reset *)
Definition data_reset (e : entry) (c : cell) : cell :=
  match h_data (e_def e), h_type (e_def e) with
  | Some dv, Some t =>
    if ty_eqb t (c_type c) then set_buf c dv
    else mkCell (c_type c) false (c_buf c) (c_rd c) (c_wr c)
  | _, _ => mkCell (c_type c) false (c_buf c) (c_rd c) (c_wr c)
  end.

(** objdict.h:334-338, set_delegates *)
Definition set_delegates (c : cell) (r w : nat) : cell :=
  mkCell (c_type c) (c_valid c) (c_buf c) r w.

(** objdict.cpp:355-365, the part of ObjectStorage::map that connects a PDO
    buffer: [r]/[w] are the delegates of the buffer, None an empty function. An
    exception of force_write leaves map before the second set_delegates. *)
Definition data_map (e : entry) (c : cell) (r w : option nat) (rd : reader) (wr : bool) :=
  match r, w with
  | Some r, Some w =>
    match data_force e (set_delegates c 0 w) rd wr with
    | Ok (c1, ev, RThrow x) => Ok (c1, ev, RThrow x)
    | Ok (c1, ev, res) => Ok (set_delegates c1 r 0, ev, res)
    | Undef => Undef
    end
  | None, Some w => data_force e (set_delegates c 0 w) rd wr
  | Some r, None => ret (set_delegates c r 0) [] RDone
  | None, None => ret c [] RDone
  end.

(** The operations on one object, each with the behaviour of the delegates
    should they be called. *)
Inductive op :=
| OGet (cached : bool) (rd : reader)
| OSet (v : bytes) (wr : bool)
| OSetCached (v : bytes) (wr : bool)
| OInit (wr : bool)
| OReset
| OMap (r w : option nat) (rd : reader) (wr : bool).

Definition step (e : entry) (o : op) (c : cell) : outcome (cell * list event * result) :=
  match o with
  | OGet cached rd => data_get e c cached rd
  | OSet v wr => data_set e c v wr
  | OSetCached v wr => data_set_cached e c v wr
  | OInit wr => data_init e c wr
  | OReset => ret (data_reset e c) [] RDone
  | OMap r w rd wr => data_map e c r w rd wr
  end.

(** A history: the operations with what they did. *)
Definition item := (op * list event * result)%type.
Fixpoint run (e : entry) (ops : list op) (c : cell) : outcome (cell * list item) :=
  match ops with
  | [] => Ok (c, [])
  | o :: t =>
    match step e o c with
    | Undef => Undef
    | Ok (c1, ev, r) =>
      match run e t c1 with
      | Undef => Undef
      | Ok (c2, h) => Ok (c2, (o, ev, r) :: h)
      end
    end
  end.

(** objdict.h:326-333, Data with a type only *)
Definition data_typed (t : ty) : cell := mkCell t false (repeat 0 (ty_size t)) 0 0.
(** objdict.h:319-325, Data with a value *)
Definition data_valued (t : ty) (v : bytes) : cell := mkCell t true v 0 0.

(** objdict.h:480-489, creation of the cell by ObjectStorage::entry<T>, for an
    entry whose NodeIdOffset (if any) evaluates to [nv]. None is std::bad_cast. *)
Definition entry_cell (t : ty) (e : entry) (nv : bytes) : option cell :=
  match h_data (e_def e), h_type (e_def e) with
  | Some dv, Some t' =>
    if ty_eqb t' t then Some (data_valued t dv)
    else match t, t' with
         | TInt i, TOff j => if ity_eqb i j then Some (data_valued t nv) else None
         | _, _ => None
         end
  | Some _, None => None
  | None, None => Some (data_typed t)
  | None, Some t' => if ty_eqb t' t then Some (data_typed t) else None
  end.

(** HoldAny of an integer (objdict.h:65-68): the object representation. *)
Definition hold_int (T : ity) (v : Z) : hold :=
  mkHold (Some (TInt T)) (Some (le_bytes (Z.to_nat (i_size T)) v)).
(** HoldAny of a NodeIdOffset<T>: the object representation of the struct, i.e.
    the offset, padding, and the pointer to the function [add]. *)
Definition hold_offset (T : ity) (ptr : bytes) (v : Z) : hold :=
  let n := Z.to_nat (i_size T) in
  mkHold (Some (TOff T)) (Some (le_bytes n v ++ repeat 0 (8 - n) ++ ptr)).
(** objdict.cpp:138-147 seen as a HoldAny *)
Definition hold_ival (T : ity) (ptr : bytes) (v : ival) : hold :=
  match v with Plain x => hold_int T x | Offset x => hold_offset T ptr x end.

(** ** The storage of a device: cells by key, objdict.h:459-460 *)
Definition storage := list (Z * cell).
Definition dict := list (Z * entry).

Fixpoint lookup {A} (k : Z) (s : list (Z * A)) : option A :=
  match s with
  | [] => None
  | (k', a) :: t => if k' =? k then Some a else lookup k t
  end.
Fixpoint store {A} (k : Z) (a : A) (s : list (Z * A)) : list (Z * A) :=
  match s with
  | [] => [(k, a)]
  | (k', a') :: t => if k' =? k then (k, a) :: t else (k', a') :: store k a t
  end.

(** Writes of the storage as seen on the bus: key and data. *)
Definition keyed (k : Z) (ev : list event) : list (Z * event) := map (fun x => (k, x)) ev.

(** objdict.cpp:392-407, init_nolock. The result tells whether it returned. *)
Definition init_nolock (k : Z) (e : entry) (wr : bool) (s : storage)
  : outcome (storage * list (Z * event) * bool) :=
  match h_data (e_init e) with
  | None => Ok (s, [], true)
  | Some _ =>
    let c := match lookup k s with
             | Some c => c
             | None => data_typed (match h_type (e_init e) with Some t => t | None => TStr end)
             end in
    match data_init e c wr with
    | Undef => Undef
    | Ok (c1, ev, r) =>
      Ok (store k c1 s, keyed k ev, match r with RThrow _ => false | _ => true end)
    end
  end.

(** objdict.cpp:412-419, init_all: the iteration order of the dictionary is
    unspecified (unordered_map); [d] lists it in the order of this call. [wr]
    tells whether a write to a key succeeds. *)
Fixpoint init_all (d : dict) (wr : Z -> bool) (s : storage)
  : outcome (storage * list (Z * event) * bool) :=
  match d with
  | [] => Ok (s, [], true)
  | (k, e) :: t =>
    match init_nolock k e (wr k) s with
    | Undef => Undef
    | Ok (s1, ev, false) => Ok (s1, ev, false)
    | Ok (s1, ev, true) =>
      match init_all t wr s1 with
      | Undef => Undef
      | Ok (s2, ev2, ok) => Ok (s2, ev ++ ev2, ok)
      end
    end
  end.

(** objdict.cpp:421-426, ObjectStorage::reset. Every stored cell belongs to an
    entry of the dictionary. *)
Definition storage_reset (d : dict) (s : storage) : storage :=
  map (fun kc => (fst kc, match lookup (fst kc) d with
                          | Some e => data_reset e (snd kc)
                          | None => snd kc end)) s.
