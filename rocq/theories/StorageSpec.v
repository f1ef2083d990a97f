(** What users of the object storage know. *)
From Coq Require Import SpecFloat.
From Verif Require Import Base CanModel KeyModel StorageModel.

(** A value of type T: numbers have the size of the type, strings any size. *)
Definition value_ok (t : ty) (v : bytes) : Prop :=
  match t with TStr => True | _ => List.length v = ty_size t end.

Definition hold_ok (t : ty) (h : hold) : Prop :=
  match h_data h with
  | None => True
  | Some v => h_type h = Some t /\ value_ok t v
  end.

(** Default and configured value are plain values of the object's type. *)
Definition entry_plain (t : ty) (e : entry) : Prop := hold_ok t (e_def e) /\ hold_ok t (e_init e).

(** Device access keeps the size of numbers. *)
Definition reader_ok (t : ty) (rd : reader) : Prop :=
  forall b, value_ok t b -> value_ok t (fst (rd b)).
Definition op_ok (t : ty) (o : op) : Prop :=
  match o with
  | OGet _ rd => reader_ok t rd
  | OSet v _ | OSetCached v _ => value_ok t v
  | OMap _ _ rd _ => reader_ok t rd
  | _ => True
  end.

(** An object as first obtained: without value, or with its default value. *)
Inductive fresh (t : ty) : cell -> option bytes -> Prop :=
| fresh_typed : fresh t (data_typed t) None
| fresh_valued : forall v, value_ok t v -> fresh t (data_valued t v) (Some v).

(** The value last transferred successfully. *)
Fixpoint transferred (ev : list event) : option bytes :=
  match ev with
  | [] => None
  | EvRead _ b ok :: t | EvWrite _ b ok :: t =>
    match transferred t with
    | Some x => Some x
    | None => if ok then Some b else None
    end
  end.

(** The value the master may take for the one on the device: the last one
    transferred; after a reset the default value; after the initialisation the
    configured one, unless the value was changed from the default before. *)
Definition known_step (e : entry) (k : option bytes) (i : item) : option bytes :=
  match i with
  | (OReset, _, _) => h_data (e_def e)
  | (OInit _, _, _) =>
    match h_data (e_init e) with
    | None => k
    | Some iv =>
      match k, h_data (e_def e) with
      | Some b, Some d => if list_eq_dec Z.eq_dec b d then Some iv else k
      | _, _ => Some iv
      end
    end
  | (_, ev, _) => match transferred ev with Some b => Some b | None => k end
  end.
Definition known (e : entry) (k : option bytes) (h : list item) : option bytes :=
  fold_left (known_step e) h k.

Definition failed (i : item) : Prop := snd i = RThrow DeviceError.
Definition no_failure (h : list item) : Prop := Forall (fun i => ~ failed i) h.

Definition is_read (ev : event) : bool := match ev with EvRead _ _ _ => true | _ => false end.
Definition is_write (ev : event) : bool := match ev with EvWrite _ _ _ => true | _ => false end.
Definition read_ok (ev : event) : bool := match ev with EvRead _ _ true => true | _ => false end.
(** A write through the delegate of the storage, i.e. to the device. *)
Definition device_write (ev : event) : bool := match ev with EvWrite O _ _ => true | _ => false end.
Definition events (h : list item) : list event := flat_map (fun i => snd (fst i)) h.
Definition count (p : event -> bool) (l : list event) : nat := List.length (List.filter p l).

(** PDO delegates are not the storage's own one. *)
Definition pdo_op (o : op) : Prop :=
  match o with OMap _ (Some w) _ _ => w <> 0%nat | _ => True end.

(** Which of the given values is written to the device for an entry when the
    storage is initialised, given the value held so far. *)
Definition differs (a : bytes) (b : option bytes) : bool :=
  match b with
  | None => true
  | Some b => if list_eq_dec Z.eq_dec a b then false else true
  end.
Definition user_changed (held def : option bytes) : bool :=
  match held, def with
  | Some h, Some d => differs h (Some d)
  | _, _ => false
  end.
Definition must_write (e : entry) (held : option bytes) : list bytes :=
  match h_data (e_init e) with
  | Some iv =>
    if e_writable e && negb (user_changed held (h_data (e_def e))) &&
       differs iv held && differs iv (h_data (e_def e))
    then [iv] else []
  | None => []
  end.

(** Value held for a key. *)
Definition held (s : storage) (k : Z) : option bytes :=
  match lookup k s with
  | Some c => if c_valid c then Some (c_buf c) else None
  | None => None
  end.

(** Data written, in order, with the key. *)
Definition writes (l : list (Z * event)) : list (Z * bytes) :=
  flat_map (fun x => match snd x with EvWrite _ b _ => [(fst x, b)] | _ => [] end) l.

(** The floating point number (Coq's SpecFloat) with the given encoding as an
    IEEE 754 interchange format: sign, [expo] bits of biased exponent, [mant] bits
    of fraction. *)
Definition ieee_fields (mant expo x : Z) : spec_float :=
  let s := Z.odd (x / 2^(mant + expo)) in
  let e := (x / 2^mant) mod 2^expo in
  let m := x mod 2^mant in
  let emin := 2 - 2^(expo - 1) - mant in
  if e =? 0 then match m with Z.pos p => S754_finite s p emin | _ => S754_zero s end
  else if e =? 2^expo - 1 then if m =? 0 then S754_infinity s else S754_nan
  else match 2^mant + m with Z.pos p => S754_finite s p (emin + e - 1) | _ => S754_nan end.

(** binary32 and binary64, stored little endian. *)
Definition le_number (v : bytes) : Z := fold_right (fun b x => b + 256 * x) 0 v.
Definition real_of (n : nat) (v : bytes) : spec_float :=
  match n with
  | 4%nat => ieee_fields 23 8 (le_number v)
  | _ => ieee_fields 52 11 (le_number v)
  end.
