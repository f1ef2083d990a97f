(** Access to objects by text, as used by the services get_object and set_object.
    Source: /repo/canopen_master/src/objdict.cpp *)
From Verif Require Import Base CanModel KeyModel StorageModel EdsModel.

Section Texts.
Variable real : nat -> text -> option bytes.
Variable raw_string : text -> bytes.
Variable raw_offset : ity -> Z -> bytes.
(** Text of a floating point number (iostreams). *)
Variable show_real : nat -> bytes -> text.

(** The integer of type T with the given object representation. *)
Definition int_of (T : ity) (b : bytes) : Z :=
  let x := of_le b mod 2^(8 * i_size T) in
  if i_signed T && (2^(8 * i_size T - 1) <=? x) then x - 2^(8 * i_size T) else x.

(** A C string up to its terminator; None: there is none in the buffer. *)
Fixpoint c_string (b : bytes) : option text :=
  match b with
  | [] => None
  | x :: t => if x =? 0 then Some [] else match c_string t with Some s => Some (x :: s) | None => None end
  end.

(** objdict.cpp:427-437, formatValue<dt, T>. The specialisations of lines
    432-437 are for T = std::string while values have type String, thus they are
    never used. A String is written to the stream as const char * (objdict.h:48),
    which is an exception if it is empty; int8_t and uint8_t are written as
    characters. *)
Definition format_value (t : ty) (b : bytes) : outcome (option text) :=
  match t with
  | TInt T => if i_size T =? 1 then Ok (Some [of_le b mod 256])
              else let x := int_of T b in Ok (Some (if x <? 0 then 45 :: print_dec (- x) else print_dec x))
  | TReal n => Ok (Some (show_real n b))
  | _ => match b with
         | [] => Ok None
         | _ => match c_string b with Some s => Ok (Some s) | None => Undef end
         end
  end.

Inductive tresult := TText (t : text) | TDone | TFail.

(** objdict.cpp:439-453, the reader returned by getStringReader for an object
    whose data is the cell [c]. Storage::entry (objdict.h:474-498) is an
    exception if the type is another one. *)
Definition text_read (dt : Z) (e : entry) (c : cell) (cached : bool) (rd : reader) : outcome (cell * list event * tresult) :=
  match type_of dt with
  | None => Ok (c, [], TFail)
  | Some t =>
    if ty_eqb t (c_type c) then
      match step e (OGet cached rd) c with
      | Undef => Undef
      | Ok (c1, ev, RVal b) =>
        match format_value t b with
        | Undef => Undef
        | Ok (Some s) => Ok (c1, ev, TText s)
        | Ok None => Ok (c1, ev, TFail)
        end
      | Ok (c1, ev, _) => Ok (c1, ev, TFail)
      end
    else Ok (c, [], TFail)
  end.

(** HoldAny::get<T>, objdict.h:82-89, and for String objdict.cpp:15-17 (no
    checks); None: exception *)
Definition hold_get (t : ty) (h : hold) : option bytes :=
  match t with
  | TStr => Some (match h_data h with Some b => b | None => [] end)
  | _ => match h_type h with Some t' => if ty_eqb t t' then h_data h else None | None => None end
  end.

(** objdict.cpp:455-480, the writer returned by getStringWriter. *)
Definition text_write (dt : Z) (e : entry) (c : cell) (cached : bool) (s : text) (wr : bool) : outcome (cell * list event * tresult) :=
  match type_of dt with
  | None => Ok (c, [], TFail)
  | Some t =>
    if ty_eqb t (c_type c) then
      match read_value real raw_string raw_offset dt (Some s) with
      | None => Ok (c, [], TFail)
      | Some h =>
        match hold_get t h with
        | None => Ok (c, [], TFail)
        | Some b =>
          match step e (if cached then OSetCached b wr else OSet b wr) c with
          | Undef => Undef
          | Ok (c1, ev, RDone) => Ok (c1, ev, TDone)
          | Ok (c1, ev, _) => Ok (c1, ev, TFail)
          end
        end
      end
    else Ok (c, [], TFail)
  end.
End Texts.
