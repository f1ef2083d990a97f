(** Object keys and integer values of the object dictionary, and their text.
    Source: /repo/canopen_master/include/canopen_master/objdict.h
            /repo/canopen_master/src/objdict.cpp *)
From Verif Require Import Base CanModel.

(** ** Scanning of numbers by the C library *)

(** Longest prefix of digits in the given base (at most 16): value, whether
    there was a digit, the rest of the text. *)
Fixpoint scan_digits (base : Z) (s : text) (acc : Z) (any : bool) : Z * bool * text :=
  match s with
  | c :: t => match hex2dec c with
              | Some d => if d <? base then scan_digits base t (acc * base + d) true
                          else (acc, any, s)
              | None => (acc, any, s)
              end
  | [] => (acc, any, [])
  end.

(** Optional sign. *)
Definition scan_sign (s : text) : bool * text :=
  match s with
  | 45 :: t => (true, t)
  | 43 :: t => (false, t)
  | _ => (false, s)
  end.

Definition is_hex (c : Z) : bool := match hex2dec c with Some _ => true | None => false end.

(** The prefix 0x counts only if a hexadecimal digit follows. *)
Definition scan_0x (s : text) : option text :=
  match s with
  | 48 :: x :: c :: t => if ((x =? 120) || (x =? 88)) && is_hex c then Some (c :: t) else None
  | _ => None
  end.

(** strtol/strtoul up to the conversion to the result type: sign, magnitude,
    whether a number was found, rest. [base] 0 detects the base from the prefix. *)
Definition scan_int (base : Z) (s : text) : bool * Z * bool * text :=
  let '(neg, s1) := scan_sign (skip_space s) in
  let '(v, any, r) :=
    if base =? 10 then scan_digits 10 s1 0 false
    else match scan_0x s1 with
         | Some s2 => scan_digits 16 s2 0 false
         | None =>
           if base =? 16 then scan_digits 16 s1 0 false
           else match s1 with
                | 48 :: _ => scan_digits 8 s1 0 false
                | _ => scan_digits 10 s1 0 false
                end
         end in
  (neg, v, any, r).

(** strtol(s, 0, 0) with a 64 bit long: saturates. *)
Definition strtol (s : text) : Z :=
  let '(neg, v, any, _) := scan_int 0 s in
  if neg then Z.max (- v) (- 2^63) else Z.min v (2^63 - 1).

(** strtoul(s, 0, 0) with a 64 bit unsigned long: saturates, a minus sign
    negates modulo 2^64. *)
Definition strtoul (s : text) : Z :=
  let '(neg, v, any, _) := scan_int 0 s in
  if v >? 2^64 - 1 then 2^64 - 1
  else if neg then (- v) mod 2^64 else v.

(** ** Keys *)

(** Conversion of a 32 bit int to size_t, applied to [i << 16 | low]: for
    i >= 0x8000 the int is negative and the conversion sign extends. *)
Definition int_to_size (x : Z) : Z := (if x <? 2^31 then x else x - 2^32) mod 2^64.

(** objdict.h:126, Key(i) *)
Definition key_index (i : Z) : Z := int_to_size (Z.lor (Z.shiftl i 16) 65535).
(** objdict.h:127, Key(i, s) *)
Definition key_sub (i s : Z) : Z := int_to_size (Z.lor (Z.shiftl i 16) s).
(** objdict.h:129 *)
Definition key_hasSub (h : Z) : bool := negb (Z.land h 65535 =? 65535).
(** objdict.h:130, sub_index: the result type is uint8_t *)
Definition key_sub_index (h : Z) : Z := u8 (Z.land h 65535).
(** objdict.h:131, index: the result type is uint16_t *)
Definition key_get_index (h : Z) : Z := u16 (Z.shiftr h 16).

(** Literal characters of a scanf format that are not white space. *)
Fixpoint match_lit (lit s : text) : option text :=
  match lit, s with
  | [], _ => Some s
  | l :: lt, c :: t => if l =? c then match_lit lt t else None
  | _ :: _, [] => None
  end.

(** Value stored by a [%x] conversion with [bits] wide target: the number is
    converted like strtoul with base 16 and truncated. *)
Definition scan_hex (bits : Z) (s : text) : option (Z * text) :=
  let '(neg, v, any, r) := scan_int 16 s in
  if any then
    let v' := if v >? 2^64 - 1 then 2^64 - 1 else if neg then (- v) mod 2^64 else v in
    Some (v' mod 2^bits, r)
  else None.

(** objdict.cpp:31-36, Key::fromString: sscanf(str, "%hxsub%hhx", ...) *)
Definition key_fromString (s : text) : Z :=
  match scan_hex 16 s with
  | None => int_to_size (Z.lor (Z.shiftl 0 16) 65535)
  | Some (index, r) =>
    match match_lit (str "sub") r with
    | None => int_to_size (Z.lor (Z.shiftl index 16) 65535)
    | Some r2 =>
      match scan_hex 8 r2 with
      | None => int_to_size (Z.lor (Z.shiftl index 16) 65535)
      | Some (sub, _) => int_to_size (Z.lor (Z.shiftl index 16) sub)
      end
    end
  end.

(** objdict.cpp:37-42, Key to std::string *)
Definition key_toString (h : Z) : text :=
  print_hex (key_get_index h) true ++
  (if key_hasSub h then str "sub" ++ print_hex (key_sub_index h) true else []).

(** ** Integer values *)

(** An integer type: signedness and number of bytes (1, 2, 4 or 8). *)
Record ity := mkIty { i_signed : bool; i_size : Z }.
Definition i_bits (T : ity) : Z := 8 * i_size T.

(** Conversion of a number to the type (two's complement). *)
Definition wrap (T : ity) (x : Z) : Z :=
  let m := x mod 2^(i_bits T) in
  if i_signed T && (2^(i_bits T - 1) <=? m) then m - 2^(i_bits T) else m.

(** objdict.cpp:110-136, int_from_string<T> *)
Definition int_from_string (T : ity) (s : text) : Z :=
  wrap T (if i_signed T then strtol s else strtoul s).

(** boost::trim_copy in the C locale *)
Fixpoint drop_space_end (s : text) : text :=
  match s with
  | [] => []
  | c :: t => match drop_space_end t with
              | [] => if is_space c then [] else [c]
              | t' => c :: t'
              end
  end.
Definition trim (s : text) : text := drop_space_end (skip_space s).

(** ASCII case folding used by boost::istarts_with and iends_with *)
Definition lower (c : Z) : Z := if (65 <=? c) && (c <=? 90) then c + 32 else c.

Fixpoint istarts_with (s pre : text) {struct pre} : bool :=
  match pre, s with
  | [], _ => true
  | p :: pt, c :: t => (lower p =? lower c) && istarts_with t pt
  | _ :: _, [] => false
  end.
Definition iends_with (s post : text) : bool := istarts_with (rev s) (rev post).

(** Text behind / up to and including the first '+': str.substr(find("+")+1),
    str.substr(0, find("+")+1). Not found: npos + 1 = 0. *)
Definition after_plus (s : text) : option text :=
  match split_at 43 s with Some (_, r) => Some r | None => None end.
Definition upto_plus (s : text) : text :=
  match split_at 43 s with Some (a, _) => a ++ [43] | None => [] end.

(** A value of the dictionary of an integer type T: a T or a NodeIdOffset<T>. *)
Inductive ival := Plain (v : Z) | Offset (v : Z).

(** objdict.cpp:138-147, parse_int<T>, for a key that is present *)
Definition parse_int (T : ity) (raw : text) : ival :=
  let s := trim raw in
  if istarts_with s (str "$NODEID") then
    (* str.find("+", 7): the search starts behind the 7 characters *)
    Offset (int_from_string T (trim (match after_plus (skipn 7 s) with
                                     | Some r => r
                                     | None => s end)))
  else if iends_with s (str "$NODEID") then
    Offset (int_from_string T (trim (upto_plus s)))
  else Plain (int_from_string T s).

(** objdict.h:245-247, NodeIdOffset<T>::add: [u + t] is computed in int, unsigned,
    long or unsigned long; overflow of the signed ones is undefined. *)
Definition add_offset (T : ity) (u t : Z) : outcome Z :=
  if i_signed T && (4 <=? i_size T) && negb (u + t <? 2^(i_bits T - 1)) then Undef
  else Ok (wrap T (u + t)).

(** objdict.h:251-263, NodeIdOffset<T>::apply on a value that is not empty and
    was parsed for type T *)
Definition apply_offset (T : ity) (v : ival) (node_id : Z) : outcome Z :=
  match v with
  | Plain x => Ok x
  | Offset t => add_offset T node_id t
  end.
