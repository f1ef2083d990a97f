(** Object keys and numerals as a user of an EDS file knows them. *)
From Verif Require Import Base CanModel CanSpec KeyModel.

(** An object key: an index and possibly a sub-index. *)
Inductive okey := KIndex (i : Z) | KSub (i s : Z).
Definition okey_ok (k : okey) : Prop :=
  match k with
  | KIndex i => 0 <= i < 2^16
  | KSub i s => 0 <= i < 2^16 /\ 0 <= s < 2^8
  end.

(** The key object made by the constructors. *)
Definition mk_key (k : okey) : Z :=
  match k with KIndex i => key_index i | KSub i s => key_sub i s end.

(** [digits base t x]: the non-empty text [t] spells [x] in that base. *)
Inductive digits (base : Z) : text -> Z -> Prop :=
| digits_one : forall c d, hex_digit c d -> d < base -> digits base [c] d
| digits_more : forall t x c d, digits base t x -> hex_digit c d -> d < base ->
    digits base (t ++ [c]) (x * base + d).

(** Numerals of EDS files: decimal without leading zero, or 0x and hexadecimal
    digits, possibly with a minus sign. *)
Inductive unsigned_numeral : text -> Z -> Prop :=
| num_zero : unsigned_numeral (str "0") 0
| num_dec : forall t x, digits 10 t x -> hd 0 t <> 48 -> unsigned_numeral t x
| num_hex : forall t x, digits 16 t x -> unsigned_numeral (str "0x" ++ t) x.
Inductive numeral : text -> Z -> Prop :=
| num_pos : forall t x, unsigned_numeral t x -> numeral t x
| num_neg : forall t x, unsigned_numeral t x -> numeral (str "-" ++ t) (- x).

Definition spaces (s : text) : Prop := Forall (fun c => In c [32; 9; 10; 11; 12; 13]) s.

(** The keyword in any capitalisation. *)
Definition nodeid_word (w : text) : Prop :=
  Forall2 (fun c l => c = l \/ (97 <= l <= 122 /\ c = l - 32)) w (str "$nodeid").

(** Integer types of the dictionary. *)
Definition int_type (T : ity) : Prop := In (i_size T) [1; 2; 4; 8].

(** Numbers the C library can represent while parsing for type T. *)
Definition parsable (T : ity) (x : Z) : Prop :=
  if i_signed T then - 2^63 <= x < 2^63 else - 2^64 < x < 2^64.

(** [x] reduced into the range of T: congruent and in range. *)
Definition congruent (T : ity) (x y : Z) : Prop := (x - y) mod 2^(8 * i_size T) = 0.
Definition in_type (T : ity) (x : Z) : Prop :=
  if i_signed T then - 2^(8 * i_size T - 1) <= x < 2^(8 * i_size T - 1)
  else 0 <= x < 2^(8 * i_size T).
