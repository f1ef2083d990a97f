(** Texts of numbers as users of the object services know them. *)
From Verif Require Import Base CanModel KeyModel KeySpec StorageModel EdsModel EdsSpec TextModel.

(** The bytes of the integer [x] of type T: two's complement, little endian. *)
Definition holds (T : ity) (b : bytes) (x : Z) : Prop :=
  in_type T x /\ Z.of_nat (List.length b) = i_size T /\ Forall byte_ok b /\ of_le b = x mod 2^(8 * i_size T).

(** The usual text of a number: decimal, without leading zeros, with a minus
    sign if it is negative. *)
Definition usual_text (t : text) (x : Z) : Prop :=
  (x = 0 /\ t = str "0") \/ (0 < x /\ digits 10 t x /\ hd 0 t <> 48) \/
  (x < 0 /\ exists t', t = str "-" ++ t' /\ digits 10 t' (- x) /\ hd 0 t' <> 48).

(** The result of an access as seen by the user of texts. *)
Definition done (r : outcome (cell * list event * result)) : outcome (cell * list event * tresult) :=
  match r with
  | Undef => Undef
  | Ok (c, ev, RDone) => Ok (c, ev, TDone)
  | Ok (c, ev, _) => Ok (c, ev, TFail)
  end.
