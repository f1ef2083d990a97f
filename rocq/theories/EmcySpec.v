(** What users of the emergency handler know. *)
From Verif Require Import Base CanModel EmcyModel.

Definition is_emergency (e : event) : bool := match e with Emergency _ => true | _ => false end.
Definition clears (e : event) : bool := match e with ClearList true => true | _ => false end.

(** A bit of the error register other than the profile specific one (bit 5) *)
Definition error_bit (reg : Z) : Prop := exists i, 0 <= i < 8 /\ i <> 5 /\ Z.testbit reg i = true.

Definition final (es : list event) : emcy := fst (run es new_emcy).

(** The first [k] entries of the list, none of them missing *)
Definition listed (get : Z -> entry) (k : nat) (its : list item) : Prop :=
  List.length its = k /\
  forall j, (j < k)%nat ->
    nth_error its j = match get (Z.of_nat j + 1) with
                      | EVal v => Some (Field (v mod 2^16) (v / 2^16 mod 2^16))
                      | ENotInDict => Some NotInDict
                      | _ => None
                      end /\ get (Z.of_nat j + 1) <> ETimeout /\ get (Z.of_nat j + 1) <> EOther.
