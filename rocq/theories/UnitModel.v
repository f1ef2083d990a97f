(** Helper functions for unit conversions: unit_converter.h of canopen_motor_node.
    The functions are written once for any arithmetic; they are used with IEEE doubles (Coq's
    SpecFloat with 53 bits) and with exact numbers extended by an undefined value. The parser
    (muParser) and its variables are left out. *)
From Coq Require Import ZArith QArith List Bool.
From Coq Require Import Floats.SpecFloat.
From Verif Require Import Base.
Import ListNotations.
Local Open Scope Z_scope.

Record arith := mkArith {
  num : Type;
  nan : num;                  (* undefined value *)
  isnan : num -> bool;
  of_int : Z -> num;          (* conversion of small integers *)
  add : num -> num -> num; sub : num -> num -> num; mul : num -> num -> num; div : num -> num -> num;
  ge : num -> num -> bool; lt : num -> num -> bool
}.

Section Helpers.
Variable A : arith.

(** rad2deg and deg2rad, unit_converter.h:58-63; [pi] stands for M_PI. *)
Definition rad2deg (pi r : num A) : num A := div A (mul A r (of_int A 180)) pi.
Definition deg2rad (pi d : num A) : num A := div A (mul A d pi) (of_int A 180).

(** norm, unit_converter.h:64-68. The loops run at most [n] times altogether; None: they still
    run. *)
Fixpoint norm_up (n : nat) (val lo hi : num A) : option (num A) :=
  if lt A val lo then
    match n with
    | O => None
    | S n => norm_up n (add A val (sub A hi lo)) lo hi
    end
  else Some val.
Fixpoint norm (n : nat) (val lo hi : num A) : option (num A) :=
  if ge A val hi then
    match n with
    | O => None
    | S n => norm n (sub A val (sub A hi lo)) lo hi
    end
  else norm_up n val lo hi.

(** smooth, unit_converter.h:69-73 *)
Definition smooth (val old alpha : num A) : num A :=
  if isnan A val then of_int A 0
  else if isnan A old then val
  else add A (mul A alpha val) (mul A (sub A (of_int A 1) alpha) old).

(** avg, unit_converter.h:74-84 *)
Fixpoint avg_loop (vals : list (num A)) (i : Z) (s : num A) : Z * num A :=
  match vals with
  | [] => (i, s)
  | v :: t => if isnan A v then (i, s) else avg_loop t (i + 1) (add A s v)
  end.
Definition avg (vals : list (num A)) : num A :=
  let (i, s) := avg_loop vals 0 (of_int A 0) in div A s (of_int A (i + 1)).
End Helpers.

(** IEEE doubles *)
Definition double_of_int (z : Z) : spec_float := binary_normalize 53 1024 z 0 false.
Definition doubles : arith := {|
  num := spec_float;
  nan := S754_nan;
  isnan := fun x => match x with S754_nan => true | _ => false end;
  of_int := double_of_int;
  add := SFadd 53 1024; sub := SFsub 53 1024; mul := SFmul 53 1024; div := SFdiv 53 1024;
  ge := fun x y => SFleb y x; lt := SFltb |}.

(** Exact numbers; everything computed with the undefined value is undefined, comparisons with
    it are false. Division by zero is undefined. *)
Definition exact2 (f : Q -> Q -> Q) (x y : option Q) : option Q :=
  match x, y with Some a, Some b => Some (f a b) | _, _ => None end.
Definition exact : arith := {|
  num := option Q;
  nan := None;
  isnan := fun x => match x with None => true | _ => false end;
  of_int := fun z => Some (inject_Z z);
  add := exact2 Qplus; sub := exact2 Qminus; mul := exact2 Qmult;
  div := fun x y => match y with Some b => if Qeq_bool b 0 then None else exact2 Qdiv x y | None => None end;
  ge := fun x y => match x, y with Some a, Some b => Qle_bool b a | _, _ => false end;
  lt := fun x y => match x, y with Some a, Some b => negb (Qle_bool b a) | _, _ => false end |}.
