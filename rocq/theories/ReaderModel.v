(** BufferedReader. Source:
    /repo/socketcan_interface/include/socketcan_interface/reader.h
    Each public operation holds the mutex for its whole duration (readUntil
    releases it only while waiting on an empty buffer), so an execution is a
    sequence of the operations below. The model is polymorphic in the frame
    type [A]: the code never looks into a frame. *)
From Verif Require Import Base.

Section Reader.
Context {A : Type}.

(** reader.h:14-19 *)
Record reader := mkReader {
  buffer_ : list A;
  enabled_ : bool;
  max_len_ : nat
}.

(** reader.h:21-28, trim: pop_front while size() > max_len_ *)
Fixpoint trim_loop (max_len : nat) (b : list A) : list A :=
  match b with
  | [] => []
  | _ :: t => if (max_len <? List.length b)%nat then trim_loop max_len t else b
  end.
Definition trim (max_len : nat) (b : list A) : list A :=
  if (0 <? max_len)%nat then trim_loop max_len b else b.

(** The public operations. [Read] is readUntil with a non-null pointer at the
    moment it stops waiting, [Peek] the same with a null pointer. *)
Inductive rop :=
| Arrive (f : A)
| Read
| Peek
| Flush
| SetMaxLen (n : nat)
| SetEnabled (b : bool)
| Listen.

(** What an operation returns: [Got f]: true with a frame, [Seen]: true without
    taking, [Empty]: false, [Was b]: previous enabled flag, [Done]: void. *)
Inductive rres := Got (f : A) | Seen | Empty | Was (b : bool) | Done.

(** reader.h:29-38 handleFrame, 51-54 flush, 55-59 setMaxLen, 64-69 setEnabled,
    80-89 listen, 94-109 readUntil *)
Definition rstep (r : reader) (o : rop) : reader * rres :=
  match o with
  | Arrive f =>
    if enabled_ r
    then (mkReader (trim (max_len_ r) (buffer_ r ++ [f])) (enabled_ r) (max_len_ r), Done)
    else (r, Done)
  | Read =>
    match buffer_ r with
    | [] => (r, Empty)
    | f :: t => (mkReader t (enabled_ r) (max_len_ r), Got f)
    end
  | Peek => match buffer_ r with [] => (r, Empty) | _ => (r, Seen) end
  | Flush => (mkReader [] (enabled_ r) (max_len_ r), Done)
  | SetMaxLen n => (mkReader (trim n (buffer_ r)) (enabled_ r) n, Done)
  | SetEnabled b => (mkReader (buffer_ r) b (max_len_ r), Was (enabled_ r))
  | Listen => (mkReader [] (enabled_ r) (max_len_ r), Done)
  end.

(** reader.h:48-49, constructors *)
Definition rinit (enable : bool) (max_len : nat) : reader := mkReader [] enable max_len.

Fixpoint rrun (r : reader) (ops : list rop) : reader * list rres :=
  match ops with
  | [] => (r, [])
  | o :: t => let '(r1, x) := rstep r o in
              let '(r2, xs) := rrun r1 t in (r2, x :: xs)
  end.

End Reader.
Arguments reader : clear implicits.
Arguments rop : clear implicits.
Arguments rres : clear implicits.
