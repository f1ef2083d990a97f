(** What a device reads in a frame, and what it should be told. *)
From Coq Require Import Floats.SpecFloat.
From Verif Require Import Base KeyModel MotorSpec.
From Verif Require JointModel UnitModel.

(** Numbers in frames are in little endian (CiA 301, 7.1.4), negative ones in two's complement. *)
Fixpoint unsigned_le (b : bytes) : Z :=
  match b with
  | [] => 0
  | x :: t => x + 256 * unsigned_le t
  end.
Definition signed_le (b : bytes) : Z :=
  let bits := 8 * Z.of_nat (List.length b) in
  if unsigned_le b <? 2 ^ (bits - 1) then unsigned_le b else unsigned_le b - 2 ^ bits.

(** The target [n] of a device whose type has the limits [lo], [hi], for a command: its whole part within the
    limits. Without a command, or with one that is no number, it is the target given last. *)
Definition commands (lo hi : Z) (last : option Z) (v : option spec_float) (n : Z) : Prop :=
  match v with
  | None | Some S754_nan => last = Some n
  | Some (S754_infinity s) => n = if s then lo else hi
  | Some v => exists num den t, represents v num den /\ truncation num den t /\ n = Z.max lo (Z.min hi t)
  end.

(** The key of an object of a device: variables have an index only. *)
Definition object_key (idx sub : Z) : Z := if sub =? 0 then key_index idx else key_sub idx sub.
(** Size of the type with the lower limit [lo]: INTEGER16 or INTEGER32 *)
Definition target_size (lo : Z) : Z := if lo =? -32768 then 2 else 4.

(** The default conversion of positions: the only variable of the expression is the command. *)
Definition position_default (rnd : spec_float -> spec_float) : JointModel.expr spec_float :=
  JointModel.mkExpr spec_float [str "pos"] (fun vs => (vs, match vs with v :: _ => JointModel.default_to_d rnd v | [] => S754_nan end)).
(** The default conversion from positions, deg2rad(obj6064)/1000 *)
Definition position_shown : JointModel.expr spec_float :=
  JointModel.mkExpr spec_float [str "obj6064"] (fun vs => (vs, match vs with
    | v :: _ => UnitModel.div UnitModel.doubles (UnitModel.deg2rad UnitModel.doubles JointModel.M_PI v) (UnitModel.of_int UnitModel.doubles 1000)
    | [] => S754_nan
    end)).
(** A number in a frame, by its type *)
Definition frame_value (i : ity) (b : bytes) : Z := if i_signed i then signed_le b else unsigned_le b.
(** The control word (CiA 402, object 6040) *)
Definition control_word : Z := key_index 0x6040.
(** No command: nothing was commanded, or something that is no number. *)
Definition no_command (v : option spec_float) : Prop := v = None \/ v = Some S754_nan.
(** The targets for a sequence of commands, when [last] was the target before. *)
Inductive trajectory (lo hi : Z) : option Z -> list (option spec_float) -> list Z -> Prop :=
| on_nil : forall last, trajectory lo hi last [] []
| on_next : forall last v vs n ns, commands lo hi last v n -> trajectory lo hi (Some n) vs ns -> trajectory lo hi last (v :: vs) (n :: ns).
