(** A write cycle of one joint, from the command of the joint to the frame on the bus: the parts are those
    of JointModel (HandleLayer), MotorModel (Motor402) and PdoModel (the objects and a transmit PDO). The
    order of the layers is that of C96. *)
From Coq Require Import Floats.SpecFloat.
From Verif Require Import Base CanModel KeyModel StorageModel LayerModel MotorModel HandleModel PdoModel.
From Verif Require JointModel UnitModel.

(** motor.h:185-190: the key of the object a forwarding mode writes to (motor.h:203-209) *)
Definition forward_key (m : Z) : option Z :=
  match forward_mode m with
  | Some (_, idx, sub, _, _) => Some (if sub =? 0 then key_index idx else key_sub idx sub)
  | None => None
  end.
(** The size of the type of its targets, motor.h:203-209 *)
Definition forward_size (m : Z) : nat :=
  match forward_mode m with
  | Some (_, _, _, _, (_, hi)) => if hi <? 2 ^ 15 then 2%nat else 4%nat
  | None => 0%nat
  end.
(** motor.h:302, the entry of the control word *)
Definition cw_key : Z := key_index 0x6040.

(** A motor whose selected mode is the forwarding mode [mo_mode] with the target [mo_tgt]; [mo_shown] is
    mode_id_, the mode the device displayed last *)
Record motor := mkMotor { mo_state : state402; mo_mode : Z; mo_shown : Z; mo_tgt : tgt; mo_sfr : bool; mo_cw : Z }.
Definition with_tgt (t : tgt) (m : motor) : motor := mkMotor (mo_state m) (mo_mode m) (mo_shown m) t (mo_sfr m) (mo_cw m).
Definition with_cw (w : Z) (sfr : bool) (m : motor) : motor := mkMotor (mo_state m) (mo_mode m) (mo_shown m) (mo_tgt m) sfr w.

(** motor.cpp:245-251, Motor402::setTarget; the result is not used, handle_layer.cpp:152-160 *)
Definition command (v : spec_float) (m : motor) : motor :=
  match forward_mode (mo_mode m) with
  | Some (_, _, _, _, (lo, hi)) =>
    match snd (set_target (mo_state m) (STarget lo hi (mo_tgt m)) v) with
    | STarget _ _ t => with_tgt t m
    | _ => m
    end
  | None => m
  end.

Section Cycle.
Variable dv : device.
Variable d : dict.

(** motor.h:191-200, the write of the target in the write of the mode; [false]: an exception left it *)
Definition write_target (m : motor) (w : pw) : outcome (pw * bool) :=
  if state_eqb (mo_state m) OperationEnable && (mo_mode m =? mo_shown m) then
    match forward_key (mo_mode m), forward_out (mo_tgt m) with
    | Some k, Some n =>
      match obj dv d k (SSet (le_bytes (forward_size (mo_mode m)) n)) w with
      | Undef => Undef
      | Ok (w1, r) => Ok (w1, match r with inl _ => true | inr _ => false end)
      end
    | _, _ => Ok (w, true)
    end
  else Ok (w, true).
(** motor.cpp:414-437, handleWrite for a state after Off: the target first, then the control word; an exception
    of the first leaves the bits of the mode and the halt bit in control_word_ (417-425) and nothing is sent. The
    result tells whether it returned without an exception. *)
Definition motor_write (m : motor) (w : pw) : outcome (motor * pw * bool) :=
  match forward_mode_beh (mo_mode m) (mo_tgt m) with
  | None => Ok (m, w, true)
  | Some b =>
    match write_target m w with
    | Undef => Undef
    | Ok (w1, false) => Ok (with_cw (accesses (acts b (Z.lor (mo_cw m) (bit CW_Halt))) (Z.lor (mo_cw m) (bit CW_Halt))) (mo_sfr m) m, w1, false)
    | Ok (w1, true) =>
      let '(cw, sent, sfr) := handle_write (mo_state m) (Some (mo_mode m, b)) (mo_shown m) (mo_sfr m) (mo_cw m) in
      match obj dv d cw_key (SSetCached (le_bytes 2 sent)) w1 with
      | Undef => Undef
      | Ok (w2, r) => Ok (with_cw cw sfr m, w2, match r with inl _ => true | inr _ => false end)
      end
    end
  end.

(** handle_layer.h:43-48, readObject: the conversion of a value of an integer type to a double; reals are left out. *)
Definition number (t : ty) (b : bytes) : option spec_float :=
  match t with
  | TInt i => Some (UnitModel.double_of_int (wrap i (of_le b)))
  | _ => None
  end.
(** handle_layer.h:62-69, ObjectVariables::sync: the objects [ks] are read one after the other, without the cache; None is a
    read that fails (objdict.h:399-406 catches the exceptions). *)
Fixpoint poll (T : Z -> ty) (ks : list Z) (w : pw) : outcome (pw * (Z -> option spec_float)) :=
  match ks with
  | [] => Ok (w, fun _ => None)
  | k :: ks =>
    match obj dv d k (SGet false) w with
    | Undef => Undef
    | Ok (w1, r) =>
      match poll T ks w1 with
      | Undef => Undef
      | Ok (w2, rd) => Ok (w2, fun j => if j =? k then match r with inl (RVal b) => number (T k) b | _ => None end else rd j)
      end
    end
  end.

(** The joint. Numbers are doubles. *)
Variable junk : nat -> spec_float.
Variable dtype : Z -> option Z.
Variable opens : Z -> bool.
Variable fstate ls : Type.

(** The write pass: HandleLayer (handle_layer.cpp:146-170) with the handle [active] that forwards, then the motor,
    then the node while it is operational (node.cpp:159-164, PDOMapper::write, pdo.cpp:332-338) with this transmit PDO; layers below a layer
    that failed are written all the same (layer.h:207-213). *)
Definition write_pass (active : option kind) (x : JointModel.hl spec_float fstate ls) (m : motor) (p : pdo) (w : pw)
  : outcome (JointModel.hl spec_float fstate ls * motor * pdo * pw * option frame * bool) :=
  let '(y, tv) := JointModel.handle_write spec_float S754_nan junk dtype opens fstate ls Ready active x in
  let m1 := match tv with Some v => command v m | None => m end in
  match motor_write m1 w with
  | Undef => Undef
  | Ok (m2, w1, ok) =>
    match tpdo_sync p w1 with
    | Undef => Undef
    | Ok (p1, w2, f) => Ok (y, m2, p1, w2, f, ok)
    end
  end.

(** Accesses to objects by anyone, one after the other. *)
Fixpoint others (ops : list (Z * sop)) (w : pw) : outcome pw :=
  match ops with
  | [] => Ok w
  | (k, o) :: t => match obj dv d k o w with Undef => Undef | Ok (w1, _) => others t w1 end
  end.
(** Write passes of a motor that stays in its state and mode. Before each, objects were accessed by anyone, and the joint has the
    given state; the frames of the passes are collected. *)
Fixpoint write_passes (active : option kind) (cs : list (list (Z * sop) * JointModel.hl spec_float fstate ls)) (m : motor) (p : pdo) (w : pw)
  : outcome (list (option frame)) :=
  match cs with
  | [] => Ok []
  | (ops, x) :: t =>
    match others ops w with
    | Undef => Undef
    | Ok w1 =>
      match write_pass active x m p w1 with
      | Undef => Undef
      | Ok (_, m1, p1, w2, f, _) => match write_passes active t m1 p1 w2 with Undef => Undef | Ok fs => Ok (f :: fs) end
      end
    end
  end.
End Cycle.
