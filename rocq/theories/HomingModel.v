(** DefaultHomingMode of canopen_402.
    Source: /repo/canopen_402/src/motor.cpp:165-243,
    /repo/canopen_402/include/canopen_402/motor.h (DefaultHomingMode, 240-265). *)
From Verif Require Import Base MotorModel.

(** SW_Target_reached (State402), SW_Attained and SW_Error (HomingMode) *)
Definition SW_Reached : Z := 10.
Definition SW_Attained : Z := 12.
Definition SW_Error : Z := 13.
Definition HMASK : Z := 2 ^ 10 + 2 ^ 12 + 2 ^ 13.

(** status_ and execute_ *)
Record hom := mkH { status : Z; execute : bool }.

(** read, 175-183; start (171-174) lowers execute_ and reads 0 *)
Definition hread (sw : Z) (x : hom) : hom := mkH (Z.land sw HMASK) (execute x).
Definition hstart (x : hom) : hom := hread 0 (mkH (status x) false).

(** executeHoming (193-243) by the wait it blocks in, and its result *)
Inductive hpc := HPrepare | HStart | HAttain | HStop | HDone (b : bool).
(** The waits' predicates: masked_status_not_equal<mask, value> (164-168) *)
Definition not_equal (mask value s : Z) : bool := negb (Z.land s mask =? value).
Definition ready (p : hpc) (s : Z) : bool :=
  match p with
  | HPrepare => not_equal (2 ^ SW_Error + 2 ^ SW_Reached) 0 s
  | HStart => not_equal (2 ^ SW_Error + 2 ^ SW_Attained + 2 ^ SW_Reached) (2 ^ SW_Reached) s
  | HAttain => not_equal (2 ^ SW_Error + 2 ^ SW_Attained) 0 s
  | HStop => not_equal (2 ^ SW_Error + 2 ^ SW_Reached) 0 s
  | HDone _ => false
  end.
Definition has_mask (s b : Z) : bool := negb (Z.land s (2 ^ b) =? 0).
(** error() lowers execute_ *)
Definition failed (x : hom) : hom * hpc := (mkH (status x) false, HDone false).
(** From a wait to the next one.  The mutex is held in between; letting other threads run
    there gives more runs than the code has. *)
Definition advance (p : hpc) (x : hom) : hom * hpc :=
  if has_mask (status x) SW_Error then failed x
  else match p with
  | HPrepare => (mkH (status x) true, HStart)
  | HStart => (x, HAttain)
  | HAttain => (x, HStop)
  | HStop => if has_mask (status x) SW_Reached && has_mask (status x) SW_Attained then (mkH (status x) false, HDone true) else failed x
  | HDone _ => (x, p)
  end.
Inductive hevent :=
| HThread          (* the homing thread wakes up *)
| HTimeout         (* its deadline passes *)
| HRead (sw : Z)   (* the drive's status word is read *)
.
Definition hstep (e : hevent) (s : hom * hpc) : hom * hpc :=
  let (x, p) := s in
  match e with
  | HRead sw => (hread sw x, p)
  | HThread => if ready p (status x) then advance p x else s
  | HTimeout =>
    match p with
    | HDone _ => s
    | _ => if ready p (status x) then advance p x else failed x
    end
  end.
Definition hrun (l : list hevent) (s : hom * hpc) : hom * hpc := fold_left (fun s e => hstep e s) l s.

(** 193-199: the homing method (object 6098) is looked at first *)
Definition execute_homing (valid : bool) (method : Z) (x : hom) : hom * hpc :=
  if negb valid then failed x
  else if method =? 0 then (x, HDone true)
  else (x, HPrepare).
