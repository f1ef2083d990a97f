(** Notions used in the statements about joint handles. *)
From Coq Require Import ZArith List Bool.
From Verif Require Import Base HandleModel.
Import ListNotations.
Local Open Scope Z_scope.

(** Which command a drive in an operation mode follows (CiA 402: profiled, interpolated and
    cyclic position; velocity, profiled and cyclic velocity; profiled and cyclic torque). *)
Inductive follows : Z -> kind -> Prop :=
| F_pp : follows 1 KPos | F_ip : follows 7 KPos | F_csp : follows 8 KPos
| F_v : follows 2 KVel | F_pv : follows 3 KVel | F_csv : follows 9 KVel
| F_pt : follows 4 KEff | F_cst : follows 10 KEff.

(** The commands of a joint are connected according to the modes. *)
Definition wired (h : hand) : Prop :=
  command (cmds h) 0 = Some None /\
  forall m k, command (cmds h) m = Some k -> (m = 0 /\ k = None) \/ exists l, k = Some l /\ follows m l.

(** A joint offers a mode: the motor supports it and there is a command for it. *)
Definition offers (h : hand) (m : Z) : Prop := sup h m = true /\ command (cmds h) m <> None.

(** A joint as it is constructed and registered, with a motor in mode [m]. *)
Definition fresh (x : joint) : Prop := exists m r s, hd x = register_handles (new_handle m r s).

(** The motor changes its mode only when the handle asks for it. *)
Definition obedient (conv : kind -> Z -> Z) (x : joint) (l : list jevent) : Prop :=
  forall a m r b, l = a ++ JMotor m r :: b -> mode (hd (jrun conv a x)) = m.

(** Forwarding was enabled for mode [m], and the mode was not left since. *)
Definition enabled_for (conv : kind -> Z -> Z) (x : joint) (l : list jevent) (m : Z) : Prop :=
  exists a b, l = a ++ JForward m :: b /\
    forall b1 b2, b = b1 ++ b2 -> mode (hd (jrun conv (a ++ JForward m :: b1) x)) = m.

(** Events that neither switch modes nor let the motor change. *)
Definition calm (e : jevent) : Prop :=
  match e with JCommand _ _ | JRead _ | JWrite _ | JForward _ => True | _ => False end.
Definition keeps_command (k : kind) (e : jevent) : Prop :=
  match e with JCommand l _ => l <> k | JRead _ | JWrite false => True | _ => False end.
