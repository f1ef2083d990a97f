(** Notions used in the statements about joint handles and controller switches. *)
From Coq Require Import ZArith List Bool Permutation.
From Verif Require Import Base HandleModel HandleSpec RobotModel.
Import ListNotations.
Local Open Scope Z_scope.

(** A joint without active mode: the motor has none, and no command is connected to it. *)
Definition stopped (h : hand) : Prop := mode h = 0 /\ jh h = None.
(** A joint that runs in a mode, connected to the command of the mode. *)
Definition runs (m : Z) (h : hand) : Prop := mode h = m /\ command (cmds h) m = Some (jh h).
(** Controller [c] claims joint [j] for interface [i]. *)
Definition claims_joint (c : controller) (i : iface) (j : Z) : Prop := exists js, In (i, js) (claims c) /\ In j js.

(** The mode a controller requires for a joint: the one listed for the joint (names are keys of
    a dictionary, the first entry is the one found), or else the default. *)
Definition required (p : params) (j m : Z) : Prop :=
  (exists l a b, plookup p = Some l /\ l = a ++ (j, m) :: b /\ ~ In j (map fst a)) \/
  (pdefault p = Some m /\ forall l, plookup p = Some l -> ~ In j (map fst l)).

(** The interface fits to the mode, if the mode follows a command at all. *)
Definition fits (i : iface) (m : Z) : Prop := forall k, follows m k -> i = IJoint k.

(** What has to hold for a controller to be started. *)
Definition startable (x : robot) (p : params) (c : controller) : Prop :=
  (forall i j, claims_joint c i j ->
     present x j = true /\
     exists m, required p j m /\ fits i m /\ offers (hands x j) m /\ (mode (hands x j) = m \/ lready (hands x j) = true)) /\
  (plookup p = None -> forall i j i' j', claims_joint c i j -> claims_joint c i' j' -> i = i').

Definition known (x : robot) (c : controller) : Prop := In (cname c) (map fst (reg x)).

(** The joints of a controller, as it was registered. *)
Definition has_data (x : robot) (c : Z) (d : sdata) : Prop := exists l, registered (reg x) c = Some l /\ In d l.
Definition has_joint (x : robot) (c : Z) (j : Z) : Prop := exists d, has_data x c d /\ sjoint d = j.

(** No joint belongs to two of the controllers of a list. *)
Definition exclusive (x : robot) (l : list Z) : Prop :=
  ForallOrdPairs (fun c c' => forall j, has_joint x c j -> has_joint x c' j -> False) l.

(** Everything a controller registers for a joint is the same. *)
Definition coherent (l : list sdata) : Prop := forall d d', In d l -> In d' l -> sjoint d = sjoint d' -> d = d'.

Definition shuffles (order : list Z -> list Z) : Prop := forall l, Permutation l (order l).

(** Robots that exist: after any history, with joints that were properly registered. *)
Definition reached (x : robot) : Prop :=
  exists p f l, (forall j, exists m r s, f j = register_handles (new_handle m r s)) /\
    x = rrun l (new_robot p f).

(** A joint that gives no command to its motor. *)
Definition silent (h : hand) : Prop := fwd h = false \/ jh h = None.
