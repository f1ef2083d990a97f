(** What users of a node know. *)
From Verif Require Import Base NodeModel.

(** The node is registered with the sync layer (a set of nodes). *)
Definition member_step (m : bool) (a : act) : bool :=
  match a with Add => true | Remove => false | _ => m end.
Definition member (m : bool) (l : list act) : bool := fold_left member_step l m.
(** Registrations happen only while the node is not registered. *)
Fixpoint adds_once (m : bool) (l : list act) : Prop :=
  match l with
  | [] => True
  | a :: t => (a = Add -> m = false) /\ adds_once (member_step m a) t
  end.

(** NMT states of CiA 301 *)
Definition nmt_state (s : Z) : Prop := In s [0; 4; 5; 127].

(** No heartbeat with the state Operational falls between the moment a reset
    sees the boot-up message and its end. *)
Fixpoint next_own (es : list event) : option event :=
  match es with
  | [] => None
  | Nmt _ _ :: t => next_own t
  | e :: _ => Some e
  end.
Fixpoint quiet (es : list event) : Prop :=
  match es with
  | [] => True
  | Nmt s _ :: t => (s = 5 -> forall ok, next_own t <> Some (Finish ok)) /\ quiet t
  | _ :: t => quiet t
  end.

Definition ordinary (e : event) : Prop :=
  match e with Nmt s _ => nmt_state s | Call Stop _ => False | _ => True end.

(** The state a command is to bring about (CiA 301), and the time it may take, in
    nanoseconds: ten seconds for resets, two for the others. *)
Definition brings (c : cmd) (s : Z) : Prop :=
  match c with Start => s = 5 | Prepare => s = 127 | Reset | ResetCom => s = 0 | Stop => False end.
Definition patience (c : cmd) : Z :=
  match c with Reset | ResetCom => 10000000000 | _ => 2000000000 end.

(** Heartbeats and their times *)
Fixpoint beats (es : list event) : list Z :=
  match es with
  | [] => []
  | Nmt _ t :: r => t :: beats r
  | _ :: r => beats r
  end.
Fixpoint in_order (l : list Z) : Prop :=
  match l with
  | [] => True
  | x :: t => Forall (Z.le x) t /\ in_order t
  end.

(** Events that do not change the supervision interval *)
Definition same_interval (e : event) : Prop :=
  match e with
  | Call Reset _ | Call ResetCom _ | Finish _ | ShutdownNode _ _ => False
  | _ => True
  end.
Definition supervision_off (n : node) : Prop := n_hb n = HbNone \/ n_hb n = HbVal 0.

(** The steps of the initialisation in their order, with success. *)
Definition succeeded (s : sres) : bool := match s with SOk => true | _ => false end.
Definition returned (s : sres) : bool := match s with SOk | SFail => true | _ => false end.
Definition boot_steps (o : boot) : list (bact * bool) :=
  [(BListen, true); (BSdoInit, returned (o_sdo o)); (BResetCom, succeeded (o_reset o));
   (BPdoInit, succeeded (o_pdo o)); (BInitAll, returned (o_all o));
   (BSdoInit, returned (o_sdo2 o)); (BStart, succeeded (o_start o))].
Fixpoint until_failure (l : list (bact * bool)) : list bact :=
  match l with
  | [] => []
  | (b, ok) :: t => b :: if ok then until_failure t else []
  end.

(** What state listeners are told. *)
Definition told (l : list act) : list Z :=
  flat_map (fun a => match a with Notify s => [s] | _ => [] end) l.
(** The state a listener believes in: the last one it was told. *)
Definition believed (s : Z) (l : list act) : Z := last (told l) s.
(** Each call tells something new. *)
Fixpoint news (s : Z) (l : list Z) : Prop :=
  match l with
  | [] => True
  | x :: t => x <> s /\ news x t
  end.
Definition no_reset_end (e : event) : Prop := match e with Finish _ => False | _ => True end.

(** Command specifiers of CiA 301 *)
Definition nmt_code (c : cmd) (b : Z) : Prop :=
  match c with Start => b = 0x01 | Stop => b = 0x02 | Prepare => b = 0x80 | Reset => b = 0x81 | ResetCom => b = 0x82 end.
Definition sent (l : list act) : list bytes := flat_map (fun a => match a with Send b => [b] | _ => [] end) l.
