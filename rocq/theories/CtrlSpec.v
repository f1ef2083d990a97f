(** Demands on the updates of controllers. *)
From Verif Require Import Base LayerModel CtrlModel.

(** The last mark satisfying a test *)
Fixpoint latest (f : mark -> bool) (l : list mark) : option mark :=
  match l with
  | [] => None
  | m :: l => match latest f l with Some x => Some x | None => if f m then Some m else None end
  end.
Definition is_life (m : mark) : bool := match m with MStart _ _ | MStop _ => true | _ => false end.
Definition is_reset (m : mark) : bool := match m with MStart _ _ | MRecover | MUpdate _ _ _ _ _ => true | _ => false end.
Definition is_timed (m : mark) : bool := match m with MStart _ _ | MUpdate _ _ _ _ _ => true | _ => false end.
Definition is_cycle (m : mark) : bool := match m with MUpdate _ _ _ _ _ | MEnforce _ _ | MReport _ => true | _ => false end.

(** The manager that exists after the marks *)
Definition existing (a : list mark) : option nat := match latest is_life a with Some (MStart i _) => Some i | _ => None end.
(** Controllers were to be reset, and there was no update since *)
Definition reset_due (a : list mark) : bool :=
  match latest is_reset a with Some (MStart _ _) | Some MRecover => true | _ => false end.
(** The time of the last update, or of the start *)
Definition previous_time (a : list mark) : option Z :=
  match latest is_timed a with Some (MStart _ t) => Some t | Some (MUpdate _ t _ _ _) => Some t | _ => None end.

(** Marks as they should be, each with the marks before it *)
Definition well_placed (fixed : Z) (a : list mark) (m : mark) : Prop :=
  match m with
  | MUpdate i t now p r =>
    existing a = Some i /\ r = reset_due a /\
    (if fixed =? 0 then exists t0, previous_time a = Some t0 /\ t0 + p = t /\ 0 <= p else p = fixed)
  | MEnforce p r => exists i t now, latest is_cycle a = Some (MUpdate i t now p r)
  | MStart i _ => existing a = None
  | MStop i => existing a = Some i
  | MRecover => exists i, existing a = Some i
  | MReport l => l = ERROR
  end.
Definition all_placed (fixed : Z) (l : list mark) : Prop := forall a m b, l = a ++ m :: b -> well_placed fixed a m.

(** The layer is never shut down while the control loop is inside its write() *)
Fixpoint apart (fixed : Z) (l : list cevent) (x : ctrl) : Prop :=
  match l with
  | [] => True
  | e :: l => (match e with CShutdown => pc x = WIdle | _ => True end) /\
              match step fixed e x with Undef => True | Ok x' => apart fixed l x' end
  end.
(** Exceptions of the controllers and of the manager's constructor *)
Definition throws (e : cevent) : bool := match e with CInit _ true | CLoop (DoWrite _ true) => true | _ => false end.

(** The sum of periods *)
Fixpoint periods (l : list mark) : Z :=
  match l with [] => 0 | MUpdate _ _ _ p _ :: l => p + periods l | _ :: l => periods l end.
