From Coq Require Import List Arith Bool Lia Wellfounded.
From Verif Require Import LockModel LockSpec.
Import ListNotations.

(** ** The order of the mutexes *)

Definition rank (l : lock) : nat :=
  match l with
  | LChain => 1 | LDiag => 2 | LRun => 3 | LDrv => 4 | LTimer => 4
  | LVars _ => 5 | LNode _ => 5 | LCw _ => 5 | LMode _ => 6
  | LMapper _ => 6 | LTpdo _ _ => 7
  | LFrames => 8 | LCond _ => 9 | LStorage _ => 10 | LData _ _ => 11 | LSdo _ => 12
  | LReader _ | LBuf _ _ | LRpdo _ _ | LNodes | LNodeState _ | LState _ | LMap _ | LHoming _ | LCan | LBcm => 13
  | LSend => 14 | LDriver => 15 | LStateD => 16 | LWaiter _ => 17
  end.

Lemma rank_le : forall l, rank l <= 17.
Proof. destruct l; cbn; lia. Qed.

Definition is_rpdo (l : lock) : Prop := match l with LRpdo _ _ => True | _ => False end.
Definition owner (h : handler) : list lock :=
  match h with HRpdo n i | HSync n i => [LRpdo n i] | _ => [] end.

Definition plain_op (o : op) : Prop := match o with Acq _ | Rel _ | Do _ _ => True | _ => False end.
Definition plain (t : list op) : Prop := Forall plain_op t.

(** Traces in which every mutex is taken above those held around it.  [E] are
    the PDO objects the dispatcher has been shown. *)
Inductive safe : list lock -> nat -> list op -> Prop :=
| s_nil : forall E lo, safe E lo []
| s_acq : forall E lo l b q, (is_rpdo l -> In l E) -> lo < rank l -> safe E (rank l) b -> safe E lo q ->
    safe E lo (Acq l :: b ++ Rel l :: q)
| s_new_fails : forall E lo n i b q, safe E lo b -> safe E lo q ->
    safe E lo (New (LRpdo n i) :: b ++ Drop (LRpdo n i) :: q)
| s_new : forall E lo n i b q, lo < rank LFrames -> safe E lo b -> safe (LRpdo n i :: E) lo q ->
    safe E lo (New (LRpdo n i) :: b ++ Acq LFrames :: Reg CFrames (HRpdo n i) :: Rel LFrames :: Rel (LRpdo n i) :: q)
| s_reg : forall E lo c h q, (c = CFrames -> owner h = []) -> incl (owner h) E -> safe E lo q ->
    safe E lo (Reg c h :: q)
| s_do : forall E lo v w q, safe E lo q -> safe E lo (Do v w :: q)
| s_unreg : forall E lo c h q, safe E lo q -> safe E lo (Unreg c h :: q)
| s_calls : forall E lo c f q, (forall h b, f h = Some b -> plain b) ->
    (forall h b E', f h = Some b -> incl (owner h) E' -> safe E' lo b) ->
    safe E lo q -> safe E lo (Calls c f :: q).

Lemma safe_mono : forall E lo t, safe E lo t -> forall E', incl E E' -> safe E' lo t.
Proof.
  induction 1; intros E' Hi; constructor; auto.
  - apply IHsafe2. intros x [<-|Hx]; [left; reflexivity | right; auto].
  - intros x Hx. auto.
Qed.

Lemma safe_app : forall E lo t, safe E lo t -> forall u, safe E lo u -> safe E lo (t ++ u).
Proof.
  induction 1; intros u Hu; cbn [app]; try rewrite <- app_assoc; cbn [app]; auto;
    try (constructor; auto; fail).
  constructor; auto. apply IHsafe2. apply safe_mono with E; auto. intros x Hx; right; exact Hx.
Qed.

Lemma safe_dos : forall E lo v ws, safe E lo (map (Do v) ws).
Proof. induction ws; cbn; constructor; auto. Qed.
Lemma safe_repeat : forall E lo v k, safe E lo (repeat (Do v false) k).
Proof. induction k; cbn; constructor; auto. Qed.
Lemma plain_dos : forall v ws, plain (map (Do v) ws).
Proof. induction ws; cbn; constructor; auto. exact Logic.I. Qed.
Lemma plain_repeat : forall v k, plain (repeat (Do v false) k).
Proof. induction k; cbn; constructor; auto. exact Logic.I. Qed.

(** ** Programs that keep the order *)

(** [own]: the PDO objects the program may use; [c]: the list it is a member of. *)
Fixpoint plain_ordered (own : list lock) (lo : nat) (p : prog) : Prop :=
  match p with
  | Nop | Rd _ | Wr _ => True
  | Seq p q | Alt p q => plain_ordered own lo p /\ plain_ordered own lo q
  | Any f => forall k, plain_ordered own lo (f k)
  | Rep p | Try p => plain_ordered own lo p
  | With l p => (is_rpdo l -> In l own) /\ lo < rank l /\ plain_ordered own (rank l) p
  | _ => False
  end.

Lemma plain_runs : forall p r t, runs p r t -> forall own lo, plain_ordered own lo p -> safe own lo t /\ plain t.
Proof.
  induction 1; intros own lo Ho; cbn in Ho; try contradiction.
  - split; constructor.
  - split; constructor.
  - destruct Ho as [Ho1 Ho2]. destruct (IHruns1 _ _ Ho1), (IHruns2 _ _ Ho2).
    split; [apply safe_app; auto | apply Forall_app; auto].
  - destruct Ho as [Ho1 Ho2]. eauto.
  - destruct Ho; eauto.
  - destruct Ho; eauto.
  - eauto.
  - split; constructor.
  - destruct (IHruns1 _ _ Ho), (IHruns2 _ _ Ho).
    split; [apply safe_app; auto | apply Forall_app; auto].
  - eauto.
  - destruct Ho as (Hr & Hl & Hp). destruct (IHruns _ _ Hp) as [Hs Hpl]. split.
    + apply s_acq; auto. constructor.
    + constructor; [exact Logic.I|]. apply Forall_app; split; auto. constructor; [exact Logic.I|constructor].
  - eauto.
  - split; [apply safe_repeat | apply plain_repeat].
  - split; [apply safe_dos | apply plain_dos].
Qed.

Fixpoint ordered (lo : nat) (p : prog) : Prop :=
  match p with
  | Nop | Rd _ | Wr _ => True
  | Seq p q | Alt p q => ordered lo p /\ ordered lo q
  | Any f => forall k, ordered lo (f k)
  | Rep p | Try p => ordered lo p
  | With l p => ~ is_rpdo l /\ lo < rank l /\ ordered (rank l) p
  | Enter c h => owner h = []
  | Leave c h => True
  | Dispatch c => lo <= rank LFrames
  | Create n i p => lo < rank LFrames /\ ordered lo p
  end.

Lemma rank_lower : forall E hi t, safe E hi t -> forall lo, lo <= hi -> safe E lo t.
Proof. induction 1; intros lo' Hl; constructor; auto; try lia. intros; eauto. Qed.

Ltac ordsolve :=
  repeat (cbn [plain_ordered ordered handle rank owner is_rpdo Opt touch look buf];
          first [ exact Logic.I | progress intros | split | lia | tauto
                | progress unfold Opt, touch, look, buf, tell_state, heartbeat, data, delegate, sdo, send, get_state, state_change, switch_state, reader_wait, st402 ]).

Lemma handle_ordered : forall h, plain_ordered (owner h) (rank LFrames) (handle h).
Proof. destruct h; ordsolve; cbn in *; auto. Qed.

Lemma handle_safe : forall h b E lo, runs (handle h) true b \/ runs (handle h) false b ->
  lo <= rank LFrames -> incl (owner h) E -> safe E lo b /\ plain b.
Proof.
  intros h b E lo Hb Hl Hi.
  assert (H : exists r, runs (handle h) r b) by (destruct Hb; eauto). destruct H as [r Hr].
  destruct (plain_runs _ _ _ Hr _ _ (handle_ordered h)) as [Hs Hp]. split; auto.
  apply rank_lower with (rank LFrames); auto. apply safe_mono with (owner h); auto.
Qed.

Lemma runs_safe : forall p r t, runs p r t -> forall E lo, ordered lo p -> safe E lo t.
Proof.
  induction 1; intros E lo Ho; cbn in Ho;
    try match type of Ho with _ /\ _ => destruct Ho as [Ho1 Ho2] end; eauto using s_nil, safe_app, safe_dos, safe_repeat.
  - destruct Ho2 as [Ho2 Ho3]. apply s_acq; auto using s_nil. contradiction.
  - constructor; auto using s_nil. rewrite Ho. intros x [].
  - constructor; constructor.
  - apply s_calls; auto using s_nil.
    + intros h b Hf. destruct (handle_safe h b (owner h) lo (H _ _ Hf)); auto. apply incl_refl.
    + intros h b E' Hf Hi. destruct (handle_safe h b E' lo (H _ _ Hf)); auto.
  - apply s_new_fails; auto using s_nil.
  - apply s_new; auto. constructor; auto using s_nil; [discriminate|]. intros x [<-|[]]. left; reflexivity.
Qed.

Lemma call_ordered : forall p, call p -> ordered 0 p.
Proof.
  destruct 1; cbv -[lt not rank hb_object is_rpdo];
    repeat (match goal with
            | |- _ /\ _ => split
            | |- forall _ : nat, _ => intro
            | |- True => exact Logic.I
            | |- ~ is_rpdo _ => cbn; tauto
            | |- _ < _ => cbn; lia
            | |- _ = _ => reflexivity
            | |- _ => cbn; lia
            end).
Qed.

