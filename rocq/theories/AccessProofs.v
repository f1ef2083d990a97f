From Coq Require Import List Arith Bool Lia.
From Verif Require Import LockModel LockSpec LockOrder LockProofs AccessSpec.
Import ListNotations.

(** ** The mutex that protects each piece of data *)

Definition list_guard (c : cont) : lock := match c with CFrames => LFrames | CRpdos n => LMapper n end.
Definition guard (v : var) : option lock :=
  match v with
  | VDriver => Some LDriver | VStateL => Some LStateD | VWaiter w => Some (LWaiter w) | VReader r => Some (LReader r)
  | VObjects n => Some (LStorage n) | VData n k => Some (LData n k) | VBuf n b => Some (LBuf n b)
  | VRpdo n i => Some (LRpdo n i) | VTpdo n j => Some (LTpdo n j) | VTpdos n => Some (LMapper n)
  | VList c => Some (list_guard c) | VBeat n => Some (LCond n) | VNodeL n => Some (LNodeState n) | VNodes => Some LNodes
  | VState n => Some (LState n) | VCw n => Some (LCw n) | VModes n => Some (LMap n) | VMode n => Some (LMode n)
  | VHoming n => Some (LHoming n) | VVars n => Some (LVars n) | VError => Some LCan | VBcm => Some LBcm | VTimer => Some LTimer
  | VBufs _ _ | VSocket | VSdo _ | VDirty _ _ | VNode _ | VLimits _ | VManager => None
  end.

(** [E]: the PDO objects that were shown to others, [P]: those the thread has
    made and shown to nobody, [H]: the mutexes it holds. *)
Definition access (E P H : list lock) (v : var) (w : bool) : Prop :=
  match v with
  | VBufs n i => In (LRpdo n i) P \/ (w = false /\ In (LRpdo n i) E)
  | _ => match guard v with Some l => In l H | None => True end
  end.

Fixpoint disc (E P H : list lock) (t : list op) : Prop :=
  match t with
  | [] => P = []
  | Acq l :: t => (is_rpdo l -> In l E) /\ disc E P (l :: H) t
  | Rel l :: t => disc E P (remove1 lock_dec l H) t
  | New l :: t => is_rpdo l /\ disc E (l :: P) (l :: H) t
  | Drop l :: t => In l P /\ disc E (remove1 lock_dec l P) (remove1 lock_dec l H) t
  | Reg CFrames (HRpdo n i) :: t =>
    In LFrames H /\ In (LRpdo n i) P /\ disc (LRpdo n i :: E) (remove1 lock_dec (LRpdo n i) P) H t
  | Reg c h :: t => In (list_guard c) H /\ incl (owner h) E /\ disc E P H t
  | Unreg c h :: t => In (list_guard c) H /\ disc E P H t
  | Do v w :: t => access E P H v w /\ disc E P H t
  | Calls c f :: t =>
    In (list_guard c) H /\ (forall h b, f h = Some b -> exists r, runs (handle h) r b) /\ disc E P H t
  end.

Lemma access_mono : forall E P H v w E' P' H', access E P H v w -> incl E E' -> incl P P' -> incl H H' -> access E' P' H' v w.
Proof.
  intros E P H v w E' P' H' Ha HE HP HH. destruct v; cbn in *; auto. destruct Ha as [Ha|[-> Ha]]; auto.
Qed.

Lemma incl_cons2 : forall (x : lock) A B, incl A B -> incl (x :: A) (x :: B).
Proof. intros x A B Hi y [<-|Hy]; [left; reflexivity | right; auto]. Qed.

Lemma disc_mono : forall t E P H E', disc E P H t -> incl E E' -> disc E' P H t.
Proof.
  induction t as [|o t IH]; intros E P H E' Hd Hi; [exact Hd|].
  destruct o as [l|l|l|l|c h|c h|v w|c f]; cbn in *; try (intuition eauto; fail).
  - destruct c as [|n]; destruct h; cbn in *; intuition eauto using incl_tran, incl_cons2.
  - destruct Hd as [Ha Hd]. split; [eapply access_mono; eauto using incl_refl | eauto].
Qed.

(** Every object that is not shown yet will be shown or dropped. *)
Lemma count_remove1 : forall x l (P : list lock), In x P ->
  count_occ lock_dec P l = count_occ lock_dec (remove1 lock_dec x P) l + (if lock_dec x l then 1 else 0).
Proof.
  induction P as [|y P IH]; cbn [In remove1 count_occ]; [contradiction|].
  intros Hx. destruct (lock_dec x y) as [<-|Hne].
  - destruct (lock_dec x l); lia.
  - destruct Hx as [Hx|Hx]; [congruence|]. specialize (IH Hx). cbn [count_occ].
    destruct (lock_dec y l); lia.
Qed.

Lemma disc_count : forall t E P H, disc E P H t -> forall l, count_occ lock_dec P l <= count_occ lock_dec (created t) l.
Proof.
  induction t as [|o t IH]; intros E P H Hd m; [cbn in Hd; subst P; cbn; lia|].
  destruct o as [l|l|l|l|c h|c h|v w|c f]; cbn in Hd;
    try (change (created _) with (created t)); try (eapply IH; intuition eauto; fail).
  - destruct Hd as [_ Hd]. apply IH with (l := m) in Hd. cbn [count_occ] in Hd. destruct (lock_dec l m); lia.
  - destruct Hd as [Hl Hd]. apply IH with (l := m) in Hd. rewrite (count_remove1 l m P Hl).
    change (created (Drop l :: t)) with (l :: created t). cbn [count_occ]. destruct (lock_dec l m); lia.
  - destruct c as [|n]; destruct h;
      try (change (created _) with (created t); eapply IH; intuition eauto; fail).
    destruct Hd as (_ & Hl & Hd). apply IH with (l := m) in Hd. rewrite (count_remove1 _ m P Hl).
    change (created (Reg CFrames (HRpdo n i) :: t)) with (LRpdo n i :: created t). cbn [count_occ]. destruct (lock_dec (LRpdo n i) m); lia.
Qed.

Lemma disc_private : forall t E P H l, disc E P H t -> In l P -> In l (created t).
Proof.
  intros t E P H l Hd Hl. apply (count_occ_In lock_dec). apply (count_occ_In lock_dec) in Hl.
  pose proof (disc_count _ _ _ _ Hd l). lia.
Qed.

(** ** Programs that use data under its mutex *)

Fixpoint guarded (E P H : list lock) (p : prog) : Prop :=
  match p with
  | Nop => True
  | Seq p q | Alt p q => guarded E P H p /\ guarded E P H q
  | Any f => forall k, guarded E P H (f k)
  | Rep p | Try p => guarded E P H p
  | With l p => (is_rpdo l -> In l E) /\ guarded E P (l :: H) p
  | Enter c h => In (list_guard c) H /\ owner h = []
  | Leave c h => In (list_guard c) H
  | Dispatch c => In (list_guard c) H
  | Rd v => access E P H v false
  | Wr v => access E P H v true
  | Create n i p => In (LMapper n) H /\ guarded E (LRpdo n i :: P) (LRpdo n i :: H) p
  end.

Lemma access_read : forall E P H v, access E P H v true -> access E P H v false.
Proof. intros E P H v. destruct v; cbn; auto. intros [Ha|[Ha _]]; [auto | discriminate]. Qed.

Lemma remove_head : forall l H, remove1 lock_dec l (l :: H) = H.
Proof. exact remove1_head. Qed.

Lemma runs_disc : forall p r t, runs p r t -> forall E P H, guarded E P H p ->
  forall E' P' H' u, incl E E' -> incl P P' -> incl H H' -> disc E' P' H' u -> disc E' P' H' (t ++ u).
Proof.
  induction 1; intros E P Hv Hg E' P' Hv' w HE HP HH Hd; cbn [guarded] in Hg; try exact Hd.
  - destruct Hg. rewrite <- app_assoc. eauto.
  - destruct Hg. eauto.
  - destruct Hg. eauto.
  - destruct Hg. eauto.
  - eauto.
  - rewrite <- app_assoc. eauto.
  - eauto.
  - destruct Hg as [Hr Hg]. cbn [app]. split; [auto|]. rewrite <- app_assoc.
    eapply IHruns; eauto using incl_cons2. cbn [app]. cbn [disc]. rewrite remove_head. exact Hd.
  - eauto.
  - destruct Hg as [Hc Ho]. cbn [app disc]. destruct c as [|n].
    + destruct h; cbn in Ho; try discriminate; (split; [auto | split; [intros x [] | exact Hd]]).
    + split; [auto | split; [rewrite Ho; intros x [] | exact Hd]].
  - cbn [app disc]. auto.
  - cbn [app disc]. split; [auto|]. split; [|exact Hd]. intros h b Hf. destruct (H _ _ Hf); eauto.
  - induction k as [|k IH]; cbn [repeat app disc]; [exact Hd|]. split; [eapply access_mono; eauto | exact IH].
  - induction ws as [|b ws IH]; cbn [map app disc]; [exact Hd|]. split; [|exact IH].
    eapply access_mono; eauto. destruct b; auto using access_read.
  - destruct Hg as [_ Hg]. cbn [app disc]. split; [exact Logic.I|]. rewrite <- app_assoc.
    eapply IHruns; eauto using incl_cons2. cbn [app disc]. split; [left; reflexivity|]. rewrite !remove_head. exact Hd.
  - destruct Hg as [Hm Hg]. cbn [app disc]. split; [exact Logic.I|]. rewrite <- app_assoc.
    eapply IHruns; eauto using incl_cons2. cbn [app disc]. split; [intros []|].
    split; [left; reflexivity|]. split; [left; reflexivity|]. rewrite !remove_head.
    split; [apply HH; exact Hm|]. split; [intros x [<-|[]]; left; reflexivity|].
    eapply disc_mono; eauto. intros x Hx; right; exact Hx.
Qed.

Ltac gsolve :=
  repeat (match goal with
          | |- _ /\ _ => split
          | |- forall _, _ => intro
          | |- True => exact Logic.I
          | |- _ = _ => reflexivity
          | H : False |- _ => destruct H
          | |- In _ _ => cbn [In]; auto 12
          | |- _ \/ _ => cbn [In]; auto 12
          end).

Lemma handle_guarded : forall h, guarded (owner h) [] [] (handle h).
Proof. destruct h; cbv -[In hb_object]; gsolve. Qed.

Lemma full_guarded : forall p, full_call p -> guarded [] [] [] p.
Proof. destruct 1 as [p []| | | | | | |]; cbv -[In hb_object]; gsolve. Qed.
