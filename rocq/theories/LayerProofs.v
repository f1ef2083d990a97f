From Verif Require Import Base LayerModel LayerSpec.

(** ** Status *)

Lemma set_level : forall s l r, level (set s l r) = worst (level s) l.
Proof. intros [[] r0] [] r; reflexivity. Qed.

Lemma worst_comm : forall a b, worst a b = worst b a.
Proof. intros [] []; reflexivity. Qed.
Lemma worst_assoc : forall a b c, worst a (worst b c) = worst (worst a b) c.
Proof. intros [] [] []; reflexivity. Qed.

Definition set_all (s : status) (rs : list (sev * text)) : status :=
  fold_left (fun s r => set s (fst r) (snd r)) rs s.

Lemma worst_of_worst : forall rs a b, worst_of (worst a b) rs = worst a (worst_of b rs).
Proof.
  unfold worst_of. induction rs as [|r rs IH]; intros; cbn; [reflexivity|].
  rewrite IH. rewrite !worst_assoc. f_equal. apply worst_comm.
Qed.

Lemma set_all_level : forall rs s, level (set_all s rs) = worst_of (level s) rs.
Proof.
  induction rs as [|[l r] rs IH]; intros s; cbn [set_all fold_left] in *.
  - reflexivity.
  - unfold set_all in IH. rewrite IH. cbn [fst snd]. rewrite set_level.
    rewrite worst_comm. rewrite worst_of_worst. reflexivity.
Qed.

Lemma join_cons_nonempty : forall t ts, ts <> [] -> join (t :: ts) = t ++ str "; " ++ join ts.
Proof. intros t [|x ts] H; [contradiction|reflexivity]. Qed.

Lemma join_snoc : forall ts t, ts <> [] -> join (ts ++ [t]) = join ts ++ str "; " ++ t.
Proof.
  induction ts as [|x ts IH]; intros t H; [contradiction|].
  destruct ts as [|y ts].
  - reflexivity.
  - change ((x :: y :: ts) ++ [t]) with (x :: ((y :: ts) ++ [t])).
    rewrite (join_cons_nonempty x ((y :: ts) ++ [t])) by discriminate.
    rewrite IH by discriminate. rewrite (join_cons_nonempty x (y :: ts)) by discriminate.
    rewrite <- !app_assoc. reflexivity.
Qed.

Lemma join_nonempty : forall ts, ts <> [] -> Forall (fun t => t <> []) ts -> join ts <> [].
Proof.
  intros [|t ts] H F; [contradiction|]. inversion F; subst.
  destruct ts; cbn; [assumption|]. destruct t; [contradiction|discriminate].
Qed.

Lemma filter_nonempty_Forall : forall ts, Forall (fun t => t <> []) (List.filter nonempty ts).
Proof. intro ts. apply Forall_forall. intros t H. apply filter_In in H. destruct t; [destruct H; discriminate|discriminate]. Qed.

Lemma set_reason : forall l r lv ts, Forall (fun t => t <> []) ts ->
  reason (set (mkStatus lv (join ts)) l r) = join (ts ++ List.filter nonempty [r]).
Proof.
  intros l r lv ts F. unfold set. cbn [reason].
  destruct r as [|c r]; cbn [List.filter nonempty]; [rewrite app_nil_r; reflexivity|].
  destruct ts as [|t ts]; [reflexivity|].
  rewrite join_snoc by discriminate.
  pose proof (join_nonempty (t :: ts) ltac:(discriminate) F) as N.
  destruct (join (t :: ts)); [contradiction|]. reflexivity.
Qed.

Lemma set_all_reason : forall rs s ts, Forall (fun t => t <> []) ts -> reason s = join ts ->
  reason (set_all s rs) = join (ts ++ reasons rs).
Proof.
  induction rs as [|[l r] rs IH]; intros s ts F E.
  - cbn. rewrite app_nil_r. assumption.
  - cbn [set_all fold_left fst snd]. unfold set_all in IH.
    rewrite (IH (set s l r) (ts ++ List.filter nonempty [r])).
    + unfold reasons. cbn [map snd]. rewrite <- app_assoc. f_equal.
      change (r :: map snd rs) with ([r] ++ map snd rs). rewrite filter_app. reflexivity.
    + apply Forall_app. split; [assumption|apply filter_nonempty_Forall].
    + destruct s as [lv re]. cbn [reason] in E. subst re. apply set_reason. assumption.
Qed.

Lemma set_all_spec : forall rs s,
  level (set_all s rs) = worst_of (level s) rs /\
  reason (set_all s rs) = join (List.filter nonempty [reason s] ++ reasons rs).
Proof.
  intros rs s. split; [apply set_all_level|].
  apply set_all_reason; [apply filter_nonempty_Forall|].
  destruct s as [lv [|c r]]; reflexivity.
Qed.

(** ** Trees *)

Section tree_induction.
  Variable P : tree -> Prop.
  Hypothesis HL : forall id, P (Leaf id).
  Hypothesis HG : forall k id ms, Forall P ms -> P (Group k id ms).
  Fixpoint tree_ind' (t : tree) : P t :=
    match t with
    | Leaf id => HL id
    | Group k id ms => HG k id ms ((fix go l : Forall P l :=
        match l with [] => Forall_nil _ | x :: r => Forall_cons _ (tree_ind' x) (go r) end) ms)
    end.
End tree_induction.

Definition members (b : behaviour) (ms : list tree) : list (op -> world -> world) :=
  map (exec b) ms.

Lemma handle_group : forall b k id ms,
  handle b (Group k id ms) = group_handle k id (members b ms).
Proof. reflexivity. Qed.

Lemma exec_unfold : forall b t, exec b t = run_op (handle b t) (tid t).
Proof. reflexivity. Qed.

(** [call] preserves what its members preserve. *)
Lemma call_go_inv : forall (I : world -> Prop) bd s cs o,
  (forall c w, In c cs -> I w -> I (c o w)) -> forall w, I w -> I (call_go bd s cs o w).
Proof.
  intros I bd s cs o. induction cs as [|c cs IH]; intros H w Iw; cbn [call_go]; [assumption|].
  assert (I (c o w)) by (apply H; [left; reflexivity|assumption]).
  destruct (s && negb (bounded bd (stat (c o w)))); [assumption|].
  apply IH; [|assumption]. intros c' w' Hin. apply H. right. assumption.
Qed.
Lemma call_inv : forall (I : world -> Prop) bd cs o,
  (forall c w, In c cs -> I w -> I (c o w)) -> forall w, I w -> I (call bd cs o w).
Proof. intros I bd cs o H w Hw. unfold call. apply (call_go_inv I); assumption. Qed.

Lemma bounded_unbounded : forall s, bounded UNBOUNDED s = true.
Proof. intros [[] r]; reflexivity. Qed.

(** The unbounded call reaches every member. *)
Fixpoint call_each (cs : list (op -> world -> world)) (o : op) (w : world) : world :=
  match cs with [] => w | c :: r => call_each r o (c o w) end.
Lemma call_unbounded : forall cs o w, call UNBOUNDED cs o w = call_each cs o w.
Proof.
  intros cs o w. unfold call. rewrite bounded_unbounded. revert w.
  induction cs as [|c cs IH]; intros w; cbn [call_go call_each]; [reflexivity|].
  rewrite bounded_unbounded. cbn. apply IH.
Qed.
Lemma call_each_inv : forall (I : world -> Prop) cs o,
  (forall c w, In c cs -> I w -> I (c o w)) -> forall w, I w -> I (call_each cs o w).
Proof. intros I cs o H w Hw. rewrite <- call_unbounded. apply (call_inv I); assumption. Qed.

(** A group's handler, in terms of any invariant. *)
Definition handler_keeps (I : world -> Prop) (h : op -> world -> world) : Prop :=
  forall o w, I w -> I (h o w).

Lemma leaf_inv : forall (I : world -> Prop) b id,
  (forall l r w, I w -> I (report l r w)) -> handler_keeps I (leaf_handle b id).
Proof.
  intros I b id H o w. unfold leaf_handle. generalize (b (log w) id o). intros rs. revert w.
  induction rs as [|[l r] rs IH]; intros w Hw; cbn; auto.
Qed.

(** Invariants of every entry point of every tree: logging, changing the state
    of the tree's own layers and reporting. *)
Section invariants.
  Variable I : world -> Prop.
  Variable b : behaviour.

  Definition keeps_on (l : list nat) : Prop :=
    (forall e w, I w ->
       match e with
       | Start i o => In i l /\ (o = OInit \/ o = ORecover -> okw w = true)
       | End i _ ok => In i l /\ ok = okw w
       | Report _ _ => False
       end -> I (add_log e w)) /\
    (forall i s w, I w -> In i l -> I (set_state i s w)) /\
    (forall s r w, I w -> I (report s r w)).

  Lemma call_handler_keeps : forall l h i, keeps_on l -> In i l -> handler_keeps I h ->
    forall o w, (o = OInit \/ o = ORecover -> okw w = true) -> I w -> I (call_handler h i o w).
  Proof.
    intros l h i (KL & KS & KR) Hi Hh o w Ho Hw. unfold call_handler.
    apply KL; [|split; [assumption|reflexivity]]. apply Hh. apply KL; auto.
  Qed.

  Lemma shutdown_keeps : forall l h i, keeps_on l -> In i l -> handler_keeps I h ->
    forall w, I w -> I (shutdown h i w).
  Proof.
    intros l h i K Hi Hh w Hw. pose proof K as (KL & KS & KR). unfold shutdown.
    assert (A : I (set_state i Off (call_handler h i OShutdown (set_state i Shutdown w)))).
    { apply KS; [|assumption]. eapply call_handler_keeps; try eassumption; [intros []; discriminate|].
      apply KS; assumption. }
    destruct (lst w i); assumption.
  Qed.
  Lemma halt_keeps : forall l h i, keeps_on l -> In i l -> handler_keeps I h ->
    forall w, I w -> I (halt h i w).
  Proof.
    intros l h i K Hi Hh w Hw. pose proof K as (KL & KS & KR). unfold halt.
    destruct (lgt (lst w i) Halt); [|assumption].
    apply KS; [|assumption]. eapply call_handler_keeps; try eassumption; [intros []; discriminate|].
    apply KS; assumption.
  Qed.
  Lemma run_op_keeps : forall l h i, keeps_on l -> In i l -> handler_keeps I h ->
    handler_keeps I (run_op h i).
  Proof.
    intros l h i K Hi Hh o w Hw. pose proof K as (KL & KS & KR).
    assert (C : forall o w, (o = OInit \/ o = ORecover -> okw w = true) -> I w -> I (call_handler h i o w)).
    { eapply call_handler_keeps; eassumption. }
    unfold run_op. destruct o.
    - destruct (lgt (lst w i) Off); [|assumption]. apply C; [intros []; discriminate|assumption].
    - destruct (lgt (lst w i) Off); [|assumption]. apply C; [intros []; discriminate|assumption].
    - destruct (lgt (lst w i) Shutdown); [|assumption]. apply C; [intros []; discriminate|assumption].
    - destruct (lst w i); try assumption.
      assert (A : I (if okw w then call_handler h i OInit (set_state i Init w) else w)).
      { destruct (okw w) eqn:E; [|assumption]. apply C; [intros _; exact E|]. apply KS; assumption. }
      destruct (okw (if okw w then call_handler h i OInit (set_state i Init w) else w)).
      + apply KS; assumption.
      + eapply shutdown_keeps; eassumption.
    - eapply shutdown_keeps; eassumption.
    - eapply halt_keeps; eassumption.
    - destruct (lst w i); try assumption.
      assert (A : I (if okw w then call_handler h i ORecover (set_state i Recover w) else w)).
      { destruct (okw w) eqn:E; [|assumption]. apply C; [intros _; exact E|]. apply KS; assumption. }
      destruct (okw (if okw w then call_handler h i ORecover (set_state i Recover w) else w)).
      + apply KS; assumption.
      + eapply halt_keeps; eassumption.
  Qed.

  Lemma call_or_fail_keeps : forall l cs i hh o, keeps_on l -> In i l ->
    (forall c, In c cs -> handler_keeps I c) -> handler_keeps I hh ->
    forall w, I w -> I (call_or_fail cs i hh o w).
  Proof.
    intros l cs i hh o K Hi Hc Hh w Hw. unfold call_or_fail.
    assert (A : I (call UNBOUNDED cs o w)) by (apply (call_inv I); [intros; apply Hc|]; assumption).
    destruct (bounded WARN (stat (call UNBOUNDED cs o w))); [assumption|].
    eapply halt_keeps; try eassumption. apply (call_inv I); [intros; apply Hc|]; assumption.
  Qed.

  Lemma group_handle_keeps : forall l k cs i, keeps_on l -> In i l ->
    (forall c, In c cs -> handler_keeps I c) -> handler_keeps I (group_handle k i cs).
  Proof.
    intros l k cs i K Hi M.
    assert (HH : handler_keeps I (fun (_ : op) w => call UNBOUNDED cs OHalt w)).
    { intros o w Hw. apply (call_inv I); [intros; apply M|]; assumption. }
    assert (R : forall c, In c (rev cs) -> handler_keeps I c).
    { intros c Hc. apply M. apply in_rev. assumption. }
    intros o w Hw. unfold group_handle. destruct o.
    + eapply call_or_fail_keeps; eassumption.
    + destruct k; eapply call_or_fail_keeps; eassumption.
    + destruct k; try assumption; apply (call_inv I); try assumption; intros; apply M; assumption.
    + apply (call_inv I); [intros; apply M|]; assumption.
    + destruct k; apply (call_inv I); try assumption; intros; ((apply M; assumption) || (apply R; assumption)).
    + apply (HH OHalt). assumption.
    + apply (call_inv I); [intros; apply M|]; assumption.
  Qed.

  Lemma keeps_on_incl : forall l l', keeps_on l -> incl l' l -> keeps_on l'.
  Proof.
    intros l l' (KL & KS & KR) S. split; [|split; [|assumption]].
    - intros e w Hw He. apply KL; [assumption|]. destruct e; intuition.
    - intros i s w Hw Hi. apply KS; auto.
  Qed.

  Lemma exec_keeps : forall t, keeps_on (ids t) -> handler_keeps I (exec b t).
  Proof.
    induction t as [id|k id ms IH] using tree_ind'; intros K.
    - rewrite exec_unfold. eapply run_op_keeps; [eassumption|left; reflexivity|].
      apply (leaf_inv I). apply K.
    - rewrite exec_unfold. eapply run_op_keeps; [eassumption|left; reflexivity|].
      rewrite handle_group. eapply group_handle_keeps; [eassumption|left; reflexivity|].
      intros c Hc. unfold members in Hc. apply in_map_iff in Hc. destruct Hc as (m & <- & Hm).
      rewrite Forall_forall in IH. apply IH; [assumption|].
      eapply keeps_on_incl; [eassumption|].
      intros i Hi. cbn [ids]. right. apply in_concat. exists (ids m).
      split; [apply in_map; assumption|assumption].
  Qed.
End invariants.

(** ** Reports are accumulated *)

Lemma reports_app : forall a c, reports (a ++ c) = reports a ++ reports c.
Proof. induction a as [|[] a IH]; intros; cbn; rewrite ?IH; reflexivity. Qed.

Lemma exec_status : forall b t o w,
  exists rs, reports (log (exec b t o w)) = reports (log w) ++ rs /\
             stat (exec b t o w) = set_all (stat w) rs.
Proof.
  intros b t o w.
  apply (exec_keeps (fun w' => exists rs, reports (log w') = reports (log w) ++ rs /\
                                          stat w' = set_all (stat w) rs) b t).
  - split; [|split].
    + intros e w' (rs & A & B) He. exists rs. cbn. rewrite reports_app, A.
      destruct e; [| |contradiction]; cbn; rewrite app_nil_r; auto.
    + intros i s w' (rs & A & B) _. exists rs. auto.
    + intros s r w' (rs & A & B). exists (rs ++ [(s, r)]). cbn.
      rewrite reports_app, A, <- app_assoc. split; [reflexivity|].
      unfold set_all. rewrite fold_left_app. cbn. rewrite B. reflexivity.
  - exists []. rewrite app_nil_r. auto.
Qed.

Lemma status_spec : forall b t o w,
  exists rs, reports (log (exec b t o w)) = reports (log w) ++ rs /\
    level (stat (exec b t o w)) = worst_of (level (stat w)) rs /\
    reason (stat (exec b t o w)) = join (List.filter nonempty [reason (stat w)] ++ reasons rs).
Proof.
  intros b t o w. destruct (exec_status b t o w) as (rs & A & B). exists rs.
  split; [assumption|]. rewrite B. apply set_all_spec.
Qed.

Lemma worst_ok : forall a b, bounded WARN (mkStatus (worst a b) []) = true -> bounded WARN (mkStatus a []) = true.
Proof. intros [] []; cbn; auto. Qed.

Lemma okw_level : forall w, okw w = bounded WARN (mkStatus (level (stat w)) []).
Proof. reflexivity. Qed.

(** Status never gets better. *)
Lemma exec_ok_before : forall b t o w, okw (exec b t o w) = true -> okw w = true.
Proof.
  intros b t o w H. destruct (status_spec b t o w) as (rs & _ & L & _).
  rewrite okw_level, L in H. clear L. rewrite okw_level.
  induction rs as [|r rs IH]; cbn in H; [assumption|].
  apply IH. rewrite worst_comm in H. eapply worst_ok. exact H.
Qed.

(** ** Frame: other layers are untouched *)

Lemma phase_snoc : forall id l e, phase_of id (l ++ [e]) = on_event id (phase_of id l) e.
Proof. intros. unfold phase_of. rewrite fold_left_app. reflexivity. Qed.

Lemma exec_frame : forall b t o w i, ~ In i (ids t) ->
  lst (exec b t o w) i = lst w i /\ phase_of i (log (exec b t o w)) = phase_of i (log w).
Proof.
  intros b t o w i Hi.
  apply (exec_keeps (fun w' => lst w' i = lst w i /\ phase_of i (log w') = phase_of i (log w)) b t); [|auto].
  split; [|split].
  - intros e w' (A & B) He. cbn [add_log lst log]. rewrite phase_snoc, B. split; [assumption|].
    unfold on_event. destruct (phase_of i (log w)); [|reflexivity].
    destruct e as [j o'|j o' ok|]; [| |contradiction].
    + destruct He as [He _]. destruct (Nat.eqb_spec j i); [subst; contradiction|reflexivity].
    + destruct He as [He _]. destruct (Nat.eqb_spec j i); [subst; contradiction|reflexivity].
  - intros j s w' (A & B) Hj. cbn [set_state lst log]. split; [|assumption].
    destruct (Nat.eqb_spec i j); [subst; contradiction|assumption].
  - intros s r w' (A & B). cbn [report add_log lst log]. rewrite phase_snoc, B. split; [assumption|].
    cbn. destruct (phase_of i (log w)); reflexivity.
Qed.

Lemma member_ids : forall ms m i, In m ms -> In i (ids m) -> In i (List.concat (map ids ms)).
Proof. intros. apply in_concat. exists (ids m). split; [apply in_map|]; assumption. Qed.

(** Layers of different members are different. *)
Definition disjoint_ids (t1 t2 : tree) : Prop := forall i, In i (ids t1) -> ~ In i (ids t2).

Lemma NoDup_concat : forall ms, NoDup (List.concat (map ids ms)) ->
  Forall (fun m => NoDup (ids m)) ms /\ ForallOrdPairs disjoint_ids ms.
Proof.
  induction ms as [|m ms IH]; intros H; [split; constructor|].
  cbn [map List.concat] in H.
  assert (N1 : NoDup (ids m)).
  { revert H. generalize (List.concat (map ids ms)). intros l. induction (ids m) as [|x xs IHx]; intro H; [constructor|].
    cbn in H. inversion H; subst. constructor; [|auto]. intro K. apply H2. apply in_or_app. auto. }
  assert (N2 : NoDup (List.concat (map ids ms))).
  { revert H. generalize (List.concat (map ids ms)). intros l. clear. induction (ids m); intro H; [assumption|].
    cbn in H. inversion H; auto. }
  assert (D : forall i, In i (ids m) -> ~ In i (List.concat (map ids ms))).
  { revert H. generalize (List.concat (map ids ms)). intros l. clear. induction (ids m) as [|x xs IHx]; intros H i Hi K; [contradiction|].
    cbn in H. inversion H; subst. destruct Hi as [->|Hi].
    - apply H2. apply in_or_app. auto.
    - eapply IHx; eauto. }
  destruct (IH N2) as [A B]. split; [constructor; assumption|].
  constructor; [|assumption]. apply Forall_forall. intros m' Hm' i Hi K. apply (D i Hi).
  eapply member_ids; eauto.
Qed.

Lemma in_members : forall b ms c, In c (members b ms) -> exists m, In m ms /\ c = exec b m.
Proof. intros b ms c H. apply in_map_iff in H. destruct H as (m & <- & Hm). eauto. Qed.

Lemma FOP_in : forall ms m1 m2 i, ForallOrdPairs disjoint_ids ms -> In m1 ms -> In m2 ms ->
  In i (ids m1) -> In i (ids m2) -> m1 = m2.
Proof.
  induction ms as [|m ms IH]; intros m1 m2 i F H1 H2 I1 I2; [contradiction|].
  inversion F as [|? ? F1 F2]; subst. rewrite Forall_forall in F1.
  destruct H1 as [<-|H1], H2 as [<-|H2]; auto.
  - exfalso. eapply (F1 m2); eauto.
  - exfalso. eapply (F1 m1); eauto.
  - eapply IH; eauto.
Qed.

(** ** Lifecycle protocol *)

Ltac ev := repeat (cbn; rewrite ?Nat.eqb_refl); reflexivity.

Definition abs (s : lstate) : phase :=
  match s with
  | Off => PhOff | Ready => PhReady | Error => PhError | Init => PhInit
  | Halt => PhHalt | Recover => PhRecover | Shutdown => PhShutdown
  end.
Definition resting (s : lstate) : Prop := s = Off \/ s = Ready \/ s = Error.
Definition stable (w : world) (i : nat) : Prop :=
  phase_of i (log w) = Some (abs (lst w i)) /\ resting (lst w i).

(** What the wrapper needs to know about a handler. *)
Definition cyclic (o : op) : bool := match o with ORead | OWrite => true | _ => false end.
Definition contract (h : op -> world -> world) (id : nat) : Prop :=
  forall o w,
    (cyclic o = false -> lst (h o w) id = lst w id /\ phase_of id (log (h o w)) = phase_of id (log w)) /\
    (cyclic o = true -> stable w id -> lst w id <> Off -> stable (h o w) id /\ lst (h o w) id <> Off).

Lemma lst_set : forall i s w, lst (set_state i s w) i = s.
Proof. intros. cbn. rewrite Nat.eqb_refl. reflexivity. Qed.

Lemma shutdown_stable : forall h id, contract h id -> forall w,
  (phase_of id (log w) = Some PhReady \/ phase_of id (log w) = Some PhError \/
   phase_of id (log w) = Some PhInitFailed) -> lst w id <> Off ->
  stable (shutdown h id w) id.
Proof.
  intros h id C w P N. unfold shutdown.
  assert (G : stable (set_state id Off (call_handler h id OShutdown (set_state id Shutdown w))) id).
  { unfold call_handler.
    set (w1 := add_log (Start id OShutdown) (set_state id Shutdown w)).
    destruct (proj1 (C OShutdown w1) eq_refl) as [A B].
    unfold stable. rewrite lst_set. split; [|left; reflexivity].
    cbn [set_state add_log log]. rewrite phase_snoc, B. unfold w1. cbn [add_log log set_state].
    rewrite phase_snoc. destruct P as [-> | [-> | ->]]; ev. }
  destruct (lst w id); try exact G. contradiction.
Qed.

Lemma halt_stable : forall h id, contract h id -> forall w,
  (phase_of id (log w) = Some PhReady \/ phase_of id (log w) = Some PhRecoverFailed) ->
  lgt (lst w id) Halt = true ->
  stable (halt h id w) id /\ lst (halt h id w) id = Error.
Proof.
  intros h id C w P N. unfold halt. rewrite N. rewrite lst_set. split; [|reflexivity].
  unfold call_handler.
  set (w1 := add_log (Start id OHalt) (set_state id Halt w)).
  destruct (proj1 (C OHalt w1) eq_refl) as [A B].
  unfold stable. rewrite lst_set. split; [|right; right; reflexivity].
  cbn [set_state add_log log]. rewrite phase_snoc, B. unfold w1. cbn [add_log log set_state].
  rewrite phase_snoc. destruct P as [-> | ->]; ev.
Qed.

Lemma run_op_stable : forall h id, contract h id -> forall o w,
  stable w id -> stable (run_op h id o w) id.
Proof.
  intros h id C o w S. pose proof S as [P R].
  assert (CY : cyclic o = true -> lst w id <> Off -> stable (call_handler h id o w) id).
  { intros Hc N. unfold call_handler.
    set (w1 := add_log (Start id o) w).
    assert (S1 : stable w1 id).
    { unfold w1, stable. cbn [add_log lst log]. split; [|assumption]. rewrite phase_snoc, P.
      destruct R as [E|[E|E]]; rewrite E in *; [contradiction|..];
        destruct o; try discriminate; ev. }
    destruct (proj2 (C o w1) Hc S1 N) as [[P2 R2] N2].
    unfold stable. cbn [add_log lst log]. split; [|assumption]. rewrite phase_snoc, P2.
    destruct R2 as [E|[E|E]]; rewrite E in *; [contradiction|..];
        destruct o; try discriminate; ev. }
  unfold run_op. destruct o.
  - destruct (lgt (lst w id) Off) eqn:G; [|assumption]. apply CY; [reflexivity|]. intro E; rewrite E in G; discriminate.
  - destruct (lgt (lst w id) Off) eqn:G; [|assumption]. apply CY; [reflexivity|]. intro E; rewrite E in G; discriminate.
  - destruct (lgt (lst w id) Shutdown) eqn:G; [|assumption]. unfold call_handler.
    set (w1 := add_log (Start id ODiag) w).
    destruct (proj1 (C ODiag w1) eq_refl) as [A B].
    unfold stable. cbn [add_log lst log]. rewrite A, phase_snoc, B. unfold w1. cbn [add_log lst log].
    rewrite phase_snoc, P. split; [|assumption].
    destruct R as [E|[E|E]]; rewrite E in *; [discriminate|..]; ev.
  - destruct (lst w id) eqn:L; try assumption.
    destruct (okw w) eqn:OKW.
    + set (w0 := set_state id Init w). unfold call_handler.
      set (w1 := add_log (Start id OInit) w0).
      destruct (proj1 (C OInit w1) eq_refl) as [A B].
      set (w2 := h OInit w1) in *.
      assert (P2 : phase_of id (log (add_log (End id OInit (okw w2)) w2)) =
                   Some (if okw w2 then PhReady else PhInitFailed)).
      { cbn [add_log log]. rewrite phase_snoc, B. unfold w1. cbn [add_log log].
        rewrite phase_snoc. unfold w0. cbn [set_state log]. rewrite P. ev. }
      change (okw (add_log (End id OInit (okw w2)) w2)) with (okw w2).
      destruct (okw w2).
      * unfold stable. rewrite lst_set. split; [exact P2|right; left; reflexivity].
      * apply shutdown_stable; [assumption|auto|].
        change (lst w2 id <> Off). rewrite A. change (lst w0 id <> Off). unfold w0. rewrite lst_set. discriminate.
    + rewrite OKW. unfold shutdown. rewrite L. assumption.
  - destruct R as [E|R].
    + unfold shutdown. rewrite E. assumption.
    + apply shutdown_stable; [assumption|..].
      * destruct R as [E|E]; rewrite E in P; auto.
      * destruct R as [E|E]; rewrite E; discriminate.
  - destruct (lgt (lst w id) Halt) eqn:G.
    + destruct R as [E|[E|E]]; rewrite E in *; try discriminate.
      apply halt_stable; [assumption|auto|]. rewrite E. reflexivity.
    + unfold halt. rewrite G. assumption.
  - destruct (lst w id) eqn:L; try assumption.
    destruct (okw w) eqn:OKW.
    + set (w0 := set_state id Recover w). unfold call_handler.
      set (w1 := add_log (Start id ORecover) w0).
      destruct (proj1 (C ORecover w1) eq_refl) as [A B].
      set (w2 := h ORecover w1) in *.
      assert (P2 : phase_of id (log (add_log (End id ORecover (okw w2)) w2)) =
                   Some (if okw w2 then PhReady else PhRecoverFailed)).
      { cbn [add_log log]. rewrite phase_snoc, B. unfold w1. cbn [add_log log].
        rewrite phase_snoc. unfold w0. cbn [set_state log]. rewrite P. ev. }
      change (okw (add_log (End id ORecover (okw w2)) w2)) with (okw w2).
      destruct (okw w2).
      * unfold stable. rewrite lst_set. split; [exact P2|right; left; reflexivity].
      * apply halt_stable; [assumption|auto|].
        change (lgt (lst w2 id) Halt = true). rewrite A. change (lgt (lst w0 id) Halt = true). unfold w0. rewrite lst_set. reflexivity.
    + rewrite OKW. unfold halt. rewrite L. assumption.
Qed.

Lemma leaf_contract : forall b id, contract (leaf_handle b id) id.
Proof.
  intros b id o w.
  assert (F : lst (leaf_handle b id o w) id = lst w id /\
              phase_of id (log (leaf_handle b id o w)) = phase_of id (log w)).
  { apply (leaf_inv (fun w' => lst w' id = lst w id /\ phase_of id (log w') = phase_of id (log w))); [|auto].
    intros l r w' [A B]. cbn [report add_log lst log]. rewrite phase_snoc, B. split; [assumption|].
    cbn. destruct (phase_of id (log w)); reflexivity. }
  destruct F as [A B]. split; [auto|].
  intros _ S N. unfold stable. rewrite A, B. auto.
Qed.

Lemma call_frame : forall b ms cs bd o w i,
  (forall c, In c cs -> In c (members b ms)) -> ~ In i (List.concat (map ids ms)) ->
  lst (call bd cs o w) i = lst w i /\ phase_of i (log (call bd cs o w)) = phase_of i (log w).
Proof.
  intros b ms cs bd o w i Hc Hi.
  apply (call_inv (fun w' => lst w' i = lst w i /\ phase_of i (log w') = phase_of i (log w))); [|auto].
  intros c w' Hin [A B]. apply Hc in Hin. apply in_members in Hin. destruct Hin as (m & Hm & ->).
  destruct (exec_frame b m o w' i) as [A' B'].
  { intro K. apply Hi. eapply member_ids; eauto. }
  rewrite A', B'. auto.
Qed.

Lemma group_contract : forall b k id ms, ~ In id (List.concat (map ids ms)) ->
  contract (group_handle k id (members b ms)) id.
Proof.
  intros b k id ms Hi.
  assert (RC : forall c, In c (rev (members b ms)) -> In c (members b ms)) by (intros c H; apply in_rev; assumption).
  assert (HC : contract (fun (_ : op) w => call UNBOUNDED (members b ms) OHalt w) id).
  { intros o w.
    assert (F := call_frame b ms (members b ms) UNBOUNDED OHalt w id ltac:(auto) Hi).
    destruct F as [A B]. split; [auto|].
    intros _ S N. unfold stable. rewrite A, B. auto. }
  assert (CF : forall cs o w, (forall c, In c cs -> In c (members b ms)) -> stable w id -> lst w id <> Off ->
     let w' := call_or_fail cs id (fun (_ : op) w => call UNBOUNDED (members b ms) OHalt w) o w in
     stable w' id /\ lst w' id <> Off).
  { intros cs o w Hc S N. cbv zeta. unfold call_or_fail.
    destruct (call_frame b ms cs UNBOUNDED o w id Hc Hi) as [A B].
    set (w1 := call UNBOUNDED cs o w) in *.
    assert (S1 : stable w1 id) by (unfold stable; rewrite A, B; assumption).
    destruct (bounded WARN (stat w1)); [rewrite A; auto|].
    destruct (call_frame b ms cs UNBOUNDED OHalt w1 id Hc Hi) as [A' B'].
    set (w2 := call UNBOUNDED cs OHalt w1) in *.
    assert (S2 : stable w2 id) by (unfold stable; rewrite A', B'; assumption).
    destruct (lgt (lst w2 id) Halt) eqn:G.
    - destruct (halt_stable _ _ HC w2) as [H1 H2]; [|assumption|].
      + destruct S2 as [P2 [E|[E|E]]]; rewrite E in *; [discriminate| |discriminate]. auto.
      + split; [assumption|]. rewrite H2. discriminate.
    - unfold halt. rewrite G. split; [assumption|]. rewrite A', A. assumption. }
  intros o w. split.
  - intros Hc. destruct o; try discriminate; unfold group_handle.
    + destruct k; try (split; reflexivity); apply (call_frame b ms); auto.
    + apply (call_frame b ms); auto.
    + destruct k; apply (call_frame b ms); auto.
    + apply (call_frame b ms); auto.
    + apply (call_frame b ms); auto.
  - intros Hc S N. destruct o; try discriminate; unfold group_handle.
    + apply CF; auto.
    + destruct k; apply CF; auto.
Qed.

Lemma exec_stable : forall b t, NoDup (ids t) -> forall o w,
  (forall i, In i (ids t) -> stable w i) -> forall i, In i (ids t) -> stable (exec b t o w) i.
Proof.
  intros b t. induction t as [id|k id ms IH] using tree_ind'; intros ND o w S i Hi.
  - destruct Hi as [<-|[]]. rewrite exec_unfold. apply run_op_stable; [apply leaf_contract|].
    apply S. left. reflexivity.
  - cbn [ids] in ND. inversion ND as [|? ? Hid NDm]; subst.
    destruct (NoDup_concat ms NDm) as [NDs FOP].
    rewrite exec_unfold. cbn [tid]. rewrite handle_group.
    destruct Hi as [<-|Hi].
    + apply run_op_stable; [apply group_contract; assumption|]. apply S. left. reflexivity.
    + set (I := fun w => forall i, In i (List.concat (map ids ms)) -> stable w i).
      assert (K : keeps_on I [id]).
      { split; [|split].
        - intros e w' Hw He j Hj. unfold stable. cbn [add_log lst log]. rewrite phase_snoc.
          destruct (Hw j Hj) as [P R]. rewrite P. split; [|assumption].
          assert (NE : Nat.eqb id j = false) by (apply Nat.eqb_neq; intro; subst; contradiction).
          destruct e as [n o'|n o' ok|]; [| |contradiction]; destruct He as [[<-|[]] _]; cbn; rewrite NE; reflexivity.
        - intros n s w' Hw [<-|[]] j Hj. unfold stable. cbn [set_state lst log].
          assert (NE : Nat.eqb j id = false) by (apply Nat.eqb_neq; intro; subst; contradiction).
          rewrite NE. apply Hw. assumption.
        - intros s r w' Hw j Hj. unfold stable. cbn [report add_log lst log]. rewrite phase_snoc.
          destruct (Hw j Hj) as [P R]. rewrite P. split; [reflexivity|assumption]. }
      assert (M : forall c, In c (members b ms) -> handler_keeps I c).
      { intros c Hc. apply in_members in Hc. destruct Hc as (m & Hm & ->).
        intros o' w' Hw j Hj.
        destruct (in_dec Nat.eq_dec j (ids m)) as [J|J].
        - rewrite Forall_forall in IH, NDs. apply IH; auto.
          intros j' J'. apply Hw. eapply member_ids; eauto.
        - destruct (exec_frame b m o' w' j J) as [A B]. unfold stable. rewrite A, B. apply Hw. assumption. }
      assert (G := run_op_keeps I [id] (group_handle k id (members b ms)) id K ltac:(left; reflexivity)
                  (group_handle_keeps I [id] k (members b ms) id K ltac:(left; reflexivity) M)).
      apply (G o w); [|assumption]. intros j Hj. apply S. right. assumption.
Qed.

Lemma with_status_stable : forall s w i, stable w i -> stable (with_status s w) i.
Proof. intros s w i H. exact H. Qed.

Lemma exec_all_stable : forall b t calls w, NoDup (ids t) ->
  (forall i, In i (ids t) -> stable w i) -> forall i, In i (ids t) -> stable (exec_all b t calls w) i.
Proof.
  intros b t calls. induction calls as [|[o s] calls IH]; intros w ND S i Hi; cbn; [auto|].
  apply IH; auto. intros j Hj. apply exec_stable; auto.
Qed.

Lemma lifecycle : forall b t calls, NoDup (ids t) ->
  let w := exec_all b t calls world0 in
  forall i, In i (ids t) ->
    (lst w i = Off /\ phase_of i (log w) = Some PhOff) \/
    (lst w i = Ready /\ phase_of i (log w) = Some PhReady) \/
    (lst w i = Error /\ phase_of i (log w) = Some PhError).
Proof.
  intros b t calls ND w i Hi.
  assert (S : stable w i).
  { apply exec_all_stable; auto. intros j _. split; [reflexivity|left; reflexivity]. }
  destruct S as [P [E|[E|E]]]; rewrite E in P; auto.
Qed.

(** ** Nothing is initialised or recovered after a failure *)

Lemma report_bad : forall l r w, okw w = false -> okw (report l r w) = false.
Proof. intros l r [f [[] re] lo]; cbn; destruct l; cbn; congruence. Qed.

Lemma no_start_app : forall o a c, no_start o a -> no_start o c -> no_start o (a ++ c).
Proof. intros o a c. induction a as [|[] a IH]; cbn; intuition. Qed.

Lemma app_snoc_inv : forall (A : Type) (l : list A) x pre y post, l ++ [x] = pre ++ y :: post ->
  (post = [] /\ l = pre /\ x = y) \/ (exists post', post = post' ++ [x] /\ l = pre ++ y :: post').
Proof.
  intros A l x pre y post H. destruct post as [|z post] using rev_ind.
  - left. apply app_inj_tail in H. destruct H as [-> ->]. auto.
  - right. clear IHpost. exists post.
    replace (pre ++ y :: post ++ [z]) with ((pre ++ y :: post) ++ [z]) in H by (rewrite <- app_assoc; reflexivity).
    apply app_inj_tail in H. destruct H as [-> ->]. auto.
Qed.

Lemma nothing_after_failure : forall b t o w, exists new,
  log (exec b t o w) = log w ++ new /\
  forall pre i o' post, new = pre ++ End i o' false :: post ->
    no_start OInit post /\ no_start ORecover post.
Proof.
  intros b t o w.
  assert (K : exists new, log (exec b t o w) = log w ++ new /\
     forall pre i o' post, new = pre ++ End i o' false :: post ->
       okw (exec b t o w) = false /\ no_start OInit post /\ no_start ORecover post).
  { apply (exec_keeps (fun w' => exists new, log w' = log w ++ new /\
       forall pre i o' post, new = pre ++ End i o' false :: post ->
         okw w' = false /\ no_start OInit post /\ no_start ORecover post) b t).
    - split; [|split].
      + intros e w' (new & E & H) He. exists (new ++ [e]). cbn [add_log log]. rewrite E, app_assoc.
        split; [reflexivity|]. intros pre i o' post Hn. change (okw (add_log e w')) with (okw w').
        apply app_snoc_inv in Hn. destruct Hn as [(-> & -> & ->)|(post' & -> & ->)].
        * destruct He as [_ He]. split; [auto|split; exact I].
        * destruct (H pre i o' post' eq_refl) as (B & N1 & N2). split; [assumption|].
          destruct e as [j oj|j oj ok|]; [| |contradiction].
          -- destruct He as [_ He]. split; apply no_start_app; auto; cbn; (split; [|exact I]);
               intro; subst; rewrite He in B; auto; discriminate.
          -- split; apply no_start_app; auto; cbn; auto.
      + intros i s w' (new & E & H) _. exists new. auto.
      + intros s r w' (new & E & H). exists (new ++ [Report s r]). cbn [report add_log log]. rewrite E, app_assoc.
        split; [reflexivity|]. intros pre i o' post Hn. apply app_snoc_inv in Hn.
        destruct Hn as [(_ & _ & Hd)|(post' & -> & ->)]; [discriminate|].
        destruct (H pre i o' post' eq_refl) as (B & N1 & N2). split; [apply (report_bad s r); assumption|].
        split; apply no_start_app; auto; cbn; auto.
    - exists []. rewrite app_nil_r. split; [reflexivity|]. intros [|] ? ? ? Hn; discriminate. }
  destruct K as (new & E & H). exists new. split; [assumption|].
  intros pre i o' post Hn. apply (H pre i o' post Hn).
Qed.
