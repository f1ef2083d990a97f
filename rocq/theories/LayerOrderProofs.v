From Verif Require Import Base LayerModel LayerSpec LayerProofs LayerGroupProofs.

Lemma started_app : forall o a c, started o (a ++ c) = started o a ++ started o c.
Proof.
  intros o a. induction a as [|[i o'| |] a IH]; intros c; cbn; rewrite ?IH; try reflexivity.
  destruct (op_eqb o o'); reflexivity.
Qed.

Definition allowed (o : op) : list op :=
  match o with
  | ORead => [ORead; OHalt] | OWrite => [OWrite; OHalt] | ODiag => [ODiag]
  | OInit => [OInit; OShutdown] | OShutdown => [OShutdown] | OHalt => [OHalt]
  | ORecover => [ORecover; OHalt]
  end.

Definition starts_only (h : op -> world -> world) : Prop :=
  forall o o' w, ~ In o' (allowed o) -> started o' (log (h o w)) = started o' (log w).

Lemma op_eqb_spec : forall a b, op_eqb a b = true <-> a = b.
Proof. intros [] []; cbn; split; congruence. Qed.

Lemma allowed_self : forall o, In o (allowed o).
Proof. intros []; left; reflexivity. Qed.

Lemma start_other : forall o o' i w, o' <> o -> started o' (log (add_log (Start i o) w)) = started o' (log w).
Proof.
  intros o o' i w N. cbn [add_log log]. rewrite started_app. cbn.
  destruct (op_eqb o' o) eqn:E; [apply op_eqb_spec in E; contradiction|]. apply app_nil_r.
Qed.
Lemma end_any : forall o' i o ok w, started o' (log (add_log (End i o ok) w)) = started o' (log w).
Proof. intros. cbn [add_log log]. rewrite started_app. cbn. apply app_nil_r. Qed.
Lemma start_same : forall o i w, started o (log (add_log (Start i o) w)) = started o (log w) ++ [i].
Proof.
  intros o i w. cbn [add_log log]. rewrite started_app. cbn.
  rewrite (proj2 (op_eqb_spec o o) eq_refl). reflexivity.
Qed.

Lemma call_handler_only : forall h i o o' w, starts_only h -> ~ In o' (allowed o) ->
  started o' (log (call_handler h i o w)) = started o' (log w).
Proof.
  intros h i o o' w H N. unfold call_handler. rewrite end_any, H by assumption.
  apply start_other. intro; subst. apply N, allowed_self.
Qed.
Lemma shutdown_only : forall h i o' w, starts_only h -> o' <> OShutdown ->
  started o' (log (shutdown h i w)) = started o' (log w).
Proof.
  intros h i o' w H N. unfold shutdown.
  assert (E : started o' (log (set_state i Off (call_handler h i OShutdown (set_state i Shutdown w)))) = started o' (log w)).
  { cbn [set_state log]. rewrite call_handler_only; [reflexivity|assumption|]. cbn. intuition congruence. }
  destruct (lst w i); try exact E. reflexivity.
Qed.
Lemma halt_only : forall h i o' w, starts_only h -> o' <> OHalt ->
  started o' (log (halt h i w)) = started o' (log w).
Proof.
  intros h i o' w H N. unfold halt. destruct (lgt (lst w i) Halt); [|reflexivity].
  cbn [set_state log]. rewrite call_handler_only; [reflexivity|assumption|]. cbn. intuition congruence.
Qed.

Lemma run_op_only : forall h i, starts_only h -> starts_only (run_op h i).
Proof.
  intros h i H o o' w N. unfold run_op. destruct o.
  - destruct (lgt (lst w i) Off); [apply call_handler_only; assumption|reflexivity].
  - destruct (lgt (lst w i) Off); [apply call_handler_only; assumption|reflexivity].
  - destruct (lgt (lst w i) Shutdown); [apply call_handler_only; assumption|reflexivity].
  - assert (N2 : o' <> OShutdown) by (intro; subst; apply N; cbn; auto).
    destruct (lst w i); try reflexivity.
    assert (E : started o' (log (if okw w then call_handler h i OInit (set_state i Init w) else w)) = started o' (log w)).
    { destruct (okw w); [|reflexivity]. rewrite call_handler_only by assumption. reflexivity. }
    destruct (okw (if okw w then call_handler h i OInit (set_state i Init w) else w)).
    + exact E.
    + rewrite shutdown_only by assumption. exact E.
  - apply shutdown_only; [assumption|]. intro; subst; apply N; cbn; auto.
  - apply halt_only; [assumption|]. intro; subst; apply N; cbn; auto.
  - assert (N2 : o' <> OHalt) by (intro; subst; apply N; cbn; auto).
    destruct (lst w i); try reflexivity.
    assert (E : started o' (log (if okw w then call_handler h i ORecover (set_state i Recover w) else w)) = started o' (log w)).
    { destruct (okw w); [|reflexivity]. rewrite call_handler_only by assumption. reflexivity. }
    destruct (okw (if okw w then call_handler h i ORecover (set_state i Recover w) else w)).
    + exact E.
    + rewrite halt_only by assumption. exact E.
Qed.

Lemma call_only : forall cs bd o o' w, (forall c, In c cs -> starts_only c) -> ~ In o' (allowed o) ->
  started o' (log (call bd cs o w)) = started o' (log w).
Proof.
  intros cs bd o o' w H N. apply (call_inv (fun w' => started o' (log w') = started o' (log w))); [|reflexivity].
  intros c w' Hc E. rewrite (H c Hc) by assumption. assumption.
Qed.

Lemma group_only : forall k i cs, (forall c, In c cs -> starts_only c) -> starts_only (group_handle k i cs).
Proof.
  intros k i cs H.
  assert (HR : forall c, In c (rev cs) -> starts_only c) by (intros c Hc; apply H, in_rev; assumption).
  assert (HH : starts_only (fun (o : op) w => match o with OHalt => call UNBOUNDED cs OHalt w | _ => w end)).
  { intros o o' w N. destruct o; try reflexivity. apply call_only; assumption. }
  assert (HL : forall o' w, o' <> OHalt -> started o' (log (halt (fun (_ : op) w => call UNBOUNDED cs OHalt w) i w)) = started o' (log w)).
  { intros o' w N. unfold halt. destruct (lgt (lst w i) Halt); [|reflexivity].
    unfold call_handler. cbn [set_state log]. rewrite end_any.
    assert (N' : ~ In o' (allowed OHalt)) by (cbn; intuition congruence).
    rewrite call_only by assumption. rewrite start_other by assumption. reflexivity. }
  assert (CF : forall cs' o o' w, (forall c, In c cs' -> starts_only c) -> ~ In o' (allowed o) -> o' <> OHalt ->
    started o' (log (call_or_fail cs' i (fun (_ : op) w => call UNBOUNDED cs OHalt w) o w)) = started o' (log w)).
  { intros cs' o o' w Hc N N2. unfold call_or_fail.
    destruct (bounded WARN (stat (call UNBOUNDED cs' o w))).
    - apply call_only; assumption.
    - rewrite HL by assumption. rewrite call_only; [|assumption|cbn; intuition congruence].
      apply call_only; assumption. }
  intros o o' w N. unfold group_handle. destruct o.
  - apply CF; auto. intro; subst; apply N; cbn; auto.
  - assert (o' <> OHalt) by (intro; subst; apply N; cbn; auto). destruct k; apply CF; auto.
  - destruct k; try reflexivity; apply call_only; assumption.
  - apply call_only; assumption.
  - destruct k; apply call_only; assumption.
  - apply call_only; assumption.
  - apply call_only; assumption.
Qed.

Lemma leaf_started : forall b id o o' w, started o' (log (leaf_handle b id o w)) = started o' (log w).
Proof.
  intros b id o o' w. apply (leaf_inv (fun w' => started o' (log w') = started o' (log w))); [|reflexivity].
  intros l r w' E. cbn [report add_log log]. rewrite started_app. cbn. rewrite app_nil_r. exact E.
Qed.

Lemma exec_only : forall b t, starts_only (exec b t).
Proof.
  intros b t. induction t as [id|k id ms IH] using tree_ind'; rewrite exec_unfold; apply run_op_only.
  - intros o o' w _. apply leaf_started.
  - rewrite handle_group. apply group_only. intros c Hc. apply in_members in Hc. destruct Hc as (m & Hm & ->).
    rewrite Forall_forall in IH. auto.
Qed.

(** ** Order *)


Record ordered (b : behaviour) (t : tree) : Prop := {
  od_cyclic : forall o s w, cyclic o = true -> (s = Ready \/ s = Error) -> all_in s t w ->
     started o (log (exec b t o w)) = started o (log w) ++ order o t;
  od_diag : forall s w, (s = Ready \/ s = Error) -> all_in s t w ->
     started ODiag (log (exec b t ODiag w)) = started ODiag (log w) ++ order ODiag t;
  od_halt : forall w, all_in Ready t w ->
     started OHalt (log (exec b t OHalt w)) = started OHalt (log w) ++ order OHalt t;
  od_shutdown : forall s w, (s = Ready \/ s = Error) -> all_in s t w ->
     started OShutdown (log (exec b t OShutdown w)) = started OShutdown (log w) ++ order OShutdown t;
  od_init : forall w, all_in Off t w -> exists p,
     started OInit (log (exec b t OInit w)) = started OInit (log w) ++ p /\ prefix p (order OInit t) /\
     (okw (exec b t OInit w) = true -> p = order OInit t);
  od_recover : forall w, all_in Error t w -> exists p,
     started ORecover (log (exec b t ORecover w)) = started ORecover (log w) ++ p /\ prefix p (order ORecover t) /\
     (okw (exec b t ORecover w) = true -> p = order ORecover t)
}.

Lemma leaf_call : forall b id o w,
  started o (log (call_handler (leaf_handle b id) id o w)) = started o (log w) ++ [id].
Proof. intros. unfold call_handler. rewrite end_any, leaf_started, start_same. reflexivity. Qed.

Lemma starts_only_leaf : forall b id, starts_only (leaf_handle b id).
Proof. intros b id o o' w _. apply leaf_started. Qed.

Lemma okw_shutdown_before : forall b t w, okw (shutdown (handle b t) (tid t) w) = true -> okw w = true.
Proof. intros b t w H. exact (exec_ok_before b t OShutdown w H). Qed.
Lemma okw_halt_before : forall b t w, okw (halt (handle b t) (tid t) w) = true -> okw w = true.
Proof. intros b t w H. exact (exec_ok_before b t OHalt w H). Qed.

Lemma leaf_ordered : forall b id, ordered b (Leaf id).
Proof.
  intros b id. split; unfold exec; cbn [tid handle order].
  - intros o s w Hc Hs A. specialize (A id (or_introl eq_refl)).
    destruct o; try discriminate; cbn [run_op]; rewrite A; destruct Hs; subst s;
      cbn [lgt lz Z.ltb Z.compare Pos.compare Pos.compare_cont]; apply leaf_call.
  - intros s w Hs A. specialize (A id (or_introl eq_refl)). cbn [run_op]. rewrite A.
    destruct Hs; subst s; cbn [lgt lz Z.ltb Z.compare Pos.compare Pos.compare_cont]; apply leaf_call.
  - intros w A. specialize (A id (or_introl eq_refl)). cbn [run_op]. unfold halt. rewrite A.
    cbn [lgt lz Z.ltb Z.compare Pos.compare Pos.compare_cont set_state log]. rewrite leaf_call. reflexivity.
  - intros s w Hs A. specialize (A id (or_introl eq_refl)). cbn [run_op]. unfold shutdown. rewrite A.
    destruct Hs; subst s; cbn [set_state log]; rewrite leaf_call; reflexivity.
  - intros w A. specialize (A id (or_introl eq_refl)). cbn [run_op]. rewrite A.
    destruct (okw w) eqn:OKW.
    + exists [id]. split; [|split; [exists []; reflexivity|reflexivity]].
      destruct (okw (call_handler (leaf_handle b id) id OInit (set_state id Init w))).
      * cbn [set_state log]. rewrite leaf_call. reflexivity.
      * rewrite shutdown_only by (apply starts_only_leaf || discriminate). rewrite leaf_call. reflexivity.
    + exists []. rewrite OKW. unfold shutdown. rewrite A. rewrite app_nil_r.
      split; [reflexivity|]. split; [exists [id]; reflexivity|congruence].
  - intros w A. specialize (A id (or_introl eq_refl)). cbn [run_op]. rewrite A.
    destruct (okw w) eqn:OKW.
    + exists [id]. split; [|split; [exists []; reflexivity|reflexivity]].
      destruct (okw (call_handler (leaf_handle b id) id ORecover (set_state id Recover w))).
      * cbn [set_state log]. rewrite leaf_call. reflexivity.
      * rewrite halt_only by (apply starts_only_leaf || discriminate). rewrite leaf_call. reflexivity.
    + exists []. rewrite OKW. unfold halt. rewrite A. rewrite app_nil_r.
      split; [reflexivity|]. split; [exists [id]; reflexivity|cbn; congruence].
Qed.

(** Iteration over members that all are in state [s]. *)
Lemma call_each_order : forall b s o cs,
  ForallOrdPairs disjoint_ids cs ->
  (forall m, In m cs -> forall w, all_in s m w ->
     started o (log (exec b m o w)) = started o (log w) ++ order o m) ->
  forall w, (forall m, In m cs -> all_in s m w) ->
  started o (log (call_each (members b cs) o w)) = started o (log w) ++ List.concat (map (order o) cs).
Proof.
  intros b s o cs. induction cs as [|m cs IH]; intros F H w A; cbn [members map call_each List.concat].
  - rewrite app_nil_r. reflexivity.
  - inversion F as [|? ? F1 F2]; subst. rewrite Forall_forall in F1. fold (members b cs). rewrite IH; auto.
    + rewrite H; [|left; reflexivity|apply A; left; reflexivity]. rewrite app_assoc. reflexivity.
    + intros m' Hm'. apply H. right. assumption.
    + intros m' Hm'. apply all_in_frame; [apply disjoint_sym, F1; assumption|]. apply A. right. assumption.
Qed.

Lemma call_warn_order : forall b s o cs,
  ForallOrdPairs disjoint_ids cs ->
  (forall m, In m cs -> forall w, all_in s m w -> exists p,
     started o (log (exec b m o w)) = started o (log w) ++ p /\ prefix p (order o m) /\
     (okw (exec b m o w) = true -> p = order o m)) ->
  forall w, okw w = true -> (forall m, In m cs -> all_in s m w) -> exists p,
  started o (log (call WARN (members b cs) o w)) = started o (log w) ++ p /\
  prefix p (List.concat (map (order o) cs)) /\
  (okw (call WARN (members b cs) o w) = true -> p = List.concat (map (order o) cs)).
Proof.
  intros b s o cs F H w OKW A. unfold call. fold (okw w). rewrite OKW. revert w OKW A.
  induction cs as [|m cs IH]; intros w OKW A; cbn [members map call_go List.concat].
  - exists []. rewrite app_nil_r. split; [reflexivity|]. split; [exists []; reflexivity|reflexivity].
  - inversion F as [|? ? F1 F2]; subst. rewrite Forall_forall in F1.
    fold (members b cs). fold (okw (exec b m o w)).
    destruct (H m (or_introl eq_refl) w (A m (or_introl eq_refl))) as (p & E & (r & Hp) & K).
    destruct (okw (exec b m o w)) eqn:OK1; cbn [andb negb].
    + destruct (IH F2 (fun m' Hm' => H m' (or_intror Hm')) (exec b m o w) OK1) as (q & Eq & (r' & Hq) & Kq).
      { intros m' Hm'. apply all_in_frame; [apply disjoint_sym, F1; assumption|]. apply A. right. assumption. }
      exists (p ++ q). rewrite Eq, E, app_assoc. split; [reflexivity|]. rewrite (K eq_refl). split.
      * exists r'. rewrite Hq, app_assoc. reflexivity.
      * intro K'. rewrite (Kq K'). reflexivity.
    + exists p. split; [assumption|]. split; [|congruence].
      exists (r ++ List.concat (map (order o) cs)). rewrite Hp, app_assoc. reflexivity.
Qed.

Section group.
  Variables (b : behaviour) (k : gkind) (id : nat) (ms : list tree).
  Hypothesis Hid : ~ In id (List.concat (map ids ms)).
  Hypothesis FOP : ForallOrdPairs disjoint_ids ms.
  Hypothesis IH : forall m, In m ms -> ordered b m.
  Local Notation G := (Group k id ms).
  Local Notation h := (group_handle k id (members b ms)).

  Lemma h_only : starts_only h.
  Proof. apply group_only. intros c Hc. apply in_members in Hc. destruct Hc as (m & _ & ->). apply exec_only. Qed.
  Lemma m_only : forall cs c, In c (members b cs) -> starts_only c.
  Proof. intros cs c Hc. apply in_members in Hc. destruct Hc as (m & _ & ->). apply exec_only. Qed.

  Lemma cof_order : forall cs o w, (forall c, In c (members b cs) -> In c (members b ms)) ->
    cyclic o = true ->
    started o (log (call_or_fail (members b cs) id (fun (_ : op) w => call UNBOUNDED (members b ms) OHalt w) o w))
    = started o (log (call_each (members b cs) o w)).
  Proof.
    intros cs o w Hsub Hc. unfold call_or_fail. rewrite <- call_unbounded.
    destruct (bounded WARN (stat (call UNBOUNDED (members b cs) o w))); [reflexivity|].
    assert (N : o <> OHalt) by (destruct o; discriminate).
    assert (NA : ~ In o (allowed OHalt)) by (cbn; intuition congruence).
    unfold halt. destruct (lgt _ Halt).
    - unfold call_handler. cbn [set_state log]. rewrite end_any.
      rewrite call_only by (try apply m_only; assumption).
      rewrite start_other by assumption. cbn [set_state log].
      apply call_only; [apply m_only|assumption].
    - apply call_only; [apply m_only|assumption].
  Qed.

  Lemma group_ordered : ordered b G.
  Proof.
    assert (RO : forall o w, exec b G o w = run_op h id o w) by reflexivity.
    split.
    - intros o s w Hc Hs A. pose proof (proj1 (group_all_in _ _ _ _ _) A) as [L AM].
      assert (E : exec b G o w = call_handler h id o w).
      { rewrite RO. destruct o; try discriminate; cbn [run_op]; rewrite L; destruct Hs; subst s; reflexivity. }
      rewrite E. unfold call_handler. rewrite end_any.
      set (w0 := add_log (Start id o) w).
      assert (ST : started o (log w0) = started o (log w) ++ [id]) by apply start_same.
      assert (D : forall cs, (cs = ms \/ cs = rev ms) ->
        started o (log (call_or_fail (members b cs) id (fun (_ : op) w => call UNBOUNDED (members b ms) OHalt w) o w0))
        = started o (log w) ++ id :: List.concat (map (order o) cs)).
      { intros cs Hcs.
        assert (Hin : forall x, In x cs <-> In x ms) by (destruct Hcs; subst; intro; [tauto|rewrite <- in_rev; tauto]).
        rewrite cof_order; [|intros c H; apply in_members in H; destruct H as (m & Hm & ->); apply in_map, Hin; assumption|assumption].
        rewrite (call_each_order b s o cs).
        - rewrite ST, <- app_assoc. reflexivity.
        - destruct Hcs; subst; [|apply FOP_rev]; assumption.
        - intros m Hm w' U. eapply od_cyclic; try eassumption. apply IH, Hin. assumption.
        - intros m Hm. apply AM, Hin. assumption. }
      destruct o; try discriminate; cbn [order group_handle].
      + replace (member_order k ORead (map (order ORead) ms)) with (map (order ORead) ms) by (destruct k; reflexivity).
        apply D. auto.
      + destruct k; cbn [member_order]; rewrite ?members_rev, <- ?map_rev; apply D; auto.
    - intros s w Hs A. pose proof (proj1 (group_all_in _ _ _ _ _) A) as [L AM].
      rewrite RO. cbn [run_op]. rewrite L.
      assert (lgt s Shutdown = true) as -> by (destruct Hs; subst; reflexivity).
      unfold call_handler. rewrite end_any. set (w0 := add_log (Start id ODiag) w).
      assert (ST : started ODiag (log w0) = started ODiag (log w) ++ [id]) by apply start_same.
      assert (D : started ODiag (log (call UNBOUNDED (members b ms) ODiag w0))
        = started ODiag (log w) ++ id :: List.concat (map (order ODiag) ms)).
      { rewrite call_unbounded. rewrite (call_each_order b s ODiag ms).
        - rewrite ST, <- app_assoc. reflexivity.
        - assumption.
        - intros m Hm w' U. eapply od_diag; try eassumption. apply IH. assumption.
        - intros m Hm. apply AM. assumption. }
      cbn [order group_handle]. destruct k; cbn [member_order]; [exact D|exact D|].
      rewrite ST. reflexivity.
    - intros w A. pose proof (proj1 (group_all_in _ _ _ _ _) A) as [L AM].
      rewrite RO. cbn [run_op]. unfold halt. rewrite L.
      cbn [lgt lz Z.ltb Z.compare Pos.compare Pos.compare_cont].
      unfold call_handler.
      set (w0 := add_log (Start id OHalt) (set_state id Halt w)).
      assert (ST : started OHalt (log w0) = started OHalt (log w) ++ [id]) by exact (start_same OHalt id (set_state id Halt w)).
      change (started OHalt (log (add_log (End id OHalt (okw (h OHalt w0))) (h OHalt w0))) =
              started OHalt (log w) ++ order OHalt G).
      rewrite end_any.
      change (h OHalt w0) with (call UNBOUNDED (members b ms) OHalt w0). rewrite call_unbounded.
      rewrite (call_each_order b Ready OHalt ms).
      + rewrite ST, <- app_assoc. cbn [order].
        replace (member_order k OHalt (map (order OHalt) ms)) with (map (order OHalt) ms) by (destruct k; reflexivity).
        reflexivity.
      + assumption.
      + intros m Hm w' U. apply od_halt; [apply IH|]; assumption.
      + apply (members_set_state Ready id Halt ms w Hid AM).
    - intros s w Hs A. pose proof (proj1 (group_all_in _ _ _ _ _) A) as [L AM].
      rewrite RO. cbn [run_op]. unfold shutdown. rewrite L.
      assert (D : started OShutdown (log (set_state id Off (call_handler h id OShutdown (set_state id Shutdown w))))
        = started OShutdown (log w) ++ order OShutdown G).
      { unfold call_handler.
        set (w0 := add_log (Start id OShutdown) (set_state id Shutdown w)).
        assert (ST : started OShutdown (log w0) = started OShutdown (log w) ++ [id]) by exact (start_same OShutdown id (set_state id Shutdown w)).
        change (started OShutdown (log (add_log (End id OShutdown (okw (h OShutdown w0))) (h OShutdown w0))) =
                started OShutdown (log w) ++ order OShutdown G).
        rewrite end_any.
        assert (C : forall cs, (cs = ms \/ cs = rev ms) ->
          started OShutdown (log (call UNBOUNDED (members b cs) OShutdown w0))
          = started OShutdown (log w) ++ id :: List.concat (map (order OShutdown) cs)).
        { intros cs Hcs.
          assert (Hin : forall x, In x cs <-> In x ms) by (destruct Hcs; subst; intro; [tauto|rewrite <- in_rev; tauto]).
          rewrite call_unbounded. rewrite (call_each_order b s OShutdown cs).
          - rewrite ST, <- app_assoc. reflexivity.
          - destruct Hcs; subst; [|apply FOP_rev]; assumption.
          - intros m Hm w' U. eapply od_shutdown; try eassumption. apply IH, Hin. assumption.
          - intros m Hm. apply Hin in Hm. apply (members_set_state s id Shutdown ms w Hid AM). assumption. }
        cbn [order group_handle]. destruct k; cbn [member_order]; rewrite ?members_rev, <- ?map_rev; apply C; auto. }
      destruct Hs; subst s; exact D.
    - intros w A. pose proof (proj1 (group_all_in _ _ _ _ _) A) as [L AM].
      rewrite RO. cbn [run_op]. rewrite L. destruct (okw w) eqn:OKW.
      + unfold call_handler. set (w0 := add_log (Start id OInit) (set_state id Init w)).
        assert (ST : started OInit (log w0) = started OInit (log w) ++ [id]) by exact (start_same OInit id (set_state id Init w)).
        destruct (call_warn_order b Off OInit ms FOP
          (fun m Hm w' U => od_init b m (IH m Hm) w' U) w0 OKW
          (members_set_state Off id Init ms w Hid AM)) as (p & E & (r & Hp) & K).
        change (h OInit w0) with (call WARN (members b ms) OInit w0).
        set (w2 := call WARN (members b ms) OInit w0) in *.
        assert (O : order OInit G = id :: List.concat (map (order OInit) ms)) by (cbn [order]; destruct k; reflexivity).
        exists (id :: p). split; [|split].
        * change (okw (add_log (End id OInit (okw w2)) w2)) with (okw w2).
          assert (E2 : started OInit (log (add_log (End id OInit (okw w2)) w2)) = started OInit (log w) ++ id :: p).
          { rewrite end_any, E, ST, <- app_assoc. reflexivity. }
          destruct (okw w2).
          -- exact E2.
          -- rewrite shutdown_only by (apply h_only || discriminate). exact E2.
        * exists r. rewrite O, Hp. reflexivity.
        * intro KF. rewrite O. f_equal. apply K.
          change (okw (add_log (End id OInit (okw w2)) w2)) with (okw w2) in KF.
          destruct (okw w2) eqn:K2; [reflexivity|].
          exfalso. apply (okw_shutdown_before b G) in KF. change (okw w2 = true) in KF. congruence.
      + rewrite OKW. exists []. unfold shutdown. rewrite L, app_nil_r. split; [reflexivity|].
        split; [exists (order OInit G); reflexivity|congruence].
    - intros w A. pose proof (proj1 (group_all_in _ _ _ _ _) A) as [L AM].
      rewrite RO. cbn [run_op]. rewrite L. destruct (okw w) eqn:OKW.
      + unfold call_handler. set (w0 := add_log (Start id ORecover) (set_state id Recover w)).
        assert (ST : started ORecover (log w0) = started ORecover (log w) ++ [id]) by exact (start_same ORecover id (set_state id Recover w)).
        destruct (call_warn_order b Error ORecover ms FOP
          (fun m Hm w' U => od_recover b m (IH m Hm) w' U) w0 OKW
          (members_set_state Error id Recover ms w Hid AM)) as (p & E & (r & Hp) & K).
        change (h ORecover w0) with (call WARN (members b ms) ORecover w0).
        set (w2 := call WARN (members b ms) ORecover w0) in *.
        assert (O : order ORecover G = id :: List.concat (map (order ORecover) ms)) by (cbn [order]; destruct k; reflexivity).
        exists (id :: p). split; [|split].
        * change (okw (add_log (End id ORecover (okw w2)) w2)) with (okw w2).
          assert (E2 : started ORecover (log (add_log (End id ORecover (okw w2)) w2)) = started ORecover (log w) ++ id :: p).
          { rewrite end_any, E, ST, <- app_assoc. reflexivity. }
          destruct (okw w2).
          -- exact E2.
          -- rewrite halt_only by (apply h_only || discriminate). exact E2.
        * exists r. rewrite O, Hp. reflexivity.
        * intro KF. rewrite O. f_equal. apply K.
          change (okw (add_log (End id ORecover (okw w2)) w2)) with (okw w2) in KF.
          destruct (okw w2) eqn:K2; [reflexivity|].
          exfalso. apply (okw_halt_before b G) in KF. change (okw w2 = true) in KF. congruence.
      + rewrite OKW. exists []. unfold halt. rewrite L. cbn [lgt lz Z.ltb Z.compare Pos.compare Pos.compare_cont]. rewrite app_nil_r.
        split; [reflexivity|]. split; [exists (order ORecover G); reflexivity|congruence].
  Qed.
End group.

Lemma all_ordered : forall b t, NoDup (ids t) -> ordered b t.
Proof.
  intros b t. induction t as [id|k id ms IH] using tree_ind'; intros ND; [apply leaf_ordered|].
  cbn [ids] in ND. inversion ND as [|? ? Hid NDm]; subst.
  destruct (NoDup_concat ms NDm) as [NDs FOP].
  apply group_ordered; [assumption|assumption|].
  intros m Hm. rewrite Forall_forall in IH, NDs. auto.
Qed.

(** ** Halts happen only after failures *)

Lemma cof_no_halt : forall b t o w, cyclic o = true -> okw (exec b t o w) = true ->
  started OHalt (log (exec b t o w)) = started OHalt (log w).
Proof.
  intros b t. induction t as [id|k id ms IH] using tree_ind'; intros o w Hc OKF.
  - unfold exec. cbn [tid handle].
    assert (E : started OHalt (log (call_handler (leaf_handle b id) id o w)) = started OHalt (log w)).
    { unfold call_handler. rewrite end_any, leaf_started. apply start_other. destruct o; discriminate. }
    destruct o; try discriminate; cbn [run_op]; destruct (lgt (lst w id) Off); auto.
  - revert OKF. rewrite exec_unfold. cbn [tid]. rewrite handle_group. intro OKF.
    rewrite Forall_forall in IH.
    assert (CE : forall cs w, (forall m, In m cs -> In m ms) -> okw (call_each (members b cs) o w) = true ->
      started OHalt (log (call_each (members b cs) o w)) = started OHalt (log w)).
    { induction cs as [|m cs IHc]; intros w' Hin K; [reflexivity|]. cbn [members map call_each] in *.
      fold (members b cs) in *. rewrite IHc; [|intros x Hx; apply Hin; right; assumption|assumption].
      apply IH; [apply Hin; left; reflexivity|assumption|]. eapply call_each_ok_before. exact K. }
    assert (CF : forall cs w, (forall m, In m cs -> In m ms) ->
      okw (call_or_fail (members b cs) id (fun (_ : op) w => call UNBOUNDED (members b ms) OHalt w) o w) = true ->
      started OHalt (log (call_or_fail (members b cs) id (fun (_ : op) w => call UNBOUNDED (members b ms) OHalt w) o w))
      = started OHalt (log w)).
    { intros cs w' Hin. unfold call_or_fail. rewrite !call_unbounded. fold (okw (call_each (members b cs) o w')).
      destruct (okw (call_each (members b cs) o w')) eqn:K; [auto|]. intro K2. exfalso.
      assert (K3 : okw (call_each (members b cs) OHalt (call_each (members b cs) o w')) = true).
      { revert K2. unfold halt. destruct (lgt _ Halt); [|auto]. unfold call_handler. intro K2.
        match type of K2 with okw (set_state _ _ (add_log _ ?x)) = true => change (okw x = true) in K2 end.
        rewrite call_unbounded in K2. apply call_each_ok_before in K2. exact K2. }
      apply call_each_ok_before in K3. congruence. }
    assert (CH : okw (call_handler (group_handle k id (members b ms)) id o w) = true ->
      started OHalt (log (call_handler (group_handle k id (members b ms)) id o w)) = started OHalt (log w)).
    { unfold call_handler. intro K.
      match type of K with okw (add_log _ ?x) = true => change (okw x = true) in K end.
      rewrite end_any.
      assert (ST : started OHalt (log (add_log (Start id o) w)) = started OHalt (log w)) by (apply start_other; destruct o; discriminate).
      destruct o; try discriminate.
      - cbn [group_handle] in K |- *. rewrite CF; auto.
      - destruct (group_write b k id ms) as (cs & Hcs & E). rewrite E in K |- *. rewrite CF; auto.
        intros m Hm. destruct Hcs; subst; [assumption|apply in_rev; assumption]. }
    destruct o; try discriminate; cbn [run_op] in *; destruct (lgt (lst w id) Off); auto.
Qed.

(** ** Summaries *)

Lemma exec_unchanged : forall b t o w s, all_in s t w ->
  (match o with
   | OInit => s <> Off | ORecover => s <> Error | OHalt => s = Off \/ s = Error
   | OShutdown => s = Off | ORead | OWrite | ODiag => s = Off end) ->
  exec b t o w = w.
Proof.
  intros b t o w s A H. unfold exec. specialize (A (tid t) (root_in t)).
  destruct o; cbn [run_op]; unfold shutdown, halt; rewrite A; try (rewrite H; reflexivity).
  - destruct s; try reflexivity; congruence.
  - destruct H as [-> | ->]; reflexivity.
  - destruct s; try reflexivity; congruence.
Qed.

Lemma exec_uin : forall b t o w, NoDup (ids t) -> uin [Off; Ready; Error] t w ->
  uin [Off; Ready; Error] t (exec b t o w).
Proof.
  intros b t o w ND (s & Hs & A). pose proof (all_together b t ND) as T.
  assert (IN : forall s, s = Off \/ s = Ready \/ s = Error -> In s [Off; Ready; Error]) by (cbn; intuition congruence).
  destruct o.
  - destruct Hs as [<-|[<-|[<-|[]]]].
    + rewrite (exec_unchanged b t _ w Off) by auto. exists Off. auto.
    + destruct (tg_cyclic b t T ORead w eq_refl A) as (_ & (s' & Hs' & A') & _). exists s'. split; [right; assumption|assumption].
    + exists Error. split; [auto|]. apply (tg_cyclic_error b t T); auto.
  - destruct Hs as [<-|[<-|[<-|[]]]].
    + rewrite (exec_unchanged b t _ w Off) by auto. exists Off. auto.
    + destruct (tg_cyclic b t T OWrite w eq_refl A) as (_ & (s' & Hs' & A') & _). exists s'. split; [right; assumption|assumption].
    + exists Error. split; [auto|]. apply (tg_cyclic_error b t T); auto.
  - exists s. split; [assumption|]. apply (tg_diag b t T). assumption.
  - destruct Hs as [<-|[<-|[<-|[]]]].
    + destruct (tg_init b t T w A) as [H1 H2]. destruct (okw (exec b t OInit w)).
      * exists Ready. auto.
      * exists Off. auto.
    + rewrite (exec_unchanged b t _ w Ready) by (auto; discriminate). exists Ready. auto.
    + rewrite (exec_unchanged b t _ w Error) by (auto; discriminate). exists Error. auto.
  - exists Off. split; [auto|]. apply (tg_shutdown b t T). exists s. auto.
  - destruct Hs as [<-|Hs].
    + rewrite (exec_unchanged b t _ w Off) by auto. exists Off. auto.
    + exists Error. split; [auto|]. apply (tg_halt b t T). exists s. auto.
  - destruct Hs as [<-|[<-|[<-|[]]]].
    + rewrite (exec_unchanged b t _ w Off) by (auto; discriminate). exists Off. auto.
    + rewrite (exec_unchanged b t _ w Ready) by (auto; discriminate). exists Ready. auto.
    + destruct (tg_recover b t T w A) as [H1 H2]. destruct (okw (exec b t ORecover w)).
      * exists Ready. auto.
      * exists Error. auto.
Qed.

Lemma history_together : forall b t calls, NoDup (ids t) ->
  let w := exec_all b t calls world0 in
  all_in Off t w \/ all_in Ready t w \/ all_in Error t w.
Proof.
  intros b t calls ND. cbv zeta.
  assert (G : forall w, uin [Off; Ready; Error] t w -> uin [Off; Ready; Error] t (exec_all b t calls w)).
  { induction calls as [|[o s] calls IH]; intros w H; cbn; [assumption|]. apply IH. apply exec_uin; assumption. }
  destruct (G world0) as (s & Hs & A).
  - exists Off. split; [left; reflexivity|]. intros i _. reflexivity.
  - destruct Hs as [<-|[<-|[<-|[]]]]; auto.
Qed.

Lemma init_summary : forall b t w, NoDup (ids t) -> all_in Off t w ->
  let w' := exec b t OInit w in
  exists new, log w' = log w ++ new /\
  ((okw w' = true /\ all_in Ready t w' /\ started OInit new = order OInit t) \/
   (okw w' = false /\ all_in Off t w' /\ prefix (started OInit new) (order OInit t))).
Proof.
  intros b t w ND A. cbv zeta. destruct (nothing_after_failure b t OInit w) as (new & E & _).
  exists new. split; [assumption|].
  destruct (tg_init b t (all_together b t ND) w A) as [H1 H2].
  destruct (od_init b t (all_ordered b t ND) w A) as (p & Ep & Hp & Kp).
  rewrite E, started_app in Ep. apply app_inv_head in Ep. rewrite Ep.
  destruct (okw (exec b t OInit w)); [left|right]; auto.
Qed.

Lemma recover_summary : forall b t w, NoDup (ids t) -> all_in Error t w ->
  let w' := exec b t ORecover w in
  exists new, log w' = log w ++ new /\
  ((okw w' = true /\ all_in Ready t w' /\ started ORecover new = order ORecover t) \/
   (okw w' = false /\ all_in Error t w' /\ prefix (started ORecover new) (order ORecover t))).
Proof.
  intros b t w ND A. cbv zeta. destruct (nothing_after_failure b t ORecover w) as (new & E & _).
  exists new. split; [assumption|].
  destruct (tg_recover b t (all_together b t ND) w A) as [H1 H2].
  destruct (od_recover b t (all_ordered b t ND) w A) as (p & Ep & Hp & Kp).
  rewrite E, started_app in Ep. apply app_inv_head in Ep. rewrite Ep.
  destruct (okw (exec b t ORecover w)); [left|right]; auto.
Qed.

Lemma order_summary : forall b t o s w, NoDup (ids t) -> all_in s t w ->
  (match o with
   | ORead | OWrite | ODiag | OShutdown => s = Ready \/ s = Error
   | OHalt => s = Ready
   | OInit | ORecover => False end) ->
  exists new, log (exec b t o w) = log w ++ new /\ started o new = order o t.
Proof.
  intros b t o s w ND A H. destruct (nothing_after_failure b t o w) as (new & E & _).
  exists new. split; [assumption|]. pose proof (all_ordered b t ND) as O.
  apply (app_inv_head (started o (log w))). rewrite <- started_app, <- E.
  destruct o; try contradiction.
  - eapply od_cyclic; eauto.
  - eapply od_cyclic; eauto.
  - eapply od_diag; eauto.
  - eapply od_shutdown; eauto.
  - subst s. apply od_halt; assumption.
Qed.

Lemma cyclic_summary : forall b t o w, NoDup (ids t) -> is_group t -> (o = ORead \/ o = OWrite) ->
  all_in Ready t w ->
  exists new, log (exec b t o w) = log w ++ new /\ started o new = order o t /\
  ((okw (exec b t o w) = true /\ all_in Ready t (exec b t o w) /\ started OHalt new = []) \/
   (okw (exec b t o w) = false /\ all_in Error t (exec b t o w))).
Proof.
  intros b t o w ND Hg Ho A.
  destruct (order_summary b t o Ready w ND A) as (new & E & Hn); [destruct Ho; subst; auto|].
  assert (Hc : cyclic o = true) by (destruct Ho; subst; reflexivity).
  exists new. split; [assumption|]. split; [assumption|].
  destruct (tg_cyclic b t (all_together b t ND) o w Hc A) as (H1 & _ & H2).
  destruct (okw (exec b t o w)) eqn:K; [left|right; auto].
  split; [reflexivity|]. split; [auto|].
  pose proof (cof_no_halt b t o w Hc K) as N. rewrite E, started_app in N.
  rewrite <- (app_nil_r (started OHalt (log w))) in N at 2. apply app_inv_head in N. assumption.
Qed.
