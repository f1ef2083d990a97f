From Verif Require Import Base LayerModel LayerSpec LayerProofs.

(** ** All layers of a tree move together *)


Lemma all_in_frame : forall b s m m' o w, disjoint_ids m m' -> all_in s m w -> all_in s m (exec b m' o w).
Proof.
  intros b s m m' o w D A i Hi. destruct (exec_frame b m' o w i (D i Hi)) as [E _]. rewrite E. auto.
Qed.
Lemma disjoint_sym : forall a c, disjoint_ids a c -> disjoint_ids c a.
Proof. intros a c D i Hi K. exact (D i K Hi). Qed.

Lemma all_in_with : forall s t w w', lst w' = lst w -> all_in s t w -> all_in s t w'.
Proof. intros s t w w' E A i Hi. rewrite E. auto. Qed.

Lemma uin_frame : forall b S m m' o w, disjoint_ids m m' -> uin S m w -> uin S m (exec b m' o w).
Proof. intros b S m m' o w D (s & Hs & A). exists s. split; [assumption|]. apply all_in_frame; assumption. Qed.

(** Iterating over members: each is taken from [S1] to [S2]. *)
Lemma call_each_uin : forall b S1 S2 o ms,
  ForallOrdPairs disjoint_ids ms ->
  (forall m, In m ms -> forall w, uin S1 m w -> uin S2 m (exec b m o w)) ->
  forall w, (forall m, In m ms -> uin S1 m w) ->
  forall m, In m ms -> uin S2 m (call_each (members b ms) o w).
Proof.
  intros b S1 S2 o ms. induction ms as [|m0 ms IH]; intros F H w A m Hm; [contradiction|].
  inversion F as [|? ? F1 F2]; subst. rewrite Forall_forall in F1. cbn [members map call_each].
  destruct Hm as [<-|Hm].
  - assert (G : forall l w', incl l ms -> uin S2 m0 w' -> uin S2 m0 (call_each (members b l) o w')).
    { induction l as [|x l IHl]; intros w' Hl U; [assumption|]. cbn [members map call_each].
      apply IHl; [intros y Hy; apply Hl; right; assumption|].
      apply uin_frame; [|assumption]. apply F1. apply Hl. left. reflexivity. }
    apply G; [apply incl_refl|]. apply H; [left; reflexivity|]. apply A. left. reflexivity.
  - apply IH; auto.
    + intros m' Hm'. apply H. right. assumption.
    + intros m' Hm'. apply uin_frame; [apply disjoint_sym, F1; assumption|]. apply A. right. assumption.
Qed.

Lemma FOP_snoc : forall (R : tree -> tree -> Prop) l x,
  ForallOrdPairs R l -> Forall (fun y => R y x) l -> ForallOrdPairs R (l ++ [x]).
Proof.
  intros R l x. induction l as [|y l IH]; intros F G; cbn.
  - constructor; constructor.
  - inversion F; subst. inversion G; subst. constructor; [|auto].
    apply Forall_app. split; [assumption|]. constructor; [assumption|constructor].
Qed.
Lemma FOP_rev : forall l, ForallOrdPairs disjoint_ids l -> ForallOrdPairs disjoint_ids (rev l).
Proof.
  induction l as [|x l IH]; intros F; [constructor|]. inversion F; subst. cbn. apply FOP_snoc; [auto|].
  apply Forall_forall. intros y Hy. apply disjoint_sym. rewrite Forall_forall in H1. apply H1. apply in_rev. assumption.
Qed.
Lemma members_rev : forall b ms, rev (members b ms) = members b (rev ms).
Proof. intros. unfold members. symmetry. apply map_rev. Qed.

(** All intermediate states of a call that ends well are well. *)
Lemma call_each_ok_before : forall b ms o w, okw (call_each (members b ms) o w) = true -> okw w = true.
Proof.
  intros b ms. induction ms as [|m ms IH]; intros o w H; [assumption|]. cbn [members map call_each] in H.
  apply IH in H. apply exec_ok_before in H. assumption.
Qed.

(** Same with a post-condition that holds if the status is good afterwards. *)
Lemma call_each_ok_uin : forall b s1 s2 o ms,
  ForallOrdPairs disjoint_ids ms ->
  (forall m, In m ms -> forall w, all_in s1 m w -> okw (exec b m o w) = true -> all_in s2 m (exec b m o w)) ->
  forall w, (forall m, In m ms -> all_in s1 m w) ->
  okw (call_each (members b ms) o w) = true ->
  forall m, In m ms -> all_in s2 m (call_each (members b ms) o w).
Proof.
  intros b s1 s2 o ms. induction ms as [|m0 ms IH]; intros F H w A K m Hm; [contradiction|].
  inversion F as [|? ? F1 F2]; subst. rewrite Forall_forall in F1. cbn [members map call_each] in *.
  destruct Hm as [<-|Hm].
  - assert (G : forall l w', incl l ms -> all_in s2 m0 w' -> all_in s2 m0 (call_each (members b l) o w')).
    { induction l as [|x l IHl]; intros w' Hl U; [assumption|]. cbn [members map call_each].
      apply IHl; [intros y Hy; apply Hl; right; assumption|].
      apply all_in_frame; [|assumption]. apply F1. apply Hl. left. reflexivity. }
    apply G; [apply incl_refl|]. apply H; [left; reflexivity|apply A; left; reflexivity|].
    eapply call_each_ok_before. exact K.
  - apply IH; auto.
    + intros m' Hm'. apply H. right. assumption.
    + intros m' Hm'. apply all_in_frame; [apply disjoint_sym, F1; assumption|]. apply A. right. assumption.
Qed.

(** The bounded call used by init and recover. *)
Lemma call_warn_uin : forall b s1 s2 s3 o ms,
  ForallOrdPairs disjoint_ids ms ->
  (forall m, In m ms -> forall w, all_in s1 m w ->
     (okw (exec b m o w) = true -> all_in s2 m (exec b m o w)) /\
     (okw (exec b m o w) = false -> all_in s3 m (exec b m o w))) ->
  forall w, okw w = true -> (forall m, In m ms -> all_in s1 m w) ->
  let w' := call WARN (members b ms) o w in
  (okw w' = true -> forall m, In m ms -> all_in s2 m w') /\
  (forall m, In m ms -> uin [s1; s2; s3] m w').
Proof.
  intros b s1 s2 s3 o ms F H w OKW A. cbv zeta. unfold call. fold (okw w). rewrite OKW.
  revert w OKW A. induction ms as [|m0 ms IH]; intros w OKW A.
  - split; intros; contradiction.
  - inversion F as [|? ? F1 F2]; subst. rewrite Forall_forall in F1. cbn [members map call_go].
    fold (okw (exec b m0 o w)). fold (members b ms).
    destruct (H m0 (or_introl eq_refl) w (A m0 (or_introl eq_refl))) as [H1 H2].
    assert (A' : forall m, In m ms -> all_in s1 m (exec b m0 o w)).
    { intros m Hm. apply all_in_frame; [apply disjoint_sym, F1; assumption|]. apply A. right. assumption. }
    destruct (okw (exec b m0 o w)) eqn:E; cbn [andb negb].
    + destruct (IH F2 (fun m Hm => H m (or_intror Hm)) (exec b m0 o w) E A') as [I1 I2].
      assert (G : forall s, all_in s m0 (exec b m0 o w) ->
                  all_in s m0 (call_go WARN true (members b ms) o (exec b m0 o w))).
      { intros s. apply (call_go_inv (fun w' => all_in s m0 w')).
        intros c w' Hc Hw'. apply in_members in Hc. destruct Hc as (m' & Hm' & ->).
        apply all_in_frame; [|assumption]. apply F1. assumption. }
      split.
      * intros OKF m [<-|Hm]; [apply G; auto|apply I1; assumption].
      * intros m [<-|Hm]; [|apply I2; assumption]. exists s2. split; [cbn; auto|]. apply G. auto.
    + split; [congruence|]. intros m [<-|Hm].
      * exists s3. split; [cbn; auto|]. auto.
      * exists s1. split; [cbn; auto|]. auto.
Qed.

Record together (b : behaviour) (t : tree) : Prop := {
  tg_cyclic : forall o w, cyclic o = true -> all_in Ready t w ->
     (okw (exec b t o w) = true -> all_in Ready t (exec b t o w)) /\
     uin [Ready; Error] t (exec b t o w) /\
     (is_group t -> okw (exec b t o w) = false -> all_in Error t (exec b t o w));
  tg_cyclic_error : forall o w, cyclic o = true -> all_in Error t w -> all_in Error t (exec b t o w);
  tg_diag : forall w s, all_in s t w -> all_in s t (exec b t ODiag w);
  tg_halt : forall w, uin [Ready; Error] t w -> all_in Error t (exec b t OHalt w);
  tg_init : forall w, all_in Off t w ->
     (okw (exec b t OInit w) = true -> all_in Ready t (exec b t OInit w)) /\
     (okw (exec b t OInit w) = false -> all_in Off t (exec b t OInit w));
  tg_shutdown : forall w, uin [Off; Ready; Error] t w -> all_in Off t (exec b t OShutdown w);
  tg_recover : forall w, all_in Error t w ->
     (okw (exec b t ORecover w) = true -> all_in Ready t (exec b t ORecover w)) /\
     (okw (exec b t ORecover w) = false -> all_in Error t (exec b t ORecover w))
}.

Lemma root_in : forall t, In (tid t) (ids t).
Proof. destruct t; left; reflexivity. Qed.

Lemma okw_set_state : forall i s w, okw (set_state i s w) = okw w.
Proof. reflexivity. Qed.

Lemma leaf_lst : forall b id o w, lst (leaf_handle b id o w) = lst w.
Proof.
  intros b id o w. apply (leaf_inv (fun w' => lst w' = lst w)); [|reflexivity]. intros; assumption.
Qed.

Lemma leaf_together : forall b id, together b (Leaf id).
Proof.
  intros b id.
  assert (E : forall P : lstate -> Prop, forall w, P (lst w id) -> forall i, In i (ids (Leaf id)) -> P (lst w i)).
  { intros P w H i [<-|[]]. assumption. }
  assert (SH : forall w, lst (shutdown (leaf_handle b id) id w) id = Off).
  { intros w. unfold shutdown. destruct (lst w id) eqn:L; try apply lst_set. assumption. }
  assert (CH : forall o w, lst (call_handler (leaf_handle b id) id o w) id = lst w id).
  { intros. unfold call_handler. cbn [add_log lst]. rewrite leaf_lst. reflexivity. }
  split; unfold exec; cbn [tid handle].
  - intros o w Hc A. pose proof (A id (or_introl eq_refl)) as L.
    assert (R : all_in Ready (Leaf id) (run_op (leaf_handle b id) id o w)).
    { intros i [<-|[]]. destruct o; try discriminate; cbn [run_op]; rewrite L; cbn [lgt lz Z.ltb Z.compare Pos.compare Pos.compare_cont]; rewrite CH; assumption. }
    split; [auto|]. split; [exists Ready; split; [cbn; auto|assumption]|]. intros [].
  - intros o w Hc A. pose proof (A id (or_introl eq_refl)) as L. intros i [<-|[]].
    destruct o; try discriminate; cbn [run_op]; rewrite L; cbn [lgt lz Z.ltb Z.compare Pos.compare Pos.compare_cont]; rewrite CH; assumption.
  - intros w s A. pose proof (A id (or_introl eq_refl)) as L. intros i [<-|[]].
    cbn [run_op]. destruct (lgt (lst w id) Shutdown); [rewrite CH|]; assumption.
  - intros w (s & Hs & A). pose proof (A id (or_introl eq_refl)) as L. intros i [<-|[]].
    cbn [run_op]. unfold halt. destruct Hs as [<-|[<-|[]]]; rewrite L; cbn [lgt lz Z.ltb Z.compare Pos.compare Pos.compare_cont].
    + apply lst_set.
    + assumption.
  - intros w A. pose proof (A id (or_introl eq_refl)) as L. cbn [run_op]. rewrite L.
    destruct (okw w) eqn:OKW.
    + destruct (okw (call_handler (leaf_handle b id) id OInit (set_state id Init w))) eqn:K.
      * split; [|rewrite okw_set_state; congruence]. intros _ i [<-|[]]. apply lst_set.
      * split.
        -- intro H. exfalso. (* shutdown cannot improve the status *)
           pose proof (exec_ok_before b (Leaf id) OShutdown _ H). congruence.
        -- intros _ i [<-|[]]. apply SH.
    + rewrite OKW. split.
      * intros H. unfold shutdown in H. rewrite L in H. congruence.
      * intros _ i [<-|[]]. apply SH.
  - intros w (s & Hs & A). intros i [<-|[]]. cbn [run_op]. apply SH.
  - intros w A. pose proof (A id (or_introl eq_refl)) as L. cbn [run_op]. rewrite L.
    destruct (okw w) eqn:OKW.
    + destruct (okw (call_handler (leaf_handle b id) id ORecover (set_state id Recover w))) eqn:K.
      * split; [|rewrite okw_set_state; congruence]. intros _ i [<-|[]]. apply lst_set.
      * split.
        -- intro H. exfalso. pose proof (exec_ok_before b (Leaf id) OHalt _ H). congruence.
        -- intros _ i [<-|[]]. unfold halt. rewrite CH, lst_set. cbn. rewrite Nat.eqb_refl. reflexivity.
    + rewrite OKW. unfold halt. rewrite L. cbn. split; [congruence|]. intros _ i [<-|[]]. assumption.
Qed.

(** Splitting the layers of a group. *)
Lemma group_all_in : forall s k id ms w,
  all_in s (Group k id ms) w <-> lst w id = s /\ forall m, In m ms -> all_in s m w.
Proof.
  intros. split.
  - intros A. split; [apply A; left; reflexivity|]. intros m Hm i Hi. apply A. right. eapply member_ids; eauto.
  - intros [A B] i [<-|Hi]; [assumption|]. apply in_concat in Hi. destruct Hi as (l & Hl & Hi).
    apply in_map_iff in Hl. destruct Hl as (m & <- & Hm). eapply B; eauto.
Qed.

Lemma members_set_state : forall s id x ms w, ~ In id (List.concat (map ids ms)) ->
  (forall m, In m ms -> all_in s m w) -> forall m, In m ms -> all_in s m (set_state id x w).
Proof.
  intros s id x ms w N A m Hm i Hi. cbn [set_state lst].
  assert (Nat.eqb i id = false) as -> by (apply Nat.eqb_neq; intro; subst; apply N; eapply member_ids; eauto).
  eapply A; eauto.
Qed.
Lemma members_uin_set_state : forall S id x ms w, ~ In id (List.concat (map ids ms)) ->
  (forall m, In m ms -> uin S m w) -> forall m, In m ms -> uin S m (set_state id x w).
Proof.
  intros S id x ms w N A m Hm. destruct (A m Hm) as (s & Hs & B). exists s. split; [assumption|].
  intros i Hi. cbn [set_state lst].
  assert (Nat.eqb i id = false) as -> by (apply Nat.eqb_neq; intro; subst; apply N; eapply member_ids; eauto).
  apply B; assumption.
Qed.

(** The handlers of the three kinds of groups differ in the order only. *)
Lemma group_write : forall b k id ms, exists cs, (cs = ms \/ cs = rev ms) /\
  forall w, group_handle k id (members b ms) OWrite w =
    call_or_fail (members b cs) id (fun (_ : op) w => call UNBOUNDED (members b ms) OHalt w) OWrite w.
Proof.
  intros. destruct k; [exists ms|exists (rev ms)|exists ms]; (split; [auto|]); intro w;
    cbn [group_handle]; rewrite ?members_rev; reflexivity.
Qed.
Lemma group_shut : forall b k id ms, exists cs, (cs = ms \/ cs = rev ms) /\
  forall w, group_handle k id (members b ms) OShutdown w = call UNBOUNDED (members b cs) OShutdown w.
Proof.
  intros. destruct k; [exists ms|exists (rev ms)|exists ms]; (split; [auto|]); intro w;
    cbn [group_handle]; rewrite ?members_rev; reflexivity.
Qed.
Lemma group_diag : forall b k id ms,
  (forall w, group_handle k id (members b ms) ODiag w = w) \/
  (forall w, group_handle k id (members b ms) ODiag w = call UNBOUNDED (members b ms) ODiag w).
Proof. intros. destruct k; auto. Qed.

Section group.
  Variables (b : behaviour) (k : gkind) (id : nat) (ms : list tree).
  Hypothesis Hid : ~ In id (List.concat (map ids ms)).
  Hypothesis FOP : ForallOrdPairs disjoint_ids ms.
  Hypothesis IH : forall m, In m ms -> together b m.
  Local Notation G := (Group k id ms).
  Local Notation h := (group_handle k id (members b ms)).

  Lemma call_lst_id : forall cs bd o w, (forall c, In c cs -> In c (members b ms)) ->
    lst (call bd cs o w) id = lst w id.
  Proof. intros. eapply call_frame; eassumption. Qed.

  Lemma halt_members : forall cs w, (cs = ms \/ cs = rev ms) ->
    (forall m, In m ms -> uin [Ready; Error] m w) ->
    forall m, In m ms -> all_in Error m (call UNBOUNDED (members b cs) OHalt w).
  Proof.
    intros cs w Hcs A m Hm. rewrite call_unbounded.
    assert (uin [Error] m (call_each (members b cs) OHalt w)) as (s & [<-|[]] & B); [|assumption].
    assert (Hin : forall x, In x cs <-> In x ms) by (destruct Hcs; subst; intro; [tauto|rewrite <- in_rev; tauto]).
    apply (call_each_uin b [Ready; Error] [Error] OHalt cs).
    - destruct Hcs; subst; [|apply FOP_rev]; assumption.
    - intros m' Hm' w' U. exists Error. split; [left; reflexivity|]. apply tg_halt; [|assumption].
      apply IH. apply Hin. assumption.
    - intros m' Hm'. apply A. apply Hin. assumption.
    - apply Hin. assumption.
  Qed.

  Lemma shutdown_members : forall cs w, (cs = ms \/ cs = rev ms) ->
    (forall m, In m ms -> uin [Off; Ready; Error] m w) ->
    forall m, In m ms -> all_in Off m (call UNBOUNDED (members b cs) OShutdown w).
  Proof.
    intros cs w Hcs A m Hm. rewrite call_unbounded.
    assert (uin [Off] m (call_each (members b cs) OShutdown w)) as (s & [<-|[]] & B); [|assumption].
    assert (Hin : forall x, In x cs <-> In x ms) by (destruct Hcs; subst; intro; [tauto|rewrite <- in_rev; tauto]).
    apply (call_each_uin b [Off; Ready; Error] [Off] OShutdown cs).
    - destruct Hcs; subst; [|apply FOP_rev]; assumption.
    - intros m' Hm' w' U. exists Off. split; [left; reflexivity|]. apply tg_shutdown; [|assumption].
      apply IH. apply Hin. assumption.
    - intros m' Hm'. apply A. apply Hin. assumption.
    - apply Hin. assumption.
  Qed.

  Lemma group_shutdown : forall w, lst w id <> Off -> (forall m, In m ms -> uin [Off; Ready; Error] m w) ->
    all_in Off G (shutdown h id w).
  Proof.
    intros w N A. unfold shutdown.
    assert (R : all_in Off G (set_state id Off (call_handler h id OShutdown (set_state id Shutdown w)))).
    { apply group_all_in. split; [apply lst_set|]. apply members_set_state; [assumption|].
      unfold call_handler.
      set (w1 := add_log (Start id OShutdown) (set_state id Shutdown w)).
      assert (A1 : forall m, In m ms -> uin [Off; Ready; Error] m w1).
      { apply (members_uin_set_state _ id Shutdown ms w Hid A). }
      intros m Hm. change (all_in Off m (h OShutdown w1)).
      destruct (group_shut b k id ms) as (cs & Hcs & E). rewrite E. apply shutdown_members; auto. }
    destruct (lst w id); try exact R. contradiction.
  Qed.

  Lemma group_halt_any : forall hh w,
    (hh = h \/ hh = (fun (_ : op) w => call UNBOUNDED (members b ms) OHalt w)) ->
    (lst w id = Ready \/ lst w id = Error \/ lst w id = Recover) ->
    (forall m, In m ms -> uin [Ready; Error] m w) ->
    (lst w id = Error -> forall m, In m ms -> all_in Error m w) ->
    all_in Error G (halt hh id w).
  Proof.
    intros hh w Hhh L A AE. unfold halt.
    assert (R : all_in Error G (set_state id Error (call_handler hh id OHalt (set_state id Halt w)))).
    { apply group_all_in. split; [apply lst_set|]. apply members_set_state; [assumption|].
      unfold call_handler.
      set (w1 := add_log (Start id OHalt) (set_state id Halt w)).
      assert (A1 : forall m, In m ms -> uin [Ready; Error] m w1).
      { apply (members_uin_set_state _ id Halt ms w Hid A). }
      intros m Hm. change (all_in Error m (hh OHalt w1)).
      assert (E : hh OHalt w1 = call UNBOUNDED (members b ms) OHalt w1) by (destruct Hhh; subst; reflexivity).
      rewrite E. apply halt_members; auto. }
    destruct L as [L|[L|L]].
    - rewrite L in *. exact R.
    - rewrite L in *. cbn. apply group_all_in. auto.
    - rewrite L in *. exact R.
  Qed.

  (** Cyclic calls of the members followed by the halt, if needed. *)
  Lemma group_call_or_fail : forall cs o w s, cyclic o = true -> (cs = ms \/ cs = rev ms) ->
    (s = Ready \/ s = Error) -> all_in s G w ->
    let w' := call_or_fail (members b cs) id (fun (_ : op) w => call UNBOUNDED (members b ms) OHalt w) o w in
    (okw w' = true -> all_in s G w') /\ (okw w' = false -> all_in Error G w').
  Proof.
    intros cs o w s Hc Hcs Hs A. cbv zeta. unfold call_or_fail.
    apply group_all_in in A. destruct A as [L A].
    assert (Hin : forall x, In x cs <-> In x ms) by (destruct Hcs; subst; intro; [tauto|rewrite <- in_rev; tauto]).
    assert (F : ForallOrdPairs disjoint_ids cs) by (destruct Hcs; subst; [|apply FOP_rev]; assumption).
    assert (Hsub : forall c, In c (members b cs) -> In c (members b ms)).
    { intros c H. apply in_members in H. destruct H as (m & Hm & ->). apply in_map. apply Hin. assumption. }
    set (w1 := call UNBOUNDED (members b cs) o w).
    assert (L1 : lst w1 id = s) by (unfold w1; rewrite call_lst_id; assumption).
    assert (U1 : forall m, In m ms -> uin [Ready; Error] m w1).
    { intros m Hm. unfold w1. rewrite call_unbounded.
      apply (call_each_uin b [s] [Ready; Error] o cs F); [| |apply Hin; assumption].
      - intros m' Hm' w' (s' & [<-|[]] & U). apply Hin in Hm'. destruct Hs; subst s.
        + apply (tg_cyclic b m' (IH m' Hm') o w' Hc U).
        + exists Error. split; [cbn; auto|]. apply (tg_cyclic_error b m' (IH m' Hm') o w' Hc U).
      - intros m' Hm'. exists s. split; [left; reflexivity|]. apply A. apply Hin. assumption. }
    assert (OK1 : okw w1 = true -> forall m, In m ms -> all_in s m w1).
    { intros K m Hm. unfold w1 in *. rewrite call_unbounded in *.
      apply (call_each_ok_uin b s s o cs F); [| |assumption|apply Hin; assumption].
      - intros m' Hm' w' U K'. apply Hin in Hm'. destruct Hs; subst s.
        + apply (tg_cyclic b m' (IH m' Hm') o w' Hc U). assumption.
        + apply (tg_cyclic_error b m' (IH m' Hm') o w' Hc U).
      - intros m' Hm'. apply A. apply Hin. assumption. }
    fold (okw w1). destruct (okw w1) eqn:K1.
    - split; [|congruence]. intros _. apply group_all_in. auto.
    - set (w2 := call UNBOUNDED (members b cs) OHalt w1).
      assert (A2 : forall m, In m ms -> all_in Error m w2) by (intros; apply halt_members; auto).
      assert (L2 : lst w2 id = s) by (unfold w2; rewrite call_lst_id; assumption).
      assert (E : all_in Error G (halt (fun (_ : op) w => call UNBOUNDED (members b ms) OHalt w) id w2)).
      { apply group_halt_any; auto.
        - rewrite L2. destruct Hs; auto.
        - intros m Hm. exists Error. split; [cbn; auto|auto]. }
      split; [|auto]. intro K. exfalso.
      assert (okw w1 = true); [|congruence].
      (* halting does not improve the status *)
      assert (K2 : okw w2 = true).
      { revert K. unfold halt. destruct (lgt (lst w2 id) Halt); [|auto]. unfold call_handler.
        intro K. change (okw (call UNBOUNDED (members b ms) OHalt (add_log (Start id OHalt) (set_state id Halt w2))) = true) in K.
        rewrite call_unbounded in K. apply call_each_ok_before in K. exact K. }
      unfold w2 in K2. rewrite call_unbounded in K2. apply call_each_ok_before in K2. exact K2.
  Qed.

  Lemma call_warn_lst : forall o w, lst (call WARN (members b ms) o w) id = lst w id.
  Proof. intros. apply call_lst_id. auto. Qed.

  Lemma h_ok_before : forall o w, o <> ORead -> o <> OWrite -> okw (h o w) = true -> okw w = true.
  Proof.
    intros o w N1 N2 H.
    assert (C : forall bd cs o w, (forall c, In c cs -> In c (members b ms)) -> okw (call bd cs o w) = true -> okw w = true).
    { intros bd cs o' w' Hc. unfold call. generalize (bounded bd (stat w')). intros s. revert w'.
      induction cs as [|c cs IHc]; intros w' K; [assumption|]. cbn [call_go] in K.
      assert (K' : okw (c o' w') = true).
      { destruct (s && negb (bounded bd (stat (c o' w')))); [assumption|]. apply IHc in K; [assumption|].
        intros x Hx. apply Hc. right. assumption. }
      destruct (in_members b ms c) as (m & _ & ->); [apply Hc; left; reflexivity|].
      apply exec_ok_before in K'. assumption. }
    destruct o; try contradiction.
    - destruct (group_diag b k id ms) as [Ed|Ed]; rewrite Ed in H; [assumption|].
      eapply C; [|exact H]; auto.
    - eapply C; [|exact H]; auto.
    - destruct (group_shut b k id ms) as (cs & Hcs & E). rewrite E in H. eapply C; [|exact H].
      intros c Hc. destruct Hcs; subst; [assumption|]. rewrite <- members_rev in Hc. apply in_rev in Hc. assumption.
    - eapply C; [|exact H]; auto.
    - eapply C; [|exact H]; auto.
  Qed.

  Lemma group_together : together b G.
  Proof.
    assert (RO : forall o w, exec b G o w = run_op h id o w) by reflexivity.
    assert (CYC : forall o w s, cyclic o = true -> (s = Ready \/ s = Error) -> all_in s G w ->
      exists w1, exec b G o w = add_log (End id o (okw w1)) w1 /\
        (okw w1 = true -> all_in s G w1) /\ (okw w1 = false -> all_in Error G w1)).
    { intros o w s Hc Hs A. pose proof (proj1 (group_all_in _ _ _ _ _) A) as [L _].
      assert (E : exec b G o w = call_handler h id o w).
      { rewrite RO. destruct o; try discriminate; cbn [run_op]; rewrite L; destruct Hs; subst s; reflexivity. }
      rewrite E. unfold call_handler.
      set (w0 := add_log (Start id o) w). assert (A0 : all_in s G w0) by exact A.
      exists (h o w0). split; [reflexivity|].
      destruct o; try discriminate.
      - apply group_call_or_fail; auto.
      - destruct (group_write b k id ms) as (cs & Hcs & Ew). rewrite Ew. apply group_call_or_fail; auto. }
    split.
    - intros o w Hc A. destruct (CYC o w Ready Hc ltac:(auto) A) as (w1 & E & H1 & H2). rewrite E.
      change (okw (add_log (End id o (okw w1)) w1)) with (okw w1).
      split; [intro K; exact (H1 K)|]. split.
      + destruct (okw w1) eqn:K.
        * exists Ready. split; [cbn; auto|]. exact (H1 eq_refl).
        * exists Error. split; [cbn; auto|]. exact (H2 eq_refl).
      + intros _ K. exact (H2 K).
    - intros o w Hc A. destruct (CYC o w Error Hc ltac:(auto) A) as (w1 & E & H1 & H2). rewrite E.
      destruct (okw w1) eqn:K; [exact (H1 eq_refl)|exact (H2 eq_refl)].
    - intros w s A. rewrite RO. cbn [run_op]. destruct (lgt (lst w id) Shutdown); [|assumption].
      unfold call_handler. set (w0 := add_log (Start id ODiag) w). assert (A0 : all_in s G w0) by exact A.
      change (all_in s G (h ODiag w0)). apply group_all_in in A0. destruct A0 as [L0 A0].
      destruct (group_diag b k id ms) as [Ed|Ed]; rewrite Ed; [apply group_all_in; auto|].
      apply group_all_in. split; [rewrite call_lst_id; auto|]. intros m Hm. rewrite call_unbounded.
      assert (uin [s] m (call_each (members b ms) ODiag w0)) as (s' & [<-|[]] & B); [|assumption].
      apply (call_each_uin b [s] [s] ODiag ms FOP); auto.
      + intros m' Hm' w' (s' & [<-|[]] & U). exists s. split; [left; reflexivity|]. apply tg_diag; auto.
      + intros m' Hm'. exists s. split; [left; reflexivity|auto].
    - intros w (s & Hs & A). rewrite RO. cbn [run_op]. apply group_all_in in A. destruct A as [L A].
      apply group_halt_any; auto.
      + destruct Hs as [<-|[<-|[]]]; auto.
      + intros m Hm. exists s. auto.
      + intros E m Hm. rewrite <- E, L. auto.
    - intros w A. rewrite RO. cbn [run_op]. apply group_all_in in A. destruct A as [L A]. rewrite L.
      destruct (okw w) eqn:OKW.
      + set (w0 := set_state id Init w). unfold call_handler.
        set (w1 := add_log (Start id OInit) w0).
        assert (A1 : forall m, In m ms -> all_in Off m w1) by (apply (members_set_state Off id Init ms w Hid A)).
        assert (L1 : lst w1 id = Init) by apply lst_set.
        destruct (call_warn_uin b Off Ready Off OInit ms FOP
          (fun m Hm w' U => tg_init b m (IH m Hm) w' U) w1 OKW A1) as [C1 C2].
        change (h OInit w1) with (call WARN (members b ms) OInit w1).
        set (w2 := call WARN (members b ms) OInit w1) in *.
        change (okw (add_log (End id OInit (okw w2)) w2)) with (okw w2).
        destruct (okw w2) eqn:K2.
        * split; [|rewrite okw_set_state; intro; change (okw w2 = false) in H; congruence].
          intros _. apply group_all_in. split; [apply lst_set|]. apply members_set_state; [assumption|].
          exact (C1 eq_refl).
        * set (w3 := add_log (End id OInit false) w2).
          assert (N : lst w3 id <> Off).
          { change (lst w2 id <> Off). unfold w2. rewrite call_warn_lst, L1. discriminate. }
          assert (SH : all_in Off G (shutdown h id w3)).
          { apply group_shutdown; [assumption|]. intros m Hm.
            destruct (C2 m Hm) as (s & Hs & B). exists s. split; [|exact B]. cbn in Hs |- *. tauto. }
          split; [|auto]. intro K. exfalso.
          assert (K3 : okw w3 = true).
          { revert K. unfold shutdown. destruct (lst w3 id); try (intro K; exact K);
              unfold call_handler; intro K;
              change (okw (h OShutdown (add_log (Start id OShutdown) (set_state id Shutdown w3))) = true) in K;
              apply h_ok_before in K; try discriminate; exact K. }
          change (okw w2 = true) in K3. congruence.
      + rewrite OKW. unfold shutdown. rewrite L. split; [congruence|]. intros _. apply group_all_in. auto.
    - intros w (s & Hs & A). rewrite RO. cbn [run_op]. apply group_all_in in A. destruct A as [L A].
      destruct Hs as [<-|Hs].
      + unfold shutdown. rewrite L. apply group_all_in. auto.
      + apply group_shutdown.
        * rewrite L. destruct Hs as [<-|[<-|[]]]; discriminate.
        * intros m Hm. exists s. split; [right; assumption|auto].
    - intros w A. rewrite RO. cbn [run_op]. apply group_all_in in A. destruct A as [L A]. rewrite L.
      destruct (okw w) eqn:OKW.
      + set (w0 := set_state id Recover w). unfold call_handler.
        set (w1 := add_log (Start id ORecover) w0).
        assert (A1 : forall m, In m ms -> all_in Error m w1) by (apply (members_set_state Error id Recover ms w Hid A)).
        assert (L1 : lst w1 id = Recover) by apply lst_set.
        destruct (call_warn_uin b Error Ready Error ORecover ms FOP
          (fun m Hm w' U => tg_recover b m (IH m Hm) w' U) w1 OKW A1) as [C1 C2].
        change (h ORecover w1) with (call WARN (members b ms) ORecover w1).
        set (w2 := call WARN (members b ms) ORecover w1) in *.
        change (okw (add_log (End id ORecover (okw w2)) w2)) with (okw w2).
        destruct (okw w2) eqn:K2.
        * split; [|rewrite okw_set_state; intro; change (okw w2 = false) in H; congruence].
          intros _. apply group_all_in. split; [apply lst_set|]. apply members_set_state; [assumption|].
          exact (C1 eq_refl).
        * set (w3 := add_log (End id ORecover false) w2).
          assert (N : lst w3 id = Recover).
          { change (lst w2 id = Recover). unfold w2. rewrite call_warn_lst, L1. reflexivity. }
          assert (SH : all_in Error G (halt h id w3)).
          { apply group_halt_any; auto.
            - intros m Hm. destruct (C2 m Hm) as (s & Hs & B). exists s. split; [|exact B]. cbn in Hs |- *. tauto.
            - rewrite N. discriminate. }
          split; [|auto]. intro K. exfalso.
          assert (K3 : okw w3 = true).
          { revert K. unfold halt. destruct (lgt (lst w3 id) Halt); [|intro K; exact K].
            unfold call_handler; intro K.
            change (okw (h OHalt (add_log (Start id OHalt) (set_state id Halt w3))) = true) in K.
            apply h_ok_before in K; try discriminate. exact K. }
          change (okw w2 = true) in K3. congruence.
      + rewrite OKW. unfold halt. rewrite L. cbn. split; [congruence|]. intros _. apply group_all_in. auto.
  Qed.
End group.

Lemma all_together : forall b t, NoDup (ids t) -> together b t.
Proof.
  intros b t. induction t as [id|k id ms IH] using tree_ind'; intros ND; [apply leaf_together|].
  cbn [ids] in ND. inversion ND as [|? ? Hid NDm]; subst.
  destruct (NoDup_concat ms NDm) as [NDs FOP].
  apply group_together; [assumption|assumption|].
  intros m Hm. rewrite Forall_forall in IH, NDs. auto.
Qed.
