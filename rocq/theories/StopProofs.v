From Verif Require Import Base LayerModel LayerSpec LayerProofs LayerGroupProofs LayerOrderProofs MotorSpec StopModel StopSpec.
From Verif Require MotorModel MotorProofs MotorProps.

(** ** The calls of one layer *)

Lemma calls_app : forall i a c, calls_of i (a ++ c) = calls_of i a ++ calls_of i c.
Proof. intros i a. induction a as [|[j o| |] a IH]; intros c; cbn; rewrite ?IH; try reflexivity. destruct (Nat.eqb j i); reflexivity. Qed.

Lemma calls_frame : forall b t o w i, ~ In i (ids t) ->
  lst (exec b t o w) i = lst w i /\ calls_of i (log (exec b t o w)) = calls_of i (log w).
Proof.
  intros b t o w i Hi.
  apply (exec_keeps (fun w' => lst w' i = lst w i /\ calls_of i (log w') = calls_of i (log w)) b t); [|auto].
  split; [|split].
  - intros e w' (A & B) He. cbn [add_log lst log]. rewrite calls_app, B. split; [assumption|].
    destruct e as [j o'|j o' ok|]; cbn; [|apply app_nil_r|contradiction].
    destruct He as [He _]. destruct (Nat.eqb_spec j i); [subst; contradiction|apply app_nil_r].
  - intros j s w' (A & B) Hj. cbn [set_state lst log]. split; [|assumption].
    destruct (Nat.eqb_spec i j); [subst; contradiction|assumption].
  - intros s r w' (A & B). cbn [report add_log lst log]. rewrite calls_app, B. split; [assumption|]. apply app_nil_r.
Qed.

(** Two worlds agree about the layers of a tree. *)
Definition agree (t : tree) (w w' : world) : Prop := forall i, In i (ids t) -> lst w i = lst w' i /\ calls_of i (log w) = calls_of i (log w').
Lemma agree_trans : forall t a c e, agree t a c -> agree t c e -> agree t a e.
Proof. intros t a c e H K i Hi. destruct (H i Hi), (K i Hi). split; congruence. Qed.
Lemma agree_sym : forall t a c, agree t a c -> agree t c a.
Proof. intros t a c H i Hi. destruct (H i Hi). auto. Qed.
Lemma agree_all_in : forall s t a c, agree t a c -> all_in s t a -> all_in s t c.
Proof. intros s t a c H A i Hi. destruct (H i Hi) as [<- _]. auto. Qed.
Lemma agree_frame : forall b m t o w, disjoint_ids m t -> agree m w (exec b t o w).
Proof. intros b m t o w D i Hi. destruct (calls_frame b t o w i (D i Hi)). auto. Qed.

Lemma agree_each : forall b m cs o w, (forall c, In c cs -> disjoint_ids m c) -> agree m w (call_each (members b cs) o w).
Proof.
  intros b m cs o. induction cs as [|c cs IH]; intros w D; cbn [members map call_each]; [intros i Hi; auto|].
  fold (members b cs). eapply agree_trans; [apply agree_frame, D; left; reflexivity|]. apply IH. intros c' Hc. apply D. right. exact Hc.
Qed.

(** A call of all members, seen by one of them *)
Lemma localize : forall b o cs m w, ForallOrdPairs disjoint_ids cs -> In m cs ->
  exists w1, agree m w w1 /\ agree m (exec b m o w1) (call_each (members b cs) o w) /\
    (okw (call_each (members b cs) o w) = true -> okw (exec b m o w1) = true).
Proof.
  intros b o cs m. induction cs as [|c cs IH]; intros w F [].
  - subst c. inversion F as [|? ? F1 F2]; subst. rewrite Forall_forall in F1. exists w. split; [intros i Hi; auto|].
    cbn [members map call_each]. fold (members b cs). split; [apply agree_each; exact F1|].
    apply call_each_ok_before.
  - inversion F as [|? ? F1 F2]; subst. rewrite Forall_forall in F1. cbn [members map call_each]. fold (members b cs).
    destruct (IH (exec b c o w) F2 H) as (w1 & A & B & C). exists w1. split; [|auto].
    eapply agree_trans; [apply (agree_frame b m c o w), disjoint_sym, F1, H|exact A].
Qed.

Definition adds (t : tree) (w w' : world) (l : list op) : Prop := forall i, In i (ids t) -> calls_of i (log w') = calls_of i (log w) ++ l.
Lemma adds_agree : forall t a a' c c' l, agree t a a' -> agree t c c' -> adds t a c l -> adds t a' c' l.
Proof. intros t a a' c c' l H K A i Hi. destruct (H i Hi) as [_ <-], (K i Hi) as [_ <-]. auto. Qed.
Lemma adds_trans : forall t a c e l k, adds t a c l -> adds t c e k -> adds t a e (l ++ k).
Proof. intros t a c e l k H K i Hi. rewrite (K i Hi), (H i Hi), app_assoc. reflexivity. Qed.

(** What a halt and a cyclic call do to the layers of a tree *)
Record effect (b : behaviour) (t : tree) : Prop := {
  ef_halt : forall w, all_in Ready t w -> all_in Error t (exec b t OHalt w) /\ adds t w (exec b t OHalt w) [OHalt];
  ef_ready : forall o w, cyclic o = true -> all_in Ready t w ->
     (all_in Ready t (exec b t o w) /\ adds t w (exec b t o w) [o]) \/
     (all_in Error t (exec b t o w) /\ adds t w (exec b t o w) [o; OHalt] /\ okw (exec b t o w) = false);
  ef_error : forall o w, cyclic o = true -> all_in Error t w ->
     all_in Error t (exec b t o w) /\ adds t w (exec b t o w) [o] }.

Lemma leaf_calls : forall b id o w i, calls_of i (log (leaf_handle b id o w)) = calls_of i (log w).
Proof.
  intros b id o w i. apply (leaf_inv (fun w' => calls_of i (log w') = calls_of i (log w))); [|reflexivity].
  intros l r w' E. cbn [report add_log log]. rewrite calls_app. cbn. rewrite app_nil_r. exact E.
Qed.
Lemma leaf_handler_calls : forall b id o w, calls_of id (log (call_handler (leaf_handle b id) id o w)) = calls_of id (log w) ++ [o].
Proof.
  intros b id o w. unfold call_handler. cbn [add_log log]. rewrite calls_app, leaf_calls. cbn [add_log log calls_of].
  rewrite calls_app. cbn. rewrite Nat.eqb_refl, app_nil_r. reflexivity.
Qed.

Lemma leaf_effect : forall b id, effect b (Leaf id).
Proof.
  intros b id. split; unfold exec; cbn [tid handle].
  - intros w A. pose proof (A id (or_introl eq_refl)) as L. cbn [run_op]. unfold halt. rewrite L.
    cbn [lgt lz Z.ltb Z.compare Pos.compare Pos.compare_cont]. split; intros i [<-|[]]; [apply lst_set|].
    cbn [set_state log]. rewrite leaf_handler_calls. reflexivity.
  - intros o w Hc A. left. pose proof (A id (or_introl eq_refl)) as L.
    assert (E : run_op (leaf_handle b id) id o w = call_handler (leaf_handle b id) id o w) by (destruct o; try discriminate Hc; cbn [run_op]; rewrite L; reflexivity).
    rewrite E. split; intros i [<-|[]]; [|apply leaf_handler_calls]. unfold call_handler. cbn [add_log lst]. rewrite leaf_lst. exact L.
  - intros o w Hc A. pose proof (A id (or_introl eq_refl)) as L.
    assert (E : run_op (leaf_handle b id) id o w = call_handler (leaf_handle b id) id o w) by (destruct o; try discriminate Hc; cbn [run_op]; rewrite L; reflexivity).
    rewrite E. split; intros i [<-|[]]; [|apply leaf_handler_calls]. unfold call_handler. cbn [add_log lst]. rewrite leaf_lst. exact L.
Qed.

Lemma each_unchanged : forall b cs w, (forall m, In m cs -> all_in Error m w) -> call_each (members b cs) OHalt w = w.
Proof.
  intros b cs. induction cs as [|m cs IH]; intros w A; cbn [members map call_each]; [reflexivity|]. fold (members b cs).
  rewrite (exec_unchanged b m OHalt w Error); [|apply A; left; reflexivity|auto]. apply IH. intros m' Hm. apply A. right. exact Hm.
Qed.

Section Group.
Variables (b : behaviour) (k : gkind) (id : nat) (ms : list tree).
Hypothesis Hid : ~ In id (List.concat (map ids ms)).
Hypothesis FOP : ForallOrdPairs disjoint_ids ms.
Hypothesis IH : forall m, In m ms -> effect b m.
Local Notation G := (Group k id ms).
Local Notation h := (group_handle k id (members b ms)).

Lemma root_other : forall m i, In m ms -> In i (ids m) -> i <> id.
Proof. intros m i Hm Hi ->. apply Hid. eapply member_ids; eassumption. Qed.

Lemma root_each : forall cs o w, (forall m, In m cs -> In m ms) ->
  lst (call_each (members b cs) o w) id = lst w id /\ calls_of id (log (call_each (members b cs) o w)) = calls_of id (log w).
Proof.
  induction cs as [|m cs IHc]; intros o w S0; cbn [members map call_each]; [auto|]. fold (members b cs).
  destruct (IHc o (exec b m o w)) as [A B]; [intros m' Hm; apply S0; right; exact Hm|].
  destruct (calls_frame b m o w id) as [C D]; [intro X; apply Hid; eapply member_ids; [apply S0; left; reflexivity|exact X]|].
  split; congruence.
Qed.

(** Logging and changes of the group itself are not noticed by the members. *)
Lemma agree_log : forall m e w, In m ms -> (match e with Start j _ => j = id | _ => True end) -> agree m w (add_log e w).
Proof.
  intros m e w Hm He i Hi. pose proof (root_other m i Hm Hi) as N. split; [reflexivity|]. cbn [add_log log]. rewrite calls_app.
  destruct e as [j o| |]; cbn; rewrite ?app_nil_r; try reflexivity. subst j. destruct (Nat.eqb_spec id i); [congruence|]. rewrite app_nil_r. reflexivity.
Qed.
Lemma agree_state : forall m s w, In m ms -> agree m w (set_state id s w).
Proof. intros m s w Hm i Hi. pose proof (root_other m i Hm Hi) as N. split; [|reflexivity]. cbn. destruct (Nat.eqb_spec i id); congruence. Qed.

(** The members one after the other *)
Lemma each_halt : forall cs w, (forall m, In m cs -> In m ms) -> ForallOrdPairs disjoint_ids cs -> forall m, In m cs ->
  (all_in Ready m w -> all_in Error m (call_each (members b cs) OHalt w) /\ adds m w (call_each (members b cs) OHalt w) [OHalt]) /\
  (all_in Error m w -> all_in Error m (call_each (members b cs) OHalt w) /\ adds m w (call_each (members b cs) OHalt w) []).
Proof.
  intros cs w S0 F m Hm. destruct (localize b OHalt cs m w F Hm) as (w1 & A & B & _). split; intros R; pose proof (agree_all_in _ _ _ _ A R) as R1.
  - destruct (ef_halt b m (IH m (S0 m Hm)) w1 R1) as [E1 E2]. split; [exact (agree_all_in _ _ _ _ B E1)|exact (adds_agree _ _ _ _ _ _ (agree_sym _ _ _ A) B E2)].
  - rewrite (exec_unchanged b m OHalt w1 Error R1) in B by auto. split; [exact (agree_all_in _ _ _ _ B R1)|].
    refine (adds_agree _ _ _ _ _ _ (agree_sym _ _ _ A) B _). intros i Hi. rewrite app_nil_r. reflexivity.
Qed.

Lemma cof_effect : forall cs o s w, (cs = ms \/ cs = rev ms) -> cyclic o = true -> lst w id = s -> (s = Ready \/ s = Error) ->
  (forall m, In m ms -> all_in s m w) ->
  let w' := call_or_fail (members b cs) id (fun (_ : op) w => call UNBOUNDED (members b ms) OHalt w) o w in
  (s = Ready -> (okw w' = true \/ okw w' = false) /\
     (okw w' = true -> lst w' id = Ready /\ calls_of id (log w') = calls_of id (log w) /\ forall m, In m ms -> all_in Ready m w' /\ adds m w w' [o]) /\
     (okw w' = false -> lst w' id = Error /\ calls_of id (log w') = calls_of id (log w) ++ [OHalt] /\ forall m, In m ms -> all_in Error m w' /\ adds m w w' [o; OHalt])) /\
  (s = Error -> lst w' id = Error /\ calls_of id (log w') = calls_of id (log w) /\ forall m, In m ms -> all_in Error m w' /\ adds m w w' [o]).
Proof.
  intros cs o s w Hcs Hc L Hs AM w'. subst w'. unfold call_or_fail. rewrite !call_unbounded. fold (okw (call_each (members b cs) o w)).
  set (w1 := call_each (members b cs) o w).
  assert (Hin : forall x, In x cs <-> In x ms) by (destruct Hcs; subst cs; intro; [tauto|rewrite <- in_rev; tauto]).
  assert (Fcs : ForallOrdPairs disjoint_ids cs) by (destruct Hcs; subst cs; [|apply FOP_rev]; assumption).
  assert (Sub : forall m, In m cs -> In m ms) by (intros m; apply Hin).
  destruct (root_each cs o w Sub) as [L1 C1]. fold w1 in L1, C1.
  assert (M1 : forall m, In m ms ->
    (s = Ready -> (all_in Ready m w1 /\ adds m w w1 [o]) \/ (all_in Error m w1 /\ adds m w w1 [o; OHalt] /\ okw w1 = false)) /\
    (s = Error -> all_in Error m w1 /\ adds m w w1 [o])).
  { intros m Hm. destruct (localize b o cs m w Fcs (proj2 (Hin m) Hm)) as (x & A & B & K). fold w1 in B, K.
    pose proof (agree_all_in _ _ _ _ A (AM m Hm)) as R. split; intros ->.
    - destruct (ef_ready b m (IH m Hm) o x Hc R) as [[E1 E2]|(E1 & E2 & E3)]; [left|right].
      + split; [exact (agree_all_in _ _ _ _ B E1)|exact (adds_agree _ _ _ _ _ _ (agree_sym _ _ _ A) B E2)].
      + split; [exact (agree_all_in _ _ _ _ B E1)|]. split; [exact (adds_agree _ _ _ _ _ _ (agree_sym _ _ _ A) B E2)|].
        destruct (okw w1); [rewrite K in E3 by reflexivity; discriminate|reflexivity].
    - destruct (ef_error b m (IH m Hm) o x Hc R) as [E1 E2].
      split; [exact (agree_all_in _ _ _ _ B E1)|exact (adds_agree _ _ _ _ _ _ (agree_sym _ _ _ A) B E2)]. }
  destruct (okw w1) eqn:OK1.
  - split.
    + intros ->. split; [left; exact OK1|]. split; [|congruence]. intros _. split; [congruence|]. split; [congruence|].
      intros m Hm. destruct (proj1 (M1 m Hm) eq_refl) as [E|(_ & _ & X)]; [exact E|discriminate].
    + intros ->. split; [congruence|]. split; [congruence|]. intros m Hm. exact (proj2 (M1 m Hm) eq_refl).
  - set (w2 := call_each (members b cs) OHalt w1). destruct (root_each cs OHalt w1 Sub) as [L2 C2]. fold w2 in L2, C2.
    assert (OK2 : okw w2 = false) by (destruct (okw w2) eqn:X; [apply call_each_ok_before in X; congruence|reflexivity]).
    assert (M2 : forall m, In m ms -> all_in Error m w2 /\ (s = Ready -> adds m w w2 [o; OHalt]) /\ (s = Error -> adds m w w2 [o])).
    { intros m Hm. destruct (each_halt cs w1 Sub Fcs m (proj2 (Hin m) Hm)) as [H1 H2]. fold w2 in H1, H2. destruct (M1 m Hm) as [N1 N2].
      destruct Hs as [Hs|Hs].
      - destruct (N1 Hs) as [[E1 E2]|(E1 & E2 & _)].
        + destruct (H1 E1) as [E3 E4]. split; [exact E3|]. split; [|congruence]. intros _. exact (adds_trans _ _ _ _ _ _ E2 E4).
        + destruct (H2 E1) as [E3 E4]. split; [exact E3|]. split; [|congruence]. intros _. exact (adds_trans _ _ _ _ _ _ E2 E4).
      - destruct (N2 Hs) as [E1 E2]. destruct (H2 E1) as [E3 E4]. split; [exact E3|]. split; [congruence|]. intros _. exact (adds_trans _ _ _ _ _ _ E2 E4). }
    assert (L2s : lst w2 id = s) by congruence. unfold halt. rewrite L2s. split; intros ->.
    + cbn [lgt lz Z.ltb Z.compare Pos.compare Pos.compare_cont]. unfold call_handler.
      set (w3 := add_log (Start id OHalt) (set_state id Halt w2)). cbn [group_handle].
      assert (M3 : forall m, In m ms -> agree m w2 w3).
      { intros m Hm. eapply agree_trans; [apply (agree_state m Halt w2 Hm)|]. apply (agree_log m (Start id OHalt) _ Hm). reflexivity. }
      rewrite call_unbounded, each_unchanged by (intros m Hm; apply (agree_all_in _ _ _ _ (M3 m Hm)), M2, Hm).
      set (w4 := set_state id Error (add_log (End id OHalt (okw w3)) w3)).
      assert (OK4 : okw w4 = false) by exact OK2.
      split; [right; exact OK4|]. split; [congruence|]. intros _. split; [apply lst_set|]. split.
      * unfold w4, w3. cbn [set_state add_log log]. rewrite !calls_app. cbn. rewrite Nat.eqb_refl, app_nil_r. congruence.
      * intros m Hm. destruct (M2 m Hm) as (E1 & E2 & _).
        assert (M4 : agree m w2 w4).
        { eapply agree_trans; [apply (M3 m Hm)|]. eapply agree_trans; [apply (agree_log m (End id OHalt (okw w3)) w3 Hm); exact Logic.I|]. apply (agree_state m Error _ Hm). }
        split; [exact (agree_all_in _ _ _ _ M4 E1)|]. refine (adds_agree _ w w _ _ _ _ M4 (E2 eq_refl)). intros i Hi. auto.
    + cbn [lgt lz Z.ltb Z.compare Pos.compare Pos.compare_cont]. split; [congruence|]. split; [congruence|].
      intros m Hm. destruct (M2 m Hm) as (E1 & _ & E3). auto.
Qed.

Lemma group_effect : effect b G.
Proof.
  assert (RO : forall o w, exec b G o w = run_op h id o w) by reflexivity.
  assert (HW : forall o, cyclic o = true -> exists cs, (cs = ms \/ cs = rev ms) /\ forall w,
     h o w = call_or_fail (members b cs) id (fun (_ : op) w => call UNBOUNDED (members b ms) OHalt w) o w).
  { intros o Hc. destruct o; try discriminate Hc.
    - exists ms. split; [auto|]. reflexivity.
    - destruct (group_write b k id ms) as (cs & E & H). exists cs. split; [exact E|exact H]. }
  assert (CY : forall o s w, cyclic o = true -> (s = Ready \/ s = Error) -> lst w id = s -> exec b G o w = call_handler h id o w).
  { intros o s w Hc Hs L. rewrite RO. destruct o; try discriminate Hc; cbn [run_op]; rewrite L; destruct Hs; subst s; reflexivity. }
  (* from the handler to the call *)
  assert (UP : forall o w x l, cyclic o = true -> x = call_handler h id o w -> 
     let w0 := add_log (Start id o) w in let w1 := h o w0 in
     forall s, lst w1 id = s -> calls_of id (log w1) = calls_of id (log w0) ++ l -> (forall m, In m ms -> all_in s m w1 /\ adds m w0 w1 (o :: l)) ->
     all_in s G x /\ adds G w x (o :: l)).
  { intros o w x l Hc -> w0 w1 s L C M. unfold call_handler. fold w0 w1. split.
    - apply group_all_in. split; [exact L|]. intros m Hm. destruct (M m Hm) as [A _]. exact (agree_all_in _ _ _ _ (agree_log m (End id o (okw w1)) w1 Hm Logic.I) A).
    - intros i Hi. cbn [ids] in Hi. destruct Hi as [<-|Hi].
      + cbn [add_log log]. rewrite calls_app. cbn. rewrite app_nil_r, C. unfold w0. cbn [add_log log]. rewrite calls_app. cbn. rewrite Nat.eqb_refl, <- app_assoc. reflexivity.
      + apply in_concat in Hi as (q & Hq & Hi). apply in_map_iff in Hq as (m & <- & Hm). destruct (M m Hm) as [_ A].
        refine (adds_agree m w0 w w1 _ (o :: l) (agree_sym _ _ _ (agree_log m (Start id o) w Hm eq_refl)) (agree_log m (End id o (okw w1)) w1 Hm Logic.I) A i Hi). }
  split.
  - intros w A. pose proof (proj1 (group_all_in _ _ _ _ _) A) as [L AM]. rewrite RO. cbn [run_op]. unfold halt. rewrite L.
    cbn [lgt lz Z.ltb Z.compare Pos.compare Pos.compare_cont]. unfold call_handler. cbn [group_handle]. rewrite call_unbounded.
    set (w0 := add_log (Start id OHalt) (set_state id Halt w)). set (w1 := call_each (members b ms) OHalt w0).
    assert (M0 : forall m, In m ms -> agree m w w0).
    { intros m Hm. eapply agree_trans; [apply (agree_state m Halt w Hm)|]. apply (agree_log m (Start id OHalt) _ Hm). reflexivity. }
    assert (M1 : forall m, In m ms -> all_in Error m w1 /\ adds m w0 w1 [OHalt]).
    { intros m Hm. apply (each_halt ms w0 (fun m H => H) FOP m Hm). exact (agree_all_in _ _ _ _ (M0 m Hm) (AM m Hm)). }
    destruct (root_each ms OHalt w0 (fun m H => H)) as [L1 C1]. fold w1 in L1, C1.
    set (w2 := set_state id Error (add_log (End id OHalt (okw w1)) w1)).
    assert (M2 : forall m, In m ms -> agree m w1 w2).
    { intros m Hm. eapply agree_trans; [apply (agree_log m (End id OHalt (okw w1)) w1 Hm); exact Logic.I|]. apply (agree_state m Error _ Hm). }
    split.
    + apply group_all_in. split; [apply lst_set|]. intros m Hm. exact (agree_all_in _ _ _ _ (M2 m Hm) (proj1 (M1 m Hm))).
    + intros i Hi. cbn [ids] in Hi. destruct Hi as [<-|Hi].
      * unfold w2. cbn [set_state add_log log]. rewrite calls_app. cbn. rewrite app_nil_r, C1. unfold w0. cbn [set_state add_log log]. rewrite calls_app. cbn. rewrite Nat.eqb_refl. reflexivity.
      * apply in_concat in Hi as (q & Hq & Hi). apply in_map_iff in Hq as (m & <- & Hm).
        exact (adds_agree m w0 w w1 w2 [OHalt] (agree_sym _ _ _ (M0 m Hm)) (M2 m Hm) (proj2 (M1 m Hm)) i Hi).
  - intros o w Hc A. pose proof (proj1 (group_all_in _ _ _ _ _) A) as [L AM]. destruct (HW o Hc) as (cs & Hcs & EH).
    pose proof (CY o Ready w Hc (or_introl eq_refl) L) as EX. set (w0 := add_log (Start id o) w).
    destruct (cof_effect cs o Ready w0 Hcs Hc L (or_introl eq_refl)) as [R _].
    { intros m Hm. exact (agree_all_in _ _ _ _ (agree_log m (Start id o) w Hm eq_refl) (AM m Hm)). }
    rewrite <- EH in R. destruct (R eq_refl) as (OKc & R1 & R2). destruct OKc as [O|O].
    + left. destruct (R1 O) as (A1 & A2 & A3). apply (UP o w _ [] Hc EX Ready A1); [rewrite app_nil_r; exact A2|exact A3].
    + right. destruct (R2 O) as (A1 & A2 & A3). destruct (UP o w _ [OHalt] Hc EX Error A1 A2 A3) as [U1 U2]. split; [exact U1|]. split; [exact U2|].
      rewrite EX. exact O.
  - intros o w Hc A. pose proof (proj1 (group_all_in _ _ _ _ _) A) as [L AM]. destruct (HW o Hc) as (cs & Hcs & EH).
    pose proof (CY o Error w Hc (or_intror eq_refl) L) as EX. set (w0 := add_log (Start id o) w).
    destruct (cof_effect cs o Error w0 Hcs Hc L (or_intror eq_refl)) as [_ R].
    { intros m Hm. exact (agree_all_in _ _ _ _ (agree_log m (Start id o) w Hm eq_refl) (AM m Hm)). }
    rewrite <- EH in R. destruct (R eq_refl) as (A1 & A2 & A3). apply (UP o w _ [] Hc EX Error A1); [rewrite app_nil_r; exact A2|exact A3].
Qed.
End Group.

Lemma all_effect : forall b t, NoDup (ids t) -> effect b t.
Proof.
  intros b t. induction t as [id|k id ms IH] using tree_ind'; intros ND; [apply leaf_effect|].
  cbn [ids] in ND. inversion ND as [|? ? Hid NDm]; subst. destruct (NoDup_concat ms NDm) as [NDs FOP].
  apply group_effect; [assumption|assumption|]. intros m Hm. rewrite Forall_forall in IH, NDs. auto.
Qed.

(** A cyclic call of a group that is ready *)
Lemma group_calls : forall b t o w, NoDup (ids t) -> is_group t -> cyclic o = true -> all_in Ready t w ->
  (okw (exec b t o w) = true -> all_in Ready t (exec b t o w) /\ adds t w (exec b t o w) [o]) /\
  (okw (exec b t o w) = false -> all_in Error t (exec b t o w) /\ adds t w (exec b t o w) [o; OHalt]).
Proof.
  intros b t o w ND Hg Hc A. destruct (tg_cyclic b t (all_together b t ND) o w Hc A) as (T1 & _ & T2).
  destruct (ef_ready b t (all_effect b t ND) o w Hc A) as [[E1 E2]|(E1 & E2 & E3)]; split; intros O; [auto| | |auto].
  - specialize (T2 Hg O (tid t) (root_in t)). specialize (E1 (tid t) (root_in t)). congruence.
  - congruence.
Qed.

(** ** Logs only grow *)
Lemma exec_log : forall b t o w, exists l, log (exec b t o w) = log w ++ l.
Proof.
  intros b t o w. apply (exec_keeps (fun w' => exists l, log w' = log w ++ l) b t); [|exists []; rewrite app_nil_r; reflexivity].
  split; [|split].
  - intros e w' (l & E) _. exists (l ++ [e]). cbn [add_log log]. rewrite E, app_assoc. reflexivity.
  - intros i s w' (l & E) _. exists l. exact E.
  - intros s r w' (l & E). exists (l ++ [Report s r]). cbn [report add_log log]. rewrite E, app_assoc. reflexivity.
Qed.
Lemma exec_all_log : forall b t calls w, exists l, log (exec_all b t calls w) = log w ++ l.
Proof.
  intros b t calls. induction calls as [|[o s] calls IH]; intros w; [exists []; rewrite app_nil_r; reflexivity|].
  unfold exec_all. cbn [fold_left fst snd]. fold (exec_all b t calls (exec b t o (with_status s w))).
  destruct (IH (exec b t o (with_status s w))) as [l E]. destruct (exec_log b t o (with_status s w)) as [k F]. exists (k ++ l).
  rewrite E, F, app_assoc. reflexivity.
Qed.

(** ** Only quiet handlers run in quiet calls. *)
Lemma calls_started : forall i l o, In o (calls_of i l) -> started o l <> [].
Proof.
  intros i l o. induction l as [|[j q| |] l IH]; cbn; [tauto| |exact IH|exact IH].
  destruct (op_eqb o q) eqn:E; [intros _; discriminate|]. destruct (Nat.eqb j i); [|exact IH].
  intros [->|H]; [|exact (IH H)]. rewrite (proj2 (op_eqb_spec o o) eq_refl) in E. discriminate.
Qed.
Lemma exec_quiet : forall b t o w i l, quiet o -> log (exec b t o w) = log w ++ l -> Forall quiet (calls_of i l).
Proof.
  intros b t o w i l Q E. apply Forall_forall. intros q Hq. apply calls_started in Hq.
  assert (D : In q (allowed o) \/ ~ In q (allowed o)).
  { destruct (in_dec (fun a c : op => ltac:(decide equality) : {a = c} + {a <> c}) q (allowed o)); auto. }
  destruct D as [D|D].
  - unfold quiet in *. destruct Q as [->|[->|[->| ->]]]; cbn in D; intuition congruence.
  - exfalso. apply Hq. pose proof (exec_only b t o q w D) as S0. rewrite E, started_app in S0.
    rewrite <- (app_nil_r (started q (log w))) in S0 at 2. exact (app_inv_head _ _ _ S0).
Qed.
Lemma exec_all_quiet : forall b t calls w i l, Forall quiet (map fst calls) -> log (exec_all b t calls w) = log w ++ l -> Forall quiet (calls_of i l).
Proof.
  intros b t calls. induction calls as [|[o s] calls IH]; intros w i l Q E.
  - cbn in E. rewrite <- (app_nil_r (log w)) in E at 1. apply app_inv_head in E. subst l. constructor.
  - unfold exec_all in E. cbn [fold_left fst snd] in E. fold (exec_all b t calls (exec b t o (with_status s w))) in E.
    cbn [map fst] in Q. inversion Q as [|? ? Q1 Q2]; subst. destruct (exec_log b t o (with_status s w)) as [k F].
    destruct (exec_all_log b t calls (exec b t o (with_status s w))) as [k2 F2].
    assert (L : l = k ++ k2). { rewrite F2, F, <- app_assoc in E. apply app_inv_head in E. symmetry. exact E. }
    subst l. rewrite calls_app. apply Forall_app. split; [exact (exec_quiet b t o (with_status s w) i k Q1 F)|exact (IH _ i k2 Q2 F2)].
Qed.

(** Layers in the error state stay there and are written in every write. *)
Definition count_writes (l : list op) : nat := List.length (List.filter (op_eqb OWrite) l).
Lemma count_app : forall a c, count_writes (a ++ c) = (count_writes a + count_writes c)%nat.
Proof. intros a c. unfold count_writes. rewrite filter_app, app_length. reflexivity. Qed.
Lemma exec_all_error : forall b t calls w i l, NoDup (ids t) -> all_in Error t w -> In i (ids t) -> Forall quiet (map fst calls) ->
  log (exec_all b t calls w) = log w ++ l -> count_writes (calls_of i l) = writes calls.
Proof.
  intros b t calls. induction calls as [|[o s] calls IH]; intros w i l ND A Hi Q E.
  - cbn in E. rewrite <- (app_nil_r (log w)) in E at 1. apply app_inv_head in E. subst l. reflexivity.
  - unfold exec_all in E. cbn [fold_left fst snd] in E. fold (exec_all b t calls (exec b t o (with_status s w))) in E.
    cbn [map fst] in Q. inversion Q as [|? ? Q1 Q2]; subst. destruct (exec_log b t o (with_status s w)) as [k F].
    destruct (exec_all_log b t calls (exec b t o (with_status s w))) as [k2 F2].
    assert (L : l = k ++ k2). { rewrite F2, F, <- app_assoc in E. apply app_inv_head in E. symmetry. exact E. }
    subst l. rewrite calls_app, count_app. assert (A0 : all_in Error t (with_status s w)) by exact A.
    assert (ST : all_in Error t (exec b t o (with_status s w)) /\ count_writes (calls_of i k) = if op_eqb o OWrite then 1%nat else 0%nat).
    { assert (CY : cyclic o = true -> all_in Error t (exec b t o (with_status s w)) /\ calls_of i k = [o]).
      { intros Hc. destruct (ef_error b t (all_effect b t ND) o (with_status s w) Hc A0) as [E1 E2]. split; [exact E1|].
        specialize (E2 i Hi). rewrite F, calls_app in E2. exact (app_inv_head _ _ _ E2). }
      destruct Q1 as [->|[->|[->| ->]]].
      - destruct (CY eq_refl) as [C1 ->]. auto.
      - destruct (CY eq_refl) as [C1 ->]. auto.
      - split; [apply (tg_diag b t (all_together b t ND)); exact A0|]. unfold count_writes.
        pose proof (exec_only b t ODiag OWrite (with_status s w) ltac:(cbn; intuition congruence)) as S0. rewrite F, started_app in S0.
        rewrite <- (app_nil_r (started OWrite (log (with_status s w)))) in S0 at 2. apply app_inv_head in S0.
        assert (N : ~ In OWrite (calls_of i k)) by (intro X; exact (calls_started i k OWrite X S0)). clear - N. cbn [op_eqb].
        induction (calls_of i k) as [|q c IH]; [reflexivity|]. cbn. destruct (op_eqb OWrite q) eqn:X; [apply op_eqb_spec in X; subst; exfalso; apply N; left; reflexivity|].
        destruct q; try discriminate X; apply IH; intro Y; apply N; right; exact Y.
      - rewrite (exec_unchanged b t OHalt (with_status s w) Error A0) in F |- * by auto. split; [exact A0|].
        rewrite <- (app_nil_r (log (with_status s w))) in F at 1. apply app_inv_head in F. subst k. reflexivity. }
    destruct ST as [S1 S2]. rewrite S2, (IH _ i k2 ND S1 Hi Q2 F2). unfold writes. cbn [List.filter fst]. destruct (op_eqb o OWrite); reflexivity.
Qed.

(** ** The drive *)

(** Calls with the moments they happen at *)
Definition react_op (v : env) (x : list event * op) (d : drive) : drive * option Z :=
  match snd x with
  | ORead => (drive_read (sees v (fst x)) d, None)
  | OHalt => (drive_halt d, None)
  | OWrite => drive_write (uses v (fst x)) (displays v (fst x)) (throws v (fst x)) d
  | _ => (d, None)
  end.
Fixpoint replay (v : env) (l : list (list event * op)) (d : drive) : drive * list Z :=
  match l with
  | [] => (d, [])
  | x :: l => let (d1, o) := react_op v x d in let (d2, ws) := replay v l d1 in (d2, match o with Some w => w :: ws | None => ws end)
  end.
Lemma follow_replay : forall i v l past d, exists xs, map snd xs = calls_of i l /\ follow i v past l d = replay v xs d.
Proof.
  intros i v l. induction l as [|e l IH]; intros past d; [exists []; auto|]. cbn [follow].
  assert (SK : (exists xs, map snd xs = calls_of i l /\ (let (d2, ws) := follow i v (past ++ [e]) l d in (d2, ws)) = replay v xs d)).
  { destruct (IH (past ++ [e]) d) as (xs & E1 & E2). exists xs. split; [exact E1|]. rewrite <- E2. destruct (follow _ _ _ _ _); reflexivity. }
  destruct e as [j o|j o k|s r]; cbn [react calls_of]; [|exact SK|exact SK]. destruct (Nat.eqb j i); [|exact SK].
  set (r := react_op v (past, o) d).
  assert (R : match o with ORead => (drive_read (sees v past) d, None) | OHalt => (drive_halt d, None)
              | OWrite => drive_write (uses v past) (displays v past) (throws v past) d | _ => (d, None) end = r) by (destruct o; reflexivity).
  rewrite R. destruct r as [d1 w] eqn:Er. destruct (IH (past ++ [Start j o]) d1) as (xs & E1 & E2). exists ((past, o) :: xs).
  split; [cbn; rewrite E1; reflexivity|]. cbn [replay]. fold r. rewrite Er, E2. reflexivity.
Qed.

Lemma stops_bits : forall w, stops w <-> Z.testbit w 7 = false /\ Z.testbit w 2 = false /\ Z.testbit w 1 = true.
Proof.
  intros w. unfold stops. cbn [drive_step]. unfold command_of.
  generalize (Z.testbit w 0) (Z.testbit w 1) (Z.testbit w 2) (Z.testbit w 3) (Z.testbit w 7). intros [] [] [] [] [];
    (split; [intros H; specialize (H true); cbn in H; (discriminate H || auto)|intros (A & B & C) _; (discriminate || reflexivity)]).
Qed.

(** Bits of the state machine, except that writes of the mode do not touch them *)
Lemma write_bits : forall sel shown f d d1 o i, drive_write sel shown f d = (d1, o) -> 0 <= i -> ~ mode_bit i -> i <> 8 ->
  Z.testbit (word d1) i = Z.testbit (word d) i /\
  (forall w, o = Some w -> i <> 7 -> Z.testbit w i = Z.testbit (word d) i) /\ (forall w, o = Some w -> Z.testbit w i = true -> Z.testbit (word d) i = true).
Proof.
  intros sel shown f d d1 o i H Hi M N.
  assert (U : forall d1 o, (let '(cw, sent, sfr) := MotorModel.handle_write (known d) sel shown (fault_reset d) (word d) in (mkDrive (known d) cw sfr, Some sent)) = (d1, o) ->
    Z.testbit (word d1) i = Z.testbit (word d) i /\ (forall w, o = Some w -> i <> 7 -> Z.testbit w i = Z.testbit (word d) i) /\
    (forall w, o = Some w -> Z.testbit w i = true -> Z.testbit (word d) i = true)).
  { clear H d1 o. intros d1 o H. destruct (MotorModel.handle_write _ _ _ _ _) as [[cw sent] sfr] eqn:HW. injection H as <- <-. cbn [word].
    destruct (MotorProps.C51_state_bits _ _ _ _ _ _ _ _ i HW Hi M N) as [B1 B2]. split; [exact B1|]. split.
    - intros w E N7. injection E as <-. rewrite B2, (proj2 (Z.eqb_neq i 7) N7), andb_false_r. reflexivity.
    - intros w E. injection E as <-. rewrite B2. destruct (fault_reset d && (i =? 7)); congruence. }
  unfold drive_write in H. destruct sel as [[m b]|]; [|exact (U _ _ H)].
  destruct (MotorModel.state_eqb _ _ && (m =? shown) && f) eqn:E; [|exact (U _ _ H)]. injection H as <- <-. cbn [word]. split; [|split; intros; discriminate].
  apply andb_prop in E as [E _]. apply andb_prop in E as [E1 E2]. apply Z.eqb_eq in E2. subst m.
  set (b' := MotorModel.mkBeh (MotorModel.acts b) (fun _ => false)).
  destruct (MotorModel.handle_write (known d) (Some (shown, b')) shown false (word d)) as [[cw sent] sfr] eqn:HW.
  destruct (MotorProps.C51_state_bits _ _ _ _ _ _ _ _ i HW Hi M N) as [B1 _]. rewrite <- B1.
  unfold MotorModel.handle_write in HW. rewrite E1, Z.eqb_refl in HW. cbn [b' MotorModel.acts MotorModel.okay] in HW. injection HW as <- _ _. reflexivity.
Qed.

Lemma write_known : forall sel shown f d d1 o, drive_write sel shown f d = (d1, o) -> known d1 = known d /\ (f = false -> exists w, o = Some w).
Proof.
  intros sel shown f d d1 o H. unfold drive_write in H. destruct (MotorModel.handle_write _ _ _ _ _) as [[cw sent] sfr].
  destruct sel as [[m b]|].
  - destruct (MotorModel.state_eqb _ _ && (m =? shown)); cbn [andb] in H; [destruct f|]; injection H as <- <-; (split; [reflexivity|]); eauto; discriminate.
  - injection H as <- <-. split; [reflexivity|]; eauto.
Qed.

Lemma quick_word : forall c, stops (MotorModel.apply_op MotorModel.quickstop c).
Proof.
  intros c. apply stops_bits. unfold MotorModel.apply_op, MotorModel.quickstop. cbn [MotorModel.to_set MotorModel.to_reset].
  rewrite !Z.lor_spec, !Z.land_spec, !Z.lnot_spec by lia. vm_compute (MotorModel.bit _). vm_compute (MotorModel.bit _ + _).
  cbn. rewrite !andb_false_r, !orb_true_r. auto.
Qed.
Lemma halt_word : forall d, known (drive_halt d) = known d /\ fault_reset (drive_halt d) = fault_reset d /\
  (known d = MotorModel.OperationEnable -> stops (word (drive_halt d))) /\ (known d <> MotorModel.OperationEnable -> word (drive_halt d) = word d).
Proof.
  intros [k w f]. unfold drive_halt. cbn [known word fault_reset].
  destruct k; vm_compute (MotorModel.state_eqb _ _); cbn [orb known word fault_reset]; try (repeat split; congruence).
  unfold MotorModel.set_transition. vm_compute (MotorModel.state_eqb _ _). cbn [andb MotorModel.transition known word fault_reset].
  repeat split; [|congruence]. intros _. apply quick_word.
Qed.

(** Whatever quiet happens, a word that stops stays one. *)
Lemma replay_stops : forall v xs d, Forall quiet (map snd xs) -> stops (word d) ->
  Forall stops (snd (replay v xs d)) /\ stops (word (fst (replay v xs d))).
Proof.
  intros v xs. induction xs as [|[p o] xs IH]; intros d Q S0; [split; [constructor|exact S0]|]. cbn [map snd] in Q. inversion Q as [|? ? Q1 Q2]; subst.
  cbn [replay]. destruct (react_op v (p, o) d) as [d1 w] eqn:E.
  assert (S1 : stops (word d1) /\ forall x, w = Some x -> stops x).
  { unfold react_op in E. cbn [fst snd] in E. destruct Q1 as [->|[->|[->| ->]]].
    - injection E as <- <-. split; [|discriminate]. destruct (sees v p); exact S0.
    - apply stops_bits in S0 as (A & B & C).
      destruct (write_bits _ _ _ _ _ _ 7 E) as (W1 & W2 & W3); [lia|unfold mode_bit; lia|lia|].
      destruct (write_bits _ _ _ _ _ _ 2 E) as (U1 & U2 & U3); [lia|unfold mode_bit; lia|lia|].
      destruct (write_bits _ _ _ _ _ _ 1 E) as (V1 & V2 & V3); [lia|unfold mode_bit; lia|lia|].
      split; [apply stops_bits; repeat split; congruence|]. intros x Hx. apply stops_bits. split; [|split].
      + destruct (Z.testbit x 7) eqn:X; [|reflexivity]. specialize (W3 x Hx X). congruence.
      + rewrite (U2 x Hx) by lia. exact B.
      + rewrite (V2 x Hx) by lia. exact C.
    - injection E as <- <-. split; [exact S0|discriminate].
    - injection E as <- <-. split; [|discriminate]. destruct (halt_word d) as (_ & _ & H1 & H2).
      destruct (MotorModel.state_eq_dec (known d) MotorModel.OperationEnable) as [X|X]; [exact (H1 X)|rewrite (H2 X); exact S0]. }
  destruct S1 as [S1 S2]. destruct (IH d1 Q2 S1) as [I1 I2]. destruct (replay v xs d1) as [d2 ws]. cbn [fst snd] in *. split; [|exact I2].
  destruct w as [x|]; [constructor; [apply S2; reflexivity|exact I1]|exact I1].
Qed.
Lemma replay_count : forall v xs d, Forall quiet (map snd xs) -> (forall past, throws v past = false) ->
  List.length (snd (replay v xs d)) = count_writes (map snd xs).
Proof.
  intros v xs. induction xs as [|[p o] xs IH]; intros d Q T; [reflexivity|]. cbn [map snd] in *. inversion Q as [|? ? Q1 Q2]; subst.
  cbn [replay]. destruct (react_op v (p, o) d) as [d1 w] eqn:E. specialize (IH d1 Q2 T). destruct (replay v xs d1) as [d2 ws]. cbn [snd] in *.
  unfold count_writes in *. unfold react_op in E. cbn [fst snd List.filter] in *. destruct Q1 as [->|[->|[->| ->]]]; cbn [op_eqb].
  - injection E as <- <-. exact IH.
  - destruct (write_known _ _ _ _ _ _ E) as [_ W]. rewrite (T p) in W. destruct (W eq_refl) as [x ->]. cbn [List.length]. congruence.
  - injection E as <- <-. exact IH.
  - injection E as <- <-. exact IH.
Qed.
Lemma replay_throws : forall v xs d, Forall quiet (map snd xs) ->
  (forall past, sees v past = None \/ exists sw, sees v past = Some sw /\ MotorModel.decode sw = MotorModel.OperationEnable) -> known d = MotorModel.OperationEnable ->
  (forall past, throws v past = true /\ exists b, uses v past = Some (displays v past, b)) -> snd (replay v xs d) = [].
Proof.
  intros v xs. induction xs as [|[p o] xs IH]; intros d Q R K T; [reflexivity|]. cbn [map snd] in Q. inversion Q as [|? ? Q1 Q2]; subst.
  cbn [replay]. destruct (react_op v (p, o) d) as [d1 w] eqn:E.
  assert (S1 : known d1 = MotorModel.OperationEnable /\ w = None).
  { unfold react_op in E. cbn [fst snd] in E. destruct Q1 as [->|[->|[->| ->]]].
    - injection E as <- <-. split; [|reflexivity]. destruct (R p) as [->|(sw & -> & D)]; [exact K|exact D].
    - unfold drive_write in E. destruct (T p) as [T1 [b T2]]. rewrite T1, T2, K, Z.eqb_refl in E.
      change (MotorModel.state_eqb MotorModel.OperationEnable MotorModel.OperationEnable) with true in E. cbn [andb] in E. injection E as <- <-. auto.
    - injection E as <- <-. auto.
    - injection E as <- <-. split; [|reflexivity]. destruct (halt_word d) as (-> & _). exact K. }
  destruct S1 as [S1 ->]. specialize (IH d1 Q2 R S1 T). destruct (replay v xs d1) as [d2 ws]. exact IH.
Qed.
(** Without halts of an enabled drive the commands stay. *)
Lemma same_refl : forall w, same_command w w.
Proof. intros w. split; auto. Qed.
Lemma same_trans : forall a c e, same_command a c -> same_command c e -> same_command a e.
Proof. intros a c e [A1 A2] [B1 B2]. split; [intros i Hi; rewrite (B1 i Hi); auto|auto]. Qed.
Lemma react_same : forall v p o d d1 w, react_op v (p, o) d = (d1, w) -> quiet o -> (o = OHalt -> known d <> MotorModel.OperationEnable) ->
  same_command (word d) (word d1) /\ forall x, w = Some x -> same_command (word d) x.
Proof.
  intros v p o d d1 w E Q1 H. unfold react_op in E. cbn [fst snd] in E. destruct Q1 as [->|[->|[->| ->]]].
  - injection E as <- <-. split; [|discriminate]. destruct (sees v p); apply same_refl.
  - split.
    + split; [intros i Hi|intros X].
      * destruct (write_bits _ _ _ _ _ _ i E) as (W1 & _); [lia|unfold mode_bit; lia|lia|]. exact W1.
      * destruct (write_bits _ _ _ _ _ _ 7 E) as (W1 & _); [lia|unfold mode_bit; lia|lia|]. congruence.
    + intros x Hx. split; [intros i Hi|intros X].
      * destruct (write_bits _ _ _ _ _ _ i E) as (_ & W2 & _); [lia|unfold mode_bit; lia|lia|]. apply (W2 x Hx). lia.
      * destruct (write_bits _ _ _ _ _ _ 7 E) as (_ & _ & W3); [lia|unfold mode_bit; lia|lia|]. exact (W3 x Hx X).
  - injection E as <- <-. split; [apply same_refl|discriminate].
  - injection E as <- <-. split; [|discriminate]. destruct (halt_word d) as (_ & _ & _ & K). rewrite (K (H eq_refl)). apply same_refl.
Qed.
