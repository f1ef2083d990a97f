(** Proofs about nodes. *)
From Verif Require Import Base NodeModel NodeSpec.

Ltac splits := repeat match goal with |- _ /\ _ => split end.
Lemma done_inj : forall A (a b : A), Done a = Done b -> a = b.
Proof. intros A a b H. injection H as H. exact H. Qed.

Lemma member_app : forall l1 l2 m, member m (l1 ++ l2) = member (member m l1) l2.
Proof. intros l1 l2 m. apply fold_left_app. Qed.
Lemma adds_once_app : forall l1 l2 m, adds_once m l1 -> adds_once (member m l1) l2 -> adds_once m (l1 ++ l2).
Proof.
  induction l1 as [|a l1 IH]; intros l2 m H1 H2; [exact H2|].
  destruct H1 as [H0 H1]. split; [exact H0|]. apply IH; assumption.
Qed.

(** ** Membership *)

Definition good (m : bool) (n : node) : Prop := n_sync n = true /\ m = (n_state n =? Operational).

Lemma switch_good : forall s n n1 a m, good m n -> nmt_state s -> switch_state s n = (n1, a) ->
  good (member m a) n1 /\ adds_once m a.
Proof.
  intros s n n1 a m [Hs Hm] L. unfold switch_state. rewrite Hs.
  assert (C : s = 0 \/ s = 4 \/ s = 5 \/ s = 127) by (unfold nmt_state in L; cbn in L; intuition).
  assert (E : (s =? Operational) = true \/ (s =? Operational) = false /\ ((s =? BootUp) || (s =? PreOperational) || (s =? Stopped)) = true).
  { unfold Operational, BootUp, PreOperational, Stopped. lia. }
  destruct (Z.eqb_spec (n_state n) s) as [E1|N1]; cbn [negb andb].
  - intros H. destruct E as [E|[E E']]; rewrite ?E, ?E' in H; injection H as <- <-; repeat split; assumption.
  - intros H. destruct E as [E|[E E']]; rewrite ?E, ?E' in H; injection H as <- <-;
      (split; [split; [exact Hs|]|]); cbn [member member_step fold_left with_state n_state app adds_once]; try congruence.
    + repeat split; try congruence. intros _. subst m. apply Z.eqb_neq. intros X. apply Z.eqb_eq in E. congruence.
    + repeat split; congruence.
Qed.

Lemma interval_same : forall rd n n1 a v, interval rd n = (n1, a, v) ->
  n_state n1 = n_state n /\ n_sync n1 = n_sync n /\ n_id n1 = n_id n /\ n_def n1 = n_def n /\
  n_conf n1 = n_conf n /\ n_deadline n1 = n_deadline n /\ n_listening n1 = n_listening n /\
  (forall m, member m a = m /\ adds_once m a).
Proof.
  intros rd n n1 a v. unfold interval. destruct (n_hb n); [| |]; [|destruct rd|]; intros H; injection H as <- <- _;
    cbn [with_hb n_state n_sync n_id n_def n_conf n_deadline n_listening]; splits; try reflexivity;
    intros m; cbn; repeat split; congruence.
Qed.

Lemma set_interval_same : forall v ok n n1 a r, set_interval v ok n = (n1, a, r) ->
  n_state n1 = n_state n /\ n_sync n1 = n_sync n /\ n_id n1 = n_id n /\ n_def n1 = n_def n /\
  n_listening n1 = n_listening n /\ (forall m, member m a = m /\ adds_once m a).
Proof.
  intros v ok n n1 a r. unfold set_interval. destruct (n_hb n); intros H; injection H as <- <- _;
    cbn [with_hb n_state n_sync n_id n_def n_listening]; splits; try reflexivity; intros m; cbn; repeat split; congruence.
Qed.

Lemma nmt_good : forall now s n n1 a ok m, good m n -> nmt_state s -> handle_nmt now s n = (n1, a, ok) ->
  good (member m a) n1 /\ adds_once m a /\ (ok = true -> n_state n1 = s).
Proof.
  intros now s n n1 a ok m G L. unfold handle_nmt. destruct (interval None n) as [[n2 a2] v] eqn:Ei.
  destruct (interval_same _ _ _ _ _ Ei) as (S1 & S2 & _ & _ & _ & _ & _ & S3). destruct (S3 m) as [M1 M2].
  assert (G2 : good m n2) by (destruct G; split; congruence).
  destruct v as [v|].
  - set (n3 := if v =? 0 then n2 else _). assert (G3 : good m n3) by (unfold n3; destruct (v =? 0); [exact G2|destruct G2; split; assumption]).
    destruct (switch_state s n3) as [n4 a4] eqn:Es. intros H. injection H as <- <- <-.
    destruct (switch_good _ _ _ _ _ G3 L Es) as [A B]. rewrite member_app, M1.
    split; [exact A|]. split; [apply adds_once_app; [exact M2|rewrite M1; exact B]|].
    intros _. revert Es. unfold switch_state. destruct (Z.eqb_spec (n_state n3) s) as [E|N]; cbn [negb]; intros H; injection H as <- _; [exact E|reflexivity].
  - intros H. injection H as <- <- <-. rewrite M1. split; [exact G2|]. split; [exact M2|discriminate].
Qed.

(** The invariant of a run; [es] are the remaining events *)
Definition inv (m : bool) (x : st) (es : list event) : Prop :=
  good m (s_node x) /\
  (forall c, s_phase x = Confirmed c -> n_state (s_node x) <> Operational \/ forall ok, next_own es <> Some (Finish ok)).

Lemma confirm_inv : forall c s n m es, good m n -> target c = Some s -> n_state n = s ->
  inv (member m (snd (fst (confirm c n)))) (fst (fst (confirm c n))) es /\ adds_once m (snd (fst (confirm c n))).
Proof.
  intros c s n m es G T E. unfold confirm. destruct (is_reset c) eqn:R; cbn [fst snd member fold_left adds_once].
  - split; [|exact I]. split; [exact G|]. intros _ _. left. cbn [s_node]. destruct c; try discriminate R; cbn in T; injection T as <-; rewrite E; discriminate.
  - split; [|exact I]. split; [exact G|]. intros c' H. discriminate H.
Qed.

Lemma shutdown_good : forall rd ok n n1 a r m, good m n -> shutdown rd ok n = (n1, a, r) ->
  good (member m a) n1 /\ adds_once m a.
Proof.
  intros rd ok n n1 a r m G. unfold shutdown.
  destruct (interval rd n) as [[n2 a2] v] eqn:Ei.
  destruct (interval_same _ _ _ _ _ Ei) as (S1 & S2 & _ & _ & _ & _ & _ & S3). destruct (S3 m) as [M1 M2].
  assert (G2 : good m n2) by (destruct G; split; congruence).
  destruct v as [v|]; [|intros H; injection H as <- <- _; rewrite M1; split; assumption].
  assert (P : exists n3 a3 r3, (if 0 <? v then set_interval 0 ok n2 else (n2, [], true)) = (n3, a3, r3) /\
     good m n3 /\ member m a3 = m /\ adds_once m a3).
  { destruct (0 <? v).
    - destruct (set_interval 0 ok n2) as [[n3 a3] r3] eqn:Ew. exists n3, a3, r3. split; [reflexivity|].
      destruct (set_interval_same _ _ _ _ _ _ Ew) as (W1 & W2 & _ & _ & _ & W3). destruct (W3 m) as [W4 W5].
      split; [destruct G2; split; congruence|]. split; assumption.
    - exists n2, [], true. split; [reflexivity|]. split; [exact G2|]. split; [reflexivity|exact I]. }
  destruct P as (n3 & a3 & r3 & -> & G3 & W4 & W5). destruct r3.
  - destruct G3 as [Gs Gm]. rewrite Gs. unfold switch_state. change (n_state (with_listening n3 false)) with (n_state n3).
    destruct (Z.eqb_spec (n_state n3) Unknown) as [E|N]; cbn [negb andb]; intros H; injection H as <- <- _;
      rewrite !member_app, M1, W4; cbn [member member_step fold_left app]; (split; [split; [exact Gs|]|]).
    + cbn [with_listening n_state]. rewrite E. reflexivity.
    + apply adds_once_app; [exact M2|]. rewrite M1. apply adds_once_app; [exact W5|]. cbn. repeat split; congruence.
    + reflexivity.
    + apply adds_once_app; [exact M2|]. rewrite M1. apply adds_once_app; [exact W5|]. cbn. repeat split; congruence.
  - intros H. injection H as <- <- _. rewrite member_app, M1, W4. split; [exact G3|].
    apply adds_once_app; [exact M2|]. rewrite M1. exact W5.
Qed.

Lemma target_nmt : forall c s, target c = Some s -> nmt_state s.
Proof. intros c s H. destruct c; cbn in H; try discriminate H; injection H as <-; cbn; auto. Qed.

Lemma step_inv : forall e es m x x1 a r, inv m x (e :: es) -> ordinary e -> quiet (e :: es) ->
  step e x = Done (x1, a, r) -> inv (member m a) x1 es /\ adds_once m a.
Proof.
  intros e es m x x1 a r [G C] O Q. destruct x as [n p]. cbn [s_node s_phase] in *. unfold step. cbn [s_node s_phase].
  destruct e as [c now|s now| |rd now|ok| |rd ok].
  - destruct p; try discriminate. intros H. apply done_inj in H. destruct c; cbn [call] in H; [|contradiction| | |];
      injection H as <- <- _; cbn; (split; [split|split; [discriminate|exact I]]).
    all: try exact G. all: try (intros c' H; discriminate H).
    all: destruct G as [G1 G2]; split; cbn [s_node]; destruct (n_hb n); assumption.
  - destruct (n_listening n); [|discriminate]. destruct (handle_nmt now s n) as [[n1 a1] ok1] eqn:E.
    destruct ok1; [|discriminate]. intros H. apply done_inj in H. injection H as <- <- _.
    destruct (nmt_good _ _ _ _ _ _ _ G O E) as (A & B & D). split; [|exact B]. split; [exact A|].
    cbn [s_phase s_node]. intros c Hc. rewrite (D eq_refl). destruct Q as [Q _].
    destruct (Z.eq_dec s 5) as [->|N]; [right; apply Q; reflexivity|left; exact N].
  - destruct p as [|c t|c]; try discriminate. destruct (target c) as [s|] eqn:T; [|discriminate].
    destruct (Z.eqb_spec (n_state n) s) as [E|N]; intros H; apply done_inj in H.
    + destruct (confirm_inv c s n m es G T E) as [A B]. rewrite H in A, B. split; assumption.
    + injection H as <- <- _. split; [split; [exact G|intros c' X; discriminate X]|exact I].
  - destruct p as [|c t|c]; try discriminate. destruct (target c) as [s|] eqn:T; [|discriminate].
    destruct (now <? t); [discriminate|].
    destruct (Z.eqb_spec (n_state n) s) as [E|N]; intros H; apply done_inj in H.
    + destruct (confirm_inv c s n m es G T E) as [A B]. rewrite H in A, B. split; assumption.
    + unfold give_up in H. destruct (interval rd n) as [[n2 a2] v] eqn:Ei.
      destruct (interval_same _ _ _ _ _ Ei) as (S1 & S2 & _ & _ & _ & _ & _ & S3). destruct (S3 m) as [M1 M2].
      assert (G2 : good m n2) by (destruct G; split; congruence).
      destruct v as [v|].
      * destruct (v =? 0).
        -- destruct (switch_state s n2) as [n3 a3] eqn:Es. injection H as <- <- _.
           destruct (switch_good _ _ _ _ _ G2 (target_nmt _ _ T) Es) as [A B]. rewrite member_app, M1.
           split; [split; [exact A|intros c' X; discriminate X]|]. apply adds_once_app; [exact M2|rewrite M1; exact B].
        -- injection H as <- <- _. rewrite M1. split; [split; [exact G2|intros c' X; discriminate X]|exact M2].
      * injection H as <- <- _. rewrite M1. split; [split; [exact G2|intros c' X; discriminate X]|exact M2].
  - destruct p as [|c t|c]; try discriminate.
    destruct (C c eq_refl) as [N|N]; [|exfalso; apply (N ok); reflexivity].
    destruct (set_interval _ _ _) as [[n1 a1] r1] eqn:E. intros H. apply done_inj in H. injection H as <- <- _.
    destruct (set_interval_same _ _ _ _ _ _ E) as (W1 & W2 & _ & _ & _ & W3). destruct (W3 m) as [W4 W5].
    rewrite W4. split; [|exact W5]. split; [|intros c' X; discriminate X]. cbn [s_node]. destruct G as [G1 G2].
    split; [rewrite W2; exact G1|]. rewrite W1. cbn [with_state n_state]. rewrite G2. apply Z.eqb_neq. exact N.
  - destruct p as [|c t|c]; try discriminate. intros H. apply done_inj in H. injection H as <- <- _.
    split; [split; [exact G|intros c' X; discriminate X]|exact I].
  - destruct p as [|c t|c]; try discriminate.
    destruct (shutdown rd ok n) as [[n1 a1] r1] eqn:E. intros H. apply done_inj in H. injection H as <- <- _.
    destruct (shutdown_good _ _ _ _ _ _ _ G E) as [A B]. split; [split; [exact A|intros c' X; discriminate X]|exact B].
Qed.

Lemma run_inv : forall es m x x1 a rs, inv m x es -> Forall ordinary es -> quiet es ->
  run es x = Done (x1, a, rs) -> good (member m a) (s_node x1) /\ adds_once m a.
Proof.
  induction es as [|e es IH]; intros m x x1 a rs V O Q H; cbn [run] in H.
  - apply done_inj in H. injection H as <- <- <-. split; [apply V|exact I].
  - destruct (step e x) as [| |[[x2 a2] r]] eqn:S; try discriminate.
    destruct (run es x2) as [| |[[x3 a3] rs3]] eqn:R; try discriminate.
    apply done_inj in H. injection H as <- <- <-. apply Forall_cons_iff in O as [O1 O2].
    destruct (step_inv _ _ _ _ _ _ _ V O1 Q S) as [V2 A2].
    assert (Q2 : quiet es) by (destruct e; cbn in Q; tauto).
    destruct (IH _ _ _ _ _ V2 O2 Q2 R) as [A B]. rewrite member_app. split; [exact A|].
    apply adds_once_app; assumption.
Qed.

Lemma membership : forall id def conf es x a rs, Forall ordinary es -> quiet es ->
  run es (mkSt (new_node id true def conf) Idle) = Done (x, a, rs) ->
  member false a = (n_state (s_node x) =? 5) /\ adds_once false a.
Proof.
  intros id def conf es x a rs O Q H.
  assert (V : inv false (mkSt (new_node id true def conf) Idle) es).
  { split; [split; reflexivity|]. intros c E. discriminate E. }
  destruct (run_inv es false _ _ _ _ V O Q H) as [[_ A] B].
  split; assumption.
Qed.

(** ** Heartbeat *)

Lemma step_interval : forall i e x x1 a r, n_hb (s_node x) = HbVal i -> i <> 0 -> same_interval e -> step e x = Done (x1, a, r) ->
  n_hb (s_node x1) = HbVal i /\
  n_deadline (s_node x1) = match e with Nmt _ t => t + 3 * i * ms | _ => n_deadline (s_node x) end.
Proof.
  intros i e x x1 a r Hi Hn Sa. destruct x as [n p]. cbn [s_node] in *. unfold step. cbn [s_node s_phase].
  assert (IV : forall rd, interval rd n = (n, [], Some i)) by (intros; unfold interval; rewrite Hi; reflexivity).
  assert (SW : forall s n', n_hb n' = HbVal i -> n_hb (fst (switch_state s n')) = HbVal i /\ n_deadline (fst (switch_state s n')) = n_deadline n').
  { intros s n' E. unfold switch_state. destruct (negb _); cbn [fst with_state n_hb n_deadline]; auto. }
  assert (CF : forall c, n_hb (s_node (fst (fst (confirm c n)))) = HbVal i /\ n_deadline (s_node (fst (fst (confirm c n)))) = n_deadline n).
  { intros c. unfold confirm. destruct (is_reset c); cbn; auto. }
  destruct e as [c now|s now| |rd now|ok| |rd ok].
  - destruct p; try discriminate. intros H. apply done_inj in H. destruct c; cbn [call] in H; try contradiction; injection H as <- <- _; cbn; auto.
  - destruct (n_listening n); [|discriminate]. unfold handle_nmt. rewrite IV. destruct (Z.eqb_spec i 0); [contradiction|].
    destruct (switch_state s _) as [n1 a1] eqn:E. intros H. apply done_inj in H. injection H as <- <- _. cbn [s_node].
    specialize (SW s (with_deadline n (now + 3 * i * ms)) Hi). rewrite E in SW. exact SW.
  - destruct p as [|c t|c]; try discriminate. destruct (target c); [|discriminate].
    destruct (n_state n =? z); intros H; apply done_inj in H.
    + specialize (CF c). rewrite H in CF. exact CF.
    + injection H as <- <- _. auto.
  - destruct p as [|c t|c]; try discriminate. destruct (target c); [|discriminate]. destruct (now <? t); [discriminate|].
    destruct (n_state n =? z); intros H; apply done_inj in H.
    + specialize (CF c). rewrite H in CF. exact CF.
    + unfold give_up in H. rewrite IV in H. destruct (Z.eqb_spec i 0); [contradiction|]. injection H as <- <- _. auto.
  - contradiction.
  - destruct p; try discriminate. intros H. apply done_inj in H. injection H as <- <- _. auto.
  - contradiction.
Qed.

Lemma run_interval : forall i es x x1 a rs, n_hb (s_node x) = HbVal i -> i <> 0 -> Forall same_interval es ->
  run es x = Done (x1, a, rs) ->
  n_hb (s_node x1) = HbVal i /\
  n_deadline (s_node x1) = match beats es with [] => n_deadline (s_node x) | b => last b 0 + 3 * i * ms end.
Proof.
  induction es as [|e es IH]; intros x x1 a rs Hi Hn Sa H; cbn [run] in H.
  - apply done_inj in H. injection H as <- _ _. auto.
  - destruct (step e x) as [| |[[x2 a2] r]] eqn:S; try discriminate.
    destruct (run es x2) as [| |[[x3 a3] rs3]] eqn:R; try discriminate.
    apply done_inj in H. injection H as <- _ _. apply Forall_cons_iff in Sa as [S1 S2].
    destruct (step_interval i e x _ _ _ Hi Hn S1 S) as [A B].
    destruct (IH _ _ _ _ A Hn S2 R) as [C D]. split; [exact C|]. rewrite D, B.
    destruct e; cbn [beats]; try reflexivity. destruct (beats es); reflexivity.
Qed.

Lemma last_max : forall l, in_order l -> l <> [] -> In (last l 0) l /\ forall x, In x l -> x <= last l 0.
Proof.
  induction l as [|x [|y l] IH]; intros O N; [contradiction| |].
  - split; [left; reflexivity|]. intros z [->|[]]. cbn. lia.
  - destruct O as [O1 O2]. destruct (IH O2) as [A B]; [discriminate|].
    change (last (x :: y :: l) 0) with (last (y :: l) 0). split; [right; exact A|].
    intros z [->|Hz]; [|apply B; exact Hz]. rewrite Forall_forall in O1. apply O1. exact A.
Qed.

Lemma supervised : forall i es x x1 a rs now rd n2 a2 r,
  n_hb (s_node x) = HbVal i -> 0 < i -> Forall same_interval es -> in_order (beats es) ->
  n_deadline (s_node x) < now ->
  run es x = Done (x1, a, rs) -> handle_read true now rd (s_node x1) = (n2, a2, r) ->
  r = HeartbeatProblem <-> (forall t, In t (beats es) -> 3 * i * ms < now - t).
Proof.
  intros i es x x1 a rs now rd n2 a2 r Hi Pi Sa O Dl R H.
  destruct (run_interval i es x _ _ _ Hi ltac:(lia) Sa R) as [A B].
  unfold handle_read, check_heartbeat, interval in H. rewrite A in H. destruct (Z.eqb_spec i 0); [lia|].
  injection H as <- <- <-.
  assert (E : (now <=? n_deadline (s_node x1)) = false <-> (forall t, In t (beats es) -> 3 * i * ms < now - t)).
  { rewrite B. destruct (beats es) as [|b bs] eqn:Eb.
    - split; [intros _ t []|intros _]. apply Z.leb_gt. exact Dl.
    - destruct (last_max (b :: bs) O) as [L1 L2]; [discriminate|]. rewrite Z.leb_gt. split.
      + intros X t Ht. specialize (L2 t Ht). lia.
      + intros X. specialize (X _ L1). lia. }
  rewrite <- E. destruct (now <=? _); [|tauto]. split; intros X; [|discriminate]. destruct (_ =? _); discriminate.
Qed.

Lemma unsupervised : forall n run now rd, supervision_off n -> snd (handle_read run now rd n) <> HeartbeatProblem.
Proof.
  intros n run now rd H. unfold handle_read, check_heartbeat, interval. destruct run; [|discriminate].
  destruct H as [->| ->]; cbn [Z.eqb snd]; destruct (_ =? _); discriminate.
Qed.

(** ** Commands *)

(** While a command waits, the state changes by heartbeats only. *)
Lemma waiting_run : forall c s t, target c = Some s ->
  forall es n x a, n_state n <> s -> run es (mkSt n (Waiting c t)) = Done (x, a, []) ->
  (exists now, In (Nmt s now) es) \/
  (s_phase x = Waiting c t /\ n_state (s_node x) <> s).
Proof.
  intros c s t T. induction es as [|e es IH]; intros n x a N H; cbn [run] in H.
  - apply done_inj in H. injection H as <- _. right. split; [reflexivity|exact N].
  - destruct (step e (mkSt n (Waiting c t))) as [| |[[x2 a2] r]] eqn:S; try discriminate.
    destruct (run es x2) as [| |[[x3 a3] rs3]] eqn:R; try discriminate.
    apply done_inj in H. injection H as <- _ Er. apply app_eq_nil in Er as [Er1 Er2]. subst rs3.
    destruct r; [discriminate Er1|]. unfold step in S. cbn [s_node s_phase] in S.
    destruct e as [c' now|s' now| |rd now|ok| |rd ok]; try discriminate S.
    + destruct (n_listening n); [|discriminate]. destruct (handle_nmt now s' n) as [[n1 a1] ok] eqn:E.
      destruct ok; [|discriminate]. apply done_inj in S. injection S as <- <-.
      destruct (Z.eq_dec s' s) as [->|Ns]; [left; exists now; left; reflexivity|].
      assert (E1 : n_state n1 = s').
      { revert E. unfold handle_nmt. destruct (interval None n) as [[n0 a0] v]. destruct v; [|discriminate].
        set (n4 := if _ : bool then _ else _). unfold switch_state. destruct (Z.eqb_spec (n_state n4) s') as [X|X]; cbn [negb]; intros H; injection H as <- _; [exact X|reflexivity]. }
      destruct (IH n1 x3 a3) as [[w W]|W]; [congruence|exact R|left; exists w; right; exact W|right; exact W].
    + rewrite T in S. destruct (Z.eqb_spec (n_state n) s) as [X|X]; [contradiction|].
      apply done_inj in S. injection S as <- <-.
      destruct (IH n x3 a3) as [[w W]|W]; [exact N|exact R|left; exists w; right; exact W|right; exact W].
    + rewrite T in S. destruct (now <? t); [discriminate|]. destruct (Z.eqb_spec (n_state n) s) as [X|X]; [contradiction|].
      apply done_inj in S. unfold give_up in S. destruct (interval rd n) as [[n0 a0] v]. destruct v as [v|]; [|discriminate].
      destruct (v =? 0); [|discriminate]. destruct (switch_state s n0). discriminate.
Qed.

Lemma run_snoc : forall es e x x1 a rs, run (es ++ [e]) x = Done (x1, a, rs) ->
  exists y b qs r c, run es x = Done (y, b, qs) /\ step e y = Done (x1, c, r) /\
    rs = qs ++ match r with Some r => [r] | None => [] end.
Proof.
  induction es as [|e' es IH]; intros e x x1 a rs H; cbn [run app] in *.
  - destruct (step e x) as [| |[[x2 a2] r]] eqn:S; try discriminate. apply done_inj in H. injection H as <- <- <-.
    exists x, [], [], r, a2. rewrite app_nil_r. auto.
  - destruct (step e' x) as [| |[[x2 a2] r]] eqn:S; try discriminate.
    destruct (run (es ++ [e]) x2) as [| |[[x3 a3] rs3]] eqn:R; try discriminate.
    apply done_inj in H. injection H as <- <- <-.
    destruct (IH _ _ _ _ _ R) as (y & b & qs & r' & c & E1 & E2 & ->). rewrite E1.
    do 5 eexists. split; [reflexivity|]. split; [exact E2|]. apply app_assoc.
Qed.

Lemma call_waiting : forall c s now n, target c = Some s -> exists n1,
  call c now n = (mkSt n1 (Waiting c (now + timeout c)), [send_cmd n c], None) /\ n_state n1 = n_state n.
Proof.
  intros c s now n T. destruct c; cbn in T; try discriminate T; cbn [call]; eexists; (split; [reflexivity|]); try reflexivity;
    destruct (n_hb n); reflexivity.
Qed.

Lemma confirmed_command : forall c s now n es e x a y b,
  target c = Some s -> n_state n <> s ->
  run (Call c now :: es) (mkSt n Idle) = Done (y, b, []) ->
  run (Call c now :: es ++ [e]) (mkSt n Idle) = Done (x, a, [RTrue]) ->
  (exists t, In (Nmt s t) es) \/
  (is_reset c = false /\ exists rd t, e = TimedOut rd t /\ now + timeout c <= t /\ supervision_off (s_node x)).
Proof.
  intros c s now n es e x a y b T N R0 R1.
  cbn [run] in R0, R1. cbn [step s_phase s_node] in R0, R1.
  destruct (call_waiting c s now n T) as (n1 & Ec & En). rewrite Ec in R0, R1.
  destruct (run es _) as [| |[[y1 b1] qs1]] eqn:R; try discriminate.
  apply done_inj in R0. cbn [app] in R0. injection R0 as -> _ ->.
  destruct (run (es ++ [e]) _) as [| |[[x2 a2] rs2]] eqn:Q; try discriminate.
  apply done_inj in R1. cbn [app] in R1. injection R1 as -> _ ->.
  destruct (run_snoc _ _ _ _ _ _ Q) as (y2 & b2 & qs & r & cc & Q1 & Q2 & Q3).
  rewrite R in Q1. apply done_inj in Q1. injection Q1 as <- <- <-. cbn [app] in Q3.
  destruct r as [r|]; [|discriminate Q3]. injection Q3 as <-.
  assert (N1 : n_state n1 <> s) by congruence.
  destruct (waiting_run c s _ T es n1 y b1 N1 R) as [W|[W1 W2]]; [left; exact W|]. right.
  destruct y as [ny py]. cbn [s_node s_phase] in *. subst py. unfold step in Q2. cbn [s_node s_phase] in Q2.
  destruct e as [c' now'|s' now'| |rd now'|ok| |rd ok]; try discriminate Q2.
  - destruct (n_listening ny); [|discriminate]. destruct (handle_nmt now' s' ny) as [[q1 q2] q3].
    destruct q3; [|discriminate]. apply done_inj in Q2. discriminate Q2.
  - rewrite T in Q2. destruct (Z.eqb_spec (n_state ny) s) as [X|X]; [contradiction|]. apply done_inj in Q2. discriminate Q2.
  - rewrite T in Q2. destruct (Z.ltb_spec now' (now + timeout c)) as [L|L]; [discriminate|].
    destruct (Z.eqb_spec (n_state ny) s) as [X|X]; [contradiction|]. apply done_inj in Q2.
    unfold give_up in Q2. destruct (interval rd ny) as [[n0 a0] v] eqn:Ei. destruct v as [v|]; [|discriminate].
    destruct (Z.eqb_spec v 0) as [->|]; [|discriminate].
    destruct (switch_state s n0) as [n5 a5] eqn:Es. injection Q2 as <- _ Hr.
    split; [destruct (is_reset c); [discriminate|reflexivity]|]. exists rd, now'. split; [reflexivity|]. split; [exact L|].
    cbn [s_node]. assert (Hh : n_hb n5 = n_hb n0).
    { revert Es. unfold switch_state. destruct (negb _); intros H; injection H as <- _; reflexivity. }
    unfold supervision_off. rewrite Hh. revert Ei. unfold interval. destruct (n_hb ny) eqn:Eh; [| |]; [|destruct rd|]; intros H; inversion H; subst; cbn [with_hb n_hb]; auto.
Qed.

Lemma failed_command : forall c s now n es e x a y b,
  target c = Some s ->
  run (Call c now :: es) (mkSt n Idle) = Done (y, b, []) ->
  run (Call c now :: es ++ [e]) (mkSt n Idle) = Done (x, a, [RFalse]) ->
  exists rd t, e = TimedOut rd t /\ now + timeout c <= t /\ n_state (s_node y) <> s.
Proof.
  intros c s now n es e x a y b T R0 R1.
  cbn [run] in R0, R1. cbn [step s_phase s_node] in R0, R1.
  destruct (call_waiting c s now n T) as (n1 & Ec & En). rewrite Ec in R0, R1.
  destruct (run es _) as [| |[[y1 b1] qs1]] eqn:R; try discriminate.
  apply done_inj in R0. cbn [app] in R0. injection R0 as -> _ ->.
  destruct (run (es ++ [e]) _) as [| |[[x2 a2] rs2]] eqn:Q; try discriminate.
  apply done_inj in R1. cbn [app] in R1. injection R1 as -> _ ->.
  destruct (run_snoc _ _ _ _ _ _ Q) as (y2 & b2 & qs & r & cc & Q1 & Q2 & Q3).
  rewrite R in Q1. apply done_inj in Q1. injection Q1 as <- <- <-. cbn [app] in Q3.
  destruct r as [r|]; [|discriminate Q3]. injection Q3 as <-.
  (* the phase of y *)
  assert (P : s_phase y = Waiting c (now + timeout c) \/ exists c', s_phase y = Confirmed c').
  { clear - R T. revert n1 y b1 R. induction es as [|e es IH]; intros n1 y b1 R; cbn [run] in R.
    - apply done_inj in R. injection R as <- _. left. reflexivity.
    - destruct (step e _) as [| |[[x2 a2] r]] eqn:S; try discriminate.
      destruct (run es x2) as [| |[[x3 a3] rs3]] eqn:R2; try discriminate.
      apply done_inj in R. injection R as <- _ Er. apply app_eq_nil in Er as [Er1 ->]. destruct r; [discriminate|].
      unfold step in S. cbn [s_node s_phase] in S.
      assert (Cf : forall es c0 n0 y0 b0, run es (mkSt n0 (Confirmed c0)) = Done (y0, b0, []) -> s_phase y0 = Confirmed c0).
      { clear. induction es as [|e es IH]; intros c0 n0 y0 b0 R; cbn [run] in R.
        - apply done_inj in R. injection R as <- _. reflexivity.
        - destruct (step e _) as [| |[[x2 a2] r]] eqn:S; try discriminate.
          destruct (run es x2) as [| |[[x3 a3] rs3]] eqn:R2; try discriminate.
          apply done_inj in R. injection R as <- _ Er. apply app_eq_nil in Er as [Er1 ->]. destruct r; [discriminate|].
          unfold step in S. cbn [s_node s_phase] in S. destruct e; try discriminate S.
          + destruct (n_listening n0); [|discriminate]. destruct (handle_nmt now s n0) as [[q1 q2] q3].
            destruct q3; [|discriminate]. apply done_inj in S. injection S as <- _. eapply IH. exact R2.
          + destruct (set_interval _ _ _) as [[q1 q2] q3]. discriminate S. }
      destruct e as [c' now'|s' now'| |rd now'|ok| |rd ok]; try discriminate S.
      + destruct (n_listening n1); [|discriminate]. destruct (handle_nmt now' s' n1) as [[q1 q2] q3].
        destruct q3; [|discriminate]. apply done_inj in S. injection S as <- _. eapply IH. exact R2.
      + rewrite T in S. destruct (n_state n1 =? s).
        * apply done_inj in S. unfold confirm in S. destruct (is_reset c); [|discriminate]. injection S as <- _.
          right. exists c. eapply Cf. exact R2.
        * apply done_inj in S. injection S as <- _. eapply IH. exact R2.
      + rewrite T in S. destruct (now' <? _); [discriminate|]. destruct (n_state n1 =? s).
        * apply done_inj in S. unfold confirm in S. destruct (is_reset c); [|discriminate]. injection S as <- _.
          right. exists c. eapply Cf. exact R2.
        * apply done_inj in S. unfold give_up in S. destruct (interval rd n1) as [[q0 q1] v]. destruct v as [v|]; [|discriminate].
          destruct (v =? 0); [|discriminate]. destruct (switch_state s q0). discriminate. }
  destruct y as [ny py]. cbn [s_node s_phase] in *. unfold step in Q2. cbn [s_node s_phase] in Q2.
  destruct P as [->|[c' ->]].
  - destruct e as [c' now'|s' now'| |rd now'|ok| |rd ok]; try discriminate Q2.
    + destruct (n_listening ny); [|discriminate]. destruct (handle_nmt now' s' ny) as [[q1 q2] q3].
      destruct q3; [|discriminate]. apply done_inj in Q2. discriminate Q2.
    + rewrite T in Q2. destruct (Z.eqb_spec (n_state ny) s) as [X|X]; apply done_inj in Q2; [|discriminate Q2].
      unfold confirm in Q2. destruct (is_reset c); discriminate Q2.
    + rewrite T in Q2. destruct (Z.ltb_spec now' (now + timeout c)) as [L|L]; [discriminate|].
      exists rd, now'. split; [reflexivity|]. split; [exact L|].
      destruct (Z.eqb_spec (n_state ny) s) as [X|X]; [|exact X]. apply done_inj in Q2.
      unfold confirm in Q2. destruct (is_reset c); discriminate Q2.
  - destruct e as [c'' now'|s' now'| |rd now'|ok| |rd ok]; try discriminate Q2.
    + destruct (n_listening ny); [|discriminate]. destruct (handle_nmt now' s' ny) as [[q1 q2] q3].
      destruct q3; [|discriminate]. apply done_inj in Q2. discriminate Q2.
    + destruct (set_interval _ _ _) as [[q1 q2] q3]. apply done_inj in Q2. destruct q3; discriminate Q2.
Qed.

(** ** No crash *)

Lemma never_crash : forall es x, n_hb (s_node x) <> HbUnread -> n_def (s_node x) <> HbUnread -> run es x <> Crash.
Proof.
  assert (I : forall rd n, n_hb n <> HbUnread -> exists v, interval rd n = (n, [], Some v)).
  { intros rd n H. unfold interval. destruct (n_hb n); [eauto|contradiction|eauto]. }
  assert (W : forall s n, n_hb (fst (switch_state s n)) = n_hb n /\ n_def (fst (switch_state s n)) = n_def n).
  { intros s n. unfold switch_state. destruct (negb _); auto. }
  assert (T : forall v ok n, n_hb n <> HbUnread -> n_hb (fst (fst (set_interval v ok n))) <> HbUnread /\ n_def (fst (fst (set_interval v ok n))) = n_def n).
  { intros v ok n H. unfold set_interval. destruct (n_hb n) eqn:E; cbn; split; try reflexivity; congruence. }
  assert (S : forall e x, n_hb (s_node x) <> HbUnread -> n_def (s_node x) <> HbUnread ->
    step e x <> Crash /\ forall x1 a r, step e x = Done (x1, a, r) -> n_hb (s_node x1) <> HbUnread /\ n_def (s_node x1) <> HbUnread).
  { intros e [n p] H1 H2. cbn [s_node] in *. unfold step. cbn [s_node s_phase].
    assert (Cf : forall c x1 a r, confirm c n = (x1, a, r) -> n_hb (s_node x1) <> HbUnread /\ n_def (s_node x1) <> HbUnread).
    { intros c x1 a r. unfold confirm. destruct (is_reset c); intros H; injection H as <- _ _; auto. }
    destruct e as [c now|s now| |rd now|ok| |rd ok]; destruct p as [|c' t|c']; try (split; [discriminate|intros x1 a r X; discriminate X]).
    - split; [discriminate|]. intros x1 a r X. apply done_inj in X. destruct c; cbn [call] in X; injection X as <- _ _; cbn [s_node]; auto;
        destruct (n_hb n) eqn:E; cbn [with_hb n_hb n_def]; try (split; congruence).
    - destruct (n_listening n); [|split; [discriminate|intros x1 a r X; discriminate X]]. unfold handle_nmt. destruct (I None n H1) as [v ->].
      set (n2 := if v =? 0 then n else _). assert (A : n_hb n2 = n_hb n /\ n_def n2 = n_def n) by (unfold n2; destruct (v =? 0); auto).
      destruct (W s n2) as [B1 B2]. destruct (switch_state s n2) as [n3 a3]. cbn [fst] in *. split; [discriminate|].
      intros x1 a r X. apply done_inj in X. injection X as <- _ _. cbn [s_node]. destruct A. split; congruence.
    - destruct (n_listening n); [|split; [discriminate|intros x1 a r X; discriminate X]]. unfold handle_nmt. destruct (I None n H1) as [v ->].
      set (n2 := if v =? 0 then n else _). assert (A : n_hb n2 = n_hb n /\ n_def n2 = n_def n) by (unfold n2; destruct (v =? 0); auto).
      destruct (W s n2) as [B1 B2]. destruct (switch_state s n2) as [n3 a3]. cbn [fst] in *. split; [discriminate|].
      intros x1 a r X. apply done_inj in X. injection X as <- _ _. cbn [s_node]. destruct A. split; congruence.
    - destruct (n_listening n); [|split; [discriminate|intros x1 a r X; discriminate X]]. unfold handle_nmt. destruct (I None n H1) as [v ->].
      set (n2 := if v =? 0 then n else _). assert (A : n_hb n2 = n_hb n /\ n_def n2 = n_def n) by (unfold n2; destruct (v =? 0); auto).
      destruct (W s n2) as [B1 B2]. destruct (switch_state s n2) as [n3 a3]. cbn [fst] in *. split; [discriminate|].
      intros x1 a r X. apply done_inj in X. injection X as <- _ _. cbn [s_node]. destruct A. split; congruence.
    - destruct (target c'); [|split; [discriminate|intros x1 a r X; discriminate X]].
      destruct (n_state n =? z); (split; [discriminate|]); intros x1 a r X; apply done_inj in X; [eapply Cf; exact X|].
      injection X as <- _ _. auto.
    - destruct (target c'); [|split; [discriminate|intros x1 a r X; discriminate X]].
      destruct (now <? t); [split; [discriminate|intros x1 a r X; discriminate X]|].
      destruct (n_state n =? z); (split; [discriminate|]); intros x1 a r X; apply done_inj in X; [eapply Cf; exact X|].
      unfold give_up in X. destruct (I rd n H1) as [v Ev]. rewrite Ev in X. destruct (v =? 0).
      + destruct (W z n) as [B1 B2]. destruct (switch_state z n) as [n3 a3]. injection X as <- _ _. cbn [s_node fst] in *. split; congruence.
      + injection X as <- _ _. auto.
    - destruct (T (n_conf n) ok (with_state n PreOperational) H1) as [B1 B2].
      destruct (set_interval _ _ _) as [[n1 a1] r1]. split; [discriminate|]. intros x1 a r X. apply done_inj in X. injection X as <- _ _.
      cbn [s_node fst] in *. split; [exact B1|]. rewrite B2. exact H2.
    - split; [discriminate|]. intros x1 a r X. apply done_inj in X. injection X as <- _ _. auto.
    - unfold shutdown. destruct (I rd n H1) as [v ->].
      assert (P : exists n3 a3 r3, (if 0 <? v then set_interval 0 ok n else (n, [], true)) = (n3, a3, r3) /\ n_hb n3 <> HbUnread /\ n_def n3 = n_def n).
      { destruct (0 <? v); [|eauto 6]. destruct (T 0 ok n H1) as [B1 B2]. destruct (set_interval 0 ok n) as [[n3 a3] r3]. eauto 6. }
      destruct P as (n3 & a3 & r3 & -> & P1 & P2). destruct r3.
      + destruct (W Unknown (with_listening n3 false)) as [B1 B2]. destruct (switch_state Unknown _) as [n4 a4]. split; [discriminate|].
        intros x1 a r X. apply done_inj in X. injection X as <- _ _. cbn [s_node fst with_listening n_hb n_def] in *. split; congruence.
      + split; [discriminate|]. intros x1 a r X. apply done_inj in X. injection X as <- _ _. cbn [s_node]. split; congruence. }
  induction es as [|e es IH]; intros x H1 H2; cbn [run]; [discriminate|].
  destruct (S e x H1 H2) as [A B]. destruct (step e x) as [| |[[x1 a] r]] eqn:E; [discriminate|contradiction|].
  destruct (B _ _ _ eq_refl) as [B1 B2]. specialize (IH x1 B1 B2).
  destruct (run es x1) as [| |[[x2 a2] rs]]; [discriminate|contradiction|discriminate].
Qed.

(** ** Boot sequence *)

Lemma boot_order : forall o, fst (handle_init o) = until_failure (boot_steps o).
Proof.
  intros [a b c d e f]. unfold boot_steps, handle_init. cbn [o_sdo o_reset o_pdo o_all o_sdo2 o_start].
  destruct a, b, c, d, e, f; reflexivity.
Qed.
Lemma boot_error : forall o, snd (handle_init o) = None <-> forallb snd (boot_steps o) = true.
Proof.
  intros [a b c d e f]. unfold boot_steps, handle_init. cbn [o_sdo o_reset o_pdo o_all o_sdo2 o_start].
  destruct a, b, c, d, e, f; cbn; split; try reflexivity; discriminate.
Qed.

(** ** State listeners *)

Lemma told_app : forall l1 l2, told (l1 ++ l2) = told l1 ++ told l2.
Proof. intros l1 l2. apply flat_map_app. Qed.
Lemma last_app : forall (l1 l2 : list Z) d, last (l1 ++ l2) d = last l2 (last l1 d).
Proof.
  induction l1 as [|x l1 IH]; intros l2 d; [reflexivity|].
  destruct l1 as [|y l1]; cbn [app].
  - destruct l2 as [|z l2]; [reflexivity|]. cbn [last]. clear. revert z d. induction l2 as [|w l2 IH]; intros z d; [reflexivity|].
    change (last (w :: l2) d = last (w :: l2) x). apply IH.
  - change (last ((y :: l1) ++ l2) d = last l2 (last (y :: l1) d)). apply IH.
Qed.
Lemma believed_app : forall s l1 l2, believed s (l1 ++ l2) = believed (believed s l1) l2.
Proof. intros s l1 l2. unfold believed. rewrite told_app. apply last_app. Qed.
Lemma news_app : forall l1 l2 s, news s l1 -> news (last l1 s) l2 -> news s (l1 ++ l2).
Proof.
  induction l1 as [|x l1 IH]; intros l2 s N1 N2; [exact N2|]. destruct N1 as [N0 N1]. split; [exact N0|]. apply IH; [exact N1|].
  replace (last l1 x) with (last (x :: l1) s); [exact N2|]. clear. revert x s. induction l1 as [|y l1 IH]; intros x s; [reflexivity|].
  change (last (y :: l1) s = last (y :: l1) x). transitivity (last l1 y); [|symmetry]; apply IH.
Qed.

(** What is told in a step that leads from state [s] to state [s']. *)
Definition tells (s s' : Z) (a : list act) : Prop := told a = if s =? s' then [] else [s'].

Lemma switch_tells : forall s n n1 a, switch_state s n = (n1, a) -> n_state n1 = s /\ tells (n_state n) s a.
Proof.
  intros s n n1 a. unfold switch_state, tells.
  set (y := if s =? Operational then _ else _). assert (Y : told y = []).
  { unfold y. destruct (s =? Operational), ((s =? BootUp) || (s =? PreOperational) || (s =? Stopped)), (negb (n_state n =? s) && n_sync n); reflexivity. }
  destruct (Z.eqb_spec (n_state n) s) as [E|E]; cbn [negb]; intros H; injection H as <- <-.
  - split; [exact E|exact Y].
  - split; [reflexivity|]. rewrite told_app, Y. reflexivity.
Qed.
Lemma interval_tells : forall rd n n1 a v, interval rd n = (n1, a, v) -> n_state n1 = n_state n /\ told a = [].
Proof.
  intros rd n n1 a v. unfold interval. destruct (n_hb n); [|destruct rd|]; intros H; injection H as <- <- _; split; reflexivity.
Qed.
Lemma set_interval_tells : forall v ok n n1 a r, set_interval v ok n = (n1, a, r) -> n_state n1 = n_state n /\ told a = [].
Proof. intros v ok n n1 a r. unfold set_interval. destruct (n_hb n); intros H; injection H as <- <- _; split; reflexivity. Qed.

Lemma tells_refl : forall s a, told a = [] -> tells s s a.
Proof. intros s a H. unfold tells. rewrite Z.eqb_refl. exact H. Qed.

Lemma nmt_tells : forall now s n n1 a ok, handle_nmt now s n = (n1, a, ok) -> tells (n_state n) (n_state n1) a.
Proof.
  intros now s n n1 a ok. unfold handle_nmt. destruct (interval None n) as [[n2 a2] v] eqn:Ei.
  destruct (interval_tells _ _ _ _ _ Ei) as [S1 T1]. destruct v as [v|]; [|intros H; injection H as <- <- _; rewrite S1; apply tells_refl, T1].
  set (n3 := if v =? 0 then n2 else _). assert (S3 : n_state n3 = n_state n) by (unfold n3; destruct (v =? 0); exact S1).
  destruct (switch_state s n3) as [n4 a4] eqn:Es. destruct (switch_tells _ _ _ _ Es) as [S4 T4].
  intros H. injection H as <- <- _. unfold tells in *. rewrite told_app, T1, T4, S4, S3. reflexivity.
Qed.

Lemma step_tells : forall e x x1 a r, step e x = Done (x1, a, r) ->
  tells (n_state (s_node x)) (n_state (s_node x1)) a \/
  (exists ok, e = Finish ok) /\ n_state (s_node x1) = 127 /\ told a = [].
Proof.
  intros e x x1 a r. destruct x as [n p]. unfold step. cbn [s_node s_phase].
  destruct e as [c now|s now| |rd now|ok| |rd ok].
  - destruct p; try discriminate. intros H. apply done_inj in H. left.
    unfold call in H. destruct c; try (injection H as <- <- _; cbn [s_node]; try destruct (n_hb n); apply tells_refl; reflexivity).
    injection H as <- <- _. cbn [s_node]. apply tells_refl. destruct (n_sync n); reflexivity.
  - destruct (n_listening n); [|destruct p; discriminate].
    destruct (handle_nmt now s n) as [[n1 a1] ok] eqn:E. intros H. left.
    destruct ok; [|destruct p; discriminate]. assert (H' : Done (mkSt n1 p, a1, None) = Done (x1, a, r)) by (destruct p; exact H).
    apply done_inj in H'. injection H' as <- <- _. eapply nmt_tells; exact E.
  - destruct p as [|c t|c]; try discriminate. destruct (target c) as [s|]; [|discriminate].
    destruct (n_state n =? s); intros H; apply done_inj in H; left.
    + unfold confirm in H. destruct (is_reset c); injection H as <- <- _; apply tells_refl; reflexivity.
    + injection H as <- <- _. apply tells_refl; reflexivity.
  - destruct p as [|c t|c]; try discriminate. destruct (target c) as [s|]; [|discriminate].
    destruct (now <? t); [discriminate|]. destruct (n_state n =? s) eqn:En; intros H; apply done_inj in H; left.
    + unfold confirm in H. destruct (is_reset c); injection H as <- <- _; apply tells_refl; reflexivity.
    + unfold give_up in H. destruct (interval rd n) as [[n1 a1] v] eqn:Ei. destruct (interval_tells _ _ _ _ _ Ei) as [S1 T1].
      destruct v as [v|]; [|injection H as <- <- _; cbn [s_node]; rewrite S1; apply tells_refl, T1].
      destruct (v =? 0); [|injection H as <- <- _; cbn [s_node]; rewrite S1; apply tells_refl, T1].
      destruct (switch_state s n1) as [n2 a2] eqn:Es. destruct (switch_tells _ _ _ _ Es) as [S2 T2].
      injection H as <- <- _. cbn [s_node]. unfold tells in *. rewrite told_app, T1, T2, S2, S1. reflexivity.
  - destruct p as [|c t|c]; try discriminate.
    destruct (set_interval (n_conf n) ok (with_state n PreOperational)) as [[n1 a1] v] eqn:Ei.
    destruct (set_interval_tells _ _ _ _ _ _ Ei) as [S1 T1]. intros H. apply done_inj in H. injection H as <- <- _.
    right. split; [eauto|]. split; [exact S1|exact T1].
  - destruct p; try discriminate. intros H. apply done_inj in H. injection H as <- <- _. left. apply tells_refl; reflexivity.
  - destruct p; try discriminate. left. destruct (shutdown rd ok n) as [[n1 a1] v] eqn:E.
    apply done_inj in H. injection H as <- <- _. cbn [s_node]. revert E. unfold shutdown.
    destruct (interval rd n) as [[n2 a2] w] eqn:Ei. destruct (interval_tells _ _ _ _ _ Ei) as [S1 T1].
    destruct w as [w|]; [|intros H; injection H as <- <- _; rewrite S1; apply tells_refl, T1].
    destruct (if 0 <? w then set_interval 0 ok n2 else (n2, [], true)) as [[n3 a3] q] eqn:Ew.
    assert (S3 : n_state n3 = n_state n2 /\ told a3 = []).
    { destruct (0 <? w); [eapply set_interval_tells; exact Ew|]. injection Ew as <- <- _. split; reflexivity. }
    destruct S3 as [S3 T3]. destruct q.
    + destruct (switch_state Unknown (with_listening n3 false)) as [n4 a4] eqn:Es. destruct (switch_tells _ _ _ _ Es) as [S4 T4].
      intros H. injection H as <- <- _. unfold tells in *. rewrite !told_app, T1, T3.
      replace (told (if n_sync n3 then [Remove] else [])) with (@nil Z) by (destruct (n_sync n3); reflexivity).
      change (told (send_cmd n3 Stop :: a4)) with (told a4). rewrite T4, S4.
      cbn [with_listening n_state app]. rewrite S3, S1. reflexivity.
    + intros H. injection H as <- <- _. rewrite S3, S1. apply tells_refl. rewrite told_app, T1, T3. reflexivity.
Qed.

Lemma tells_believed : forall s s' a, tells s s' a -> believed s a = s' /\ news s (told a).
Proof.
  intros s s' a H. unfold tells, believed in *. rewrite H. destruct (Z.eqb_spec s s') as [->|N]; cbn; auto.
Qed.

Lemma run_told : forall es x x1 a rs, Forall no_reset_end es -> run es x = Done (x1, a, rs) ->
  believed (n_state (s_node x)) a = n_state (s_node x1) /\ news (n_state (s_node x)) (told a).
Proof.
  induction es as [|e es IH]; intros x x1 a rs F H.
  - cbn in H. apply done_inj in H. injection H as <- <- _. split; [reflexivity|exact I].
  - cbn [run] in H. destruct (step e x) as [| |[[x2 a2] r]] eqn:Es; try discriminate.
    destruct (run es x2) as [| |[[x3 a3] rs3]] eqn:Er; try discriminate.
    apply done_inj in H. injection H as <- <- _. inversion F as [|? ? F1 F2]; subst.
    destruct (IH _ _ _ _ F2 Er) as [B N].
    destruct (step_tells _ _ _ _ _ Es) as [T|[(ok & ->) _]]; [|destruct F1].
    destruct (tells_believed _ _ _ T) as [B1 N1]. rewrite believed_app, B1, told_app. split; [exact B|].
    apply news_app; [exact N1|]. unfold believed in B1. rewrite B1. exact N.
Qed.

Lemma run_believed : forall es x x1 a rs b, run es x = Done (x1, a, rs) ->
  b = n_state (s_node x) \/ n_state (s_node x) = 127 ->
  believed b a = n_state (s_node x1) \/ n_state (s_node x1) = 127.
Proof.
  induction es as [|e es IH]; intros x x1 a rs b H C.
  - cbn in H. apply done_inj in H. injection H as <- <- _. exact C.
  - cbn [run] in H. destruct (step e x) as [| |[[x2 a2] r]] eqn:Es; try discriminate.
    destruct (run es x2) as [| |[[x3 a3] rs3]] eqn:Er; try discriminate.
    apply done_inj in H. injection H as <- <- _. rewrite believed_app. apply (IH _ _ _ _ _ Er).
    destruct (step_tells _ _ _ _ _ Es) as [T|[_ [S1 _]]]; [|right; exact S1].
    unfold tells, believed in *. rewrite T. destruct (Z.eqb_spec (n_state (s_node x)) (n_state (s_node x2))) as [E|E]; cbn [last].
    + rewrite <- E. exact C.
    + left. reflexivity.
Qed.

Lemma beats_silent : forall beats n, Forall (fun b => exists t, b = Nmt 127 t) beats ->
  n_listening n = true -> n_state n = 127 -> n_hb n = HbVal 0 -> run beats (mkSt n Idle) = Done (mkSt n Idle, [], []).
Proof.
  induction beats as [|b beats IH]; intros n F L E B; [reflexivity|]. inversion F as [|? ? (t & ->) F2]; subst.
  cbn [run step s_node s_phase]. rewrite L. unfold handle_nmt, interval. rewrite B. cbn [Z.eqb].
  unfold switch_state. rewrite E. cbn. rewrite (IH n F2 L E B). reflexivity.
Qed.
Lemma run_app_done : forall es es' x x1 a rs x2 a2 rs2, run es x = Done (x1, a, rs) -> run es' x1 = Done (x2, a2, rs2) ->
  run (es ++ es') x = Done (x2, a ++ a2, rs ++ rs2).
Proof.
  induction es as [|e es IH]; intros es' x x1 a rs x2 a2 rs2 H H2.
  - cbn in H. apply done_inj in H. injection H as <- <- <-. exact H2.
  - cbn [run app] in *. destruct (step e x) as [| |[[x3 a3] r]]; try discriminate.
    destruct (run es x3) as [| |[[x4 a4] rs4]] eqn:Er; try discriminate.
    apply done_inj in H. injection H as <- <- <-. rewrite (IH _ _ _ _ _ _ _ _ Er H2), !app_assoc. reflexivity.
Qed.
Lemma reset_silent : forall beats, Forall (fun b => exists t, b = Nmt 127 t) beats ->
  exists x a, run ([Listen; Call ResetCom 0; Nmt 0 5; Wake; Finish true] ++ beats) (mkSt (new_node 3 true (HbVal 0) 0) Idle) = Done (x, a, [RTrue]) /\
    told a = [0] /\ n_state (s_node x) = 127.
Proof.
  intros beats F. do 2 eexists. split.
  - eapply (run_app_done _ _ _ _ _ [RTrue]); [reflexivity|]. apply beats_silent; [exact F|reflexivity..].
  - split; reflexivity.
Qed.

Lemma brings_target : forall c s, brings c s -> target c = Some s.
Proof. intros [] s; cbn; intros H; subst; reflexivity || contradiction. Qed.
Lemma patience_timeout : forall c, timeout c = patience c.
Proof. intros []; reflexivity. Qed.

(** ** What is sent *)
Lemma sent_app : forall a b, sent (a ++ b) = sent a ++ sent b.
Proof. intros a b. unfold sent. apply flat_map_app. Qed.
Lemma switch_sends : forall s n, sent (snd (switch_state s n)) = [] /\ n_id (fst (switch_state s n)) = n_id n.
Proof.
  intros s n. unfold switch_state. destruct (negb _); cbn [fst snd]; [|destruct (s =? _); [|destruct (_ || _)]; auto].
  rewrite sent_app. destruct (s =? _); [|destruct (_ || _)]; destruct (n_sync n); auto.
Qed.
Lemma interval_sends : forall rd n n1 a v, interval rd n = (n1, a, v) -> sent a = [].
Proof. intros rd n n1 a v. unfold interval. destruct (n_hb n); [| destruct rd|]; intros H; injection H as <- <- <-; reflexivity. Qed.
Lemma step_sends : forall e x x1 a r, match e with Call _ _ | ShutdownNode _ _ => False | _ => True end ->
  step e x = Done (x1, a, r) -> sent a = [].
Proof.
  intros e [n p] x1 a r He H. destruct e as [c t|s t| |rd t|ok| |rd ok]; try contradiction; cbn [step s_node s_phase] in H.
  - destruct (n_listening n); [|discriminate]. unfold handle_nmt in H. destruct (interval None n) as [[n1 a1] [v|]] eqn:E; [|discriminate].
    pose proof (switch_sends s (if v =? 0 then n1 else with_deadline n1 (t + 3 * v * ms))) as [S1 _].
    destruct (switch_state s (if v =? 0 then n1 else with_deadline n1 (t + 3 * v * ms))) as [n3 a3]. injection H as <- <- <-.
    rewrite sent_app, (interval_sends _ _ _ _ _ E). exact S1.
  - destruct p as [|c t|c]; try discriminate. destruct (target c); [|discriminate]. destruct (_ =? _); [|injection H as <- <- <-; reflexivity].
    unfold confirm in H. destruct (is_reset c); injection H as <- <- <-; reflexivity.
  - destruct p as [|c t'|c]; try discriminate. destruct (target c) as [s|]; [|discriminate]. destruct (_ <? _); [discriminate|].
    destruct (_ =? _). { unfold confirm in H. destruct (is_reset c); injection H as <- <- <-; reflexivity. }
    unfold give_up in H. destruct (interval rd n) as [[n1 a1] [v|]] eqn:E; [|injection H as <- <- <-; eapply interval_sends, E].
    destruct (v =? 0); [|injection H as <- <- <-; eapply interval_sends, E].
    pose proof (switch_sends s n1) as [S1 _]. destruct (switch_state s n1) as [n2 a2]. injection H as <- <- <-.
    rewrite sent_app, (interval_sends _ _ _ _ _ E). exact S1.
  - destruct p as [|c t|c]; try discriminate. unfold set_interval in H. cbn [n_hb with_state] in H. destruct (n_hb n); injection H as <- <- <-; reflexivity.
  - destruct p as [|c t|c]; try discriminate. injection H as <- <- <-. reflexivity.
Qed.
Lemma run_sends : forall es x x1 a rs, (forall e, In e es -> match e with Call _ _ | ShutdownNode _ _ => False | _ => True end) ->
  run es x = Done (x1, a, rs) -> sent a = [].
Proof.
  induction es as [|e es IH]; intros x x1 a rs Ha H; cbn [run] in H; [injection H as <- <- <-; reflexivity|].
  destruct (step e x) as [| |[[x2 a2] r]] eqn:E; try discriminate.
  destruct (run es x2) as [| |[[x3 a3] rs3]] eqn:E2; try discriminate. injection H as <- <- <-.
  rewrite sent_app, (step_sends _ _ _ _ _ (Ha e (or_introl eq_refl)) E), (IH _ _ _ _ (fun e' H' => Ha e' (or_intror H')) E2). reflexivity.
Qed.
Lemma command_sent : forall c now n es x a rs, (forall e, In e es -> match e with Call _ _ | ShutdownNode _ _ => False | _ => True end) ->
  run (Call c now :: es) (mkSt n Idle) = Done (x, a, rs) -> exists b, nmt_code c b /\ sent a = [[b; n_id n]].
Proof.
  intros c now n es x a rs Ha H. cbn [run] in H.
  destruct (step (Call c now) (mkSt n Idle)) as [| |[[x2 a2] r]] eqn:E; try discriminate.
  destruct (run es x2) as [| |[[x3 a3] rs3]] eqn:E2; try discriminate. injection H as <- <- <-.
  rewrite sent_app, (run_sends _ _ _ _ _ Ha E2), app_nil_r. cbn [step s_node s_phase] in E. injection E as E.
  exists (cmd_code c). split; [destruct c; reflexivity|]. destruct c; cbn in E; injection E as <- <- <-; try reflexivity. destruct (n_sync n); reflexivity.
Qed.
