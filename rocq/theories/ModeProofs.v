(** Proofs about switching modes and halting. *)
From Verif Require Import Base MotorModel MotorSpec MotorProofs ModeModel ModeSpec.

Lemma run_app : forall c a b s, run c (a ++ b) s = run c b (run c a s).
Proof. intros. unfold run. apply fold_left_app. Qed.
Lemma run_snoc : forall c l e s, run c (l ++ [e]) s = step c e (run c l s).
Proof. intros. rewrite run_app. reflexivity. Qed.

Lemma switch_step_sel : forall t q x, sel (fst (switch_step t q x)) = sel x /\ shown (fst (switch_step t q x)) = shown x /\ st (fst (switch_step t q x)) = st x /\ hloc (fst (switch_step t q x)) = hloc x.
Proof.
  intros t q x. destruct q; cbn; try (repeat split; reflexivity).
  - destruct (state_eqb l (tst x)); repeat split; reflexivity.
  - destruct (set_transition (mcw x) l (tst x) true) as [[ok c] nx]. destruct ok; repeat split; reflexivity.
  - destruct (state_eqb (st x) l); repeat split; reflexivity.
Qed.
Lemma halt_sel : forall x, sel (halt x) = sel x /\ shown (halt x) = shown x /\ st (halt x) = st x.
Proof.
  intro x. unfold halt. destruct (hloc x) as [s|]; [|auto]. destruct (_ || _); [repeat split; reflexivity|].
  destruct (state_eqb s OperationEnable); [|repeat split; reflexivity].
  destruct (set_transition (mcw x) s QuickStopActive false) as [[? ?] ?]. repeat split; reflexivity.
Qed.

(** The locally held state was the known state at some time since the mode was displayed *)
Definition spc_local (q : spc) : option state402 :=
  match q with SSet l | SLoop l | STrans l | SWait l => Some l | _ => None end.

Section Run.
Variables (c : cfg) (m : Z) (x0 : mot).
Hypothesis Hm : m <> 0.
Let s0 : mot * pc := (x0, M0 m).
Definition shown_then (l : list event) (u : state402) : Prop :=
  exists a b d, l = a ++ b ++ d /\ shown (before c a s0) = m /\ st (before c (a ++ b) s0) = u.
Lemma shown_then_snoc : forall l e u, shown_then l u -> shown_then (l ++ [e]) u.
Proof. intros l e u [a [b [d [-> [A B]]]]]. exists a, b, (d ++ [e]). rewrite <- !app_assoc. auto. Qed.
Lemma displayed_snoc : forall l e, displayed c l s0 m -> displayed c (l ++ [e]) s0 m.
Proof. intros l e [a [b [-> A]]]. exists a, (b ++ [e]). rewrite <- !app_assoc. auto. Qed.
Lemma displayed_now : forall l, displayed c l s0 m -> shown_then l (st (before c l s0)).
Proof. intros l [a [b [-> A]]]. exists a, b, []. rewrite !app_nil_r. auto. Qed.
Lemma shown_then_displayed : forall l u, shown_then l u -> displayed c l s0 m.
Proof. intros l u [a [b [d [-> [A _]]]]]. exists a, (b ++ d). auto. Qed.

Definition J (l : list event) (x : mot) (p : pc) : Prop :=
  match p with
  | M0 k => k = m /\ sel x = sel x0
  | M1 k => k = m /\ sel x = sel x0 /\ alloc c m = true
  | S1 k q => k = m /\ sel x = None /\ alloc c m = true
  | M2 k => k = m /\ sel x = None /\ alloc c m = true
  | M3 k => k = m /\ sel x = None /\ alloc c m = true
  | S2 k false q => k = m /\ sel x = None /\ alloc c m = true
  | S2 k true q => k = m /\ sel x = Some m /\ alloc c m = true /\ displayed c l s0 m /\ (forall u, spc_local q = Some u -> shown_then l u)
                   /\ (q = SRet true -> shown_then l OperationEnable)
  | Ret true => sel x = Some m /\ alloc c m = true /\ ((sel x0 = Some m /\ was_active c l s0 m) \/ displayed_then_enabled c l s0 m)
  | Ret false => sel x = None \/ (sel x = Some m /\ displayed c l s0 m) \/ (sel x = sel x0 /\ (alloc c m = false \/ startok c m = false))
  | Exc => sel x = None \/ sel x = sel x0
  | PState _ _ => False
  end.

Lemma J_env : forall l e x x' p, J l x p -> sel x' = sel x -> J (l ++ [e]) x' p.
Proof.
  intros l e x x' p H E. destruct p as [t q|k|k|k q|k|k|k [|] q|[|]|]; cbn in *; rewrite ?E; try exact H.
  - destruct H as [H1 [H2 [H3 [H4 [H5 H6]]]]]. repeat split; auto using displayed_snoc. 
    + intros u Hu. apply shown_then_snoc. auto.
    + intro Q. apply shown_then_snoc. auto.
  - destruct H as [H1 [H2 H3]]. repeat split; auto. destruct H3 as [[X [a [b [-> [A B]]]]]|[a [b [d [-> [A B]]]]]].
    + left. split; [exact X|]. exists a, (b ++ [e]). rewrite <- !app_assoc. auto.
    + right. exists a, b, (d ++ [e]). rewrite <- !app_assoc. auto.
  - destruct H as [H|[[H1 H2]|H]]; auto. right. left. auto using displayed_snoc.
Qed.

Lemma after_env : forall (l : list event) e, run c (l ++ [e]) s0 = step c e (run c l s0).
Proof. intros. apply run_snoc. Qed.

Lemma J_S2 : forall l e x q x' q', J l x (S2 m true q) -> before c l s0 = x -> sel x' = sel x ->
  (forall u, spc_local q' = Some u -> spc_local q = Some u \/ u = st x) ->
  (q' = SRet true -> spc_local q = Some OperationEnable \/ q = SRet true) ->
  J (l ++ [e]) x' (match q' with SRet b => Ret (b && true) | p => S2 m true p end).
Proof.
  intros l e x q x' q' [_ [H2 [H3 [H4 [H5 H6]]]]] Hx E L R.
  assert (P : forall u, spc_local q' = Some u -> shown_then (l ++ [e]) u).
  { intros u Hu. apply shown_then_snoc. destruct (L u Hu) as [A| ->]; [auto|]. rewrite <- Hx. apply displayed_now, H4. }
  assert (Q : q' = SRet true -> shown_then (l ++ [e]) OperationEnable).
  { intro X. apply shown_then_snoc. destruct (R X) as [A|A]; auto. }
  destruct q'; cbn; rewrite ?E; try (repeat split; auto using displayed_snoc; fail).
  rewrite andb_true_r. destruct b; cbn; rewrite ?E.
  - repeat split; auto. right. exact (Q eq_refl).
  - right. left. auto using displayed_snoc.
Qed.

Lemma switch_local : forall t q x u, spc_local (snd (switch_step t q x)) = Some u -> spc_local q = Some u \/ u = st x.
Proof.
  intros t q x u H. destruct q as [|k|k|k|k|b]; cbn in *.
  - injection H as <-. auto.
  - auto.
  - destruct (state_eqb k (tst x)); cbn in H; [discriminate|auto].
  - destruct (set_transition (mcw x) k (tst x) true) as [[ok cc] nx]. destruct ok; cbn in H; [|discriminate].
    destruct (state_eqb k _); cbn in H; auto.
  - destruct (state_eqb (st x) k); cbn in H; [auto|]. injection H as <-. auto.
  - discriminate.
Qed.
Lemma switch_done : forall t q x, snd (switch_step t q x) = SRet true -> (spc_local q = Some t /\ tst x = t) \/ q = SRet true.
Proof.
  intros t q x H. destruct q as [|k|k|k|k|b]; cbn in *; try discriminate.
  - destruct (state_eqb k (tst x)) eqn:E; cbn in H; [|discriminate]. injection H as H. apply state_eqb_eq in H, E. subst. auto.
  - destruct (set_transition (mcw x) k (tst x) true) as [[ok cc] nx]. destruct ok; cbn in H; [|discriminate].
    destruct (state_eqb k _); discriminate.
  - destruct (state_eqb (st x) k); discriminate.
  - right. exact H.
Qed.
Lemma timeout_local : forall q x u, spc_local (switch_timeout q x) = Some u -> spc_local q = Some u \/ u = st x.
Proof.
  intros q x u H. destruct q as [|k|k|k|k|b]; cbn in *; auto.
  destruct (state_eqb (st x) k); cbn in H; [discriminate|]. injection H as <-. auto.
Qed.
Lemma timeout_done : forall q x, switch_timeout q x = SRet true -> q = SRet true.
Proof. intros q x H. destruct q as [|k|k|k|k|b]; cbn in *; auto. destruct (state_eqb (st x) k); discriminate. Qed.

Lemma J_m3 : forall l e x late, J l x (M3 m) -> before c l s0 = x -> J (l ++ [e]) (fst (m3 m x late)) (snd (m3 m x late)).
Proof.
  intros l e x late [_ [H2 H3]] Hx. unfold m3. destruct (Z.eqb_spec (shown x) m) as [E|E].
  - cbn. assert (D : displayed c (l ++ [e]) s0 m) by (apply displayed_snoc; exists l, []; rewrite app_nil_r, Hx; auto).
    repeat split; auto; intros; discriminate.
  - destruct late; cbn; auto.
Qed.

Lemma J_run : forall l, J l (fst (run c l s0)) (snd (run c l s0)).
Proof.
  induction l as [|e l IH] using rev_ind; [split; reflexivity|].
  rewrite after_env. unfold before in *. destruct (run c l s0) as [x p] eqn:E. cbn [fst snd] in IH.
  assert (Hx : before c l s0 = x) by (unfold before; rewrite E; reflexivity).
  assert (Sx : forall t q, sel (fst (switch_step t q x)) = sel x) by (intros; apply switch_step_sel).
  destruct e; cbn [step].
  - (* thread *) destruct p as [t q|k|k|k q|k|k|k ok q|b|].
    + destruct IH.
    + cbn in IH. destruct IH as [-> H]. unfold m0. rewrite (proj2 (Z.eqb_neq m 0) Hm).
      destruct (alloc c m) eqn:A; cbn [negb].
      * destruct (startok c m) eqn:So; cbn; auto.
      * cbn. auto.
    + cbn in IH. destruct IH as [-> [H A]]. unfold m1. destruct (sel x) as [k|] eqn:Sk.
      * destruct (Z.eqb_spec (shown x) m) as [Es|Es]; cbn [andb].
        -- destruct (Z.eqb_spec k m) as [->|Ek]; cbn; auto.
           rewrite Sk. repeat split; auto. left. split; [congruence|]. exists l, [EThread]. rewrite Hx. auto.
        -- cbn. auto.
      * cbn. auto.
    + destruct IH as [-> [H A]]. unfold after_switch. cbn [fst snd]. specialize (Sx (swst c) q).
      destruct (snd (switch_step (swst c) q x)) as [|u|u|u|u|b]; cbn; rewrite ?Sx; auto. destruct b; cbn; rewrite Sx; auto.
    + cbn in IH |- *. exact IH.
    + destruct IH as [-> [H A]]. apply (J_m3 l EThread x false); [|exact Hx]. cbn. auto.
    + unfold after_switch. cbn [fst snd]. destruct ok.
      * assert (K : k = m) by (destruct IH; assumption). subst k.
        pose proof (J_S2 l EThread x q (fst (switch_step OperationEnable q x)) (snd (switch_step OperationEnable q x)) IH Hx (Sx _ _)
          (switch_local _ _ _)) as P.
        assert (R : snd (switch_step OperationEnable q x) = SRet true -> spc_local q = Some OperationEnable \/ q = SRet true).
        { intro Q. destruct (switch_done _ _ _ Q) as [[A _]|A]; auto. }
        specialize (P R). destruct (snd (switch_step OperationEnable q x)); exact P.
      * destruct IH as [-> [H A]]. specialize (Sx OperationEnable q).
        destruct (snd (switch_step OperationEnable q x)) as [|u|u|u|u|b]; cbn; rewrite ?Sx; auto.
        rewrite andb_false_r. cbn. rewrite ?Sx. auto.
    + apply (J_env l EThread x x); auto.
    + apply (J_env l EThread x x); auto.
  - (* timeout *) destruct p as [t q|k|k|k q|k|k|k ok q|b|].
    + destruct IH.
    + apply (J_env l ETimeout x x); auto.
    + apply (J_env l ETimeout x x); auto.
    + destruct IH as [-> [H A]]. unfold after_switch. cbn [fst snd].
      destruct (switch_timeout q x) as [|u|u|u|u|b]; cbn; auto. destruct b; cbn; auto.
    + apply (J_env l ETimeout x x); auto.
    + destruct IH as [-> [H A]]. apply (J_m3 l ETimeout x true); [|exact Hx]. cbn. auto.
    + unfold after_switch. cbn [fst snd]. destruct ok.
      * assert (K : k = m) by (destruct IH; assumption). subst k.
        pose proof (J_S2 l ETimeout x q x (switch_timeout q x) IH Hx eq_refl (timeout_local q x)) as P.
        assert (R : switch_timeout q x = SRet true -> spc_local q = Some OperationEnable \/ q = SRet true).
        { intro Q. apply timeout_done in Q. auto. }
        specialize (P R). destruct (switch_timeout q x); exact P.
      * destruct IH as [-> [H A]]. destruct (switch_timeout q x) as [|u|u|u|u|b]; cbn; auto.
        rewrite andb_false_r. cbn. auto.
    + apply (J_env l ETimeout x x); auto.
    + apply (J_env l ETimeout x x); auto.
  - (* throw *) destruct p as [t q|k|k|k q|k|k|k ok q|b|]; try (apply (J_env l EThrow x x); auto; fail).
    + cbn in IH. destruct IH as [-> H]. rewrite (proj2 (Z.eqb_neq m 0) Hm). cbn. auto.
    + cbn in IH |- *. tauto.
    + cbn in IH |- *. tauto.
  - apply (J_env l _ x); auto.
  - apply (J_env l _ x); auto.
  - apply (J_env l _ x); auto. apply halt_sel.
Qed.
End Run.

(** ** Halt *)

Lemma halt_tst : forall x s, hloc x = Some s -> ~ faulty s -> tst (halt x) = (if state_eqb s OperationEnable then QuickStopActive else s).
Proof.
  intros x s H N. unfold halt. rewrite H.
  assert (F : state_eqb s FaultReactionActive || state_eqb s Fault = false).
  { apply orb_false_iff. split; apply state_eqb_neq; intros ->; apply N; [right|left]; reflexivity. }
  rewrite F. destruct (state_eqb s OperationEnable); [|reflexivity].
  destruct (set_transition (mcw x) s QuickStopActive false) as [[? ?] ?]. reflexivity.
Qed.
Lemma halt_fault : forall x s, hloc x = Some s -> faulty s ->
  halt x = mkM (st x) (tst x) (mcw x) (sel x) (shown x) (hast x) None.
Proof. intros x s H F. unfold halt. rewrite H. destruct F as [-> | ->]; reflexivity. Qed.

Section Halt.
Variables (c : cfg) (target : state402) (x0 : mot) (p0 : spc).
Hypothesis H0 : tst x0 <> target.
Hypothesis H1 : switching p0.
Hypothesis H2 : hloc x0 = None.
Let s0 : mot * pc := (x0, PState target p0).

Definition K (l : list event) (x : mot) (p : pc) : Prop :=
  (tst x = target -> target <> OperationEnable /\ halted_at c l s0 target) /\
  (forall s, hloc x = Some s -> halted_at c l s0 s) /\
  match p with
  | PState t q => t = target /\ (switching q \/ q = SRet false)
  | Ret b => b = true -> target <> OperationEnable /\ halted_at c l s0 target
  | _ => False
  end.
Lemma halted_snoc : forall l e s, halted_at c l s0 s -> halted_at c (l ++ [e]) s0 s.
Proof. intros l e s [a [b [-> A]]]. exists a, (b ++ [e]). rewrite <- app_assoc. auto. Qed.
Lemma K_run : (target = QuickStopActive -> False) -> forall l, K l (fst (run c l s0)) (snd (run c l s0)).
Proof.
  intros NQ. induction l as [|e l IH] using rev_ind.
  { repeat split; try contradiction; auto. cbn. congruence. }
  rewrite run_snoc. destruct (run c l s0) as [x p] eqn:E. cbn [fst snd] in IH.
  assert (Hx : before c l s0 = x) by (unfold before; rewrite E; reflexivity).
  destruct IH as [A [B C]].
  assert (A' : tst x = target -> target <> OperationEnable /\ halted_at c (l ++ [e]) s0 target).
  { intro X. destruct (A X). auto using halted_snoc. }
  assert (B' : forall s, hloc x = Some s -> halted_at c (l ++ [e]) s0 s) by (intros; auto using halted_snoc).
  destruct p as [t q|k|k|k q|k|k|k ok q|b|]; try (destruct C; fail).
  - destruct C as [-> C]. destruct e; cbn [step].
    + unfold after_switch. cbn [fst snd].
      assert (T : tst (fst (switch_step target q x)) = tst x).
      { destruct q as [|k|k|k|k|b]; cbn in *; try reflexivity.
        - destruct C as [[]|C]; discriminate.
        - destruct (state_eqb k (tst x)); reflexivity.
        - destruct (set_transition (mcw x) k (tst x) true) as [[ok cc] nx]. destruct ok; reflexivity.
        - destruct (state_eqb (st x) k); reflexivity. }
      destruct (switch_step_sel target q x) as [_ [_ [_ Hl]]].
      split; [rewrite T; exact A'|]. split; [rewrite Hl; exact B'|].
      destruct (snd (switch_step target q x)) as [|u|u|u|u|b] eqn:Q; cbn.
      * exfalso. destruct q as [|k|k|k|k|b]; cbn in Q; try discriminate; try (destruct C as [[]|C]; discriminate).
        -- destruct (state_eqb k (tst x)); discriminate.
        -- destruct (set_transition (mcw x) k (tst x) true) as [[ok cc] nx]. destruct ok; [destruct (state_eqb k _)|]; discriminate.
        -- destruct (state_eqb (st x) k); discriminate.
      * exfalso. destruct q as [|k|k|k|k|b]; cbn in Q; try discriminate; try (destruct C as [[]|C]; discriminate).
        -- destruct (state_eqb k (tst x)); discriminate.
        -- destruct (set_transition (mcw x) k (tst x) true) as [[ok cc] nx]. destruct ok; [destruct (state_eqb k _)|]; discriminate.
        -- destruct (state_eqb (st x) k); discriminate.
      * auto.
      * auto.
      * auto.
      * intros ->. destruct (switch_done _ _ _ Q) as [[_ X]|X]; [exact (A' X)|]. subst q. destruct C as [[]|C]; discriminate.
    + unfold after_switch. cbn [fst snd]. split; [exact A'|]. split; [exact B'|].
      destruct (switch_timeout q x) as [|u|u|u|u|b] eqn:Q; cbn; auto.
      * destruct q as [|k|k|k|k|b]; cbn in Q; try discriminate; try (destruct C as [[]|C]; discriminate). destruct (state_eqb (st x) k); discriminate.
      * destruct q as [|k|k|k|k|b]; cbn in Q; try discriminate; try (destruct C as [[]|C]; discriminate). destruct (state_eqb (st x) k); discriminate.
      * intros ->. apply timeout_done in Q. subst q. destruct C as [[]|C]; discriminate.
    + split; [exact A'|]. split; [exact B'|]. cbn. auto.
    + split; [exact A'|]. split; [exact B'|]. cbn. auto.
    + split; [exact A'|]. split; [|cbn; auto]. cbn. intros s Hs. injection Hs as <-. exists l, []. rewrite Hx. auto.
    + cbn [fst snd]. split; [|split; [|cbn; auto]].
      * destruct (hloc x) as [s|] eqn:Hs; [|unfold halt; rewrite Hs; exact A'].
        assert (Dec : {faulty s} + {~ faulty s}) by (unfold faulty; destruct s; (left; tauto) || (right; intros [X|X]; discriminate)).
        destruct Dec as [F|F].
        -- rewrite (halt_fault x s Hs F). exact A'.
        -- rewrite (halt_tst x s Hs F). destruct (state_eqb s OperationEnable) eqn:Eo.
           ++ intro X. destruct (NQ (eq_sym X)).
           ++ intros ->. split; [intros ->; rewrite state_eqb_refl in Eo; discriminate|]. apply B'. reflexivity.
      * intros s Hs. exfalso. revert Hs. unfold halt. destruct (hloc x) as [u|] eqn:Hu.
        -- destruct (_ || _); [discriminate|]. destruct (state_eqb u OperationEnable); [|discriminate].
           destruct (set_transition (mcw x) u QuickStopActive false) as [[? ?] ?]. discriminate.
        -- congruence.
  - assert (C' : b = true -> target <> OperationEnable /\ halted_at c (l ++ [e]) s0 target) by (intro X; destruct (C X); auto using halted_snoc).
    destruct e; cbn [step]; cbn [fst snd]; try (split; [exact A'|split; [exact B'|exact C']]).
    + split; [exact A'|]. split; [|exact C']. cbn. intros s Hs. injection Hs as <-. exists l, []. rewrite Hx. auto.
    + split; [|split; [|exact C']].
      * destruct (hloc x) as [s|] eqn:Hs; [|unfold halt; rewrite Hs; exact A'].
        assert (Dec : {faulty s} + {~ faulty s}) by (unfold faulty; destruct s; (left; tauto) || (right; intros [X|X]; discriminate)).
        destruct Dec as [F|F].
        -- rewrite (halt_fault x s Hs F). exact A'.
        -- rewrite (halt_tst x s Hs F). destruct (state_eqb s OperationEnable) eqn:Eo.
           ++ intro X. destruct (NQ (eq_sym X)).
           ++ intros ->. split; [intros ->; rewrite state_eqb_refl in Eo; discriminate|]. apply B'. reflexivity.
      * intros s Hs. exfalso. revert Hs. unfold halt. destruct (hloc x) as [u|] eqn:Hu; [|congruence].
        destruct (_ || _); [discriminate|]. destruct (state_eqb u OperationEnable); [|discriminate].
        destruct (set_transition (mcw x) u QuickStopActive false) as [[? ?] ?]. discriminate.
Qed.
End Halt.

(** ** Halting a mode switch *)
Lemma halt_hloc : forall x, hloc (halt x) = None.
Proof.
  intro x. unfold halt. destruct (hloc x) as [s|] eqn:E; [|exact E]. destruct (_ || _); [reflexivity|].
  destruct (state_eqb s OperationEnable); [|reflexivity].
  destruct (set_transition (mcw x) s QuickStopActive false) as [[? ?] ?]. reflexivity.
Qed.

Definition as_s2 (m : Z) (ok : bool) (p : pc) : pc :=
  match p with PState _ q => S2 m ok q | Ret b => Ret (b && ok) | p => p end.
Definition plain (p : pc) : Prop := match p with PState t _ => t = OperationEnable | Ret _ => True | _ => False end.
Lemma plain_step : forall c e x p, plain p -> plain (snd (step c e (x, p))).
Proof.
  intros c e x p H. destruct p as [t q|k|k|k q|k|k|k ok q|b|]; try (destruct H; fail).
  - cbn in H. subst t. destruct e; cbn; auto.
    + destruct (snd (switch_step OperationEnable q x)); cbn; auto.
    + destruct (switch_timeout q x); cbn; auto.
  - destruct e; exact I.
Qed.
Lemma s2_step : forall c e m ok x p, plain p ->
  step c e (x, as_s2 m ok p) = (fst (step c e (x, p)), as_s2 m ok (snd (step c e (x, p)))).
Proof.
  intros c e m ok x p H. destruct p as [t q|k|k|k q|k|k|k o q|b|]; try (destruct H; fail).
  - cbn in H. subst t. destruct e; cbn; auto.
    + unfold after_switch. cbn. destruct (snd (switch_step OperationEnable q x)); reflexivity.
    + unfold after_switch. cbn. destruct (switch_timeout q x); reflexivity.
  - destruct e; reflexivity.
Qed.
Lemma s2_run : forall c m ok l x p, plain p ->
  run c l (x, as_s2 m ok p) = (fst (run c l (x, p)), as_s2 m ok (snd (run c l (x, p)))).
Proof.
  intros c m ok. induction l as [|e l IH]; intros x p H; [reflexivity|].
  unfold run in *. cbn [fold_left]. rewrite s2_step by exact H. rewrite IH by (apply plain_step; exact H).
  rewrite <- surjective_pairing. reflexivity.
Qed.

Definition as_s1 (m : Z) (p : pc) : pc :=
  match p with PState _ q => S1 m q | p => p end.
Definition plain1 (t : state402) (p : pc) : Prop := match p with PState u q => u = t | Ret b => b = false | _ => False end.
Lemma s1_step : forall c e m x p, plain1 (swst c) p -> snd (step c e (x, p)) <> Ret true ->
  plain1 (swst c) (snd (step c e (x, p))) /\
  step c e (x, as_s1 m p) = (fst (step c e (x, p)), as_s1 m (snd (step c e (x, p)))).
Proof.
  intros c e m x p H N. destruct p as [t q|k|k|k q|k|k|k o q|b|]; try (destruct H; fail).
  - cbn in H. subst t. destruct e; cbn in *; auto.
    + unfold after_switch. cbn. destruct (snd (switch_step (swst c) q x)) as [| | | | |[|]]; cbn; auto. destruct N; reflexivity.
    + unfold after_switch. cbn. destruct (switch_timeout q x) as [| | | | |[|]]; cbn; auto. destruct N; reflexivity.
  - cbn in H. subst b. destruct e; split; reflexivity.
Qed.
Lemma s1_run : forall c m l x p, plain1 (swst c) p -> (forall a b, l = a ++ b -> snd (run c a (x, p)) <> Ret true) ->
  plain1 (swst c) (snd (run c l (x, p))) /\
  run c l (x, as_s1 m p) = (fst (run c l (x, p)), as_s1 m (snd (run c l (x, p)))).
Proof.
  intros c m. induction l as [|e l IH]; intros x p H N; [split; [exact H|reflexivity]|].
  assert (N1 : snd (step c e (x, p)) <> Ret true) by (apply (N [e] l); reflexivity).
  destruct (s1_step c e m x p H N1) as [A B].
  change (run c (e :: l) (x, as_s1 m p)) with (run c l (step c e (x, as_s1 m p))). rewrite B.
  change (run c (e :: l) (x, p)) with (run c l (step c e (x, p))).
  rewrite (surjective_pairing (step c e (x, p))). apply IH; [exact A|].
  intros a b ->. rewrite <- surjective_pairing. apply (N (e :: a) b). reflexivity.
Qed.

(** ** A switch with a drive that does as it is told *)
Definition idle (s : mot * pc) : Prop := forall c, step c EThread s = s.
Lemma idle_run : forall c n s, idle s -> run c (repeat EThread n) s = s.
Proof. intros c n s I. induction n as [|n IH]; [reflexivity|]. cbn [repeat run fold_left]. rewrite I. exact IH. Qed.
Lemma settle : forall c n k s s', (k <= n)%nat -> run c (repeat EThread k) s = s' -> idle s' -> run c (repeat EThread n) s = s'.
Proof.
  intros c n k s s' L E I. replace n with (k + (n - k))%nat by lia. rewrite repeat_app, run_app, E. apply idle_run. exact I.
Qed.
Lemma round_settled : forall c m n k s s', (k <= n)%nat -> run c (repeat EThread k) s = s' -> idle s' ->
  round c m s n = step c (ERead (drive_step (st (fst s)) (rising (mcw (fst s)) (mcw (fst s'))) (mcw (fst s'))) m) s'.
Proof. intros c m n k s s' L E I. unfold round. rewrite (settle c n k s s' L E I). reflexivity. Qed.
Lemma run_S : forall c n s, run c (repeat EThread (S n)) s = run c (repeat EThread n) (step c EThread s).
Proof. reflexivity. Qed.

(** Being done, nothing changes *)
Lemma rounds_done : forall c m ns x b, st x = OperationEnable -> obey OperationEnable (command_of (mcw x)) = OperationEnable ->
  let s := rounds c m ns (x, Ret b) in snd s = Ret b /\ sel (fst s) = sel x /\ st (fst s) = OperationEnable.
Proof.
  intros c m ns. induction ns as [|n ns IH]; intros x b A B; [auto|].
  cbn [rounds fold_left]. fold (rounds c m ns).
  rewrite (round_settled c m n 0 (x, Ret b) (x, Ret b) ltac:(lia) eq_refl ltac:(intro; reflexivity)).
  cbn [fst snd step]. rewrite A. cbn [drive_step]. rewrite B.
  apply (IH (mkM OperationEnable (tst x) (mcw x) (sel x) m (hast x) (hloc x)) b eq_refl B).
Qed.
Lemma obey_enable : forall cw, obey OperationEnable (command_of (apply_op enable_operation cw)) = OperationEnable.
Proof.
  intros. pose proof (transition_drive SwitchedOn OperationEnable enable_operation cw 0 eq_refl) as H.
  specialize (H ltac:(cbn; intuition discriminate) ltac:(discriminate)). cbn [drive_step] in H.
  destruct (command_of (apply_op enable_operation cw)) as [[]|]; cbn in *; congruence.
Qed.
Lemma obeyed : forall from to o cw, transition from to = Some o -> from <> Fault -> ~ In (from, to) extra ->
  drive_step from (rising cw (apply_op o cw)) (apply_op o cw) = to.
Proof. intros. apply transition_drive; auto. contradiction. Qed.



Ltac redx := cbn -[Z.eqb drive_step apply_op rising].
Ltac told := match goal with |- context [drive_step ?f (rising ?w (apply_op ?o ?w)) (apply_op ?o ?w)] =>
  rewrite (obeyed f (next_for_enabling f) o w) by (try reflexivity; try discriminate; cbn; intuition discriminate) end.
(** The operation that takes the next hop on the way to operation *)
Definition hop (from : state402) : op := match transition from (next_for_enabling from) with Some o => o | None => automatic end.
Definition low (s : state402) : Prop := In s [SwitchOnDisabled; ReadyToSwitchOn; SwitchedOn; QuickStopActive].
Lemma round_S2 : forall c m n x l ok, (12 <= n)%nat -> tst x = OperationEnable -> l <> st x -> low (st x) ->
  round c m (x, S2 m ok (SWait l)) n =
  (mkM (next_for_enabling (st x)) OperationEnable (apply_op (hop (st x)) (mcw x)) (sel x) m (hast x) (hloc x), S2 m ok (SWait (st x))).
Proof.
  intros c m n [s0 t0 cw se sh hs hl] l ok Hn B N I. cbn [st tst mcw sel shown hast hloc] in *. subst t0.
  assert (Nl : state_eqb s0 l = false) by (apply state_eqb_neq; congruence).
  destruct I as [<-|[<-|[<-|[<-|[]]]]];
  (erewrite (round_settled c m n 3);
   [|lia|rewrite run_S; cbn -[Z.eqb drive_step apply_op rising state_eqb]; rewrite Nl; redx; reflexivity|intro; reflexivity];
   redx; unfold hop; redx; told; reflexivity).
Qed.
Lemma round_S1 : forall c m n x l, (12 <= n)%nat -> swst c = OperationEnable -> tst x = OperationEnable -> l <> st x -> low (st x) ->
  round c m (x, S1 m (SWait l)) n =
  (mkM (next_for_enabling (st x)) OperationEnable (apply_op (hop (st x)) (mcw x)) (sel x) m (hast x) (hloc x), S1 m (SWait (st x))).
Proof.
  intros c m n [s0 t0 cw se sh hs hl] l Hn Hw B N I. cbn [st tst mcw sel shown hast hloc] in *. subst t0.
  assert (Nl : state_eqb s0 l = false) by (apply state_eqb_neq; congruence).
  destruct I as [<-|[<-|[<-|[<-|[]]]]];
  (erewrite (round_settled c m n 3);
   [|lia|rewrite run_S; cbn -[Z.eqb drive_step apply_op rising state_eqb]; rewrite Nl; redx; rewrite ?Hw; redx; reflexivity|intro; reflexivity];
   redx; unfold hop; redx; told; reflexivity).
Qed.
Lemma arrive_S2 : forall c m n x l, (12 <= n)%nat -> st x = OperationEnable -> tst x = OperationEnable -> l <> OperationEnable ->
  round c m (x, S2 m true (SWait l)) n =
  (mkM (obey OperationEnable (command_of (mcw x))) OperationEnable (mcw x) (sel x) m (hast x) (hloc x), Ret true).
Proof.
  intros c m n [s0 t0 cw se sh hs hl] l Hn A B N. cbn [st tst mcw sel shown hast hloc] in *. subst s0 t0.
  assert (Nl : state_eqb OperationEnable l = false) by (apply state_eqb_neq; congruence).
  erewrite (round_settled c m n 2); [|lia|rewrite run_S; cbn -[Z.eqb drive_step apply_op rising state_eqb]; rewrite Nl; redx; reflexivity|intro; reflexivity].
  redx. reflexivity.
Qed.
Lemma arrive_S1 : forall c m n x l, (12 <= n)%nat -> swst c = OperationEnable -> st x = OperationEnable -> tst x = OperationEnable -> l <> OperationEnable ->
  shown x = m ->
  round c m (x, S1 m (SWait l)) n =
  (mkM (obey OperationEnable (command_of (mcw x))) OperationEnable (mcw x) (Some m) m (hast x) (hloc x), Ret true).
Proof.
  intros c m n [s0 t0 cw se sh hs hl] l Hn Hw A B N E. cbn [st tst mcw sel shown hast hloc] in *. subst s0 t0 sh.
  assert (Nl : state_eqb OperationEnable l = false) by (apply state_eqb_neq; congruence).
  erewrite (round_settled c m n 7); [|lia|rewrite run_S; cbn -[Z.eqb drive_step apply_op rising state_eqb]; rewrite Nl; redx; rewrite ?Hw; redx;
    unfold m3; redx; rewrite Z.eqb_refl; redx; reflexivity|intro; reflexivity].
  redx. reflexivity.
Qed.
Lemma between : forall c m n x, (12 <= n)%nat -> low (st x) -> swst c = st x -> tst x = st x -> shown x = m ->
  round c m (x, S1 m (SWait OperationEnable)) n =
  (mkM (next_for_enabling (st x)) OperationEnable (apply_op (hop (st x)) (mcw x)) (Some m) m (hast x) (hloc x), S2 m true (SWait (st x))).
Proof.
  intros c m n [s0 t0 cw se sh hs hl] Hn I Hw A E. cbn [st tst mcw sel shown hast hloc] in *. subst t0 sh.
  destruct I as [<-|[<-|[<-|[<-|[]]]]];
  (erewrite (round_settled c m n 8);
   [|lia|redx; rewrite ?Hw; redx; unfold m3; redx; rewrite Z.eqb_refl; redx; reflexivity|intro; reflexivity];
   redx; unfold hop; redx; told; reflexivity).
Qed.

Lemma m1_other : forall m x, sel x <> Some m -> m1 m x = (with_sel x None, S1 m SEnter).
Proof.
  intros m x N. unfold m1. destruct (sel x) as [k|]; [|reflexivity].
  destruct (k =? m) eqn:Ek; [apply Z.eqb_eq in Ek; congruence|]. rewrite andb_false_r. reflexivity.
Qed.
(** The switch begins: the state to be left is known *)
Lemma begin_S1 : forall c m x, m <> 0 -> alloc c m = true -> startok c m = true -> sel x <> Some m ->
  exists h, run c (repeat EThread 4) (x, M0 m) = (mkM (st x) (swst c) (mcw x) None (shown x) h (hloc x), S1 m (SLoop (st x))).
Proof.
  intros c m x Hm Ha Hs Hsel. eexists. rewrite run_S. cbn [step]. unfold m0. rewrite (proj2 (Z.eqb_neq m 0) Hm), Ha, Hs. cbn [negb].
  rewrite run_S. cbn [step]. rewrite m1_other by exact Hsel. reflexivity.
Qed.
Lemma run_more : forall c a b s, run c (repeat EThread (a + b)) s = run c (repeat EThread b) (run c (repeat EThread a) s).
Proof. intros. rewrite repeat_app. apply run_app. Qed.
Lemma started : forall c m n x, (12 <= n)%nat -> m <> 0 -> alloc c m = true -> startok c m = true -> sel x <> Some m ->
  swst c = OperationEnable -> low (st x) ->
  exists h, round c m (x, M0 m) n =
  (mkM (next_for_enabling (st x)) OperationEnable (apply_op (hop (st x)) (mcw x)) None m h (hloc x), S1 m (SWait (st x))).
Proof.
  intros c m n x Hn Hm Ha Hs Hsel Hw I. destruct (begin_S1 c m x Hm Ha Hs Hsel) as [h B]. exists h. rewrite Hw in B.
  destruct x as [s0 t0 cw se sh hs hl]. cbn [st tst mcw sel shown hast hloc] in *.
  destruct I as [<-|[<-|[<-|[<-|[]]]]];
  (erewrite (round_settled c m n (4 + 2));
   [|lia|rewrite run_more, B; redx; reflexivity|intro; reflexivity];
   redx; unfold hop; redx; told; reflexivity).
Qed.
Lemma left_op : forall c m n x, (12 <= n)%nat -> m <> 0 -> alloc c m = true -> startok c m = true -> sel x <> Some m ->
  st x = OperationEnable -> low (swst c) ->
  exists h w, round c m (x, M0 m) n =
  (mkM (swst c) (swst c) w None m h (hloc x), S1 m (SWait OperationEnable)).
Proof.
  intros c m n x Hn Hm Ha Hs Hsel Hx I. destruct (begin_S1 c m x Hm Ha Hs Hsel) as [h B]. exists h. rewrite Hx in B.
  destruct x as [s0 t0 cw se sh hs hl]. cbn [st tst mcw sel shown hast hloc] in *. subst s0.
  remember (swst c) as w eqn:Ew.
  assert (G : forall t, w = t -> low t -> exists cw', round c m (mkM OperationEnable t0 cw se sh hs hl, M0 m) n =
    (mkM t t cw' None m h hl, S1 m (SWait OperationEnable))).
  { intros t -> L. destruct (transition OperationEnable t) as [o|] eqn:T; [|destruct L as [<-|[<-|[<-|[<-|[]]]]]; discriminate T].
    exists (apply_op o cw).
    assert (X : drive_step OperationEnable (rising cw (apply_op o cw)) (apply_op o cw) = t).
    { apply obeyed; [exact T|discriminate|]. destruct L as [<-|[<-|[<-|[<-|[]]]]]; cbn; intuition discriminate. }
    destruct L as [<-|[<-|[<-|[<-|[]]]]]; injection T as <-;
    (erewrite (round_settled c m n (4 + 2)); [|lia|rewrite run_more, B; redx; reflexivity|intro; reflexivity]; redx; rewrite X; reflexivity). }
  exact (G w eq_refl I).
Qed.
(** In operation already, and another mode is displayed *)
Lemma in_op : forall c m n x, (12 <= n)%nat -> m <> 0 -> alloc c m = true -> startok c m = true -> sel x <> Some m ->
  st x = OperationEnable -> swst c = OperationEnable -> obey OperationEnable (command_of (mcw x)) = OperationEnable ->
  exists h p v, round c m (x, M0 m) n = (mkM OperationEnable OperationEnable (mcw x) v m h (hloc x), p) /\
    (p = Ret true /\ v = Some m \/ p = M3 m).
Proof.
  intros c m n x Hn Hm Ha Hs Hsel Hx Hw O. destruct (begin_S1 c m x Hm Ha Hs Hsel) as [h B]. exists h. rewrite Hx, Hw in B.
  destruct x as [s0 t0 cw se sh hs hl]. cbn [st tst mcw sel shown hast hloc] in *. subst s0.
  destruct (sh =? m) eqn:E.
  - exists (Ret true), (Some m). split; [|auto].
    erewrite (round_settled c m n (4 + 6)); [|lia|rewrite run_more, B; redx; rewrite Hw; redx; unfold m3; redx; rewrite E; redx; reflexivity|intro; reflexivity].
    redx. cbn [drive_step]. rewrite O. reflexivity.
  - exists (M3 m), None. split; [|auto].
    erewrite (round_settled c m n (4 + 2)); [|lia|rewrite run_more, B; redx; rewrite Hw; redx; reflexivity|intro; cbn [step]; unfold m3; cbn [shown]; rewrite E; reflexivity].
    redx. cbn [drive_step]. rewrite O. reflexivity.
Qed.
Lemma shown_op : forall c m n x, (12 <= n)%nat -> st x = OperationEnable -> shown x = m -> 
  round c m (x, M3 m) n =
  (mkM (obey OperationEnable (command_of (mcw x))) OperationEnable (mcw x) (Some m) m (hast x) (hloc x), Ret true).
Proof.
  intros c m n [s0 t0 cw se sh hs hl] Hn A E. cbn [st tst mcw sel shown hast hloc] in *. subst s0 sh.
  erewrite (round_settled c m n 4); [|lia|redx; unfold m3; redx; rewrite Z.eqb_refl; redx; reflexivity|intro; reflexivity].
  redx. reflexivity.
Qed.

Lemma cooperates : forall c m x ns, m <> 0 -> alloc c m = true -> startok c m = true -> sel x <> Some m ->
  calm x -> reachable_from (st x) (swst c) -> (5 <= List.length ns)%nat -> Forall (fun n => (12 <= n)%nat) ns ->
  let s := rounds c m ns (x, M0 m) in snd s = Ret true /\ sel (fst s) = Some m /\ st (fst s) = OperationEnable.
Proof.
  intros c m x ns Hm Ha Hs Hsel Hc Hr Hl Hn.
  destruct ns as [|n1 [|n2 [|n3 [|n4 [|n5 ns]]]]]; cbn in Hl; try lia.
  apply Forall_cons_iff in Hn; destruct Hn as [N1 Hn]. apply Forall_cons_iff in Hn; destruct Hn as [N2 Hn].
  apply Forall_cons_iff in Hn; destruct Hn as [N3 Hn]. apply Forall_cons_iff in Hn; destruct Hn as [N4 Hn].
  apply Forall_cons_iff in Hn; destruct Hn as [N5 _].
  assert (D : forall r cw h hl, obey OperationEnable (command_of cw) = OperationEnable ->
    let s := rounds c m r (mkM OperationEnable OperationEnable cw (Some m) m h hl, Ret true) in
    snd s = Ret true /\ sel (fst s) = Some m /\ st (fst s) = OperationEnable).
  { intros r cw h hl O. apply (rounds_done c m r (mkM OperationEnable OperationEnable cw (Some m) m h hl) true eq_refl O). }
  change (rounds c m (n1 :: n2 :: n3 :: n4 :: n5 :: ns) (x, M0 m)) with (rounds c m (n2 :: n3 :: n4 :: n5 :: ns) (round c m (x, M0 m) n1)).
  assert (C : forall n r s, rounds c m (n :: r) s = rounds c m r (round c m s n)) by reflexivity.
  destruct Hr as [Hw|[Hx Hw]].
  - destruct Hc as [Hx|[Hx O]].
    + destruct (started c m n1 x N1 Hm Ha Hs Hsel Hw Hx) as [h ->].
      Ltac s1 Hw N := first
        [ rewrite round_S1 by (first [exact N|exact Hw|reflexivity|discriminate|cbn; tauto])
        | rewrite arrive_S1 by (first [exact N|exact Hw|reflexivity|discriminate]) ];
        cbn [st tst mcw sel shown hast hloc].
      destruct Hx as [<-|[<-|[<-|[<-|[]]]]]; cbn [next_for_enabling]; unfold hop; cbn [next_for_enabling transition].
      * rewrite C. s1 Hw N2. cbn [next_for_enabling hop transition].
        rewrite C. s1 Hw N3. cbn [next_for_enabling hop transition].
        rewrite C. s1 Hw N4. rewrite !obey_enable. apply D. apply obey_enable.
      * rewrite C. s1 Hw N2. cbn [next_for_enabling hop transition].
        rewrite C. s1 Hw N3. rewrite !obey_enable. apply D. apply obey_enable.
      * rewrite C. s1 Hw N2. rewrite !obey_enable. apply D. apply obey_enable.
      * rewrite C. s1 Hw N2. rewrite !obey_enable. apply D. apply obey_enable.
    + destruct (in_op c m n1 x N1 Hm Ha Hs Hsel Hx Hw O) as (h & p & v & -> & [[-> ->]| ->]); [apply D; exact O|].
      rewrite C, shown_op by (first [exact N2|reflexivity]). cbn [st tst mcw sel shown hast hloc]. rewrite O. apply D. exact O.
  - destruct (left_op c m n1 x N1 Hm Ha Hs Hsel Hx Hw) as [h [w ->]]. rewrite C.
    rewrite between by (first [exact N2|exact Hw|reflexivity]). cbn [st tst mcw sel shown hast hloc].
    Ltac s2 N := first
        [ rewrite round_S2 by (first [exact N|reflexivity|discriminate|cbn; tauto])
        | rewrite arrive_S2 by (first [exact N|reflexivity|discriminate]) ];
        cbn [st tst mcw sel shown hast hloc].
    destruct Hw as [<-|[<-|[<-|[<-|[]]]]]; cbn [next_for_enabling]; unfold hop; cbn [next_for_enabling transition].
    + rewrite C. s2 N3. cbn [next_for_enabling hop transition].
      rewrite C. s2 N4. cbn [next_for_enabling hop transition].
      rewrite C. s2 N5. rewrite !obey_enable. apply D. apply obey_enable.
    + rewrite C. s2 N3. cbn [next_for_enabling hop transition].
      rewrite C. s2 N4. rewrite !obey_enable. apply D. apply obey_enable.
    + rewrite C. s2 N3. rewrite !obey_enable. apply D. apply obey_enable.
    + rewrite C. s2 N3. rewrite !obey_enable. apply D. apply obey_enable.
Qed.
