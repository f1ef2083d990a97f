(** Proofs about the heartbeat of the chain. *)
From Verif Require Import Base CanModel LayerModel LayerSpec LayerProofs LayerGroupProofs LayerOrderProofs ChainModel ChainSpec ChainProofs TimerModel TimerSpec.

Definition trues (l : list bool) : nat := List.length (List.filter (fun x => x) l).
Lemma trues_app : forall a b, trues (a ++ b) = (trues a + trues b)%nat.
Proof. intros a b. unfold trues. rewrite filter_app, app_length. reflexivity. Qed.
Lemma trues_false : forall n, trues (repeat false n) = 0%nat.
Proof. induction n; [reflexivity|exact IHn]. Qed.
Lemma trues_true : forall n, trues (repeat true n) = n.
Proof. induction n; [reflexivity|]. cbn. f_equal. exact IHn. Qed.
Lemma trues_clean : forall l, ~ In true l <-> trues l = 0%nat.
Proof.
  induction l as [|x l IH]; cbn; [split; auto|]. destruct x; split; intro H.
  - destruct H. auto.
  - discriminate.
  - apply IH. tauto.
  - apply IH in H. intros [X|X]; [discriminate|tauto].
Qed.

Arguments trues : simpl never.

Definition pending (t : timer) : nat := (waits t + trues (queue t))%nat.

(** ** One step *)
Lemma tstep_cases : forall e t p, configured p t -> exists t', tstep e t = Ok t' /\ configured p t' /\
  ((beats t' = beats t /\ expiry t' = expiry t /\ pending t' = pending t /\ clock t <= clock t' /\ (waits t' <= waits t)%nat
    /\ (trues (queue t') + waits t' = trues (queue t) + waits t)%nat
    /\ (waits t' <> waits t -> expiry t <= clock t' /\ waits t' = 0%nat)) \/
   (exists ok q, e = TRun ok /\ queue t = true :: q /\ clock t' = clock t /\ beats t' = (clock t, ok) :: beats t /\
      (ok = true -> expiry t' = expiry t + p /\ waits t' = 1%nat /\ trues (queue t') = trues q) /\
      (ok = false -> expiry t' = expiry t /\ waits t' = waits t /\ trues (queue t') = trues q))).
Proof.
  intros e t p [P A]. destruct e as [d| |ok]; cbn [tstep].
  - eexists. split; [reflexivity|]. split; [split; assumption|]. left. cbn. unfold pending. cbn. repeat split; try lia.
  - destruct (Z.leb_spec (expiry t) (clock t)).
    + eexists. split; [reflexivity|]. split; [split; assumption|]. left. unfold pending. cbn.
      rewrite trues_app, trues_true. repeat split; try lia.
    + eexists. split; [reflexivity|]. split; [split; assumption|]. left. repeat split; try lia.
  - unfold handler. destruct (queue t) as [|ec q] eqn:Q.
    + exists t. split; [reflexivity|]. split; [split; assumption|]. left. rewrite Q. repeat split; try lia.
    + cbn [armed]. rewrite A. destruct ec; cbn [andb].
      * destruct ok; cbn [period].
        -- rewrite P. eexists. split; [reflexivity|]. split; [split; cbn; (assumption || reflexivity)|]. right. exists true, q.
           cbn. rewrite trues_app, trues_false. repeat split; try congruence; try lia.
        -- eexists. split; [reflexivity|]. split; [split; cbn; (assumption || reflexivity)|]. right. exists false, q.
           cbn. repeat split; try congruence; try lia.
      * eexists. split; [reflexivity|]. split; [split; cbn; (assumption || reflexivity)|]. left. unfold pending. cbn [beats queue waits clock expiry].
        rewrite Q. unfold trues. cbn. repeat split; try lia.
Qed.

(** ** A regular heartbeat *)
(** After [n] calls since [s], the timer being restarted in [r] *)
Definition regular (r p : Z) (t0 t : timer) (new : list (Z * bool)) : Prop :=
  configured p t /\ pending t = 1%nat /\ between t0 t new /\
  expiry t = r + (Z.of_nat (List.length new) + 1) * p /\
  r + Z.of_nat (List.length new) * p <= clock t /\
  (waits t = 0%nat -> expiry t <= clock t) /\
  (forall k s ok, nth_error new k = Some (s, ok) -> ok = true /\ r + (Z.of_nat k + 1) * p <= s).

Lemma restart_regular : forall p t t', configured p t -> clean t -> 0 <= p -> restart t = Ok t' -> regular (clock t) p t t' [].
Proof.
  intros p t t' [P A] C Hp E. unfold restart in E. rewrite P in E. injection E as <-. apply trues_clean in C.
  unfold regular, pending, between, configured. cbn -[Z.mul Z.add]. rewrite trues_app, trues_false, C. 
  do 6 (split; [try (split; assumption); lia || reflexivity|]). intros k s ok Hk. destruct k; discriminate Hk.
Qed.
Lemma regular_step : forall e r p t0 t t' new, 0 <= p -> (match e with TRun ok => ok = true | _ => True end) ->
  regular r p t0 t new -> tstep e t = Ok t' ->
  (regular r p t0 t' new /\ expiry t' = expiry t) \/
  (regular r p t0 t' (new ++ [(clock t, true)]) /\ clock t' = clock t).
Proof.
  intros e r p t0 t t' new Hp S (C & Pe & B & Ex & Cl & W & N) E.
  destruct (tstep_cases e t p C) as [t1 [E1 [C1 H]]]. assert (t1 = t') by congruence. subst t1. clear E1.
  destruct H as [(Hb & He & Hq & Hc & Hw & Hw2 & Hw3)|(ok & q & -> & Q & Hc & Hb & H1 & H2)].
  - left. split; [|exact He]. unfold regular. unfold between in *. rewrite Hb, He, Hq. split; [exact C1|]. split; [exact Pe|]. split; [exact B|]. split; [exact Ex|]. split; [lia|]. split; [|exact N].
    intro X. destruct (Nat.eq_dec (waits t') (waits t)) as [Y|Y]; [|apply Hw3 in Y; lia]. assert (waits t = 0%nat) as Z by congruence. apply W in Z. lia.
  - right. cbn in S. subst ok. destruct (H1 eq_refl) as (He & Hw & Hq). split; [|exact Hc].
    unfold pending in Pe. rewrite Q in Pe. unfold trues in Pe. cbn in Pe. fold (trues q) in Pe.
    assert (waits t = 0%nat) as W0 by lia. assert (trues q = 0%nat) as T0 by lia. specialize (W W0).
    unfold regular, pending, between in *. rewrite Hb, B, Hw, Hq, T0, He, Hc.
    rewrite rev_app_distr, app_length. cbn [List.length rev app].
    replace (Z.of_nat (List.length new + 1)) with (Z.of_nat (List.length new) + 1) by lia.
    split; [exact C1|]. split; [reflexivity|]. split; [reflexivity|]. split; [lia|]. split; [lia|]. split; [discriminate|].
    intros k s ok Hk. destruct (Nat.ltb_spec k (List.length new)).
    + rewrite nth_error_app1 in Hk by lia. apply (N _ _ _ Hk).
    + rewrite nth_error_app2 in Hk by lia. destruct (k - List.length new)%nat eqn:D; [|destruct n; discriminate].
      cbn in Hk. injection Hk as <- <-. split; [reflexivity|]. assert (k = List.length new) by lia. subst k. lia.
Qed.
Lemma regular_run : forall l r p t0 t t' new, 0 <= p -> all_sent l ->
  regular r p t0 t new -> trun l t = Ok t' -> exists more, regular r p t0 t' (new ++ more) /\
  forall d, punctual d l t -> forall k s ok, nth_error more k = Some (s, ok) ->
    s <= r + (Z.of_nat (List.length new + k) + 1) * p + d.
Proof.
  induction l as [|e l IH]; intros r p t0 t t' new Hp S R E.
  - cbn in E. injection E as <-. exists []. rewrite app_nil_r. split; [exact R|]. intros d _ k s ok Hk. destruct k; discriminate.
  - cbn in E. destruct (tstep e t) as [t1|] eqn:E1; [|discriminate]. inversion_clear S as [|? ? S1 S2].
    assert (PP : forall d, punctual d (e :: l) t -> punctual d l t1).
    { intros d Pu l1 l2 s X Y. apply (Pu (e :: l1) l2 s); [cbn; congruence|]. cbn. rewrite E1. exact Y. }
    destruct (regular_step e r p t0 t t1 new Hp S1 R E1) as [[R1 X]|[R1 X]].
    + destruct (IH r p t0 t1 t' new Hp S2 R1 E) as [more [R2 H]]. exists more. split; [exact R2|].
      intros d Pu. apply H, PP, Pu.
    + destruct (IH r p t0 t1 t' _ Hp S2 R1 E) as [more [R2 H]]. exists ((clock t, true) :: more). rewrite <- app_assoc in R2.
      split; [exact R2|]. intros d Pu k s ok Hk. destruct k as [|k].
      * cbn in Hk. injection Hk as <- <-. specialize (Pu [] (e :: l) t eq_refl eq_refl).
        destruct R as (_ & _ & _ & Ex & _). lia.
      * cbn in Hk. specialize (H d (PP d Pu) k s ok Hk). rewrite app_length in H. cbn in H. lia.
Qed.

(** Another heartbeat is a matter of time *)
Lemma drain : forall q n t p, configured p t -> queue t = repeat false n ++ true :: q ->
  exists t', trun (repeat (TRun true) (n + 1)) t = Ok t' /\ beats t' = (clock t, true) :: beats t.
Proof.
  intros q. induction n as [|n IH]; intros t p C Q; cbn [repeat Nat.add app trun] in *.
  - destruct C as [P A]. cbn [tstep]. unfold handler. rewrite Q. cbn [armed andb]. rewrite A. cbn [period]. rewrite P. eexists. split; reflexivity.
  - cbn [tstep]. unfold handler at 1. rewrite Q. cbn [andb].
    destruct (IH (mkTimer (clock t) (period t) (armed t) (expiry t) (waits t) (repeat false n ++ true :: q) (beats t)) p C eq_refl) as [t' [E B]].
    exists t'. split; [exact E|exact B].
Qed.
Lemma first_true : forall l, (0 < trues l)%nat -> exists n q, l = repeat false n ++ true :: q.
Proof.
  induction l as [|x l IH]; intro H; [unfold trues in H; cbn in H; lia|]. destruct x.
  - exists 0%nat, l. reflexivity.
  - destruct (IH H) as [n [q ->]]. exists (S n), q. reflexivity.
Qed.
Lemma goes_on : forall p t, configured p t -> (0 < pending t)%nat ->
  exists l t', all_sent l /\ trun l t = Ok t' /\ List.length (beats t') = S (List.length (beats t)).
Proof.
  intros p t C P.
  set (t1 := mkTimer (clock t + Z.of_nat (Z.to_nat (expiry t - clock t))) (period t) (armed t) (expiry t) (waits t) (queue t) (beats t)).
  set (t2 := mkTimer (clock t1) (period t) (armed t) (expiry t) 0 (queue t ++ repeat true (waits t)) (beats t)).
  assert (E2 : tstep TExpire t1 = Ok t2).
  { cbn [tstep]. replace (expiry t1 <=? clock t1) with true; [reflexivity|]. unfold t1. cbn [expiry clock]. symmetry. apply Z.leb_le. lia. }
  destruct (first_true (queue t2)) as [n [q Q]].
  { unfold t2. cbn [queue]. rewrite trues_app, trues_true. unfold pending in P. lia. }
  destruct (drain q n t2 p C Q) as [t3 [E3 B]].
  exists (TPass (Z.to_nat (expiry t - clock t)) :: TExpire :: repeat (TRun true) (n + 1)), t3.
  split; [constructor; [exact I|]; constructor; [exact I|]; apply Forall_forall; intros x Hx; apply repeat_spec in Hx; subst x; reflexivity|].
  split.
  - cbn [trun]. change (tstep (TPass (Z.to_nat (expiry t - clock t))) t) with (Ok t1). cbv iota. rewrite E2. exact E3.
  - rewrite B. reflexivity.
Qed.
Lemma goes_on_many : forall n p t, configured p t -> (0 < pending t)%nat ->
  exists l t', trun l t = Ok t' /\ List.length (beats t') = (n + List.length (beats t))%nat.
Proof.
  induction n as [|n IH]; intros p t C P.
  - exists [], t. split; reflexivity.
  - (* one step, then the timer is pending again *)
    set (t1 := mkTimer (clock t + Z.of_nat (Z.to_nat (expiry t - clock t))) (period t) (armed t) (expiry t) (waits t) (queue t) (beats t)).
    set (t2 := mkTimer (clock t1) (period t) (armed t) (expiry t) 0 (queue t ++ repeat true (waits t)) (beats t)).
    assert (E2 : tstep TExpire t1 = Ok t2).
    { cbn [tstep]. replace (expiry t1 <=? clock t1) with true; [reflexivity|]. unfold t1. cbn [expiry clock]. symmetry. apply Z.leb_le. lia. }
    destruct (first_true (queue t2)) as [m [q Qe]].
    { unfold t2. cbn [queue]. rewrite trues_app, trues_true. unfold pending in P. lia. }
    assert (X : forall m t, configured p t -> queue t = repeat false m ++ true :: q ->
      exists t', trun (repeat (TRun true) (m + 1)) t = Ok t' /\ List.length (beats t') = S (List.length (beats t)) /\ configured p t' /\ (0 < pending t')%nat).
    { clear. induction m as [|m IH]; intros t C Q; cbn [repeat Nat.add app trun] in *.
      - destruct C as [P A]. cbn [tstep]. unfold handler. rewrite Q. cbn [armed andb]. rewrite A. cbn [period]. rewrite P.
        eexists. split; [reflexivity|]. split; [reflexivity|]. split; [split; cbn; (assumption || reflexivity)|]. unfold pending. cbn. lia.
      - cbn [tstep]. unfold handler at 1. rewrite Q. cbn [andb].
        apply (IH (mkTimer (clock t) (period t) (armed t) (expiry t) (waits t) (repeat false m ++ true :: q) (beats t)) C eq_refl). }
    destruct (X m t2 C Qe) as [t3 [E3 [B [C3 P3]]]].
    destruct (IH p t3 C3 P3) as [l [t4 [E4 B4]]].
    exists ((TPass (Z.to_nat (expiry t - clock t)) :: TExpire :: repeat (TRun true) (m + 1)) ++ l), t4.
    split.
    + assert (A : forall l1 l2 s s', trun l1 s = Ok s' -> trun (l1 ++ l2) s = trun l2 s').
      { induction l1 as [|e l1 IH']; intros l2 s s' H; cbn in *; [injection H as ->; reflexivity|].
        destruct (tstep e s); [apply IH', H|discriminate]. }
      rewrite (A _ _ _ t3); [exact E4|]. cbn [trun].
      change (tstep (TPass (Z.to_nat (expiry t - clock t))) t) with (Ok t1). cbv iota. rewrite E2. exact E3.
    + rewrite B4, B. cbn. lia.
Qed.

(** ** Silence *)
Lemma silent_step : forall e t t', pending t = 0%nat -> tstep e t = Ok t' ->
  pending t' = 0%nat /\ beats t' = beats t /\ period t' = period t /\ armed t' = armed t.
Proof.
  intros e t t' P E. unfold pending in P. assert (W : waits t = 0%nat) by lia. assert (T : trues (queue t) = 0%nat) by lia.
  destruct e as [d| |ok]; cbn [tstep] in E.
  - injection E as <-. cbn. auto.
  - destruct (expiry t <=? clock t); injection E as <-; unfold pending; cbn; [|auto]. rewrite trues_app, trues_true. repeat split; lia.
  - unfold handler in E. destruct (queue t) as [|ec q] eqn:Q; [injection E as <-; unfold pending; rewrite Q; auto|].
    destruct ec; [discriminate T|]. cbn in E. injection E as <-. unfold pending. cbn. cbn in T. auto.
Qed.
Lemma silent_run : forall l t t', pending t = 0%nat -> trun l t = Ok t' -> pending t' = 0%nat /\ beats t' = beats t.
Proof.
  induction l as [|e l IH]; intros t t' P E; cbn in E.
  - injection E as <-. auto.
  - destruct (tstep e t) as [t1|] eqn:E1; [|discriminate]. destruct (silent_step e t t1 P E1) as [P1 [B1 _]].
    destruct (IH t1 t' P1 E) as [P2 B2]. split; [exact P2|congruence].
Qed.
Lemma stop_pending : forall t, pending (stop t) = trues (queue t).
Proof. intro t. unfold pending, stop, cancel. cbn. rewrite trues_app, trues_false. lia. Qed.

(** ** A failed call ends it *)
Lemma pending_one : forall l p t t', configured p t -> (pending t <= 1)%nat -> trun l t = Ok t' -> configured p t' /\ (pending t' <= 1)%nat.
Proof.
  induction l as [|e l IH]; intros p t t' C P E; cbn in E.
  - injection E as <-. auto.
  - destruct (tstep_cases e t p C) as [t1 [E1 [C1 H]]]. rewrite E1 in E. apply (IH p t1 t' C1); [|exact E].
    destruct H as [(_ & _ & Hq & _)|(ok & q & -> & Q & _ & _ & H1 & H2)]; [lia|].
    unfold pending in *. rewrite Q in P. unfold trues in P. cbn in P. fold (trues q) in P. destruct ok; [destruct (H1 eq_refl) as (_ & -> & ->)|destruct (H2 eq_refl) as (_ & -> & ->)]; lia.
Qed.
Lemma trun_extends : forall l t t', trun l t = Ok t' -> exists new, beats t' = new ++ beats t.
Proof.
  induction l as [|e l IH]; intros t t' E; cbn in E; [injection E as <-; exists []; reflexivity|].
    destruct (tstep e t) as [t1|] eqn:E1; [|discriminate]. destruct (IH t1 t' E) as [n1 B1].
    assert (exists n0, beats t1 = n0 ++ beats t) as [n0 B0].
    { destruct e as [d| |ok]; cbn [tstep] in E1.
      - injection E1 as <-. exists []. reflexivity.
      - destruct (expiry t <=? clock t); injection E1 as <-; exists []; reflexivity.
      - unfold handler in E1. destruct (queue t) as [|ec q]; [injection E1 as <-; exists []; reflexivity|].
        cbn [armed] in E1. destruct (ec && armed t); [|injection E1 as <-; exists []; reflexivity].
        destruct ok; [cbn [period] in E1; destruct (period t); [|discriminate]|]; injection E1 as <-; eexists [_]; reflexivity. }
    exists (n1 ++ n0). rewrite B1, B0. apply app_assoc.
Qed.
Lemma failed_ends : forall l p t t' s rest, configured p t -> (pending t <= 1)%nat -> trun l t = Ok t' ->
  beats t' = (s, false) :: rest ++ beats t -> pending t' = 0%nat.
Proof.
  induction l as [|e l IH]; intros p t t' s rest C P E B; cbn in E.
  - injection E as <-. apply (f_equal (@List.length _)) in B. cbn in B. rewrite app_length in B. lia.
  - destruct (tstep_cases e t p C) as [t1 [E1 [C1 H]]]. rewrite E1 in E.
    assert (P1 : (pending t1 <= 1)%nat) by (apply (pending_one [e] p t t1 C P); cbn; rewrite E1; reflexivity).
    destruct H as [(Hb & _ & Hq & _)|(ok & q & -> & Q & _ & Hb & H1 & H2)].
    + apply (IH p t1 t' s rest C1 P1 E). rewrite Hb. exact B.
    + destruct ok.
      * (* the failed call is a later one *)
        destruct rest as [|x rest] using rev_ind.
        -- exfalso. cbn in B.
           destruct (trun_extends l t1 t' E) as [new Bn]. rewrite B, Hb in Bn.
           destruct new as [|y new]; cbn in Bn; [discriminate|]. injection Bn as _ Bn.
           apply (f_equal (@List.length _)) in Bn. rewrite app_length in Bn. cbn in Bn. lia.
        -- clear IHrest. apply (IH p t1 t' s rest C1 P1 E). rewrite Hb.
           destruct (trun_extends l t1 t' E) as [new Bn]. rewrite Hb in Bn.
           assert (Y : (s, false) :: rest ++ [x] = new ++ [(clock t, true)]).
           { rewrite B in Bn. rewrite <- app_assoc in Bn. cbn in Bn.
             apply (app_inv_tail (beats t)). rewrite <- app_comm_cons, <- !app_assoc. cbn. exact Bn. }
           change ((s, false) :: rest ++ [x]) with (((s, false) :: rest) ++ [x]) in Y. apply app_inj_tail in Y. destruct Y as [<- ->].
           rewrite Bn. cbn. rewrite <- ?app_assoc. reflexivity.
      * destruct (H2 eq_refl) as (_ & Hw & Hq). unfold pending in P. rewrite Q in P. unfold trues in P. cbn in P. fold (trues q) in P.
        assert (Z1 : pending t1 = 0%nat) by (unfold pending; lia). destruct (silent_run l t1 t' Z1 E) as [Z2 _]. exact Z2.
Qed.

(** ** The chain with its timer *)
Section Heart.
Variables (b : behaviour) (tr : tree) (rf : bool).
Hypothesis ND : NoDup (ids tr).

Lemma root_off_iff : forall c, inv tr c -> lgt (root tr c) Off = false <-> off tr c.
Proof. intros c H. apply root_off. apply H. Qed.

(** What a step does to the timer *)
Definition effect (e : hevent) (c : chain) (t : timer) (c' : chain) (t' : timer) : Prop :=
  match e with
  | HTimer e => c' = c /\ tstep e t = Ok t'
  | HChain e =>
    (t' = t /\ (off tr c' <-> off tr c)) \/ (t' = stop t /\ off tr c' /\ (e = VShutdown \/ (exists g, e = VInit g) /\ off tr c)) \/
    (restart t = Ok t' /\ off tr c /\ ~ off tr c' /\ exists g, e = VInit g)
  end.
Lemma hstep_cases : forall e c t p, inv tr c -> configured p t -> exists c' t', hstep b tr rf e (c, t) = Ok (c', t') /\ inv tr c' /\ configured p t' /\
  effect e c t c' t'.
Proof.
  intros e c t p I C. destruct e as [e|e].
  2:{ destruct (tstep_cases e t p C) as [t' [E [C' _]]]. exists c, t'. cbn [hstep]. rewrite E. cbn. auto. }
  assert (NR : forall c, ready tr c -> ~ off tr c).
  { intros c0 R O. specialize (R _ (root_in tr)). specialize (O _ (root_in tr)). congruence. }
  assert (NH : forall c, halted tr c -> ~ off tr c).
  { intros c0 R O. specialize (R _ (root_in tr)). specialize (O _ (root_in tr)). congruence. }
  assert (LF : forall c, inv tr c -> off tr c -> lgt (root tr c) Off = false) by (intros; apply root_off_iff; assumption).
  assert (LT : forall c, inv tr c -> ~ off tr c -> lgt (root tr c) Off = true).
  { intros c0 I0 N. destruct (lgt (root tr c0) Off) eqn:L; [reflexivity|]. apply (root_off_iff c0 I0) in L. contradiction. }
  destruct e as [g|rs| | |i|i|i]; cbn [hstep cstep].
  - destruct (init_cases b tr ND g c I) as [c' [r [E [I' H]]]]. rewrite E. cbn [answer].
    destruct H as [[N [-> ->]]|[O H]].
    + rewrite (LT c I N). exists c, t. split; [reflexivity|]. split; [exact I|]. split; [exact C|]. left. split; [reflexivity|]. tauto.
    + rewrite (LF c I O). destruct H as [[R _]|[O' ->]].
      * rewrite (LT c' I' (NR c' R)). destruct C as [P A]. unfold restart at 1. rewrite P. do 2 eexists. split; [reflexivity|]. split; [exact I'|].
        split; [split; cbn; assumption|]. right. right. unfold restart. rewrite P. repeat split; [exact O|apply NR, R|eauto].
      * rewrite (LF c' I' O'). exists c', (stop t). split; [reflexivity|]. split; [exact I'|]. split; [destruct C; split; cbn; assumption|]. right. left. split; [reflexivity|]. split; [exact O'|]. right. split; [eauto|exact O].
  - destruct (recover_cases b tr rf ND rs c I) as [c' [r [E [I' H]]]]. rewrite E. cbn [answer]. exists c', t.
    split; [reflexivity|]. split; [exact I'|]. split; [exact C|]. left. split; [reflexivity|].
    destruct H as [[O [-> _]]|[N [_ [[_ R]|[_ [R|[_ [R _]]]]]]]]; [tauto| | |]; (split; intro X; [exfalso; (exact (NR _ R X) || exact (NH _ R X))|contradiction]).
  - destruct (halt_cases b tr ND c I) as [c' [E [I' H]]]. rewrite E. cbn [answer]. exists c', t.
    split; [reflexivity|]. split; [exact I'|]. split; [exact C|]. left. split; [reflexivity|].
    destruct H as [[O ->]|[N [R _]]]; [tauto|]. split; intro X; [exfalso; (exact (NR _ R X) || exact (NH _ R X))|contradiction].
  - destruct (shutdown_cases b tr ND c I) as [c' [E [I' [O' H]]]]. rewrite E. cbn [answer].
    assert (G : lgt (root tr c) Init = lgt (root tr c) Off).
    { destruct I as [I _]. destruct (t3_root tr _ I) as [[X _]|[[X _]|[X _]]]; unfold root; rewrite X; reflexivity. }
    rewrite G. destruct (lgt (root tr c) Off) eqn:L.
    + exists c', (stop t). split; [reflexivity|]. split; [exact I'|]. split; [destruct C; split; cbn; assumption|]. right. left. auto.
    + apply (root_off_iff c I) in L. exists c', t. split; [reflexivity|]. split; [exact I'|]. split; [exact C|]. left. split; [reflexivity|]. tauto.
  - pose proof (begin_inv tr i c I) as I'. exists (begin i c), t. split; [reflexivity|]. split; [exact I'|]. split; [exact C|]. left.
    split; [reflexivity|]. unfold off. rewrite begin_lay. tauto.
  - pose proof (cycle_inv b tr ND i c I) as I'. exists (cycle b tr i c), t. split; [reflexivity|]. split; [exact I'|]. split; [exact C|]. left.
    split; [reflexivity|]. unfold cycle. destruct (nth_error (threads c) i) as [[| |]|]; try tauto.
    destruct I as [I _]. pose proof (all_together b tr ND) as T.
    assert (NOT : forall w, uin [Ready; Error] tr w -> ~ all_in Off tr w).
    { intros w [s [Hs A]] O. specialize (A _ (root_in tr)). specialize (O _ (root_in tr)). destruct Hs as [<-|[<-|[]]]; congruence. }
    assert (RW : forall o w, cyclic o = true -> uin [Ready; Error] tr w -> uin [Ready; Error] tr (exec b tr o w)).
    { intros o w Hc [s [[<-|[<-|[]]] A]]; [apply (tg_cyclic b tr T o w Hc A)|exists Error; split; [cbn; auto|apply (tg_cyclic_error b tr T o w Hc A)]]. }
    destruct (t3_root tr _ I) as [[X A]|[[X A]|[X A]]].
    + split; intros _; [exact A|]. intros j Hj. unfold do, fresh. cbn [lay with_lay].
      rewrite (exec_unchanged b tr ORead _ Off), (exec_unchanged b tr OWrite _ Off) by auto. apply A, Hj.
    + split; intro O; exfalso; [|exact (NR c A O)]. revert O; apply NOT; apply RW; [reflexivity|]; apply RW; [reflexivity|]; exists Ready; split; [exact (or_introl eq_refl)|exact A].
    + split; intro O; exfalso; [|exact (NH c A O)]. revert O; apply NOT; apply RW; [reflexivity|]; apply RW; [reflexivity|]; exists Error; split; [exact (or_intror (or_introl eq_refl))|exact A].
  - pose proof (check_inv tr i c I) as I'. exists (check i c), t. split; [reflexivity|]. split; [exact I'|]. split; [exact C|]. left.
    split; [reflexivity|]. unfold off, check. destruct (nth_error (threads c) i) as [[| |]|]; try tauto. destruct (running c); cbn; tauto.
Qed.

(** Always defined, never faster than configured *)
Definition slow (p : Z) (t : timer) : Prop :=
  (waits t <= 1)%nat /\
  (Z.of_nat (List.length (beats t)) + Z.of_nat (trues (queue t))) * p <= clock t /\
  (Z.of_nat (List.length (beats t)) + Z.of_nat (trues (queue t)) + Z.of_nat (waits t)) * p <= expiry t.
Lemma slow_tstep : forall e t t' p, 0 <= p -> configured p t -> slow p t -> tstep e t = Ok t' -> slow p t'.
Proof.
  intros e t t' p Hp C (W & H1 & H2) E. destruct (tstep_cases e t p C) as [t1 [E1 [C1 H]]]. assert (t1 = t') by congruence. subst t1.
  destruct H as [(Hb & He & Hq & Hc & Hw & Hw2 & Hw3)|(ok & q & -> & Q & Hc & Hb & A & B)].
  - unfold slow. rewrite Hb, He. split; [lia|]. destruct (Nat.eq_dec (waits t') (waits t)) as [Y|Y].
    + rewrite Y in Hw2. assert (Y2 : trues (queue t') = trues (queue t)) by lia. rewrite Y2, Y. split; [lia|exact H2].
    + destruct (Hw3 Y) as [Z1 Z2]. assert (Y2 : (Z.of_nat (trues (queue t')) = Z.of_nat (trues (queue t)) + Z.of_nat (waits t))) by lia.
      rewrite Y2, Z2. split; [nia|]. replace (Z.of_nat 0) with 0 by reflexivity. nia.
  - rewrite Q in H1, H2. unfold trues in H1, H2. cbn [List.filter List.length] in H1, H2. fold (trues q) in H1, H2.
    unfold slow. rewrite Hb, Hc. cbn [List.length]. destruct ok.
    + destruct (A eq_refl) as (-> & -> & ->). split; [lia|]. split; [nia|]. nia.
    + destruct (B eq_refl) as (-> & -> & ->). split; [exact W|]. split; nia.
Qed.
Lemma slow_stop : forall t p, 0 <= p -> slow p t -> slow p (stop t).
Proof.
  intros t p Hp (W & H1 & H2). unfold slow, stop, cancel. cbn [waits beats queue clock expiry]. rewrite trues_app, trues_false, Nat.add_0_r. split; [lia|]. split; [exact H1|]. nia.
Qed.
Lemma slow_restart : forall t t' p, configured p t -> slow p t -> restart t = Ok t' -> slow p t'.
Proof.
  intros t t' p [P A] (W & H1 & H2) E. unfold restart in E. rewrite P in E. injection E as <-.
  unfold slow, async_wait, expires_at, cancel. cbn [waits beats queue clock expiry]. rewrite trues_app, trues_false, Nat.add_0_r. split; [lia|]. split; [exact H1|]. nia.
Qed.
Lemma hrun_slow : forall l c t p, 0 <= p -> inv tr c -> configured p t -> slow p t ->
  exists c' t', hrun b tr rf l (c, t) = Ok (c', t') /\ inv tr c' /\ configured p t' /\ slow p t'.
Proof.
  induction l as [|e l IH]; intros c t p Hp I C S; [exists c, t; auto|].
  destruct (hstep_cases e c t p I C) as [c1 [t1 [E [I1 [C1 F]]]]]. cbn [hrun]. rewrite E. apply IH; try assumption.
  destruct e as [e|e]; cbn in F.
  - destruct F as [[-> _]|[[-> _]|[F _]]]; [exact S|apply slow_stop; assumption|apply (slow_restart t t1 p C S F)].
  - destruct F as [_ F]. apply (slow_tstep e t t1 p Hp C S F).
Qed.

(** Silence while off, a regular beat otherwise, if every stop is clean *)
Lemma clean_tail : forall e l s s1, hstep b tr rf e s = Ok s1 -> clean_stops b tr rf (e :: l) s -> clean_stops b tr rf l s1.
Proof.
  intros e l s s1 E H l1 x l2 s2 X Y. apply (H (e :: l1) x l2 s2); [cbn; congruence|]. cbn [hrun]. rewrite E. exact Y.
Qed.
Lemma hrun_pending : forall l c t p s', inv tr c -> configured p t ->
  (off tr c -> pending t = 0%nat) -> (pending t <= 1)%nat ->
  clean_stops b tr rf l (c, t) -> hrun b tr rf l (c, t) = Ok s' ->
  inv tr (fst s') /\ configured p (snd s') /\ (off tr (fst s') -> pending (snd s') = 0%nat) /\ (pending (snd s') <= 1)%nat /\
  (all_ok l -> (~ off tr c -> pending t = 1%nat) -> ~ off tr (fst s') -> pending (snd s') = 1%nat).
Proof.
  induction l as [|e l IH]; intros c t p s' I C O P Cl E; cbn [hrun] in E.
  - injection E as <-. cbn. auto.
  - destruct (hstep_cases e c t p I C) as [c1 [t1 [E1 [I1 [C1 F]]]]]. rewrite E1 in E.
    assert (X : (off tr c1 -> pending t1 = 0%nat) /\ (pending t1 <= 1)%nat /\
      ((match e with HTimer (TRun ok) => ok = true | _ => True end) -> (~ off tr c -> pending t = 1%nat) -> ~ off tr c1 -> pending t1 = 1%nat)).
    { destruct e as [e|e]; cbn in F.
      - pose proof (Cl [] e l (c, t) eq_refl eq_refl) as Cn. cbn in Cn.
        destruct F as [[-> F]|[[-> [F F']]|[F [F1 [F2 [g ->]]]]]].
        + split; [tauto|]. split; [exact P|]. tauto.
        + assert (Cn' : clean t) by (destruct F' as [->|[[g ->] _]]; exact Cn). clear Cn. apply trues_clean in Cn'. rename Cn' into Cn. rewrite stop_pending, Cn. split; [auto|]. split; [lia|]. tauto.
        + apply trues_clean in Cn. destruct C as [Pp A]. unfold restart in F. rewrite Pp in F. injection F as <-.
          unfold pending, async_wait, expires_at, cancel. cbn [waits queue]. rewrite trues_app, trues_false, Cn. split; [tauto|]. split; [lia|]. lia.
      - destruct F as [-> F]. destruct (pending_one [e] p t t1 C P) as [_ P1]; [cbn; rewrite F; reflexivity|].
        split; [intro Z; apply (silent_step e t t1 (O Z) F)|]. split; [exact P1|]. intros Hok K N. specialize (K N).
        destruct (tstep_cases e t p C) as [t2 [E2 [_ H]]]. assert (t2 = t1) by congruence. subst t2.
        destruct H as [(_ & _ & Hq & _)|(ok & q & -> & Q & _ & _ & A & _)]; [congruence|]. subst ok. destruct (A eq_refl) as (_ & Hw & Hq).
        unfold pending in *. lia. }
    destruct X as (X1 & X2 & X3).
    destruct (IH c1 t1 p s' I1 C1 X1 X2 (clean_tail e l (c, t) (c1, t1) E1 Cl) E) as (Y1 & Y2 & Y3 & Y4 & Y5).
    repeat (split; [assumption|]). intros Ho K N. inversion_clear Ho as [|? ? H1 H2]. apply Y5; [exact H2| |exact N]. intro N1. apply X3; assumption.
Qed.

(** Nothing is sent any more once nothing is pending, until the chain is shut down *)
Lemma hrun_dead : forall l c t p c' t', inv tr c -> configured p t -> ~ off tr c -> pending t = 0%nat -> Forall up_event l ->
  hrun b tr rf l (c, t) = Ok (c', t') -> beats t' = beats t /\ ~ off tr c'.
Proof.
  induction l as [|e l IH]; intros c t p c' t' I C N P U E; cbn [hrun] in E.
  - injection E as <- <-. auto.
  - destruct (hstep_cases e c t p I C) as [c1 [t1 [E1 [I1 [C1 F]]]]]. rewrite E1 in E. inversion_clear U as [|? ? U1 U2].
    assert (X : ~ off tr c1 /\ pending t1 = 0%nat /\ beats t1 = beats t).
    { destruct e as [e|e]; cbn in F.
      - destruct F as [[-> F]|[[-> [F [->|[_ F2]]]]|[F [F1 [F2 _]]]]]; [tauto|destruct U1|contradiction|contradiction].
      - destruct F as [-> F]. destruct (silent_step e t t1 P F) as [A [B _]]. auto. }
    destruct X as (X1 & X2 & X3). destruct (IH c1 t1 p c' t' I1 C1 X1 X2 U2 E) as [Y1 Y2]. split; [congruence|exact Y2].
Qed.
End Heart.
