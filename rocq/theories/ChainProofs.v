(** Proofs about the chain. *)
From Verif Require Import Base LayerModel LayerSpec LayerProofs LayerGroupProofs LayerOrderProofs ChainModel ChainSpec.

Lemma nth_update_same : forall A (l : list A) i x, (i < List.length l)%nat -> nth_error (update_nth i x l) i = Some x.
Proof. induction l as [|y l IH]; intros i x H; cbn in *; [lia|]. destruct i; cbn; [reflexivity|]. apply IH. lia. Qed.
Lemma nth_update_other : forall A (l : list A) i j x, i <> j -> nth_error (update_nth i x l) j = nth_error l j.
Proof. induction l as [|y l IH]; intros i j x H; destruct i, j; cbn; auto; try congruence. Qed.
Lemma length_update : forall A (l : list A) i x, List.length (update_nth i x l) = List.length l.
Proof. induction l as [|y l IH]; intros i x; destruct i; cbn; auto. Qed.
Lemma nth_app_old : forall A (l : list A) x i y, nth_error l i = Some y -> nth_error (l ++ [x]) i = Some y.
Proof. intros A l x i y H. rewrite nth_error_app1; [exact H|]. apply nth_error_Some. congruence. Qed.
Lemma nth_app_new : forall A (l : list A) x, nth_error (l ++ [x]) (List.length l) = Some x.
Proof. intros. rewrite nth_error_app2 by lia. rewrite Nat.sub_diag. reflexivity. Qed.

Section Chain.
Variables (b : behaviour) (t : tree) (rf : bool).
Hypothesis ND : NoDup (ids t).
Let T := all_together b t ND.

Definition together3 (w : world) : Prop := uin [Off; Ready; Error] t w.
Lemma t3_exec : forall o w, together3 w -> together3 (exec b t o w).
Proof. intros. apply exec_uin; assumption. Qed.
Lemma t3_root : forall w, together3 w ->
  (lst w (tid t) = Off /\ all_in Off t w) \/ (lst w (tid t) = Ready /\ all_in Ready t w) \/ (lst w (tid t) = Error /\ all_in Error t w).
Proof. intros w [s [Hs A]]. pose proof (A _ (root_in t)). destruct Hs as [<-|[<-|[<-|[]]]]; auto. Qed.
Lemma t3_status : forall s w, together3 w -> together3 (with_status s w).
Proof. intros s w [x [H A]]. exists x. split; [exact H|]. intros i Hi. apply A, Hi. Qed.
Lemma reports_lst : forall rs w, lst (fold_left (fun w r => report (fst r) (snd r) w) rs w) = lst w.
Proof. induction rs as [|r rs IH]; intro w; [reflexivity|]. cbn. rewrite IH. reflexivity. Qed.
Lemma t3_reports : forall rs w, together3 w -> together3 (fold_left (fun w r => report (fst r) (snd r) w) rs w).
Proof. intros rs w [x [H A]]. exists x. split; [exact H|]. intros i Hi. rewrite reports_lst. apply A, Hi. Qed.

(** The owned thread is there while the chain is initialised *)
Definition owned (c : chain) : Prop :=
  exists i, own c = Some i /\
    (nth_error (threads c) i = Some TNew \/ (nth_error (threads c) i = Some TLoop /\ running c = true)).
Definition inv (c : chain) : Prop := together3 (lay c) /\ (root t c <> Off -> owned c).

Lemma begin_lay : forall i c, lay (begin i c) = lay c.
Proof. intros i c. unfold begin. destruct (nth_error (threads c) i) as [[| |]|]; reflexivity. Qed.
Lemma begin_own : forall i c, own (begin i c) = own c.
Proof. intros i c. unfold begin. destruct (nth_error (threads c) i) as [[| |]|]; reflexivity. Qed.
Lemma begin_owned : forall i c, owned c -> owned (begin i c).
Proof.
  intros i c [j [O H]]. unfold begin. destruct (nth_error (threads c) i) as [[| |]|] eqn:E; try (exists j; auto; fail).
  exists j. split; [exact O|]. cbn. destruct (Nat.eq_dec i j) as [->|N].
  - right. split; [|reflexivity]. apply nth_update_same. apply nth_error_Some. congruence.
  - rewrite nth_update_other by exact N. destruct H as [H|[H _]]; auto.
Qed.
Lemma stop_ok : forall c, own c <> None -> exists c', stop_thread c = Ok c' /\ lay c' = lay c.
Proof.
  intros c H. unfold stop_thread. destruct (running c); [|exists c; auto].
  destruct (own c) as [i|]; [|congruence]. eexists. split; [reflexivity|]. cbn. rewrite begin_lay. reflexivity.
Qed.

Lemma root_off : forall c, together3 (lay c) -> lgt (root t c) Off = false <-> off t c.
Proof.
  intros c H. destruct (t3_root _ H) as [[E A]|[[E A]|[E A]]]; unfold root; rewrite E; split; intro X; try discriminate; try exact A; auto.
  - exfalso. pose proof (X _ (root_in t)). congruence.
  - exfalso. pose proof (X _ (root_in t)). congruence.
Qed.

Lemma fresh_lst : forall c, together3 (lay c) -> together3 (lay (fresh c)).
Proof. intros. apply t3_status. assumption. Qed.

(** The initialisation *)
Lemma init_cases : forall g c, inv c -> exists c' r, srv_init b t g c = Ok (c', r) /\ inv c' /\
  ((~ off t c /\ c' = c /\ r = true) \/
   (off t c /\ ((ready t c' /\ r = bounded OK (stat (lay c')) /\ bounded WARN (stat (lay c')) = true /\ owned c') \/ (off t c' /\ r = false)))).
Proof.
  intros g c [H3 Ho]. unfold srv_init. destruct (lgt (root t c) Off) eqn:R.
  { exists c, true. split; [reflexivity|]. split; [split; assumption|]. left.
    split; [intro X; apply (root_off c H3) in X; congruence|auto]. }
  apply (root_off c H3) in R.
  set (c1 := mkC (lay c) (running c) (Some (List.length (threads c))) (threads c ++ [TNew])).
  assert (O1 : owned c1) by (exists (List.length (threads c)); split; [reflexivity|left; apply nth_app_new]).
  set (c2 := if g then begin (List.length (threads c)) c1 else c1).
  assert (O2 : owned c2) by (unfold c2; destruct g; [apply begin_owned|]; exact O1).
  assert (L2 : lay c2 = lay c) by (unfold c2; destruct g; [rewrite begin_lay|]; reflexivity).
  set (c3 := do b t OInit (fresh c2)).
  assert (A2 : all_in Off t (lay (fresh c2))).
  { intros i Hi. unfold fresh. cbn. rewrite L2. apply R, Hi. }
  destruct (tg_init b t T _ A2) as [I1 I2].
  assert (O3 : owned c3) by exact O2.
  destruct (okw (lay c3)) eqn:K.
  - exists c3, (bounded OK (stat (lay c3))). split; [reflexivity|].
    assert (A3 : ready t c3) by (apply I1; exact K).
    split; [split; [exists Ready; split; [cbn; auto|exact A3]|intros _; exact O3]|].
    right. split; [exact R|]. left. repeat split; auto.
  - assert (A3 : off t c3) by (apply I2; exact K).
    destruct (stop_ok c3) as [c4 [E4 L4]]; [destruct O3 as [i [X _]]; congruence|].
    rewrite E4. exists (do b t ODiag c4), false. split; [reflexivity|].
    assert (A5 : off t (do b t ODiag c4)).
    { unfold off, do. cbn [lay with_lay]. apply (tg_diag b t T). rewrite L4. exact A3. }
    split; [split; [exists Off; split; [cbn; auto|exact A5]|]|].
    + intro X. exfalso. apply X. apply (A5 _ (root_in t)).
    + right. split; [exact R|]. right. auto.
Qed.

Lemma do_owned : forall o c, owned c -> owned (do b t o c).
Proof. intros o c H. exact H. Qed.

Lemma root_gt : forall c, together3 (lay c) -> lgt (root t c) Init = lgt (root t c) Off.
Proof. intros c H. destruct (t3_root _ H) as [[E A]|[[E A]|[E A]]]; unfold root; rewrite E; reflexivity. Qed.

Lemma recover_core : forall c, inv c -> ~ off t c ->
  let c2 := do b t ORecover c in let c3 := if okw (lay c2) then c2 else do b t ODiag c2 in
  inv c3 /\ owned c3 /\ ((okw (lay c) = true /\ okw (lay c3) = true /\ ready t c3) \/ (okw (lay c3) = false /\ (halted t c3 \/ ready t c))).
Proof.
  intros c [H3 Ho] N c2 c3.
  assert (On : owned c).
  { apply Ho. intro X. apply N. destruct (t3_root _ H3) as [[E A]|[[E A]|[E A]]]; [exact A| |]; unfold root in X; congruence. }
  assert (O3 : owned c3) by (unfold c3; destruct (okw (lay c2)); exact On).
  assert (X3 : together3 (lay c3)) by (unfold c3; destruct (okw (lay c2)); [apply t3_exec; exact H3|apply t3_exec, t3_exec; exact H3]).
  split; [split; [exact X3|auto]|]. split; [exact O3|].
  assert (D : okw (lay c2) = false -> okw (lay (do b t ODiag c2)) = false).
  { intro F. destruct (okw (lay (do b t ODiag c2))) eqn:E; [|reflexivity]. apply (exec_ok_before b t ODiag) in E. congruence. }
  destruct (okw (lay c2)) eqn:K.
  - left. split; [apply (exec_ok_before b t ORecover); exact K|]. split; [exact K|].
    destruct (t3_root _ H3) as [[E A]|[[E A]|[E A]]]; [destruct N; exact A| |].
    + unfold ready, c3, c2, do. cbn [lay with_lay]. rewrite (exec_unchanged b t ORecover (lay c) Ready) by (auto; discriminate). exact A.
    + apply (proj1 (tg_recover b t T _ A)). exact K.
  - right. split; [apply D; reflexivity|].
    destruct (t3_root _ H3) as [[E A]|[[E A]|[E A]]]; [destruct N; exact A|right; exact A|left].
    unfold halted, c3, do. cbn [lay with_lay]. apply (tg_diag b t T). apply (proj2 (tg_recover b t T _ A)). exact K.
Qed.

Lemma recover_cases : forall rs c, inv c -> exists c' r, srv_recover b t rf rs c = Ok (c', r) /\ inv c' /\
  ((off t c /\ c' = c /\ r = false) \/
   (~ off t c /\ owned c' /\ ((r = true /\ ready t c') \/ (r = false /\ (halted t c' \/ (rf = true /\ ready t c' /\ ready t c)))))).
Proof.
  intros rs c [H3 Ho]. unfold srv_recover. rewrite (root_gt c H3). destruct (lgt (root t c) Off) eqn:R.
  2:{ exists c, false. split; [reflexivity|]. split; [split; assumption|]. left. apply (root_off c H3) in R. auto. }
  assert (N : ~ off t c) by (intro X; apply (root_off c H3) in X; congruence).
  assert (On : owned c).
  { apply Ho. intro X. unfold root in X, R. rewrite X in R. discriminate. }
  assert (If : inv (fresh c)) by (split; [apply fresh_lst; exact H3|exact Ho]).
  assert (Core : forall d, inv d -> lst (lay d) = lst (lay c) -> owned d -> okw (lay d) = true ->
    exists c' r, Ok ((let c2 := do b t ORecover d in if okw (lay c2) then c2 else do b t ODiag c2),
       okw (lay (let c2 := do b t ORecover d in if okw (lay c2) then c2 else do b t ODiag c2))) = Ok (c', r) /\ inv c' /\
    ((off t c /\ c' = c /\ r = false) \/
     (~ off t c /\ owned c' /\ ((r = true /\ ready t c') \/ (r = false /\ (halted t c' \/ (rf = true /\ ready t c' /\ ready t c))))))).
  { intros d Hd L Od K.
    assert (Nd : ~ off t d) by (intro X; apply N; intros i Hi; rewrite <- L; apply X, Hi).
    destruct (recover_core d Hd Nd) as [I3 [O3 C]]. cbv zeta in *.
    eexists. eexists. split; [reflexivity|]. split; [exact I3|]. right. split; [exact N|]. split; [exact O3|].
    destruct C as [[_ [A B]]|[A B]]; [left; auto|right]. split; [exact A|].
    destruct B as [B|B]; [left; exact B|]. exfalso.
    (* a ready chain is not touched by recover, so the status stays good *)
    assert (U : exec b t ORecover (lay d) = lay d) by (apply (exec_unchanged b t ORecover _ Ready); [exact B|discriminate]).
    assert (U' : lay (do b t ORecover d) = lay d) by exact U. rewrite U', K in A. congruence. }
  destruct rf eqn:RF.
  - destruct rs as [rs|].
    + set (d := with_lay (fresh c) (fold_left (fun w r => report (fst r) (snd r) w) rs (lay (fresh c)))).
      assert (Ld : lst (lay d) = lst (lay c)) by (unfold d; cbn; rewrite reports_lst; reflexivity).
      assert (Id : inv d).
      { split; [apply t3_reports; apply fresh_lst; exact H3|]. intros _. exact On. }
      destruct (okw (lay d)) eqn:K.
      * apply (Core d Id Ld On K).
      * exists (do b t ODiag d), (okw (lay (do b t ODiag d))). split; [reflexivity|].
        split; [split; [apply t3_exec, Id|intros _; exact On]|]. right. split; [exact N|]. split; [exact On|]. right.
        split. { destruct (okw (lay (do b t ODiag d))) eqn:E; [|reflexivity]. apply (exec_ok_before b t ODiag) in E. congruence. }
        destruct (t3_root _ H3) as [[E A]|[[E A]|[E A]]]; [destruct N; exact A| |].
        -- right. split; [reflexivity|]. split; [|exact A]. unfold ready, do. cbn [lay with_lay]. apply (tg_diag b t T). intros i Hi. fold d. rewrite Ld. apply A, Hi.
        -- left. unfold halted, do. cbn [lay with_lay]. apply (tg_diag b t T). intros i Hi. fold d. rewrite Ld. apply A, Hi.
    + exists (fresh c), false. split; [reflexivity|]. split; [exact If|]. right. split; [exact N|]. split; [exact On|]. right. split; [reflexivity|].
      destruct (t3_root _ H3) as [[E A]|[[E A]|[E A]]]; [destruct N; exact A| |]; [right|left]; auto.
  - apply (Core (fresh c) If eq_refl On). reflexivity.
Qed.

Lemma halt_cases : forall c, inv c -> exists c', srv_halt b t c = Ok (c', true) /\ inv c' /\
  ((off t c /\ c' = c) \/ (~ off t c /\ halted t c' /\ owned c')).
Proof.
  intros c [H3 Ho]. unfold srv_halt. rewrite (root_gt c H3). destruct (lgt (root t c) Off) eqn:R.
  2:{ exists c. split; [reflexivity|]. split; [split; assumption|]. left. apply (root_off c H3) in R. auto. }
  assert (N : ~ off t c) by (intro X; apply (root_off c H3) in X; congruence).
  assert (On : owned c).
  { apply Ho. intro X. unfold root in X, R. rewrite X in R. discriminate. }
  assert (A : halted t (do b t OHalt (fresh c))).
  { apply (tg_halt b t T). destruct (t3_root _ H3) as [[E A]|[[E A]|[E A]]]; [destruct N; exact A| |]; [exists Ready|exists Error]; (split; [cbn; auto|]; intros i Hi; apply A, Hi). }
  exists (do b t OHalt (fresh c)). split; [reflexivity|]. split; [split; [exists Error; split; [cbn; auto|exact A]|intros _; exact On]|]. right. auto.
Qed.

Lemma shutdown_cases : forall c, inv c -> exists c', srv_shutdown b t c = Ok (c', true) /\ inv c' /\ off t c' /\ (off t c -> c' = c).
Proof.
  intros c [H3 Ho]. unfold srv_shutdown. rewrite (root_gt c H3). destruct (lgt (root t c) Off) eqn:R.
  2:{ exists c. apply (root_off c H3) in R. split; [reflexivity|]. split; [split; assumption|]. auto. }
  assert (N : ~ off t c) by (intro X; apply (root_off c H3) in X; congruence).
  assert (On : owned c).
  { apply Ho. intro X. unfold root in X, R. rewrite X in R. discriminate. }
  set (c3 := do b t OShutdown (do b t OHalt (fresh c))).
  assert (A : off t c3).
  { apply (tg_shutdown b t T). apply t3_exec. apply fresh_lst. exact H3. }
  destruct (stop_ok c3) as [c4 [E4 L4]]; [destruct On as [i [X _]]; unfold c3; cbn; congruence|].
  rewrite E4. exists c4. split; [reflexivity|].
  assert (A4 : off t c4) by (intros i Hi; rewrite L4; apply A, Hi).
  split; [split; [exists Off; split; [cbn; auto|exact A4]|]|].
  - intro X. exfalso. apply X. apply (A4 _ (root_in t)).
  - split; [exact A4|]. intro X. contradiction.
Qed.

Lemma begin_inv : forall i c, inv c -> inv (begin i c).
Proof.
  intros i c [H3 Ho]. split; [rewrite begin_lay; exact H3|]. intro X. apply begin_owned, Ho. intro Y. apply X. unfold root in *. rewrite begin_lay. exact Y.
Qed.
Lemma cycle_inv : forall i c, inv c -> inv (cycle b t i c).
Proof.
  intros i c [H3 Ho]. unfold cycle. destruct (nth_error (threads c) i) as [[| |]|]; try (split; assumption).
  split; [apply t3_exec, t3_exec, t3_status, H3|]. intro X. apply Ho. intro Y. apply X.
  destruct (t3_root _ H3) as [[E A]|[[E A]|[E A]]]; unfold root in Y; try congruence.
  unfold root, do, fresh. cbn [lay with_lay]. rewrite (exec_unchanged b t ORead _ Off) by auto. rewrite (exec_unchanged b t OWrite _ Off) by auto. exact Y.
Qed.
Lemma check_inv : forall i c, inv c -> inv (check i c).
Proof.
  intros i c [H3 Ho]. unfold check. destruct (nth_error (threads c) i) as [[| |]|] eqn:E; try (split; assumption).
  destruct (running c) eqn:R; [split; assumption|]. split; [exact H3|]. intro X. destruct (Ho X) as [j [O [A|[A B]]]]; [|congruence].
  exists j. split; [exact O|]. left. cbn. rewrite nth_update_other; [exact A|]. intros ->. congruence.
Qed.

Lemma cstep_inv : forall e c, inv c -> exists c' r, cstep b t rf e c = Ok (c', r) /\ inv c'.
Proof.
  intros e c H. destruct e; cbn.
  - destruct (init_cases begun c H) as [c' [r [E [I _]]]]. rewrite E. cbn. eauto.
  - destruct (recover_cases rs c H) as [c' [r [E [I _]]]]. rewrite E. cbn. eauto.
  - destruct (halt_cases c H) as [c' [E [I _]]]. rewrite E. cbn. eauto.
  - destruct (shutdown_cases c H) as [c' [E [I _]]]. rewrite E. cbn. eauto.
  - eexists. eexists. split; [reflexivity|]. apply begin_inv, H.
  - eexists. eexists. split; [reflexivity|]. apply cycle_inv, H.
  - eexists. eexists. split; [reflexivity|]. apply check_inv, H.
Qed.
Lemma crun_inv : forall l c, inv c -> exists c', crun b t rf l c = Ok c' /\ inv c'.
Proof.
  induction l as [|e l IH]; intros c H; [exists c; auto|].
  destruct (cstep_inv e c H) as [c1 [r [E I]]]. cbn [crun]. rewrite E. apply IH, I.
Qed.
Lemma inv0 : inv chain0.
Proof. split; [exists Off; split; [cbn; auto|intros i _; reflexivity]|]. intro X. destruct X. reflexivity. Qed.
Lemma reached_inv : forall c, reached b t rf c -> inv c.
Proof. intros c [l E]. destruct (crun_inv l chain0 inv0) as [c' [E' I]]. congruence. Qed.

(** ** The number of loops when threads begin promptly *)
Definition alive_in (ts : list th) : nat := List.length (List.filter (fun x => match x with TEnd => false | _ => true end) ts).
Lemma alive_app : forall a c, alive_in (a ++ c) = (alive_in a + alive_in c)%nat.
Proof. intros. unfold alive_in. rewrite filter_app, app_length. reflexivity. Qed.
Lemma alive_update : forall ts i x y, nth_error ts i = Some x ->
  (alive_in (update_nth i y ts) + alive_in [x] = alive_in ts + alive_in [y])%nat.
Proof.
  induction ts as [|z ts IH]; intros i x y H; [destruct i; discriminate|]. destruct i as [|i]; cbn in H.
  - injection H as ->. cbn [update_nth]. change (y :: ts) with ([y] ++ ts). change (x :: ts) with ([x] ++ ts). rewrite !alive_app. lia.
  - cbn [update_nth]. specialize (IH i x y H). change (z :: update_nth i y ts) with ([z] ++ update_nth i y ts). change (z :: ts) with ([z] ++ ts). rewrite !alive_app. lia.
Qed.
(** One loop while initialised, none otherwise; the owned thread is it *)
Definition single (c : chain) : Prop :=
  (off t c /\ alive_in (threads c) = 0%nat) \/
  (~ off t c /\ alive_in (threads c) = 1%nat /\ exists i, own c = Some i /\ nth_error (threads c) i = Some TLoop /\ running c = true).
Lemma alive_none : forall ts i x, alive_in ts = 0%nat -> nth_error ts i = Some x -> x = TEnd.
Proof.
  induction ts as [|z ts IH]; intros i x H E; [destruct i; discriminate|]. change (z :: ts) with ([z] ++ ts) in H. rewrite alive_app in H.
  destruct i as [|i]; cbn in E; [injection E as ->; destruct x; cbn in H; (discriminate || reflexivity)|]. apply (IH i x); [lia|exact E].
Qed.
Lemma alive_one : forall ts i j x, alive_in ts = 1%nat -> nth_error ts i = Some TLoop -> i <> j -> nth_error ts j = Some x -> x = TEnd.
Proof.
  intros ts i j x H E N F. pose proof (alive_update ts i TLoop TEnd E) as A. cbn in A.
  apply (alive_none (update_nth i TEnd ts) j x); [lia|]. rewrite nth_update_other by exact N. exact F.
Qed.
Lemma stop_single : forall c i, alive_in (threads c) = 1%nat -> own c = Some i -> nth_error (threads c) i = Some TLoop -> running c = true ->
  exists c', stop_thread c = Ok c' /\ lay c' = lay c /\ alive_in (threads c') = 0%nat.
Proof.
  intros c i A O E R. unfold stop_thread. rewrite R, O. eexists. split; [reflexivity|].
  unfold begin. cbn [threads with_running]. rewrite E. cbn. split; [reflexivity|].
  pose proof (alive_update _ i TLoop TEnd E) as X. cbn in X. lia.
Qed.

Lemma single_step : forall e c c' r, inv c -> single c -> match e with VInit g => g = true | _ => True end ->
  cstep b t rf e c = Ok (c', r) -> single c'.
Proof.
  intros e c c' r [H3 Ho] S G E.
  assert (Keep : forall d, threads d = threads c -> running d = running c -> own d = own c -> (off t d <-> off t c) -> single d).
  { intros d T1 T2 T3 T4. unfold single. rewrite T1, T2, T3, T4. exact S. }
  assert (KeepX : forall d, threads d = threads c -> running d = running c -> own d = own c -> ~ off t c -> together3 (lay d) -> root t d <> Off -> single d).
  { intros d T1 T2 T3 T4 T5 T6. apply Keep; auto. split; [|intro X; contradiction]. intro X. exfalso. apply T6. apply X, root_in. }
  destruct e; cbn in E.
  - subst begun. destruct S as [[So Sa]|[Sn Sx]].
    + unfold srv_init in E. rewrite (proj2 (root_off c H3) So) in E.
      set (n := List.length (threads c)) in *.
      set (c1 := mkC (lay c) (running c) (Some n) (threads c ++ [TNew])) in *.
      assert (B1 : begin n c1 = mkC (lay c) true (Some n) (update_nth n TLoop (threads c ++ [TNew]))).
      { unfold begin, c1. cbn [threads]. unfold n at 1. rewrite nth_app_new. reflexivity. }
      rewrite B1 in E.
      set (c2 := mkC (lay c) true (Some n) (update_nth n TLoop (threads c ++ [TNew]))) in *.
      assert (A2 : alive_in (threads c2) = 1%nat).
      { unfold c2. cbn [threads]. pose proof (alive_update (threads c ++ [TNew]) n TNew TLoop (nth_app_new _ _ _)) as X.
        rewrite alive_app in X. cbn in X. lia. }
      assert (N2 : nth_error (threads c2) n = Some TLoop).
      { unfold c2. cbn [threads]. apply nth_update_same. rewrite app_length. cbn. unfold n. lia. }
      assert (Aoff : all_in Off t (lay (fresh c2))) by (intros i Hi; apply So, Hi).
      destruct (tg_init b t T _ Aoff) as [I1 I2].
      destruct (okw (lay (do b t OInit (fresh c2)))) eqn:K.
      * injection E as <- _. right. split; [|split; [exact A2|exists n; auto]].
        intro X. specialize (X _ (root_in t)). specialize (I1 K _ (root_in t)). unfold do in X. cbn in X, I1. congruence.
      * destruct (stop_single (do b t OInit (fresh c2)) n A2 eq_refl N2 eq_refl) as [c4 [E4 [L4 A4]]].
        rewrite E4 in E. injection E as <- _. left. split; [|exact A4].
        unfold off, do. cbn [lay with_lay]. apply (tg_diag b t T). rewrite L4. exact (I2 K).
    + destruct (init_cases true c (conj H3 Ho)) as [d [q [Ed [_ [[_ [-> _]]|[X _]]]]]]; [|contradiction].
      rewrite Ed in E. cbn in E. injection E as <- _. right. auto.
  - destruct (recover_cases rs c (conj H3 Ho)) as [d [q [Ed [I [[X [-> _]]|[X [_ Y]]]]]]].
    + rewrite Ed in E. cbn in E. injection E as <- _. exact S.
    + assert (F : threads d = threads c /\ running d = running c /\ own d = own c).
      { unfold srv_recover in Ed. destruct (lgt (root t c) Init); [|injection Ed as <- _; auto].
        destruct rf; [destruct rs as [rs|]|].
        - destruct (okw _); [|injection Ed as <- _; auto]. injection Ed as <- _. destruct (okw _); auto.
        - injection Ed as <- _. auto.
        - injection Ed as <- _. destruct (okw _); auto. }
      destruct F as [F1 [F2 F3]]. rewrite Ed in E. cbn in E. injection E as <- _.
      apply (KeepX d F1 F2 F3 X (proj1 I)). unfold root.
      destruct Y as [[_ Y]|[_ [Y|[_ [Y _]]]]]; rewrite (Y _ (root_in t)); discriminate.
  - unfold srv_halt in E. destruct (halt_cases c (conj H3 Ho)) as [d [Ed [I Y]]]. unfold srv_halt in Ed. rewrite Ed in E. cbn in E. injection E as <- _.
    destruct Y as [[_ ->]|[X [Y _]]]; [exact S|].
    assert (F : threads d = threads c /\ running d = running c /\ own d = own c) by (destruct (lgt (root t c) Init); injection Ed as <-; auto).
    destruct F as [F1 [F2 F3]]. apply (KeepX d F1 F2 F3 X (proj1 I)). unfold root. rewrite (Y _ (root_in t)). discriminate.
  - destruct (shutdown_cases c (conj H3 Ho)) as [d [Ed [I [Y Z]]]].
    destruct S as [[So Sa]|[Sn [Sa [i [Si [Sj Sr]]]]]].
    + rewrite Ed in E. cbn in E. injection E as <- _. rewrite (Z So). left. auto.
    + unfold srv_shutdown in Ed, E. rewrite (root_gt c H3) in Ed, E. destruct (lgt (root t c) Off) eqn:R.
      2:{ exfalso. apply Sn. apply (root_off c H3), R. }
      destruct (stop_single (do b t OShutdown (do b t OHalt (fresh c))) i Sa Si Sj Sr) as [c4 [E4 [_ A4]]].
      rewrite E4 in Ed, E. cbn in E. injection E as <- _. injection Ed as <-. left. auto.
  - injection E as <- _. unfold begin. destruct (nth_error (threads c) i) as [[| |]|] eqn:N; try exact S. exfalso.
    destruct S as [[So Sa]|[Sn [Sa [j [Si [Sj Sr]]]]]].
    + pose proof (alive_none _ _ _ Sa N). discriminate.
    + destruct (Nat.eq_dec j i) as [->|Q]; [congruence|]. pose proof (alive_one _ _ _ _ Sa Sj Q N). discriminate.
  - injection E as <- _. pose proof (cycle_inv i c (conj H3 Ho)) as [I _]. unfold cycle in *.
    destruct (nth_error (threads c) i) as [[| |]|] eqn:N; try exact S.
    destruct S as [[So Sa]|[Sn Sx]].
    + pose proof (alive_none _ _ _ Sa N). discriminate.
    + destruct Sx as [S1 S2]. right. split; [|auto]. intro X. apply Sn. 
      assert (Y : ~ all_in Off t (exec b t OWrite (exec b t ORead (with_status status0 (lay c))))).
      { destruct (t3_root _ H3) as [[Er A]|[[Er A]|[Er A]]]; [contradiction| |]; intro Z.
        - assert (A' : all_in Ready t (with_status status0 (lay c))) by exact A.
          destruct (tg_cyclic b t T ORead _ eq_refl A') as [_ [[s [Hs B]] _]]. destruct Hs as [<-|[<-|[]]].
          + destruct (tg_cyclic b t T OWrite _ eq_refl B) as [_ [[s' [Hs' B']] _]]. pose proof (B' _ (root_in t)). pose proof (Z _ (root_in t)). destruct Hs' as [<-|[<-|[]]]; congruence.
          + pose proof (tg_cyclic_error b t T OWrite _ eq_refl B _ (root_in t)). pose proof (Z _ (root_in t)). congruence.
        - assert (A' : all_in Error t (with_status status0 (lay c))) by exact A.
          pose proof (tg_cyclic_error b t T ORead _ eq_refl A') as B. pose proof (tg_cyclic_error b t T OWrite _ eq_refl B _ (root_in t)). pose proof (Z _ (root_in t)). congruence. }
      contradiction.
  - injection E as <- _. unfold check. destruct (nth_error (threads c) i) as [[| |]|] eqn:N; try exact S.
    destruct (running c) eqn:R; [exact S|]. exfalso. destruct S as [[So Sa]|[Sn [Sa [j [Si [Sj Sr]]]]]]; [|congruence].
    pose proof (alive_none _ _ _ Sa N). discriminate.
Qed.
Lemma single_run : forall l c c', inv c -> single c -> prompt l -> crun b t rf l c = Ok c' -> single c'.
Proof.
  induction l as [|e l IH]; intros c c' I S P E; cbn in E; [congruence|].
  destruct (cstep b t rf e c) as [[c1 r]|] eqn:F; [|discriminate].
  destruct (cstep_inv e c I) as [c2 [r2 [F2 I2]]]. assert (c2 = c1) by congruence. subst c2.
  apply (IH c1); auto.
  - apply (single_step e c c1 r); auto. apply Forall_inv in P. exact P.
  - apply Forall_inv_tail in P. exact P.
Qed.
Lemma single0 : single chain0.
Proof. left. split; [intros i _; reflexivity|reflexivity]. Qed.
End Chain.

(** ** A pass of the loop: reading starts no write handler, and the other way round *)
Section Only.
Variables (b : behaviour) (a : op).
(** Nothing but [a] and halting was started since [w0] *)
Definition only (w0 w : world) : Prop := exists new, log w = log w0 ++ new /\ forall o, o <> a -> o <> OHalt -> started o new = [].
Lemma started_app : forall o x y, started o (x ++ y) = started o x ++ started o y.
Proof. intros o x y. induction x as [|[i o'| |] x IH]; cbn; [reflexivity| |exact IH|exact IH]. destruct (op_eqb o o'); cbn; rewrite IH; reflexivity. Qed.
Lemma op_eqb_true : forall x y, op_eqb x y = true -> x = y.
Proof. intros [] []; cbn; congruence. Qed.
Lemma only_refl : forall w0, only w0 w0.
Proof. intros w0. exists []. rewrite app_nil_r. auto. Qed.
Lemma only_log : forall w0 w e, match e with Start _ o => o = a \/ o = OHalt | _ => True end -> only w0 w -> only w0 (add_log e w).
Proof.
  intros w0 w e H [new [E N]]. exists (new ++ [e]). cbn [add_log log]. rewrite E, app_assoc. split; [reflexivity|].
  intros o A B. rewrite started_app, (N o A B). destruct e as [i o'| |]; cbn; try reflexivity.
  destruct (op_eqb o o') eqn:Q; [|reflexivity]. apply op_eqb_true in Q. subst o'. destruct H; contradiction.
Qed.
Lemma only_handler : forall w0 h i o w, (forall w, only w0 w -> only w0 (h o w)) -> o = a \/ o = OHalt -> only w0 w -> only w0 (call_handler h i o w).
Proof. intros w0 h i o w H O W. unfold call_handler. apply only_log; [exact I|]. apply H. apply only_log; assumption. Qed.
Lemma only_halt : forall w0 h i w, (forall w, only w0 w -> only w0 (h OHalt w)) -> only w0 w -> only w0 (halt h i w).
Proof.
  intros w0 h i w H W. unfold halt. destruct (lgt (lst w i) Halt); [|exact W].
  exact (only_handler w0 h i OHalt (set_state i Halt w) H (or_intror eq_refl) W).
Qed.
Lemma only_exec : a = ORead \/ a = OWrite -> forall t w0 o w, o = a \/ o = OHalt -> only w0 w -> only w0 (exec b t o w).
Proof.
  intros Ha t w0. induction t as [id|k id ms IH] using tree_ind'; intros o w O W; rewrite exec_unfold.
  - assert (H : forall o w, only w0 w -> only w0 (handle b (Leaf id) o w)).
    { intros o' w'. apply (leaf_inv (only w0) b id). intros l r x X. apply only_log; [exact I|exact X]. }
    destruct O as [-> | ->]; [destruct Ha as [A|A]; rewrite A in *|]; cbn [run_op tid].
    + destruct (lgt (lst w id) Off); [|exact W]. apply only_handler; auto.
    + destruct (lgt (lst w id) Off); [|exact W]. apply only_handler; auto.
    + apply only_halt; auto.
  - assert (M : forall c, In c (members b ms) -> forall o w, o = a \/ o = OHalt -> only w0 w -> only w0 (c o w)).
    { intros c Hc. apply in_members in Hc. destruct Hc as [m [Hm ->]]. rewrite Forall_forall in IH. exact (IH m Hm). }
    assert (R : forall c, In c (rev (members b ms)) -> forall o w, o = a \/ o = OHalt -> only w0 w -> only w0 (c o w)).
    { intros c Hc. apply M. apply in_rev. exact Hc. }
    assert (HH : forall (o : op) w, only w0 w -> only w0 (call UNBOUNDED (members b ms) OHalt w)).
    { intros _ w' W'. apply (call_inv (only w0)); [|exact W']. intros c x Hc X. apply M; auto. }
    assert (CF : forall cs o w, (forall c, In c cs -> forall o w, o = a \/ o = OHalt -> only w0 w -> only w0 (c o w)) -> o = a -> only w0 w ->
      only w0 (call_or_fail cs id (fun (_ : op) w => call UNBOUNDED (members b ms) OHalt w) o w)).
    { intros cs o' w' C Eo W'. unfold call_or_fail.
      assert (A : only w0 (call UNBOUNDED cs o' w')) by (apply (call_inv (only w0)); [intros; apply C; auto|exact W']).
      destruct (bounded WARN (stat (call UNBOUNDED cs o' w'))); [exact A|]. apply only_halt; [intros; apply HH; auto|].
      apply (call_inv (only w0)); [intros; apply C; auto|exact A]. }
    assert (H : forall w, only w0 w -> only w0 (handle b (Group k id ms) a w)).
    { intros w' W'. rewrite handle_group. unfold group_handle. destruct Ha as [E|E]; rewrite E; [|destruct k]; apply CF; auto. }
    assert (Hh : forall w, only w0 w -> only w0 (handle b (Group k id ms) OHalt w)).
    { intros w' W'. rewrite handle_group. apply (HH OHalt). exact W'. }
    destruct O as [-> | ->]; [|cbn [run_op tid]; apply only_halt; auto].
    destruct Ha as [E|E]; rewrite E in *; cbn [run_op tid]; (destruct (lgt (lst w id) Off); [|exact W]; apply only_handler; auto).
Qed.
End Only.
Lemma pass_order : forall b t c i, NoDup (ids t) -> (ready t c \/ halted t c) -> nth_error (threads c) i = Some TLoop ->
  exists rd wr, log (lay (cycle b t i c)) = log (lay c) ++ rd ++ wr /\
    started ORead rd = order ORead t /\ started OWrite rd = [] /\ started OWrite wr = order OWrite t /\ started ORead wr = [].
Proof.
  intros b t c i ND A N. unfold cycle. rewrite N. cbn [do with_lay lay fresh].
  set (w := with_status status0 (lay c)).
  assert (A0 : all_in Ready t w \/ all_in Error t w) by exact A.
  pose proof (all_together b t ND) as T.
  assert (S1 : forall o w, o = ORead \/ o = OWrite -> all_in Ready t w \/ all_in Error t w ->
    exists new, log (exec b t o w) = log w ++ new /\ started o new = order o t /\
      (forall o', o' <> o -> o' <> OHalt -> started o' new = []) /\ (all_in Ready t (exec b t o w) \/ all_in Error t (exec b t o w))).
  { intros o w' Ho X.
    assert (Y : exists new, log (exec b t o w') = log w' ++ new /\ started o new = order o t).
    { destruct X as [X|X]; (eapply order_summary; [exact ND|exact X|]); destruct Ho as [-> | ->]; auto. }
    destruct Y as [new [E1 E2]]. destruct (only_exec b o Ho t w' o w' (or_introl eq_refl) (only_refl o w')) as [new' [F1 F2]].
    assert (new' = new) by (rewrite E1 in F1; apply app_inv_head in F1; auto). subst new'.
    exists new. split; [exact E1|]. split; [exact E2|]. split; [exact F2|].
    assert (Cy : cyclic o = true) by (destruct Ho as [-> | ->]; reflexivity).
    destruct X as [X|X].
    - destruct (tg_cyclic b t T o w' Cy X) as [_ [[s [[<-|[<-|[]]] Z]] _]]; auto.
    - right. exact (tg_cyclic_error b t T o w' Cy X). }
  destruct (S1 ORead w (or_introl eq_refl) A0) as (rd & E1 & E2 & E3 & E4).
  destruct (S1 OWrite (exec b t ORead w) (or_intror eq_refl) E4) as (wr & F1 & F2 & F3 & _).
  exists rd, wr. rewrite F1, E1, <- app_assoc. split; [reflexivity|]. split; [exact E2|].
  split; [apply E3; discriminate|]. split; [exact F2|]. apply F3; discriminate.
Qed.
