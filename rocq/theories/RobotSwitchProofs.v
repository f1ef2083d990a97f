From Coq Require Import ZArith List Bool Lia Permutation.
From Verif Require Import Base HandleModel HandleSpec HandleProofs RobotModel RobotSpec RobotProofs.
Import ListNotations.
Local Open Scope Z_scope.

(** * Execution *)
Definition plain (f : Z -> hand) : Prop := forall j, wired (f j).
Definition keeps (f g : Z -> hand) : Prop := forall j, cmds (g j) = cmds (f j) /\ sup (g j) = sup (f j) /\ lready (g j) = lready (f j).

Lemma keeps_refl f : keeps f f.
Proof. intros j. auto. Qed.
Lemma keeps_trans f g h : keeps f g -> keeps g h -> keeps f h.
Proof. intros A B j. destruct (A j) as (? & ? & ?), (B j) as (? & ? & ?). repeat split; congruence. Qed.
Lemma keeps_plain f g : keeps f g -> plain f -> plain g.
Proof. intros K P j. unfold wired. destruct (K j) as (-> & _). apply P. Qed.
Lemma keeps_set f j h : cmds h = cmds (f j) -> sup h = sup (f j) -> lready h = lready (f j) -> keeps f (set_hand j h f).
Proof.
  intros A B C i. unfold set_hand. destruct (i =? j) eqn:E; [|auto]. assert (i = j) by lia. subst. auto.
Qed.

Lemma set_same j h f : set_hand j h f j = h.
Proof. unfold set_hand. now rewrite Z.eqb_refl. Qed.
Lemma set_other j h f i : i <> j -> set_hand j h f i = f i.
Proof. intros N. unfold set_hand. destruct (i =? j) eqn:E; [lia|reflexivity]. Qed.

(** Stopping *)
Definition halted_hand (h : hand) : hand := snd (switch_mode 0 Entered h).

Lemma halted_idem h : wired h -> halted_hand (halted_hand h) = halted_hand h.
Proof.
  intros (W & _). unfold halted_hand.
  destruct (switch_mode_zero Entered h W) as (_ & M & J).
  pose proof (switch_mode_cmds 0 Entered h) as C.
  set (g := snd (switch_mode 0 Entered h)) in *. unfold switch_mode, select. rewrite M, C, W. cbn.
  destruct g. cbn in *. unfold with_jh. cbn. now rewrite J.
Qed.
Lemma halted_wired h : wired h -> wired (halted_hand h).
Proof. unfold wired, halted_hand. now rewrite switch_mode_cmds. Qed.
Lemma halted_stopped h : wired h -> stopped (halted_hand h).
Proof. intros (W & _). apply (switch_mode_zero Entered h W). Qed.
Lemma halted_of_stopped h : wired h -> stopped h -> halted_hand h = h.
Proof.
  intros (W & _) (M & J). unfold halted_hand, switch_mode, select. rewrite M, W. cbn.
  destruct h. cbn in *. unfold with_jh. cbn. now rewrite J.
Qed.

Lemma stop_joint_spec f k j : stop_joint f k j = if j =? k then halted_hand (f j) else f j.
Proof.
  unfold stop_joint, set_hand, halted_hand. destruct (j =? k) eqn:E; [|reflexivity].
  assert (j = k) by lia. now subst.
Qed.
Lemma stop_joint_keeps f k : keeps f (stop_joint f k).
Proof.
  intros j. rewrite stop_joint_spec. destruct (j =? k); [|auto]. unfold halted_hand.
  now rewrite switch_mode_cmds, switch_mode_sup, switch_mode_lready.
Qed.

Lemma stop_joints_spec l : forall f j, plain f ->
  (In j l -> stop_joints l f j = halted_hand (f j)) /\ (~ In j l -> stop_joints l f j = f j).
Proof.
  induction l as [|k l IH]; intros f j P; cbn [stop_joints fold_left]; [split; [intros []|reflexivity]|].
  fold (stop_joints l (stop_joint f k)).
  assert (P' : plain (stop_joint f k)) by (eapply keeps_plain; [apply stop_joint_keeps|exact P]).
  destruct (IH (stop_joint f k) j P') as (A & B). rewrite stop_joint_spec in A, B. split.
  - intros H. destruct (in_dec Z.eq_dec j l) as [I|I].
    + rewrite (A I). destruct (j =? k); [|reflexivity]. apply halted_idem, P.
    + rewrite (B I). destruct (j =? k) eqn:E; [reflexivity|].
      exfalso. destruct H as [H|H]; [lia|tauto].
  - intros N. cbn in N. rewrite B by tauto. destruct (j =? k) eqn:E; [|reflexivity]. exfalso. apply N. left. lia.
Qed.

Lemma stop_joints_keeps l : forall f, keeps f (stop_joints l f).
Proof.
  induction l as [|k l IH]; intros f; [apply keeps_refl|].
  cbn [stop_joints fold_left]. eapply keeps_trans; [apply stop_joint_keeps|apply IH].
Qed.

Lemma in_stop_insert l : forall s j, In j (stop_insert l s) <-> In j s \/ In j l.
Proof.
  induction l as [|k l IH]; intros s j; cbn [stop_insert fold_left]; [cbn; tauto|].
  fold (stop_insert l (if existsb (Z.eqb k) s then s else s ++ [k])). rewrite IH.
  destruct (existsb (Z.eqb k) s) eqn:E.
  - apply existsb_exists in E. destruct E as (a & A & B). assert (k = a) by lia. subst a.
    cbn. intuition congruence.
  - rewrite in_app_iff. cbn. tauto.
Qed.

Lemma in_stop_erase k s j : In j (stop_erase k s) <-> In j s /\ j <> k.
Proof. unfold stop_erase. rewrite filter_In, negb_true_iff, Z.eqb_neq. tauto. Qed.

(** The joints of a controller whose modes are entered. [started m b h]: running in mode [m],
    not yet forwarding, limits as configured. *)
Definition started (d : sdata) (h : hand) : Prop :=
  runs (smode d) h /\ (smode d <> 0 -> fwd h = false) /\ lim h = slimits d.

Lemma switch_started d r h : fst (switch_mode (smode d) r h) = true ->
  (mode h = 0 \/ started d h) -> started d (with_lim (slimits d) (snd (switch_mode (smode d) r h))).
Proof.
  intros E H. pose proof (switch_mode_true _ _ _ E) as (M & C). split; [split|split]; cbn.
  - exact M.
  - now rewrite switch_mode_cmds.
  - intros N. destruct (fwd (snd (switch_mode (smode d) r h))) eqn:F; [|reflexivity].
    apply switch_mode_fwd in F. destruct F as (F & G). destruct H as [H|((_ & _) & H & _)]; [congruence|].
    rewrite (H N) in F. discriminate.
  - reflexivity.
Qed.

Lemma enter_modes_spec env all l : forall ps n f ts, plain f -> coherent (ps ++ l) ->
  (forall d, In d ps -> started d (f (sjoint d))) ->
  (forall d, In d l -> mode (f (sjoint d)) = 0 \/ started d (f (sjoint d))) ->
  (forall d, In d ps -> ~ In (sjoint d) ts) ->
  incl l all ->
  forall ok n' f' ts', enter_modes env all l n f ts = (ok, n', f', ts') ->
  keeps f f' /\
  (forall j, ~ In j (map sjoint l) -> f' j = f j) /\
  (forall j, ~ In j (map sjoint all) -> (In j ts' <-> In j ts)) /\
  (ok = true -> forall d, In d (ps ++ l) -> started d (f' (sjoint d)) /\ ~ In (sjoint d) ts') /\
  (ok = false -> (exists d, In d l) /\ forall d, In d all -> In (sjoint d) ts').
Proof.
  induction l as [|d l IH]; intros ps n f ts P C S1 S2 T I ok n' f' ts' E; cbn [enter_modes] in E.
  - assert (ok = true /\ f' = f /\ ts' = ts) as (-> & -> & ->) by (repeat split; congruence).
    rewrite app_nil_r. split; [apply keeps_refl|]. split; [auto|]. split; [tauto|]. split; [auto|discriminate].
  - destruct (fst (switch_mode (smode d) (env n) (f (sjoint d)))) eqn:W.
    + set (h' := with_lim (slimits d) (snd (switch_mode (smode d) (env n) (f (sjoint d))))) in *.
      set (f1 := set_hand (sjoint d) h' f) in *.
      assert (K : keeps f f1).
      { apply keeps_set; subst h'; cbn; [apply switch_mode_cmds|apply switch_mode_sup|apply switch_mode_lready]. }
      assert (ST : started d h') by (apply switch_started; [exact W|apply S2; now left]).
      assert (Q : forall e, In e (ps ++ d :: l) -> sjoint e = sjoint d -> e = d).
      { intros e H J. apply C; [exact H| |exact J]. apply in_elt. }
      assert (C' : coherent ((ps ++ [d]) ++ l)) by (rewrite <- app_assoc; exact C).
      assert (F1 : forall e, In e (ps ++ d :: l) -> (f1 (sjoint e) = f (sjoint e)) \/ (e = d)).
      { intros e H. destruct (Z.eq_dec (sjoint e) (sjoint d)) as [J|J]; [right; auto|left].
        subst f1. now apply set_other. }
      destruct (IH (ps ++ [d]) (S n) f1 (stop_erase (sjoint d) ts)) with (ok := ok) (n' := n') (f' := f') (ts' := ts')
        as (A & B & D & G & H).
      * eapply keeps_plain; eauto.
      * exact C'.
      * intros e He. destruct (F1 e) as [Q1| ->].
        { apply in_app_iff in He. apply in_app_iff. cbn in *. tauto. }
        { rewrite Q1. apply in_app_iff in He. destruct He as [He|[<-|[]]]; [auto|].
          (* e = d *) rewrite <- Q1. subst f1. rewrite set_same. exact ST. }
        { subst f1. rewrite set_same. exact ST. }
      * intros e He. destruct (F1 e) as [Q1| ->].
        { apply in_app_iff. right. now right. }
        { rewrite Q1. apply S2. now right. }
        { right. subst f1. rewrite set_same. exact ST. }
      * intros e He J. apply in_stop_erase in J. destruct J as (J & N). apply in_app_iff in He.
        destruct He as [He|[<-|[]]]; [eapply T; eauto|congruence].
      * intros e He. apply I. now right.
      * exact E.
      * split; [eapply keeps_trans; eauto|]. split.
        { intros j J. cbn in J. rewrite B by tauto. subst f1. apply set_other. intuition congruence. }
        split.
        { intros j J. rewrite (D j J), in_stop_erase. split; [tauto|]. intros H1. split; [exact H1|].
          intros ->. apply J. apply in_map, I. now left. }
        split.
        { intros O e He. apply (G O). rewrite <- app_assoc. exact He. }
        { intros O. destruct (H O) as (H1 & H2). split; [exists d; now left|exact H2]. }
    + assert (ok = false /\ f' = set_hand (sjoint d) (snd (switch_mode (smode d) (env n) (f (sjoint d)))) f /\
              ts' = stop_insert (map sjoint all) ts) as (-> & -> & ->) by (repeat split; congruence).
      split; [apply keeps_set; [apply switch_mode_cmds|apply switch_mode_sup|apply switch_mode_lready]|].
      split; [intros j J; apply set_other; cbn in J; intuition congruence|].
      split; [intros j J; rewrite in_stop_insert; tauto|].
      split; [discriminate|]. intros _. split; [exists d; now left|].
      intros e He. apply in_stop_insert. right. now apply in_map.
Qed.

Lemma enter_modes_ok env all l : forall n f ts, (forall n, env n = Entered) ->
  (forall d, In d l -> command (cmds (f (sjoint d))) (smode d) <> None) ->
  fst (fst (fst (enter_modes env all l n f ts))) = true.
Proof.
  induction l as [|d l IH]; intros n f ts E C; cbn [enter_modes]; [reflexivity|].
  rewrite E, (switch_mode_succeeds _ _ (C d (or_introl eq_refl))). apply IH; [exact E|].
  intros e He. unfold set_hand. destruct (sjoint e =? sjoint d) eqn:J.
  - cbn. rewrite switch_mode_cmds. assert (sjoint e = sjoint d) as <- by lia. apply C. now right.
  - apply C. now right.
Qed.

(** All controllers of a request *)
Definition touched (r : list (Z * list sdata)) (l : list Z) (j : Z) : Prop :=
  exists c, In c l /\ In j (map sjoint (container r c)).
Definition apart (r : list (Z * list sdata)) (l : list Z) : Prop :=
  ForallOrdPairs (fun c c' => forall j, In j (map sjoint (container r c)) -> In j (map sjoint (container r c')) -> False) l.

Lemma perform_spec env r (RC : forall c, coherent (container r c)) starts : forall n f ts, plain f -> apart r starts ->
  forall f' ts' failed, perform env r starts n f ts = (f', ts', failed) ->
  keeps f f' /\
  (forall j, ~ touched r starts j -> f' j = f j /\ (In j ts' <-> In j ts)) /\
  (forall c, In c failed -> In c starts /\ exists d, In d (container r c)) /\
  (forall c, In c starts ->
     (In c failed /\ forall d, In d (container r c) -> In (sjoint d) ts') \/
     (~ In c failed /\ forall d, In d (container r c) -> started d (f' (sjoint d)) /\ ~ In (sjoint d) ts')).
Proof.
  induction starts as [|c t IH]; intros n f ts P A f' ts' failed E; cbn [perform] in E.
  - assert (f' = f /\ ts' = ts /\ failed = []) as (-> & -> & ->) by (repeat split; congruence).
    split; [apply keeps_refl|]. split; [intros; tauto|]. split; [intros c []|intros c []].
  - inversion A as [|? ? A1 A2]. subst. rewrite Forall_forall in A1.
    destruct (enter_modes env (container r c) (container r c) n (stop_joints (map sjoint (container r c)) f) ts)
      as [[[ok n1] f1] ts1] eqn:E1.
    destruct (perform env r t n1 f1 ts1) as [[f2 ts2] failed2] eqn:E2.
    assert (f' = f2 /\ ts' = ts2 /\ failed = if ok then failed2 else c :: failed2) as (-> & -> & ->)
      by (repeat split; congruence). clear E.
    set (f0 := stop_joints (map sjoint (container r c)) f) in *.
    assert (K0 : keeps f f0) by apply stop_joints_keeps.
    assert (P0 : plain f0) by (eapply keeps_plain; eauto).
    destruct (enter_modes_spec env (container r c) (container r c) [] n f0 ts P0 (RC c)) with (ok := ok) (n' := n1) (f' := f1) (ts' := ts1)
      as (B1 & B2 & B3 & B4 & B5).
    { intros d []. }
    { intros d D. left. subst f0. rewrite (proj1 (stop_joints_spec _ f _ P)) by now apply in_map.
      apply (halted_stopped _ (P _)). }
    { intros d []. }
    { apply incl_refl. }
    { exact E1. }
    assert (P1 : plain f1) by (eapply keeps_plain; eauto).
    destruct (IH n1 f1 ts1 P1 A2 _ _ _ E2) as (C1 & C2 & C3 & C4).
    split; [eapply keeps_trans; [exact K0|eapply keeps_trans; eauto]|]. split; [|split].
    + intros j N. destruct (C2 j) as (D1 & D2).
      { intros (c' & I & J). apply N. exists c'. split; [now right|exact J]. }
      assert (NJ : ~ In j (map sjoint (container r c))).
      { intros J. apply N. exists c. split; [now left|exact J]. }
      split.
      * rewrite D1, B2 by exact NJ. subst f0. now apply stop_joints_spec.
      * rewrite D2. now apply B3.
    + intros c' H. destruct ok.
      * apply C3 in H. destruct H as (H & K). split; [now right|exact K].
      * destruct H as [<-|H]; [split; [now left|now apply B5]|]. apply C3 in H. destruct H as (H & K). split; [now right|exact K].
    + intros c' [<-|I].
      * (* the controller itself: its joints are not touched later *)
        assert (NT : forall d, In d (container r c) -> ~ touched r t (sjoint d)).
        { intros d D (c' & I & J). apply (A1 c' I (sjoint d)); [now apply in_map|exact J]. }
        destruct ok.
        { right. split.
          - intros H. apply C3 in H. destruct H as (H & d & D). apply (NT d D). exists c. split; [exact H|now apply in_map].
          - intros d D. destruct (B4 eq_refl d D) as (S & T). destruct (C2 _ (NT d D)) as (-> & ->). auto. }
        { left. split; [now left|]. intros d D. apply (C2 _ (NT d D)). now apply B5. }
      * destruct (C4 c' I) as [(H & K)|(H & K)].
        { left. split; [destruct ok; [exact H|now right]|exact K]. }
        { right. split; [|exact K]. destruct ok; [exact H|]. intros [<-|H']; [|tauto].
          destruct (B5 eq_refl) as ((d & D) & _).
          apply (A1 c I (sjoint d)); now apply in_map. }
Qed.

Lemma perform_ok env r starts : (forall n, env n = Entered) -> forall n f ts,
  (forall c d, In c starts -> In d (container r c) -> command (cmds (f (sjoint d))) (smode d) <> None) ->
  snd (perform env r starts n f ts) = [].
Proof.
  intros E. induction starts as [|c t IH]; intros n f ts C; cbn [perform]; [reflexivity|].
  assert (K : forall d, In d (container r c) ->
    command (cmds (stop_joints (map sjoint (container r c)) f (sjoint d))) (smode d) <> None).
  { intros d D. rewrite (proj1 (stop_joints_keeps _ f (sjoint d))). apply (C c); [now left|exact D]. }
  pose proof (enter_modes_ok env (container r c) (container r c) n (stop_joints (map sjoint (container r c)) f) ts E K) as O.
  assert (KE : forall all l n f ts, keeps f (snd (fst (enter_modes env all l n f ts)))).
  { clear. intros all l. induction l as [|d l IH]; intros n f ts; cbn [enter_modes]; [apply keeps_refl|].
    destruct (fst (switch_mode _ _ _)).
    - eapply keeps_trans; [|apply IH]. apply keeps_set; cbn; [apply switch_mode_cmds|apply switch_mode_sup|apply switch_mode_lready].
    - cbn. apply keeps_set; cbn; [apply switch_mode_cmds|apply switch_mode_sup|apply switch_mode_lready]. }
  specialize (KE (container r c) (container r c) n (stop_joints (map sjoint (container r c)) f) ts).
  destruct (enter_modes _ _ _ _ _ _) as [[[ok n1] f1] ts1]. cbn in O, KE. subst ok.
  specialize (IH n1 f1 ts1). destruct (perform env r t n1 f1 ts1) as [[f2 ts2] failed2]. cbn in *. apply IH.
  intros c' d I D. rewrite (proj1 (KE (sjoint d))), (proj1 (stop_joints_keeps _ f (sjoint d))).
  apply (C c'); [now right|exact D].
Qed.

(** * doSwitch *)
Lemma repeat_in (a : Z) n j : In j (repeat a n) -> j = a.
Proof. intros H. symmetry. now apply repeat_spec in H. Qed.

Lemma forward_for_keeps m h : cmds (snd (forward_for m h)) = cmds h /\ sup (snd (forward_for m h)) = sup h /\
  lready (snd (forward_for m h)) = lready h /\ mode (snd (forward_for m h)) = mode h /\ jh (snd (forward_for m h)) = jh h /\
  lim (snd (forward_for m h)) = lim h.
Proof. unfold forward_for. destruct (mode h =? m); cbn; repeat split. Qed.

Lemma forward_all_keeps n l : forall f, keeps f (snd (forward_all n l f)).
Proof.
  induction l as [|d l IH]; intros f; cbn [forward_all]; [apply keeps_refl|].
  destruct (fst (forward_for _ _)); cbn [snd]; [|apply stop_joints_keeps].
  eapply keeps_trans; [|apply IH]. destruct (forward_for_keeps (smode d) (f (sjoint d))) as (? & ? & ? & _).
  now apply keeps_set.
Qed.

Lemma forward_all_other n l : forall f j, plain f -> ~ In j (map sjoint l) -> snd (forward_all n l f) j = f j.
Proof.
  induction l as [|d l IH]; intros f j P N; cbn [forward_all]; [reflexivity|]. cbn in N.
  destruct (fst (forward_for _ _)).
  - rewrite IH; [apply set_other; intuition congruence| |tauto].
    eapply keeps_plain; [|exact P]. destruct (forward_for_keeps (smode d) (f (sjoint d))) as (? & ? & ? & _).
    now apply keeps_set.
  - cbn [snd]. apply stop_joints_spec; [exact P|]. intros H. apply repeat_in in H. intuition congruence.
Qed.

Lemma forward_all_ok n l : forall f, (forall d, In d l -> mode (f (sjoint d)) = smode d) ->
  fst (forward_all n l f) = true /\ forall d, In d l -> snd (forward_all n l f) (sjoint d) = with_fwd true (f (sjoint d)).
Proof.
  assert (G : forall l f j, (forall d, In d l -> mode (f (sjoint d)) = smode d) ->
     (In j (map sjoint l) \/ f j = with_fwd true (f j)) ->
     fst (forward_all n l f) = true /\ snd (forward_all n l f) j = with_fwd true (f j)).
  { clear. induction l as [|d l IH]; intros f j M H; cbn [forward_all].
    - cbn. split; [reflexivity|]. destruct H as [[]|H]. exact H.
    - assert (F : forward_for (smode d) (f (sjoint d)) = (true, with_fwd true (f (sjoint d)))).
      { unfold forward_for. rewrite (M d (or_introl eq_refl)), Z.eqb_refl. reflexivity. }
      rewrite F. cbn [fst snd].
      assert (E : with_fwd true (set_hand (sjoint d) (with_fwd true (f (sjoint d))) f j) = with_fwd true (f j)).
      { unfold set_hand. destruct (j =? sjoint d) eqn:J; [|reflexivity]. assert (j = sjoint d) by lia. now subst. }
      destruct (IH (set_hand (sjoint d) (with_fwd true (f (sjoint d))) f) j) as (A & B).
      + intros e He. unfold set_hand. destruct (sjoint e =? sjoint d) eqn:J.
        * cbn. assert (sjoint e = sjoint d) as <- by lia. apply M. now right.
        * apply M. now right.
      + destruct H as [[H|H]|H]; [right|left; exact H|right].
        * subst j. now rewrite set_same.
        * unfold set_hand. destruct (j =? sjoint d) eqn:J; [reflexivity|exact H].
      + split; [exact A|]. now rewrite B. }
  intros f M. destruct l as [|d0 l0] eqn:L; [cbn; split; [reflexivity|intros d []]|]. rewrite <- L in *.
  split.
  - apply (G l f (sjoint d0) M). left. rewrite L. now left.
  - intros d D. apply (G l f (sjoint d) M). left. now apply in_map.
Qed.

Lemma forward_all_stopped n l : forall f, plain f -> (forall d, In d l -> stopped (f (sjoint d))) ->
  forall d, In d l -> stopped (snd (forward_all n l f) (sjoint d)).
Proof.
  assert (G : forall l f j, plain f -> stopped (f j) -> stopped (snd (forward_all n l f) j)).
  { clear. induction l as [|d l IH]; intros f j P H; cbn [forward_all]; [exact H|].
    destruct (fst (forward_for _ _)); cbn [snd].
    - destruct (forward_for_keeps (smode d) (f (sjoint d))) as (K1 & K2 & K3 & K4 & K5 & _).
      apply IH.
      + eapply keeps_plain; [|exact P]. now apply keeps_set.
      + unfold set_hand. destruct (j =? sjoint d) eqn:J; [|exact H]. assert (j = sjoint d) by lia. subst j.
        unfold stopped in *. now rewrite K4, K5.
    - destruct (in_dec Z.eq_dec j (repeat (sjoint d) n)) as [I|I].
      + rewrite (proj1 (stop_joints_spec _ f j P) I). now apply halted_stopped.
      + now rewrite (proj2 (stop_joints_spec _ f j P) I). }
  intros f P H d D. apply G; auto.
Qed.

Lemma forward_all_failed l0 l : forall f, plain f -> (l0 <> 0)%nat -> fst (forward_all l0 l f) = false ->
  exists d, In d l /\ mode (f (sjoint d)) <> smode d /\ stopped (snd (forward_all l0 l f) (sjoint d)).
Proof.
  induction l as [|d l IH]; intros f P N H; cbn [forward_all] in *; [discriminate|].
  destruct (forward_for_keeps (smode d) (f (sjoint d))) as (K1 & K2 & K3 & K4 & _).
  destruct (fst (forward_for (smode d) (f (sjoint d)))) eqn:E.
  - destruct (IH (set_hand (sjoint d) (snd (forward_for (smode d) (f (sjoint d)))) f)) as (e & A & B & C); [|exact N|exact H|].
    + eapply keeps_plain; [|exact P]. now apply keeps_set.
    + exists e. split; [now right|]. split; [|exact C]. revert B. unfold set_hand.
      destruct (sjoint e =? sjoint d) eqn:J; [|auto]. assert (sjoint e = sjoint d) as -> by lia. now rewrite K4.
  - exists d. split; [now left|]. split.
    + unfold forward_for in E. destruct (mode (f (sjoint d)) =? smode d) eqn:M; [discriminate|]. lia.
    + cbn [snd]. rewrite (proj1 (stop_joints_spec _ f _ P)); [now apply halted_stopped|].
      destruct l0; [congruence|]. now left.
Qed.

Lemma do_starts_spec r starts : forall f, plain f -> apart r starts ->
  (forall c, In c starts -> registered r c <> None) ->
  forall f' failed, do_starts r starts f = (f', failed) ->
  keeps f f' /\
  (forall j, ~ touched r starts j -> f' j = f j) /\
  (forall c, In c failed -> In c starts /\ exists d, In d (container r c) /\ mode (f (sjoint d)) <> smode d /\ stopped (f' (sjoint d))) /\
  (forall c, In c starts -> (forall d, In d (container r c) -> mode (f (sjoint d)) = smode d) ->
     forall d, In d (container r c) -> f' (sjoint d) = with_fwd true (f (sjoint d))) /\
  (forall c, In c starts -> (forall d, In d (container r c) -> stopped (f (sjoint d))) ->
     forall d, In d (container r c) -> stopped (f' (sjoint d))).
Proof.
  induction starts as [|c t IH]; intros f P A R f' failed E; cbn [do_starts] in E.
  - assert (f' = f /\ failed = []) as (-> & ->) by (split; congruence).
    split; [apply keeps_refl|]. split; [auto|]. split; [intros c []|]. split; intros c [].
  - inversion A as [|? ? A1 A2]. subst. rewrite Forall_forall in A1.
    destruct (registered r c) as [l|] eqn:L; [|exfalso; apply (R c); [now left|exact L]].
    assert (CL : container r c = l) by (unfold container; now rewrite L).
    destruct (forward_all (List.length l) l f) as [ok f1] eqn:E1.
    destruct (do_starts r t f1) as [f2 failed2] eqn:E2.
    assert (f' = f2 /\ failed = if ok then failed2 else c :: failed2) as (-> & ->) by (split; congruence). clear E.
    assert (F1 : f1 = snd (forward_all (List.length l) l f)) by now rewrite E1.
    assert (K1 : keeps f f1) by (rewrite F1; apply forward_all_keeps).
    assert (P1 : plain f1) by (eapply keeps_plain; eauto).
    destruct (IH f1 P1 A2) with (f' := f2) (failed := failed2) as (B1 & B2 & B3 & B4 & B5);
      [intros c' I; apply R; now right|exact E2|].
    assert (NT : forall d, In d l -> ~ touched r t (sjoint d)).
    { intros d D (c' & I & J). apply (A1 c' I (sjoint d)); [rewrite CL; now apply in_map|exact J]. }
    assert (NC : forall c' d, In c' t -> In d (container r c') -> f1 (sjoint d) = f (sjoint d)).
    { intros c' d I D. rewrite F1. apply forward_all_other; [exact P|]. intros J.
      apply (A1 c' I (sjoint d)); [now rewrite CL|now apply in_map]. }
    split; [eapply keeps_trans; eauto|]. split; [|split; [|split]].
    + intros j N. rewrite B2.
      * rewrite F1. apply forward_all_other; [exact P|]. intros J. apply N. exists c. rewrite CL. split; [now left|exact J].
      * intros (c' & I & J). apply N. exists c'. split; [now right|exact J].
    + assert (Q : In c (if ok then [] else [c]) -> exists d, In d l /\ mode (f (sjoint d)) <> smode d /\ stopped (f2 (sjoint d))).
      { destruct ok; [intros []|]. intros _.
        destruct (forward_all_failed (List.length l) l f P) as (d & D1 & D2 & D3).
        - destruct l; [cbn in E1; congruence|discriminate].
        - now rewrite E1.
        - exists d. split; [exact D1|]. split; [exact D2|]. rewrite (B2 _ (NT d D1)), F1. exact D3. }
      intros c' H.
      assert (H' : In c' failed2 \/ (c' = c /\ ok = false)).
      { destruct ok; [now left|]. destruct H as [<-|H]; [right; auto|now left]. }
      destruct H' as [H'|(-> & ->)].
      * apply B3 in H'. destruct H' as (I & d & D1 & D2 & D3). split; [now right|]. exists d. split; [exact D1|].
        split; [|exact D3]. now rewrite <- (NC c' d I D1).
      * split; [now left|]. rewrite CL. apply Q. now left.
    + intros c' [<-|I] M d D.
      * rewrite CL in *. rewrite (B2 _ (NT d D)), F1. now apply forward_all_ok.
      * rewrite <- (NC c' d I D). apply (B4 c' I); [|exact D]. intros e He. rewrite (NC c' e I He). auto.
    + intros c' [<-|I] M d D.
      * rewrite CL in *. rewrite (B2 _ (NT d D)), F1. now apply forward_all_stopped.
      * apply (B5 c' I); [|exact D]. intros e He. rewrite (NC c' e I He). auto.
Qed.

(** * A whole switch *)
Lemma has_joint_iff x c j : has_joint x c j <-> In j (map sjoint (container (reg x) c)).
Proof.
  unfold has_joint, has_data, container. rewrite in_map_iff. split.
  - intros (d & (l & -> & I) & J). eauto.
  - intros (d & J & I). destruct (registered (reg x) c) as [l|]; [|destruct I]. exists d. split; [exists l; auto|exact J].
Qed.
Lemma has_data_iff x c d : has_data x c d <-> In d (container (reg x) c).
Proof.
  unfold has_data, container. split.
  - intros (l & -> & I). exact I.
  - intros I. destruct (registered (reg x) c) as [l|]; [|destruct I]. eauto.
Qed.
Lemma exclusive_apart x l : exclusive x l -> apart (reg x) l.
Proof.
  unfold exclusive, apart. intros H. induction H as [|c l H K IH]; constructor; [|exact IH].
  eapply Forall_impl; [|exact H]. intros c' Q j J J'. apply (Q j); now apply has_joint_iff.
Qed.

Definition stop_set (r : list (Z * list sdata)) (stops : list controller) : list Z :=
  fold_left (fun s c => stop_insert (map sjoint (container r (cname c))) s) stops [].
Lemma in_stop_set r stops j : In j (stop_set r stops) <-> exists c, In c stops /\ In j (map sjoint (container r (cname c))).
Proof.
  unfold stop_set.
  assert (G : forall s, In j (fold_left (fun s c => stop_insert (map sjoint (container r (cname c))) s) stops s) <->
     In j s \/ exists c, In c stops /\ In j (map sjoint (container r (cname c)))).
  { induction stops as [|c t IH]; intros s; cbn [fold_left].
    - split; [tauto|]. intros [H|(c & [] & _)]. exact H.
    - rewrite IH, in_stop_insert. split.
      + intros [[H|H]|(c' & I & J)]; [tauto|right; exists c; split; [now left|exact H]|right; exists c'; split; [now right|exact J]].
      + intros [H|(c' & [<-|I] & J)]; [tauto|tauto|right; eauto]. }
  rewrite G. cbn. tauto.
Qed.

Lemma prepare_accepted ps env order starts stops x y : prepare_switch ps env order starts stops x = (true, y) ->
  exists f ts failed,
    fst (check_starts ps starts x) = true /\ reg y = reg (snd (check_starts ps starts x)) /\
    perform env (reg y) (map cname starts) 0 (hands x) (stop_set (reg y) stops) = (f, ts, failed) /\
    hands y = stop_joints (order ts) f /\ stopping y = stopping x ++ failed /\ present y = present x.
Proof.
  unfold prepare_switch. destruct (forallb _ stops); [|discriminate].
  pose proof (check_starts_spec ps starts x) as (_ & H1 & H2 & H3).
  destruct (check_starts ps starts x) as [[] x1]; [|discriminate]. cbn [fst snd] in *.
  fold (stop_set (reg x1) stops). rewrite H1.
  destruct (perform env (reg x1) (map cname starts) 0 (hands x) (stop_set (reg x1) stops)) as [[f ts] failed] eqn:E.
  intros Y. assert (y = mkR (present x1) (stop_joints (order ts) f) (reg x1) (stopping x1 ++ failed)) by congruence. subst y.
  exists f, ts, failed. cbn. rewrite H2, H3. repeat split; exact E.
Qed.

Lemma reg_coherent_container r : reg_coherent r -> forall c, coherent (container r c).
Proof.
  intros H c. unfold container. destruct (registered r c) eqn:E; [eauto|]. intros d d' [].
Qed.

Definition rinv (x : robot) : Prop := plain (hands x) /\ reg_coherent (reg x).

Lemma perform_keeps env r starts : forall n f ts, keeps f (fst (fst (perform env r starts n f ts))).
Proof.
  assert (KE : forall all l n f ts, keeps f (snd (fst (enter_modes env all l n f ts)))).
  { intros all l. induction l as [|d l IH]; intros n f ts; cbn [enter_modes]; [apply keeps_refl|].
    destruct (fst (switch_mode _ _ _)).
    - eapply keeps_trans; [|apply IH]. apply keeps_set; cbn; [apply switch_mode_cmds|apply switch_mode_sup|apply switch_mode_lready].
    - cbn. apply keeps_set; cbn; [apply switch_mode_cmds|apply switch_mode_sup|apply switch_mode_lready]. }
  induction starts as [|c t IH]; intros n f ts; cbn [perform]; [apply keeps_refl|].
  pose proof (KE (container r c) (container r c) n (stop_joints (map sjoint (container r c)) f) ts) as K.
  destruct (enter_modes _ _ _ _ _ _) as [[[ok n1] f1] ts1]. cbn in K.
  specialize (IH n1 f1 ts1). destruct (perform env r t n1 f1 ts1) as [[f2 ts2] failed2]. cbn in *.
  eapply keeps_trans; [apply stop_joints_keeps|]. eapply keeps_trans; eauto.
Qed.

Lemma rinv_step x e : rinv x -> rinv (rstep x e).
Proof.
  intros (P & C). destruct e as [ps env order starts stops|starts|g]; cbn [rstep].
  - destruct (prepare_switch ps env order starts stops x) as [[] y] eqn:E; cbn [snd].
    + apply prepare_accepted in E. destruct E as (f & ts & failed & H1 & H2 & H3 & H4 & _). split.
      * rewrite H4. eapply keeps_plain; [apply stop_joints_keeps|]. eapply keeps_plain; [|exact P].
        pose proof (perform_keeps env (reg y) (map cname starts) 0 (hands x) (stop_set (reg y) stops)) as K. now rewrite H3 in K.
      * rewrite H2. now apply check_starts_coherent.
    + pose proof (rejected ps env order starts stops x) as R. rewrite E in R. destruct (R eq_refl) as (R1 & _). cbn in R1.
      split; [now rewrite R1|]. revert E. unfold prepare_switch. destruct (forallb _ stops); [|intros [= <-]; exact C].
      pose proof (check_starts_coherent ps starts x C) as K. destruct (check_starts ps starts x) as [[] x1].
      * destruct (perform _ _ _ _ _ _) as [[? ?] ?]. discriminate.
      * intros [= <-]. exact K.
  - unfold do_switch. destruct (do_starts (reg x) (map cname starts) (hands x)) as [f failed] eqn:E. split; cbn; [|exact C].
    eapply keeps_plain; [|exact P].
    assert (K : forall l f, keeps f (fst (do_starts (reg x) l f))).
    { clear. induction l as [|c l IH]; intros f; cbn [do_starts]; [apply keeps_refl|].
      destruct (registered (reg x) c) as [k|].
      - pose proof (forward_all_keeps (List.length k) k f) as K. destruct (forward_all _ _ _) as [ok f1]. cbn in K.
        specialize (IH f1). destruct (do_starts (reg x) l f1). cbn in *. eapply keeps_trans; eauto.
      - specialize (IH f). destruct (do_starts (reg x) l f). exact IH. }
    specialize (K (map cname starts) (hands x)). now rewrite E in K.
  - split; [|exact C]. intros j. cbn. exact (P j).
Qed.

Lemma reached_inv x : reached x -> rinv x.
Proof.
  intros (p & f & l & H & ->). induction l as [|e l IH] using rev_ind.
  - split; cbn.
    + intros j. destruct (H j) as (m & r & s & ->). apply wired_register, wired_new.
    + intros n k. discriminate.
  - unfold rrun. rewrite fold_left_app. now apply rinv_step.
Qed.

Lemma started_silent d h : wired h -> started d h -> silent h.
Proof.
  intros (W & _) ((M & C) & F & _). destruct (Z.eq_dec (smode d) 0) as [E|E]; [right|left; auto].
  rewrite E in C. congruence.
Qed.

Lemma prepared ps env order starts stops x y : reached x -> shuffles order ->
  prepare_switch ps env order starts stops x = (true, y) -> exclusive y (map cname starts) ->
  exists failed, stopping y = stopping x ++ failed /\
  (forall c, In c starts ->
     (In (cname c) failed /\ forall j, has_joint y (cname c) j -> stopped (hands y j)) \/
     (~ In (cname c) failed /\ forall d, has_data y (cname c) d -> started d (hands y (sjoint d)))) /\
  (forall c j, In c stops -> has_joint y (cname c) j -> (forall c', In c' starts -> ~ has_joint y (cname c') j) ->
     stopped (hands y j)) /\
  (forall j, (forall c, In c starts \/ In c stops -> ~ has_joint y (cname c) j) -> hands y j = hands x j).
Proof.
  intros R O E X. pose proof (reached_inv _ R) as (P & C).
  apply prepare_accepted in E. destruct E as (f & ts & failed & H1 & H2 & H3 & H4 & H5 & _).
  assert (RC : forall c, coherent (container (reg y) c)).
  { apply reg_coherent_container. rewrite H2. now apply check_starts_coherent. }
  destruct (perform_spec env (reg y) RC (map cname starts) 0 (hands x) (stop_set (reg y) stops) P (exclusive_apart _ _ X) _ _ _ H3)
    as (A & B & D & F).
  assert (PF : plain f) by (eapply keeps_plain; eauto).
  assert (S1 : forall j, In j ts -> stopped (hands y j)).
  { intros j J. rewrite H4. rewrite (proj1 (stop_joints_spec _ f j PF)) by (eapply Permutation_in; [apply O|exact J]).
    now apply halted_stopped. }
  assert (S2 : forall j, ~ In j ts -> hands y j = f j).
  { intros j J. rewrite H4. apply stop_joints_spec; [exact PF|]. intros K. apply J.
    eapply Permutation_in; [apply Permutation_sym, O|exact K]. }
  exists failed. split; [exact H5|]. split; [|split].
  - intros c I. destruct (F (cname c)) as [(G & K)|(G & K)]; [now apply in_map| |].
    + left. split; [exact G|]. intros j J. apply S1. apply has_joint_iff in J. apply in_map_iff in J.
      destruct J as (d & <- & J). auto.
    + right. split; [exact G|]. intros d J. apply has_data_iff in J. destruct (K d J) as (K1 & K2). now rewrite S2.
  - intros c j I J N. apply S1.
    destruct (B j) as (_ & B2).
    + intros (n & I' & J'). apply in_map_iff in I'. destruct I' as (c' & <- & I'). apply (N c' I'). now apply has_joint_iff.
    + apply B2. apply in_stop_set. exists c. split; [exact I|now apply has_joint_iff].
  - intros j N. destruct (B j) as (B1 & B2).
    + intros (n & I' & J'). apply in_map_iff in I'. destruct I' as (c' & <- & I'). apply (N c'); [now left|now apply has_joint_iff].
    + rewrite S2, B1; [reflexivity|]. intros K. apply B2 in K. apply in_stop_set in K.
      destruct K as (c & I & J). apply (N c); [now right|now apply has_joint_iff].
Qed.

Lemma switched ps env order starts stops x y : reached x -> shuffles order ->
  prepare_switch ps env order starts stops x = (true, y) -> exclusive y (map cname starts) ->
  exists failed failed', stopping y = stopping x ++ failed /\ stopping (do_switch starts y) = stopping y ++ failed' /\
  incl failed' failed /\
  (forall c, In c starts ->
     (In (cname c) failed /\ forall j, has_joint y (cname c) j -> stopped (hands (do_switch starts y) j)) \/
     (~ In (cname c) failed /\ forall d, has_data y (cname c) d ->
        runs (smode d) (hands (do_switch starts y) (sjoint d)) /\ fwd (hands (do_switch starts y) (sjoint d)) = true /\
        lim (hands (do_switch starts y) (sjoint d)) = slimits d)) /\
  (forall c j, In c stops -> has_joint y (cname c) j -> (forall c', In c' starts -> ~ has_joint y (cname c') j) ->
     stopped (hands (do_switch starts y) j)) /\
  (forall j, (forall c, In c starts \/ In c stops -> ~ has_joint y (cname c) j) -> hands (do_switch starts y) j = hands x j).
Proof.
  intros R O E X. destruct (prepared _ _ _ _ _ _ _ R O E X) as (failed & H1 & H2 & H3 & H4).
  assert (RY : rinv y).
  { replace y with (rstep x (RPrepare ps env order starts stops)) by (cbn; now rewrite E).
    apply rinv_step, reached_inv, R. }
  destruct RY as (P & C).
  assert (KN : forall c, In c (map cname starts) -> registered (reg y) c <> None).
  { intros n I. apply in_map_iff in I. destruct I as (c & <- & I).
    apply prepare_accepted in E. destruct E as (f & ts & fl & E1 & E2 & _). rewrite E2.
    destruct (check_starts_known ps starts x c I E1) as (l & ->). discriminate. }
  unfold do_switch. destruct (do_starts (reg y) (map cname starts) (hands y)) as [f' failed'] eqn:E'.
  destruct (do_starts_spec (reg y) (map cname starts) (hands y) P (exclusive_apart _ _ X) KN _ _ E') as (A & B & D & F & G).
  exists failed, failed'. cbn [hands stopping]. split; [exact H1|]. split; [reflexivity|].
  assert (NT : forall j, (forall c', In c' starts -> ~ has_joint y (cname c') j) -> f' j = hands y j).
  { intros j N. apply B. intros (n & I' & J'). apply in_map_iff in I'. destruct I' as (c' & <- & I').
    apply (N c' I'). now apply has_joint_iff. }
  split; [|split; [|split]].
  - intros n I. apply D in I. destruct I as (I & d & D1 & D2 & _). apply in_map_iff in I. destruct I as (c & <- & I).
    destruct (H2 c I) as [(K & _)|(_ & K)]; [exact K|]. exfalso. apply D2.
    apply (K d). now apply has_data_iff.
  - intros c I. destruct (H2 c I) as [(K1 & K2)|(K1 & K2)].
    + left. split; [exact K1|]. intros j J. apply has_joint_iff in J. apply in_map_iff in J. destruct J as (d & <- & J).
      apply (G (cname c)); [now apply in_map| |exact J].
      intros e He. apply K2. apply has_joint_iff. now apply in_map.
    + right. split; [exact K1|]. intros d J. pose proof (K2 d J) as ((M & CM) & _ & L).
      assert (Q : f' (sjoint d) = with_fwd true (hands y (sjoint d))).
      { apply (F (cname c)); [now apply in_map| |now apply has_data_iff].
        intros e He. apply (K2 e). now apply has_data_iff. }
      rewrite Q. cbn. split; [split; cbn; assumption|]. auto.
  - intros c j I J N. rewrite (NT j N). now apply (H3 c).
  - intros j N. rewrite NT; [now apply H4|]. intros c I. apply N. now left.
Qed.
