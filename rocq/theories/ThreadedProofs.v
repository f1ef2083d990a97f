(** The threaded driver: invariants over all interleavings. *)
From Verif Require Import Base SocketCanModel LifeModel LifeSpec LifeProofs ThreadedModel ThreadedSpec.

Lemma tcore_step : forall s e, calm e -> core_of (tstep s e) = core_of (tstep (of_core (core_of s)) e).
Proof.
  intros [d k p r w o l er wa re] e He. destruct e as [o'|ok| | | | |n]; cbn in He; try contradiction; cbn.
  - destruct o', l; reflexivity.
  - destruct l; cbn; try reflexivity; unfold tlayer_step; cbn; try reflexivity.
    + destruct r; try reflexivity. destruct d; cbn; try reflexivity; destruct ok; reflexivity.
    + destruct w as [[]|]; reflexivity.
    + destruct r; try reflexivity.
  - destruct l; try reflexivity; destruct w as [[]|]; reflexivity.
  - unfold driver_step; cbn. destruct r; cbn; try reflexivity; try (destruct b, d; reflexivity);
      try (destruct d; reflexivity). destruct p; reflexivity.
  - destruct d, k; reflexivity.
Qed.
Definition tpreserved (inv : core -> bool) (es : list event) : bool :=
  all (fun c => implb (inv c) (forallb (fun e => inv (core_of (tstep (of_core c) e))) es)).
Lemma tpreserved_run : forall inv es l s, tpreserved inv es = true -> Forall calm l -> Forall (fun e => In e es) l ->
  inv (core_of s) = true -> inv (core_of (trun l s)) = true.
Proof.
  intros inv es l s H Hc Hl. revert s. induction l as [|e l IH]; intros s Hs; [exact Hs|].
  inversion Hc; subst. inversion Hl; subst. cbn. apply IH; auto.
  rewrite tcore_step by assumption.
  pose proof (all_spec _ H (core_of s)) as K. cbn in K. rewrite Hs in K. cbn in K.
  rewrite forallb_forall in K. apply K. assumption.
Qed.

(** ** Invariant of all reachable states *)
Definition tclosing (l : lpc) : bool := match l with SStop _ | SJoin _ => true | _ => false end.
Definition tplace (l : lpc) : bool :=
  match l with Idle | IThread | ICopy | IListen _ | ISpawn | IWait | IFinal | SClose false | SStop false | SJoin false => true | _ => false end.
Definition tinv (c : core) : bool :=
  let '(d, k, p, r, w, l) := c in
  tplace l &&
  match r with
  | RNone => if starting l then drv_eqb d Open && k else drv_eqb d Closed && negb k
  | _ => Bool.eqb k (negb (tclosing l)) && negb (starting l)
  end
  && match l with IWait => negb (match r with RNone => true | _ => false end) | _ => true end
  && match r with
     | RNone => true
     | REval | RCheck | RReset => negb (drv_eqb d Ready) && implb k (drv_eqb d Open)
     | RSet b => implb k b && negb (drv_eqb d Ready) && implb k (drv_eqb d Open)
     | RReady => negb (drv_eqb d Ready) && implb k (drv_eqb d Open) && implb p (negb k)
     | RServe => implb p (negb k) && implb k (negb (drv_eqb d Closed))
     | REval2 => negb k
     | RSet2 b => negb k && negb b
     | RCopy => negb k && drv_eqb d Closed
     | RTell x => negb k && drv_eqb d Closed && drv_eqb x Closed
     | REnd => negb k && drv_eqb d Closed
     end
  && match l with
     | IListen x => drv_eqb x d
     | ISpawn | IWait => match w with Some x => drv_eqb x d | None => false end
     | _ => true
     end.
Lemma tinv_preserved : tpreserved tinv layer_events = true.
Proof. vm_compute. reflexivity. Qed.
Lemma tinv_reachable : forall s, treachable s -> tinv (core_of s) = true.
Proof.
  intros s (l & Hl & ->). apply (tpreserved_run tinv layer_events l sys0 tinv_preserved Hl).
  - eapply Forall_impl; [|exact Hl]. exact calm_listed.
  - reflexivity.
Qed.
Lemma trun_app : forall a b s, trun (a ++ b) s = trun b (trun a s).
Proof. intros. apply fold_left_app. Qed.
Lemma treachable_run : forall s l, treachable s -> Forall calm l -> treachable (trun l s).
Proof. intros s l (l0 & H0 & ->) Hl. exists (l0 ++ l). split; [apply Forall_app; auto|]. symmetry. apply trun_app. Qed.
Lemma tfact : forall (f : core -> bool), all (fun c => implb (tinv c) (f c)) = true -> forall s, treachable s -> f (core_of s) = true.
Proof. intros f H s Hs. pose proof (all_spec _ H (core_of s)) as K. cbn beta in K. rewrite (tinv_reachable s Hs) in K. exact K. Qed.

(** ** Which call is running *)
Definition tserving (o : op) (l : lpc) : bool :=
  match l with
  | Idle => true
  | IThread | ICopy | IListen _ | ISpawn | IWait | IFinal => match o with OInit => true | _ => false end
  | SClose _ | SStop _ | SJoin _ => match o with OShutdown => true | _ => false end
  | _ => false
  end.
Lemma tserving_preserved : forall o, tpreserved (fun c => let '(_, _, _, _, _, l) := c in tserving o l) own_events = true.
Proof. intros []; vm_compute; reflexivity. Qed.
Lemma tserving_run : forall o l s0, o <> ORecover -> Forall calm l -> Forall no_call l -> lp s0 = Idle -> tserving o (lp (trun (Call o :: l) s0)) = true.
Proof.
  intros o l s0 O H1 H2 H. cbn [trun fold_left].
  pose proof (tpreserved_run _ _ l (tstep s0 (Call o)) (tserving_preserved o) H1 (own_all l H1 H2)) as K.
  unfold core_of in K. cbn beta iota in K. apply K. destruct o; [| |congruence]; cbn; rewrite H; reflexivity.
Qed.

(** ** Which steps return, and what *)
Lemma returning : forall s e r, calm e -> no_call e -> res s = None -> res (tstep s e) = Some (r, false) ->
  (lp s = IWait /\ e <> Driver /\ e <> NotReady /\ r = match copy s with Some Ready => true | _ => false end /\ core_of (tstep s e) = (ds s, sk s, stopped s, rt s, None, Idle)) \/
  (lp s = IFinal /\ r = drv_eqb (ds s) Ready /\ core_of (tstep s e) = (ds s, sk s, stopped s, rt s, None, Idle)) \/
  (exists a, lp s = SJoin a /\ (rt s = RNone \/ rt s = REnd) /\ core_of (tstep s e) = (ds s, sk s, stopped s, RNone, None, Idle)).
Proof.
  intros [d k p rt w o l er wa re] e r Hc Hn Hr H. cbn in Hr. subst re.
  destruct e as [o'|ok| | | | |n]; cbn in Hc, Hn; try contradiction; cbn [tstep] in *.
  - unfold tlayer_step in *. cbn [lp] in *. destruct l; cbn in H; try discriminate.
    + destruct rt; cbn in H; try discriminate. destruct d; cbn in H; try discriminate. destruct ok; cbn in H; discriminate.
    + left. cbn. destruct w as [[]|]; cbn in H; try discriminate. injection H as <-. repeat split; discriminate.
    + right. left. injection H as <-. auto.
    + right. right. exists again. cbn [LifeModel.rt]. destruct rt; cbn in H; try discriminate; auto.
  - unfold tdeadline in *. cbn [lp] in *. destruct l; cbn in H; try discriminate.
    left. cbn. destruct w as [[]|]; cbn in H; injection H as <-; repeat split; discriminate.
  - exfalso. unfold driver_step in H. cbn in H. destruct rt; cbn in H; try discriminate; try (unfold set_ds in H; cbn in H; destruct (drv_eqb d _); discriminate). destruct p; discriminate.
  - exfalso. unfold set_ds in H. cbn in H. destruct (drv_eqb d _); discriminate.
Qed.

(** ** Start *)
Lemma tstarted_fact : all (fun c => implb (tinv c) (let '(d, k, p, r, w, l) := c in
  implb (drv_eqb d Ready && match l with IFinal => true | _ => false end || match l, w with IWait, Some Ready => true | _, _ => false end) (drv_eqb d Ready && working_core c))) = true.
Proof. vm_compute. reflexivity. Qed.
Lemma working_ext : forall s s', ds s' = ds s -> sk s' = sk s -> stopped s' = stopped s -> rt s' = rt s -> working s -> working s'.
Proof. intros s s' _ A B C (D & E & F). unfold working. rewrite A, B, C. auto. Qed.
Lemma tstarted : forall s0 s, treachable s0 -> treturns OInit s0 s true -> ds s = Ready /\ working s.
Proof.
  intros s0 s H0 (l & e & H1 & H2 & C & N & Hi & Hn & -> & Hr). set (s1 := trun (Call OInit :: l) s0) in *.
  assert (R : treachable s1) by (apply treachable_run; [assumption|constructor; [exact Logic.I|assumption]]).
  pose proof (tserving_run OInit l s0 ltac:(discriminate) H1 H2 Hi) as Hs. fold s1 in Hs. pose proof (tfact _ tstarted_fact s1 R) as K. unfold core_of at 1 in K. clearbody s1.
  destruct (returning s1 e true C N Hn Hr) as [(L & _ & _ & E & EC)|[(L & E & EC)|(a & L & _ & _)]].
  - rewrite L in K. destruct (copy s1) as [[]|]; try discriminate. rewrite orb_true_r in K. cbn [implb] in K. apply andb_true_iff in K as [K1 K2].
    unfold core_of in EC. injection EC as E1 E2 E3 E4 _ _. split; [rewrite E1; destruct (ds s1); try discriminate; reflexivity|].
    apply (working_ext s1); auto. apply working_core_spec. unfold core_of. rewrite L. exact K2.
  - rewrite L, <- E in K. cbn [implb andb orb] in K. unfold core_of in EC. injection EC as E1 E2 E3 E4 _ _. split; [rewrite E1; destruct (ds s1); try discriminate; reflexivity|].
    apply (working_ext s1); auto. apply working_core_spec. unfold core_of. rewrite L. exact K.
  - rewrite L in Hs. discriminate.
Qed.
Lemma twait_fact : all (fun c => implb (tinv c) (let '(d, k, p, r, w, l) := c in match l with IWait => match w with Some x => drv_eqb x d | None => false end | _ => true end)) = true.
Proof. vm_compute. reflexivity. Qed.
Lemma tfailed : forall s0 s, treachable s0 -> treturns OInit s0 s false -> ds s <> Ready.
Proof.
  intros s0 s H0 (l & e & H1 & H2 & C & N & Hi & Hn & -> & Hr). set (s1 := trun (Call OInit :: l) s0) in *.
  assert (R : treachable s1) by (apply treachable_run; [assumption|constructor; [exact Logic.I|assumption]]).
  pose proof (tserving_run OInit l s0 ltac:(discriminate) H1 H2 Hi) as Hs. fold s1 in Hs. pose proof (tfact _ twait_fact s1 R) as K. unfold core_of at 1 in K. clearbody s1.
  destruct (returning s1 e false C N Hn Hr) as [(L & _ & _ & E & EC)|[(L & E & EC)|(a & L & _ & _)]].
  - rewrite L in K. unfold core_of in EC. injection EC as E1 _ _ _ _ _. rewrite E1. destruct (copy s1) as [[]|]; try discriminate; destruct (ds s1); discriminate.
  - unfold core_of in EC. injection EC as E1 _ _ _ _ _. rewrite E1. destruct (ds s1); discriminate.
  - rewrite L in Hs. discriminate.
Qed.
Lemma tspawn_fact : all (fun c => implb (tinv c) (let '(d, k, p, r, w, l) := c in match l with ISpawn => match r with RNone => true | _ => false end | _ => true end)) = true.
Proof. vm_compute. reflexivity. Qed.
Lemma tone_thread : forall s, treachable s -> lp s = ISpawn -> rt s = RNone.
Proof. intros s R L. pose proof (tfact _ tspawn_fact s R) as K. unfold core_of in K. rewrite L in K. destruct (rt s); try discriminate; reflexivity. Qed.
Lemma tkeeps_fact : tpreserved (fun c => working_core c && let '(_, _, _, _, _, l) := c in match l with Idle | IThread | IFinal => true | _ => false end) [Call OInit; Call ORecover; Layer true; Layer false; Deadline; Driver; NotReady] = true.
Proof. vm_compute. reflexivity. Qed.
Definition no_shutdown (e : event) : Prop := match e with Call OShutdown => False | _ => True end.
Lemma tkeeps : forall s l, working s -> lp s = Idle -> Forall calm l -> Forall no_shutdown l -> working (trun l s).
Proof.
  intros s l Hw Hi H1 H2.
  assert (H3 : Forall (fun e => In e [Call OInit; Call ORecover; Layer true; Layer false; Deadline; Driver; NotReady]) l).
  { clear Hw Hi. induction l as [|e l IH]; [constructor|]. inversion H1; inversion H2; subst. constructor; auto. destruct e as [[]|[]| | | | |n]; cbn in *; auto 12; contradiction. }
  pose proof (tpreserved_run _ _ l s tkeeps_fact H1 H3) as K. cbn beta in K. apply working_core_spec. apply andb_true_iff in K as [K _]; [exact K|].
  rewrite (proj2 (working_core_spec s) Hw). unfold core_of. rewrite Hi. reflexivity.
Qed.

(** ** An error of the bus: not ready until a shutdown *)
Lemma tdead_fact : tpreserved (fun c => working_core c && let '(d, _, _, _, _, l) := c in drv_eqb d Open && match l with Idle | IThread | IFinal => true | _ => false end) [Call OInit; Call ORecover; Layer true; Layer false; Deadline; Driver; NotReady] = true.
Proof. vm_compute. reflexivity. Qed.
Lemma tdead : forall s l, working s -> ds s = Open -> lp s = Idle -> Forall calm l -> Forall no_shutdown l -> ds (trun l s) = Open.
Proof.
  intros s l Hw Hd Hi H1 H2.
  assert (H3 : Forall (fun e => In e [Call OInit; Call ORecover; Layer true; Layer false; Deadline; Driver; NotReady]) l).
  { clear Hw Hi. induction l as [|e l IH]; [constructor|]. inversion H1; inversion H2; subst. constructor; auto. destruct e as [[]|[]| | | | |n]; cbn in *; auto 12; contradiction. }
  pose proof (tpreserved_run _ _ l s tdead_fact H1 H3) as K. cbn beta in K. rewrite (proj2 (working_core_spec s) Hw) in K. unfold core_of at 1 in K. rewrite Hi, Hd in K. specialize (K eq_refl).
  apply andb_true_iff in K as [_ K]. unfold core_of in K. apply andb_true_iff in K as [K _]. destruct (ds (trun l s)); try discriminate; reflexivity.
Qed.

(** ** Stop *)
Lemma tstopped_fact : all (fun c => implb (tinv c) (let '(d, k, p, r, w, l) := c in
  implb (match l, r with SJoin _, (RNone | REnd) => true | _, _ => false end) (drv_eqb d Closed && negb k))) = true.
Proof. vm_compute. reflexivity. Qed.
Lemma tstopped_off : forall s0 s r, treachable s0 -> treturns OShutdown s0 s r -> off s.
Proof.
  intros s0 s r H0 (l & e & H1 & H2 & C & N & Hi & Hn & -> & Hr). set (s1 := trun (Call OShutdown :: l) s0) in *.
  assert (R : treachable s1) by (apply treachable_run; [assumption|constructor; [exact Logic.I|assumption]]).
  pose proof (tserving_run OShutdown l s0 ltac:(discriminate) H1 H2 Hi) as Hs. fold s1 in Hs. pose proof (tfact _ tstopped_fact s1 R) as K. unfold core_of in K. clearbody s1.
  destruct (returning s1 e r C N Hn Hr) as [(L & _)|[(L & _)|(a & L & RT & EC)]]; try (rewrite L in Hs; discriminate).
  rewrite L in K. assert (K' : drv_eqb (ds s1) Closed && negb (sk s1) = true) by (destruct RT as [RT|RT]; rewrite RT in K; exact K). apply andb_true_iff in K' as [K1 K2].
  unfold core_of in EC. injection EC as E1 E2 _ E4 _ _. unfold off. rewrite E1, E2, E4. destruct (ds s1); try discriminate. destruct (sk s1); try discriminate. auto.
Qed.

(** ** Ends: a shutdown of a driver that works or is off, in fair schedules *)
Definition tlrank (l : lpc) : nat := match l with SClose _ => 3 | SStop _ => 2 | SJoin _ => 1 | _ => 0 end.
Definition trank (c : core) : nat := let '(_, _, _, r, _, l) := c in (tlrank l + rrank r)%nat.
Definition tending (c : core) : bool :=
  tinv c && let '(d, k, p, r, w, l) := c in
  tserving OShutdown l && match r with REval | RSet _ | RCheck | RReset | RReady => false | _ => true end
  && match l with SJoin _ => p | _ => true end.
Definition tnext (e : event) (c : core) : core := core_of (tstep (of_core c) e).
Definition thelps (e : event) (c : core) : bool := (trank (tnext e c) <? trank c)%nat.
Lemma tending_preserved : tpreserved tending own_events = true.
Proof. vm_compute. reflexivity. Qed.
Lemma tfinished_preserved : tpreserved finished own_events = true.
Proof. vm_compute. reflexivity. Qed.
Lemma tprogress_fact : all (fun c => implb (tending c && negb (finished c)) (
  (thelps Driver c || thelps (Layer true) c && thelps (Layer false) c) &&
  forallb (fun e => (trank (tnext e c) <=? trank c)%nat &&
                    (thelps e c || finished (tnext e c) || implb (thelps Driver c) (thelps Driver (tnext e c)) &&
                     implb (thelps (Layer true) c && thelps (Layer false) c)
                           (thelps (Layer true) (tnext e c) && thelps (Layer false) (tnext e c)))) own_events)) = true.
Proof. vm_compute. reflexivity. Qed.
Lemma tnext_core : forall e s, calm e -> core_of (tstep s e) = tnext e (core_of s).
Proof. intros e s He. apply tcore_step. exact He. Qed.
Definition thelps_layer (c : core) : bool := thelps (Layer true) c && thelps (Layer false) c.
Lemma tprogress : forall s, tending (core_of s) = true -> finished (core_of s) = false ->
  (thelps Driver (core_of s) = true \/ thelps_layer (core_of s) = true) /\
  forall e, calm e -> no_call e ->
    (trank (core_of (tstep s e)) <= trank (core_of s))%nat /\
    ((trank (core_of (tstep s e)) < trank (core_of s))%nat \/ finished (core_of (tstep s e)) = true \/
     thelps e (core_of s) = false /\
     (thelps Driver (core_of s) = true -> thelps Driver (core_of (tstep s e)) = true) /\
     (thelps_layer (core_of s) = true -> thelps_layer (core_of (tstep s e)) = true)).
Proof.
  intros s He Hf. pose proof (all_spec _ tprogress_fact (core_of s)) as K. cbn beta in K. rewrite He, Hf in K. cbn [negb andb implb] in K.
  apply andb_true_iff in K as [K1 K2]. split; [apply orb_true_iff in K1; exact K1|].
  intros e Hc Hn. rewrite forallb_forall in K2. specialize (K2 e (own_listed e Hc Hn)). rewrite tnext_core by exact Hc.
  apply andb_true_iff in K2 as [K2 K3]. apply Nat.leb_le in K2. split; [exact K2|].
  unfold thelps_layer. destruct (thelps e (core_of s)) eqn:Eh.
  - left. unfold thelps in Eh. apply Nat.ltb_lt in Eh. exact Eh.
  - right. destruct (finished (tnext e (core_of s))); [left; reflexivity|right]. cbn [orb] in K3.
    apply andb_true_iff in K3 as [K3 K4]. split; [reflexivity|split]; intros H; [rewrite H in K3; exact K3|rewrite H in K4; exact K4].
Qed.
Lemma tfinished_run : forall l s, Forall calm l -> Forall no_call l -> finished (core_of s) = true -> finished (core_of (trun l s)) = true.
Proof. intros l s H1 H2. exact (tpreserved_run _ _ l s tfinished_preserved H1 (own_all l H1 H2)). Qed.
Lemma tround : forall l s, Forall calm l -> Forall no_call l -> tending (core_of s) = true ->
  finished (core_of (trun l s)) = true \/ (trank (core_of (trun l s)) < trank (core_of s))%nat \/
  (trank (core_of (trun l s)) <= trank (core_of s))%nat /\ (thelps Driver (core_of s) = true -> ~ In Driver l) /\
  (thelps_layer (core_of s) = true -> forall ok, ~ In (Layer ok) l).
Proof.
  induction l as [|e l IH]; intros s H1 H2 He.
  - right. right. cbn. auto with arith.
  - inversion H1; inversion H2; subst. cbn [trun fold_left]. fold (trun l (tstep s e)).
    destruct (finished (core_of s)) eqn:Ef; [left; apply (tfinished_run (e :: l) s H1 H2 Ef)|].
    destruct (tprogress s He Ef) as [_ P]. destruct (P e) as [P1 P2]; auto.
    assert (He' : tending (core_of (tstep s e)) = true).
    { apply (tpreserved_run _ _ [e] s tending_preserved); auto. constructor; [apply own_listed; auto|constructor]. }
    specialize (IH (tstep s e) H4 H8 He').
    destruct IH as [IH|[IH|(I1 & I2 & I3)]]; [left; exact IH|right; left; lia|].
    destruct P2 as [P2|[P2|(P2 & P3 & P4)]]; [right; left; lia|left; apply tfinished_run; auto|].
    right. right. split; [lia|]. split.
    + intros Hd [E|E]; [subst e; congruence|]. exact (I2 (P3 Hd) E).
    + intros Hl ok [E|E]; [|exact (I3 (P4 Hl) ok E)]. subst e. unfold thelps_layer in Hl. apply andb_true_iff in Hl as [A B]. destruct ok; congruence.
Qed.
Lemma tfair_round : forall l s, Forall calm l -> Forall no_call l -> fair l -> tending (core_of s) = true ->
  finished (core_of (trun l s)) = true \/ (trank (core_of (trun l s)) < trank (core_of s))%nat.
Proof.
  intros l s H1 H2 [F1 [ok F2]] He. destruct (finished (core_of s)) eqn:Ef; [left; apply tfinished_run; auto|].
  destruct (tround l s H1 H2 He) as [R|[R|(_ & R1 & R2)]]; auto.
  destruct (tprogress s He Ef) as [[P|P] _]; [destruct (R1 P F1)|destruct (R2 P ok F2)].
Qed.
Lemma trounds_end : forall rs s, Forall fair rs -> Forall calm (List.concat rs) -> Forall no_call (List.concat rs) ->
  tending (core_of s) = true -> (trank (core_of s) <= List.length rs)%nat -> (0 < List.length rs)%nat ->
  finished (core_of (trun (List.concat rs) s)) = true.
Proof.
  induction rs as [|r rs IH]; intros s Hf H1 H2 He Hr Hp; [cbn in Hp; lia|].
  cbn [List.concat] in *. apply Forall_app in H1 as [H1 H1']. apply Forall_app in H2 as [H2 H2']. inversion Hf; subst.
  rewrite trun_app.
  assert (He' : tending (core_of (trun r s)) = true) by (apply (tpreserved_run _ _ r s tending_preserved); auto using own_all).
  destruct (tfair_round r s H1 H2 H3 He) as [R|R]; [apply tfinished_run; auto|].
  cbn [List.length] in Hr. destruct rs as [|r' rs].
  - assert (E : trank (core_of (trun r s)) = 0%nat) by (cbn [List.length] in Hr; lia). cbn [List.concat trun fold_left]. fold (trun r s).
    destruct (finished (core_of (trun r s))) eqn:Ef; [reflexivity|].
    exfalso. revert E Ef He'. generalize (trun r s). intros x E Ef He'.
    destruct (tprogress x He' Ef) as [[P|P] _]; unfold thelps_layer, thelps in P; rewrite E in P; discriminate P.
  - apply IH; auto; cbn [List.length] in *; lia.
Qed.
Lemma tending_start : all (fun c => implb (tinv c && finished c && let '(d, k, p, r, w, l) := c in match r with RNone | RServe => true | _ => false end)
  (tending (tnext (Call OShutdown) c) && (trank (tnext (Call OShutdown) c) <=? 9)%nat)) = true.
Proof. vm_compute. reflexivity. Qed.
Lemma tshutdown_ends : forall s0 rs, treachable s0 -> lp s0 = Idle -> working s0 \/ off s0 ->
  Forall fair rs -> Forall calm (List.concat rs) -> Forall no_call (List.concat rs) -> (9 <= List.length rs)%nat ->
  lp (trun (Call OShutdown :: List.concat rs) s0) = Idle.
Proof.
  intros s0 rs R Hi Hw Hf H1 H2 Hn. pose proof (all_spec _ tending_start (core_of s0)) as K. cbn beta in K. rewrite (tinv_reachable s0 R) in K.
  unfold finished, core_of at 1 2 in K. rewrite Hi in K.
  assert (Hr : match rt s0 with RNone | RServe => true | _ => false end = true) by (destruct Hw as [(_ & -> & _)|(_ & _ & ->)]; reflexivity).
  rewrite Hr in K. cbn [andb implb] in K. apply andb_true_iff in K as [K1 K2]. apply Nat.leb_le in K2. rewrite <- tnext_core in K1, K2 by exact Logic.I.
  assert (F : finished (core_of (trun (List.concat rs) (tstep s0 (Call OShutdown)))) = true) by (apply trounds_end; auto; lia).
  change (trun (Call OShutdown :: List.concat rs) s0) with (trun (List.concat rs) (tstep s0 (Call OShutdown))).
  unfold finished, core_of in F. destruct (lp (trun (List.concat rs) (tstep s0 (Call OShutdown)))); congruence || reflexivity.
Qed.

(** ** The two races *)
Definition trace_stuck : list event :=
  [Call OInit; Layer true; Layer true; Layer true; Layer true; Driver; Driver; Driver; Deadline; Call OShutdown; Layer true; Layer true; Driver; Driver].
Lemma tstuck : forall l, let s := trun l (trun trace_stuck sys0) in lp s = SJoin false /\ rt s = RServe /\ res s = None.
Proof.
  assert (G : forall l s, lp s = SJoin false -> rt s = RServe -> stopped s = false -> res s = None ->
    lp (trun l s) = SJoin false /\ rt (trun l s) = RServe /\ res (trun l s) = None).
  { induction l as [|e l IH]; intros [d k p r w o lq er wa re] A B C D; cbn in A, B, C, D; subst; [cbn; auto|].
    cbn [trun fold_left]. apply IH; destruct e as [[]|ok| | | | |n]; cbn; unfold set_ds; cbn; auto;
      try (destruct (drv_eqb d _); auto); destruct (nth_error o n); cbn; auto; destruct (drv_eqb d _); auto. }
  intros l. apply G; vm_compute; reflexivity.
Qed.
Definition trace_open : list event :=
  [Call OInit; Layer true; Layer true; Layer true; Layer true; Driver; Driver; Driver; Driver; Driver; Layer true;
   Look; Call OShutdown; Layer true; Layer true; Driver; Driver; Driver; Driver; Driver; Layer true; Act 0].
Lemma tleft_open : forall l, Forall alone l -> let s := trun l (trun trace_open sys0) in ds s = Open /\ sk s = false /\ rt s = RNone.
Proof.
  set (p := fun c : core => let '(d, k, _, r, w, l) := c in
    drv_eqb d Open && negb k && match r with RNone => true | _ => false end &&
    match l with ICopy | IListen _ | ISpawn | IWait => false | _ => true end).
  assert (P : tpreserved p [Call OInit; Call OShutdown; Call ORecover; Layer true; Layer false; Deadline; Driver] = true) by (vm_compute; reflexivity).
  intros l Hl.
  assert (K : p (core_of (trun l (trun trace_open sys0))) = true).
  { apply (tpreserved_run p _ l _ P).
    - eapply Forall_impl; [|exact Hl]. intros []; cbn; tauto.
    - eapply Forall_impl; [|exact Hl]. intros [[]|[]| | | | |n]; cbn; intros H; auto 12; contradiction.
    - vm_compute. reflexivity. }
  generalize dependent (trun l (trun trace_open sys0)). intros s K. unfold p, core_of in K.
  apply andb_true_iff in K as [K _]. apply andb_true_iff in K as [K K3]. apply andb_true_iff in K as [K1 K2].
  split; [destruct (ds s); cbn in K1; congruence|]. split; [destruct (sk s); cbn in K2; congruence|]. destruct (rt s); congruence.
Qed.

(** init ends *)
Definition to_wait (l : lpc) : option nat :=
  match l with IThread => Some 4 | ICopy => Some 3 | IListen _ => Some 2 | ISpawn => Some 1 | IWait | Idle => Some 0 | IFinal => Some 1 | _ => None end%nat.
Lemma tinit_step s e n : no_call e -> to_wait (lp s) = Some n ->
  exists m, to_wait (lp (tstep s e)) = Some m /\ (m <= n - match e with Layer _ => 1 | _ => 0 end)%nat.
Proof.
  intros N H. destruct s as [d0 k0 st0 r0 c0 o0 p0 e0 w0 re0]; destruct e as [[]|ok| | | | |i]; cbn in N; try contradiction; cbn in H.
  - cbn. unfold tlayer_step. cbn [lp rt copy]. destruct p0; cbn in H; try discriminate; injection H as <-;
      repeat match goal with
             | |- context [match r0 with _ => _ end] => destruct r0
             | |- context [driver_init _ _] => unfold driver_init; cbn [ds]; destruct d0; [destruct ok| |]; cbn
             | |- context [match c0 with _ => _ end] => destruct c0 as [[]|]
             end; cbn; eexists; (split; [reflexivity|lia]).
  - unfold tstep, tdeadline. cbn [lp copy]. destruct p0; cbn in H |- *; try discriminate; injection H as <-;
      try (destruct c0 as [[]|]); cbn; eexists; (split; [reflexivity|lia]).
  - exists n. split; [|lia]. unfold tstep, driver_step. cbn [rt].
    unfold set_ds. destruct r0; cbn; repeat match goal with |- context [if ?x then _ else _] => destruct x; cbn | |- context [match ?x with Some _ => _ | None => _ end] => destruct x; cbn end; exact H.
  - exists n. split; [|lia]. cbn [tstep]. unfold set_ds. cbn. destruct (drv_eqb d0 (not_ready k0)); exact H.
  - exists n. cbn. split; [exact H|lia].
  - exists n. unfold tstep. cbn [others]. destruct (nth_error o0 i); unfold set_ds; cbn; repeat match goal with |- context [if ?x then _ else _] => destruct x; cbn | |- context [match ?x with Some _ => _ | None => _ end] => destruct x; cbn end; (split; [exact H|lia]).
Qed.
Lemma tinit_run l : Forall no_call l -> forall s n, to_wait (lp s) = Some n ->
  exists m, to_wait (lp (trun l s)) = Some m /\ (m <= n - List.length (List.filter (fun e => match e with Layer _ => true | _ => false end) l))%nat.
Proof.
  induction 1 as [|e l N _ IH]; intros s n H; [exists n; split; [exact H|cbn; lia]|].
  destruct (tinit_step s e n N H) as (m & M1 & M2). destruct (IH (tstep s e) m M1) as (k & K1 & K2).
  exists k. split; [exact K1|]. destruct e; cbn [List.filter List.length] in *; lia.
Qed.
Lemma tinit_ends s0 l : lp s0 = Idle -> Forall no_call l ->
  (5 <= List.length (List.filter (fun e => match e with Layer _ => true | _ => false end) l))%nat ->
  lp (trun (Call OInit :: l ++ [Deadline]) s0) = Idle.
Proof.
  intros H N L. change (Call OInit :: l ++ [Deadline]) with ([Call OInit] ++ l ++ [Deadline]). rewrite !trun_app.
  assert (T : to_wait (lp (trun [Call OInit] s0)) = Some 4%nat) by (cbn; rewrite H; reflexivity).
  destruct (tinit_run l N _ _ T) as (m & M1 & M2). assert (m = 0%nat) by lia. subst m.
  set (s := trun l (trun [Call OInit] s0)) in *. cbn. unfold tdeadline.
  destruct (lp s) eqn:E; cbn in M1; try discriminate; [exact E|].
  destruct (copy s) as [[]|]; reflexivity.
Qed.
