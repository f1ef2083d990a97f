(** The CAN layer and its driver: invariants over all interleavings. *)
From Verif Require Import Base SocketCanModel LifeModel LifeSpec.

(** ** Finite part of the state *)
Definition core := (drv * bool * bool * rpc * option drv * lpc)%type.
Definition core_of (s : sys) : core := (ds s, sk s, stopped s, rt s, copy s, lp s).
Definition of_core (c : core) : sys :=
  let '(d, k, p, r, w, l) := c in mkSys d k p r w [] l false false None.

Definition drvs := [Closed; Open; Ready].
Definition bools := [true; false].
Definition rpcs := [RNone; REval; RSet true; RSet false; RCheck; RReset; RReady; RServe; REval2; RSet2 true; RSet2 false;
  RCopy; RTell Closed; RTell Open; RTell Ready; REnd].
Definition copies := [None; Some Closed; Some Open; Some Ready].
Definition lpcs := [Idle; IThread; ICopy; IListen Closed; IListen Open; IListen Ready; ISpawn; IWait; IFinal; VCheck]
  ++ flat_map (fun a => [SCopy a; SListen a Closed; SListen a Open; SListen a Ready; SClose a; SStop a; SWait a; SJoin a]) bools.
Definition all (f : core -> bool) : bool :=
  forallb (fun d => forallb (fun k => forallb (fun p => forallb (fun r => forallb (fun w => forallb (fun l =>
    f (d, k, p, r, w, l)) lpcs) copies) rpcs) bools) bools) drvs.
Lemma all_spec : forall f, all f = true -> forall c, f c = true.
Proof.
  intros f H [[[[[d k] p] r] w] l]. unfold all in H.
  assert (Hd : In d drvs) by (destruct d; cbn; auto).
  assert (Hk : In k bools) by (destruct k; cbn; auto).
  assert (Hp : In p bools) by (destruct p; cbn; auto).
  assert (Hr : In r rpcs) by (destruct r as [| |[]| | | | | |[]| |[]|]; cbn; auto 20).
  assert (Hw : In w copies) by (destruct w as [[]|]; cbn; auto).
  assert (Hl : In l lpcs).
  { destruct l as [| | |[]| | | | |[]|[] []|[]|[]|[]|[]]; cbn; auto 30. }
  rewrite forallb_forall in H. specialize (H d Hd). rewrite forallb_forall in H. specialize (H k Hk).
  rewrite forallb_forall in H. specialize (H p Hp). rewrite forallb_forall in H. specialize (H r Hr).
  rewrite forallb_forall in H. specialize (H w Hw). rewrite forallb_forall in H. exact (H l Hl).
Qed.

(** Calm events act on the finite part alone. *)
Lemma core_step : forall s e, calm e -> core_of (step s e) = core_of (step (of_core (core_of s)) e).
Proof.
  intros [d k p r w o l er wa re] e He. destruct e as [o'|ok| | | | |n]; cbn in He; try contradiction; cbn.
  - destruct l; reflexivity.
  - destruct l; cbn; try reflexivity; unfold layer_step; cbn; try reflexivity.
    + destruct r; try reflexivity. destruct d; cbn; try reflexivity; destruct ok; reflexivity.
    + destruct w as [[]|]; reflexivity.
    + destruct d; reflexivity.
    + destruct d; reflexivity.
    + destruct w as [[]|]; reflexivity.
    + destruct r; try reflexivity; destruct again; reflexivity.
  - destruct l; try reflexivity; destruct w as [[]|]; reflexivity.
  - unfold driver_step; cbn. destruct r; cbn; try reflexivity; try (destruct b, d; reflexivity);
      try (destruct d; reflexivity). destruct p; reflexivity.
  - destruct d, k; reflexivity.
Qed.

(** Invariants are checked on the finite part. *)
Definition layer_events := [Call OInit; Call OShutdown; Call ORecover; Layer true; Layer false; Deadline; Driver; NotReady].
Definition preserved (inv : core -> bool) (es : list event) : bool :=
  all (fun c => implb (inv c) (forallb (fun e => inv (core_of (step (of_core c) e))) es)).
Lemma calm_listed : forall e, calm e -> In e layer_events.
Proof. intros [[]|[]| | | | |n]; cbn; intros H; auto 12; contradiction. Qed.
Lemma preserved_run : forall inv es l s, preserved inv es = true -> Forall calm l -> Forall (fun e => In e es) l ->
  inv (core_of s) = true -> inv (core_of (run l s)) = true.
Proof.
  intros inv es l s H Hc Hl. revert s. induction l as [|e l IH]; intros s Hs; [exact Hs|].
  inversion Hc; subst. inversion Hl; subst. cbn. apply IH; auto.
  rewrite core_step by assumption.
  pose proof (all_spec _ H (core_of s)) as K. cbn in K. rewrite Hs in K. cbn in K.
  rewrite forallb_forall in K. apply K. assumption.
Qed.

(** ** Invariant of all reachable states *)
Definition closing (l : lpc) : bool := match l with SStop _ | SWait _ | SJoin _ => true | _ => false end.
Definition starting (l : lpc) : bool := match l with ICopy | IListen _ | ISpawn => true | _ => false end.
Definition is_closed (d : drv) : bool := drv_eqb d Closed.
Definition inv (c : core) : bool :=
  let '(d, k, p, r, w, l) := c in
  (* the socket and the calling thread *)
  match r with
  | RNone => if starting l then drv_eqb d Open && k else drv_eqb d Closed && negb k
  | _ => Bool.eqb k (negb (closing l)) && negb (starting l)
  end
  && match l with IWait => negb (match r with RNone => true | _ => false end) | _ => true end
  (* the thread of the driver *)
  && match r with
     | RNone => true
     | REval | RCheck | RReset => negb (drv_eqb d Ready) && implb k (drv_eqb d Open)
     | RSet b => implb k b && negb (drv_eqb d Ready) && implb k (drv_eqb d Open)
     | RReady => negb (drv_eqb d Ready) && implb k (drv_eqb d Open) && implb p (negb k)
     | RServe => implb p (negb k) && implb k (negb (drv_eqb d Closed))
     | REval2 => negb k
     | RSet2 b => negb k && negb b
     | RCopy => negb k && drv_eqb d Closed
     | RTell x => negb k && drv_eqb d Closed && drv_eqb x Closed
     | REnd => negb k && drv_eqb d Closed
     end
  (* the waiter *)
  && match l with
     | IListen x => drv_eqb x d
     | ISpawn | IWait => match w with Some x => drv_eqb x d | None => false end
     | SListen _ x => Bool.eqb (is_closed x) (is_closed d)
     | SClose _ | SStop _ | SWait _ => match w with Some x => Bool.eqb (is_closed x) (is_closed d) | None => false end
     | _ => true
     end.
Lemma inv_preserved : preserved inv layer_events = true.
Proof. vm_compute. reflexivity. Qed.
Lemma inv_reachable : forall s, reachable s -> inv (core_of s) = true.
Proof.
  intros s (l & Hl & ->). apply (preserved_run inv layer_events l sys0 inv_preserved Hl).
  - eapply Forall_impl; [|exact Hl]. exact calm_listed.
  - reflexivity.
Qed.

Lemma run_app : forall a b s, run (a ++ b) s = run b (run a s).
Proof. intros. apply fold_left_app. Qed.
Lemma reachable_run : forall s l, reachable s -> Forall calm l -> reachable (run l s).
Proof.
  intros s l (l0 & H0 & ->) Hl. exists (l0 ++ l). split; [apply Forall_app; auto|]. symmetry. apply run_app.
Qed.

(** A fact about all states that satisfy the invariant, by enumeration *)
Lemma fact : forall (f : core -> bool), all (fun c => implb (inv c) (f c)) = true ->
  forall s, reachable s -> f (core_of s) = true.
Proof.
  intros f H s Hs. pose proof (all_spec _ H (core_of s)) as K. cbn beta in K.
  rewrite (inv_reachable s Hs) in K. exact K.
Qed.

(** ** Which handler is running *)
Definition serving (o : op) (l : lpc) : bool :=
  match l with
  | Idle => true
  | IThread | ICopy | IListen _ | ISpawn | IWait | IFinal => match o with OShutdown => false | _ => true end
  | VCheck => match o with ORecover => true | _ => false end
  | SCopy a | SListen a _ | SClose a | SStop a | SWait a | SJoin a =>
      match o with OInit => false | OShutdown => negb a | ORecover => a end
  end.
Definition own_events := [Layer true; Layer false; Deadline; Driver; NotReady].
Lemma own_listed : forall e, calm e -> no_call e -> In e own_events.
Proof. intros [[]|[]| | | | |n]; cbn; intros; auto 12; contradiction. Qed.
Lemma own_all : forall l, Forall calm l -> Forall no_call l -> Forall (fun e => In e own_events) l.
Proof. induction l; intros H1 H2; constructor; inversion H1; inversion H2; subst; auto using own_listed. Qed.
Lemma serving_preserved : forall o, preserved (fun c => let '(_, _, _, _, _, l) := c in serving o l) own_events = true.
Proof. intros []; vm_compute; reflexivity. Qed.
Lemma serving_run : forall o l s0, Forall calm l -> Forall no_call l -> lp s0 = Idle ->
  serving o (lp (run (Call o :: l) s0)) = true.
Proof.
  intros o l s0 H1 H2 H. cbn [run fold_left].
  pose proof (preserved_run _ _ l (step s0 (Call o)) (serving_preserved o) H1 (own_all l H1 H2)) as K.
  unfold core_of in K. cbn beta iota in K. apply K. cbn. rewrite H. destruct o; reflexivity.
Qed.

(** While a call runs the calling thread is in a handler. *)
Lemma set_ds_lp : forall x s, lp (set_ds x s) = lp s /\ res (set_ds x s) = res s.
Proof. intros x s. unfold set_ds. destruct (drv_eqb (ds s) x); auto. Qed.
Lemma idle_res : forall s e, no_call e -> (lp s = Idle -> res s <> None) -> lp (step s e) = Idle -> res (step s e) <> None.
Proof.
  intros s e He H. destruct e as [o|ok| | | | |n]; cbn in He; try contradiction; cbn.
  - unfold layer_step. destruct (lp s) eqn:El; cbn; try discriminate; auto.
    + destruct (rt s); cbn; try discriminate. destruct (driver_init ok s) as [[] s1]; cbn; discriminate.
    + destruct (copy s) as [[]|]; cbn; congruence.
    + destruct (drv_eqb (ds s) Ready); cbn; try discriminate.
    + destruct (copy s) as [[]|]; cbn; congruence.
    + destruct (rt s); cbn; try congruence; destruct again; cbn; discriminate.
  - unfold deadline. destruct (lp s) eqn:El; cbn; try congruence; auto; destruct (copy s) as [[]|]; cbn; congruence.
  - unfold driver_step. destruct (rt s); cbn; auto; try (destruct (set_ds_lp (not_ready b) s) as [-> ->]; auto);
      try (destruct (set_ds_lp Ready s) as [-> ->]; auto). destruct (stopped s); cbn; auto.
  - destruct (set_ds_lp (not_ready (sk s)) s) as [-> ->]. auto.
  - auto.
  - destruct (nth_error (others s) n); cbn; auto. destruct (set_ds_lp (not_ready b) s) as [-> ->]. auto.
Qed.
Lemma driver_init_res : forall ok s, res (snd (driver_init ok s)) = res s.
Proof.
  intros ok s. unfold driver_init. destruct (ds s); try reflexivity. destruct ok; [|reflexivity].
  cbn [snd]. apply (set_ds_lp Open (with_sk true s)).
Qed.
Lemma busy : forall o l s0, Forall no_call l -> lp s0 = Idle -> res (run (Call o :: l) s0) = None -> lp (run (Call o :: l) s0) <> Idle.
Proof.
  intros o l s0 Hl H. cbn [run fold_left].
  assert (G : lp (step s0 (Call o)) = Idle -> res (step s0 (Call o)) <> None) by (cbn; rewrite H; destruct o; discriminate).
  revert G. generalize (step s0 (Call o)). induction l as [|e l IH]; intros s G Hr Hi; cbn in *.
  - exact (G Hi Hr).
  - inversion Hl; subst. revert Hr Hi. apply IH; auto. apply idle_res; auto.
Qed.

(** ** Start *)
Definition working_core (c : core) : bool :=
  let '(d, k, p, r, w, l) := c in k && negb p && match r with RServe => true | _ => false end.
Lemma working_core_spec : forall s, working_core (core_of s) = true <-> working s.
Proof.
  intros s. unfold working, working_core, core_of. rewrite !andb_true_iff, negb_true_iff.
  destruct (rt s); intuition congruence.
Qed.
Lemma started_fact : all (fun c => implb (inv c) (let '(d, k, p, r, w, l) := c in
  implb (drv_eqb d Ready && match l with IFinal | VCheck => true | _ => false end) (working_core c))) = true.
Proof. vm_compute. reflexivity. Qed.
Lemma started : forall o s0 s w, o <> OShutdown -> reachable s0 -> returns o s0 s (false, w) ->
  ds s = Ready /\ working s.
Proof.
  intros o s0 s w Ho H0 (l & ok & H1 & H2 & Hi & Hn & -> & Hr).
  set (s1 := run (Call o :: l) s0) in *.
  assert (R : reachable s1) by (apply reachable_run; [assumption|constructor; [exact I|assumption]]).
  pose proof (serving_run o l s0 H1 H2 Hi) as Hs. fold s1 in Hs.
  pose proof (busy o l s0 H2 Hi Hn) as Hb. fold s1 in Hb.
  pose proof (fact _ started_fact s1 R) as K. cbn [core_of] in K. clearbody s1.
  cbn [step] in *. unfold layer_step in *.
  destruct (lp s1) eqn:El; cbn in Hs; try congruence; try (cbn in Hr; congruence).
  - pose proof (driver_init_res ok s1) as Hd.
    destruct (rt s1); [destruct (driver_init ok s1) as [[] s2]|..]; cbn in Hr, Hd; congruence.
  - destruct (copy s1) as [[]|]; cbn in Hr; congruence.
  - destruct (drv_eqb (ds s1) Ready) eqn:Ed; [|cbn in Hr; congruence].
    cbn in K.
    split; [cbn; destruct (ds s1); try discriminate; reflexivity|].
    apply working_core_spec. unfold core_of. cbn. exact K.
  - destruct (drv_eqb (ds s1) Ready) eqn:Ed; [|cbn in Hr; congruence].
    cbn in K.
    split; [cbn; destruct (ds s1); try discriminate; reflexivity|].
    apply working_core_spec. unfold core_of. cbn. exact K.
  - destruct (copy s1) as [[]|]; cbn in Hr; congruence.
  - destruct (rt s1); try (cbn in Hr; congruence); destruct o, again; cbn in *; congruence.
Qed.
Lemma keeps_fact : preserved (fun c => working_core c && let '(_, _, _, _, _, l) := c in match l with Idle => true | _ => false end) own_events = true.
Proof. vm_compute. reflexivity. Qed.
Lemma keeps : forall s l, working s -> lp s = Idle -> Forall calm l -> Forall no_call l -> working (run l s).
Proof.
  intros s l Hw Hi H1 H2.
  pose proof (preserved_run _ _ l s keeps_fact H1 (own_all l H1 H2)) as K. cbn beta in K.
  apply working_core_spec. apply andb_true_iff in K as [K _]; [exact K|].
  rewrite (proj2 (working_core_spec s) Hw). unfold core_of. rewrite Hi. reflexivity.
Qed.

(** ** Stop *)
Lemma stopped_fact : all (fun c => implb (inv c) (let '(d, k, p, r, w, l) := c in
  implb (match l, r with SJoin _, (RNone | REnd) => true | _, _ => false end) (drv_eqb d Closed && negb k))) = true.
Proof. vm_compute. reflexivity. Qed.
Lemma err_shutdown : forall l s0, Forall calm l -> Forall no_call l -> lp s0 = Idle -> err (run (Call OShutdown :: l) s0) = false.
Proof.
  intros l s0 H1 H2 Hi. cbn [run fold_left].
  assert (G : err (step s0 (Call OShutdown)) = false /\ serving OShutdown (lp (step s0 (Call OShutdown))) = true) by (cbn; rewrite Hi; auto).
  revert G. generalize (step s0 (Call OShutdown)). induction l as [|e l IH]; intros s [G1 G2]; [exact G1|].
  inversion H1; inversion H2; subst. cbn. apply IH; auto.
  destruct s as [d k p r w o lq er wa re]. cbn in *. subst er.
  destruct e as [o'|ok| | | | |n]; cbn in *; try contradiction.
  - destruct lq; cbn in G2; try discriminate; unfold layer_step; cbn; auto.
    + destruct w as [[]|]; cbn; auto.
    + destruct r; cbn; auto; destruct again; cbn; auto; discriminate.
  - destruct lq; cbn in G2; try discriminate; unfold deadline; cbn; auto. destruct w as [[]|]; cbn; auto.
  - unfold driver_step; cbn. destruct r; cbn; auto; unfold set_ds; cbn; try (destruct (drv_eqb d _); auto). destruct p; auto.
  - unfold set_ds; cbn. destruct (drv_eqb d _); auto.
Qed.
Lemma stopped_off : forall s0 s r, reachable s0 -> returns OShutdown s0 s r -> off s /\ fst r = false.
Proof.
  intros s0 s r H0 (l & ok & H1 & H2 & Hi & Hn & -> & Hr).
  pose proof (err_shutdown l s0 H1 H2 Hi) as He.
  set (s1 := run (Call OShutdown :: l) s0) in *.
  assert (R : reachable s1) by (apply reachable_run; [assumption|constructor; [exact I|assumption]]).
  pose proof (serving_run OShutdown l s0 H1 H2 Hi) as Hs. fold s1 in Hs.
  pose proof (busy OShutdown l s0 H2 Hi Hn) as Hb. fold s1 in Hb.
  pose proof (fact _ stopped_fact s1 R) as K. cbn [core_of] in K. clearbody s1.
  cbn [step] in *. unfold layer_step in *.
  destruct (lp s1) eqn:El; cbn in Hs; try congruence; try (cbn in Hr; congruence).
  - destruct (copy s1) as [[]|]; cbn in Hr; congruence.
  - destruct again; [discriminate|]. destruct (rt s1) eqn:Er; cbn in Hr; try congruence;
      cbn in K; apply andb_true_iff in K as [K1 K2];
      (split; [|injection Hr as <-; exact He]);
      (split; [cbn; destruct (ds s1); cbn in K1; congruence|split; [cbn; destruct (sk s1); cbn in K2; congruence|reflexivity]]).
Qed.

(** ** No lost wake-up *)
Lemma wait_fact : all (fun c => implb (inv c) (let '(d, k, p, r, w, l) := c in
  match l with
  | IWait => implb (drv_eqb d Ready) (match w with Some Ready => true | _ => false end)
  | SWait _ => implb (drv_eqb d Closed) (match w with Some Closed => true | _ => false end)
  | _ => true
  end)) = true.
Proof. vm_compute. reflexivity. Qed.
Lemma no_lost_wakeup : forall s, reachable s ->
  (lp s = IWait -> ds s = Ready -> err (step s Deadline) = err s) /\
  (forall a, lp s = SWait a -> ds s = Closed -> warn (step s Deadline) = warn s).
Proof.
  intros s R. pose proof (fact _ wait_fact s R) as K. cbn [core_of] in K.
  split; [|intros a]; intros Hl Hd; cbn; unfold deadline; rewrite Hl in *; try rewrite Hd in K; cbn in K;
    destruct (copy s) as [[]|]; try discriminate; reflexivity.
Qed.

(** ** Termination of a shutdown *)
Definition lrank (l : lpc) : nat :=
  match l with SCopy _ => 6 | SListen _ _ => 5 | SClose _ => 4 | SStop _ => 3 | SWait _ => 2 | SJoin _ => 1 | _ => 0 end.
Definition rrank (r : rpc) : nat :=
  match r with RServe => 6 | REval2 => 5 | RSet2 _ => 4 | RCopy => 3 | RTell _ => 2 | REnd => 1 | _ => 0 end.
Definition rank (c : core) : nat := let '(_, _, _, r, _, l) := c in (lrank l + rrank r)%nat.
Definition ending (c : core) : bool :=
  inv c &&
  let '(d, k, p, r, w, l) := c in
  serving OShutdown l && match r with REval | RSet _ | RCheck | RReset | RReady => false | _ => true end
  && match l with SWait _ | SJoin _ => p | _ => true end.
Definition finished (c : core) : bool := let '(_, _, _, _, _, l) := c in match l with Idle => true | _ => false end.
Definition next (e : event) (c : core) : core := core_of (step (of_core c) e).
Definition helps (e : event) (c : core) : bool := (rank (next e c) <? rank c)%nat.
Lemma ending_preserved : preserved ending own_events = true.
Proof. vm_compute. reflexivity. Qed.
Lemma finished_preserved : preserved finished own_events = true.
Proof. vm_compute. reflexivity. Qed.
(** Some thread makes progress, and other steps do not take this away. *)
Lemma progress_fact : all (fun c => implb (ending c && negb (finished c)) (
  (helps Driver c || helps (Layer true) c && helps (Layer false) c) &&
  forallb (fun e => (rank (next e c) <=? rank c)%nat &&
                    (helps e c || finished (next e c) || implb (helps Driver c) (helps Driver (next e c)) &&
                     implb (helps (Layer true) c && helps (Layer false) c)
                           (helps (Layer true) (next e c) && helps (Layer false) (next e c)))) own_events)) = true.
Proof. vm_compute. reflexivity. Qed.
Lemma next_core : forall e s, calm e -> core_of (step s e) = next e (core_of s).
Proof. intros e s He. apply core_step. exact He. Qed.
Definition helps_layer (c : core) : bool := helps (Layer true) c && helps (Layer false) c.
Lemma progress : forall s, ending (core_of s) = true -> finished (core_of s) = false ->
  (helps Driver (core_of s) = true \/ helps_layer (core_of s) = true) /\
  forall e, calm e -> no_call e ->
    (rank (core_of (step s e)) <= rank (core_of s))%nat /\
    ((rank (core_of (step s e)) < rank (core_of s))%nat \/ finished (core_of (step s e)) = true \/
     helps e (core_of s) = false /\
     (helps Driver (core_of s) = true -> helps Driver (core_of (step s e)) = true) /\
     (helps_layer (core_of s) = true -> helps_layer (core_of (step s e)) = true)).
Proof.
  intros s He Hf. pose proof (all_spec _ progress_fact (core_of s)) as K. cbn beta in K. rewrite He, Hf in K. cbn [negb andb implb] in K.
  apply andb_true_iff in K as [K1 K2]. split.
  - apply orb_true_iff in K1. exact K1.
  - intros e Hc Hn. rewrite forallb_forall in K2. specialize (K2 e (own_listed e Hc Hn)).
    rewrite next_core by exact Hc.
    apply andb_true_iff in K2 as [K2 K3]. apply Nat.leb_le in K2. split; [exact K2|].
    unfold helps_layer. fold (next e (core_of s)) in K3.
    destruct (helps e (core_of s)) eqn:Eh.
    + left. unfold helps in Eh. apply Nat.ltb_lt in Eh. exact Eh.
    + right. destruct (finished (next e (core_of s))); [left; reflexivity|right]. cbn [orb] in K3.
      apply andb_true_iff in K3 as [K3 K4]. split; [reflexivity|split].
      * intros H. rewrite H in K3. exact K3.
      * intros H. rewrite H in K4. exact K4.
Qed.
Lemma finished_run : forall l s, Forall calm l -> Forall no_call l -> finished (core_of s) = true -> finished (core_of (run l s)) = true.
Proof. intros l s H1 H2. exact (preserved_run _ _ l s finished_preserved H1 (own_all l H1 H2)). Qed.
Lemma round : forall l s, Forall calm l -> Forall no_call l -> ending (core_of s) = true ->
  finished (core_of (run l s)) = true \/ (rank (core_of (run l s)) < rank (core_of s))%nat \/
  (rank (core_of (run l s)) <= rank (core_of s))%nat /\ (helps Driver (core_of s) = true -> ~ In Driver l) /\
  (helps_layer (core_of s) = true -> forall ok, ~ In (Layer ok) l).
Proof.
  induction l as [|e l IH]; intros s H1 H2 He.
  - right. right. cbn. auto with arith.
  - inversion H1; inversion H2; subst. cbn [run fold_left]. fold (run l (step s e)).
    destruct (finished (core_of s)) eqn:Ef.
    { left. apply (finished_run (e :: l) s H1 H2 Ef). }
    destruct (progress s He Ef) as [_ P]. destruct (P e) as [P1 P2]; auto.
    assert (He' : ending (core_of (step s e)) = true).
    { apply (preserved_run _ _ [e] s ending_preserved); auto. constructor; [apply own_listed; auto|constructor]. }
    specialize (IH (step s e) H4 H8 He').
    destruct IH as [IH|[IH|(I1 & I2 & I3)]]; [left; exact IH|right; left; lia|].
    destruct P2 as [P2|[P2|(P2 & P3 & P4)]].
    + right. left. lia.
    + left. apply finished_run; auto.
    + right. right. split; [lia|]. split.
      * intros Hd [E|E]; [subst e; congruence|]. exact (I2 (P3 Hd) E).
      * intros Hl ok [E|E]; [|exact (I3 (P4 Hl) ok E)]. subst e. unfold helps_layer in Hl.
        apply andb_true_iff in Hl as [A B]. destruct ok; congruence.
Qed.
Lemma fair_round : forall l s, Forall calm l -> Forall no_call l -> fair l -> ending (core_of s) = true ->
  finished (core_of (run l s)) = true \/ (rank (core_of (run l s)) < rank (core_of s))%nat.
Proof.
  intros l s H1 H2 [F1 [ok F2]] He.
  destruct (finished (core_of s)) eqn:Ef; [left; apply finished_run; auto|].
  destruct (round l s H1 H2 He) as [R|[R|(_ & R1 & R2)]]; auto.
  destruct (progress s He Ef) as [[P|P] _]; [destruct (R1 P F1)|destruct (R2 P ok F2)].
Qed.
Lemma rounds_end : forall rs s, Forall fair rs -> Forall calm (List.concat rs) -> Forall no_call (List.concat rs) ->
  ending (core_of s) = true -> (rank (core_of s) <= List.length rs)%nat -> (0 < List.length rs)%nat ->
  finished (core_of (run (List.concat rs) s)) = true.
Proof.
  induction rs as [|r rs IH]; intros s Hf H1 H2 He Hr Hp; [cbn in Hp; lia|].
  cbn [List.concat] in *. apply Forall_app in H1 as [H1 H1']. apply Forall_app in H2 as [H2 H2']. inversion Hf; subst.
  rewrite run_app.
  assert (He' : ending (core_of (run r s)) = true) by (apply (preserved_run _ _ r s ending_preserved); auto using own_all).
  destruct (fair_round r s H1 H2 H3 He) as [R|R].
  - apply finished_run; auto.
  - cbn [List.length] in Hr. destruct rs as [|r' rs].
    + assert (E : rank (core_of (run r s)) = 0%nat) by (cbn [List.length] in Hr; lia). cbn [List.concat run fold_left]. fold (run r s).
      destruct (finished (core_of (run r s))) eqn:Ef; [reflexivity|].
      exfalso. revert E Ef He'. generalize (run r s). intros x E Ef He'.
      destruct (progress x He' Ef) as [[P|P] _]; unfold helps_layer, helps in P; rewrite E in P; discriminate P.
    + apply IH; auto; cbn [List.length] in *; lia.
Qed.
Lemma ending_start : all (fun c => implb (inv c && finished c &&
    let '(d, k, p, r, w, l) := c in match r with RNone | RServe => true | _ => false end)
  (ending (next (Call OShutdown) c) && (rank (next (Call OShutdown) c) <=? 12)%nat)) = true.
Proof. vm_compute. reflexivity. Qed.
Lemma shutdown_ends : forall s0 rs, reachable s0 -> lp s0 = Idle -> working s0 \/ off s0 ->
  Forall fair rs -> Forall calm (List.concat rs) -> Forall no_call (List.concat rs) -> (12 <= List.length rs)%nat ->
  res (run (Call OShutdown :: List.concat rs) s0) <> None.
Proof.
  intros s0 rs R Hi Hw Hf H1 H2 Hn E.
  pose proof (all_spec _ ending_start (core_of s0)) as K. cbn beta in K. rewrite (inv_reachable s0 R) in K.
  unfold finished, core_of at 1 2 in K. rewrite Hi in K.
  assert (Hr : match rt s0 with RNone | RServe => true | _ => false end = true).
  { destruct Hw as [(_ & -> & _)|(_ & _ & ->)]; reflexivity. }
  rewrite Hr in K. cbn [andb implb] in K. apply andb_true_iff in K as [K1 K2]. apply Nat.leb_le in K2.
  rewrite <- next_core in K1, K2 by exact I.
  assert (F : finished (core_of (run (List.concat rs) (step s0 (Call OShutdown)))) = true).
  { apply rounds_end; auto; lia. }
  apply (busy OShutdown (List.concat rs) s0 H2 Hi E). change (run (Call OShutdown :: List.concat rs) s0) with (run (List.concat rs) (step s0 (Call OShutdown))).
  unfold finished, core_of in F. destruct (lp (run (List.concat rs) (step s0 (Call OShutdown)))); congruence || reflexivity.
Qed.

(** ** The two races *)

(** Shutdown while run() is about to reset the service: the thread never ends. *)
Definition race_stuck : list event :=
  [Call OInit; Layer true; Layer true; Layer true; Layer true; Driver; Driver; Driver; Deadline; Layer true;
   Call OShutdown; Layer true; Layer true; Layer true; Layer true; Driver; Driver; NotReady; Layer true].
Lemma stuck : forall l, let s := run l (run race_stuck sys0) in lp s = SJoin false /\ rt s = RServe /\ res s = None.
Proof.
  assert (G : forall l s, lp s = SJoin false -> rt s = RServe -> stopped s = false -> res s = None ->
    lp (run l s) = SJoin false /\ rt (run l s) = RServe /\ res (run l s) = None).
  { induction l as [|e l IH]; intros [d k p r w o lq er wa re] A B C D; cbn in A, B, C, D; subst; [cbn; auto|].
    cbn [run fold_left]. apply IH; destruct e as [o'|ok| | | | |n]; cbn; unfold set_ds; cbn; auto;
      try (destruct (drv_eqb d _); auto); destruct (nth_error o n); cbn; auto; destruct (drv_eqb d _); auto. }
  intros l. apply G; vm_compute; reflexivity.
Qed.

(** A transmission fails during a shutdown: the driver stays open without thread. *)
Definition race_open : list event :=
  [Call OInit; Layer true; Layer true; Layer true; Layer true; Driver; Driver; Driver; Driver; Driver; Layer true; Layer true;
   Look; Call OShutdown; Layer true; Layer true; Layer true; Layer true; Driver; Driver; Driver; Driver; Driver; Layer true; Layer true; Act 0].
Definition alone (e : event) : Prop := match e with Call _ | Layer _ | Deadline | Driver => True | _ => False end.
Lemma left_open : forall l, Forall alone l -> let s := run l (run race_open sys0) in ds s = Open /\ sk s = false /\ rt s = RNone.
Proof.
  set (p := fun c : core => let '(d, k, _, r, w, l) := c in
    drv_eqb d Open && negb k && match r with RNone => true | _ => false end &&
    match l with ICopy | IListen _ | ISpawn | IWait => false | _ => true end).
  assert (P : preserved p [Call OInit; Call OShutdown; Call ORecover; Layer true; Layer false; Deadline; Driver] = true) by (vm_compute; reflexivity).
  intros l Hl.
  assert (K : p (core_of (run l (run race_open sys0))) = true).
  { apply (preserved_run p _ l _ P).
    - eapply Forall_impl; [|exact Hl]. intros []; cbn; tauto.
    - eapply Forall_impl; [|exact Hl]. intros [[]|[]| | | | |n]; cbn; intros H; auto 12; contradiction.
    - vm_compute. reflexivity. }
  generalize dependent (run l (run race_open sys0)). intros s K. unfold p, core_of in K.
  apply andb_true_iff in K as [K _]. apply andb_true_iff in K as [K K3]. apply andb_true_iff in K as [K1 K2].
  split; [destruct (ds s); cbn in K1; congruence|]. split; [destruct (sk s); cbn in K2; congruence|].
  destruct (rt s); congruence.
Qed.
