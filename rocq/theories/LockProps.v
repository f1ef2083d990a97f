(** Threads do not block each other for good (C105). *)
From Coq Require Import List Arith Bool Lia.
From Verif Require Import LockModel LockSpec LockOrder LockProofs.
Import ListNotations.

(** C105. Any number of threads make any sequences of calls: the control loop,
    the thread of the driver, the services, the diagnostics, the timer, mode
    switches, the set-up.  Whoever has to wait for a mutex waits, directly or
    through others, for a thread that can go on.  Left out of [call] are the
    functions that create or destroy a listener while they hold a mutex which
    that listener needs: BufferedReader::listen and the initialisation and
    shutdown of BCMsync.  For them the claim is false, see below. *)
Theorem C105_waits_partial : forall todos s i,
  Forall (history call) todos -> distinct_objects todos -> reach (start todos) s ->
  unfinished s i -> goes_on s i.
Proof.
  intros todos s i Hf Hd [sched Hr] Hu.
  destruct (run_inv _ _ _ _ (start_inv _ Hf Hd) Hr) as [E Hi]. exact (inv_goes_on _ _ _ Hi Hu).
Qed.
Print Assumptions C105_waits_partial.

(** In whatever order the threads run, they cannot run for ever, they stop only
    when every call has returned, and this can happen from every state. *)
Theorem C105_returns_partial : forall todos s,
  Forall (history call) todos -> distinct_objects todos -> reach (start todos) s ->
  (~ exists f : nat -> sys, f 0 = s /\ forall k, next (f (S k)) (f k))
  /\ ((forall i, ~ moves s i) -> all_done s)
  /\ exists sched s', run sched s = Some s' /\ all_done s'.
Proof.
  intros todos s Hf Hd [sched Hr].
  destruct (run_inv _ _ _ _ (start_inv _ Hf Hd) Hr) as [E Hi].
  split; [|split; [apply (inv_done _ _ Hi) | exact (inv_finishes _ _ Hi)]].
  intros (f & H0 & Hn). pose proof (inv_acc _ _ Hi) as Ha. clear -Ha H0 Hn.
  revert f H0 Hn. induction Ha as [s _ IH]. intros f H0 Hn.
  apply (IH (f 1)) with (f := fun k => f (S k)).
  - rewrite <- H0. apply Hn.
  - reflexivity.
  - intro k. apply Hn.
Qed.
Print Assumptions C105_returns_partial.

(** ** Runs *)

(** Data need not be used. *)
Lemma run_rd : forall v, runs (Rd v) true [].
Proof. intro v. apply (r_rd v 0). Qed.
Lemma run_wr : forall v, runs (Wr v) true [].
Proof. intro v. apply (r_wr v []). Qed.
Lemma run_touch : forall l v, runs (touch l v) true [Acq l; Rel l].
Proof. intros l v. apply (r_with l (Wr v) true []). apply run_wr. Qed.
Lemma run_look : forall l v, runs (look l v) true [Acq l; Rel l].
Proof. intros l v. apply (r_with l (Rd v) true []). apply run_rd. Qed.
Lemma seq_eq : forall p q t u r l, runs p true t -> runs q r u -> l = t ++ u -> runs (Seq p q) r l.
Proof. intros p q t u r l Hp Hq ->. apply r_seq; assumption. Qed.
Lemma with_eq : forall m p t r l, runs p r t -> l = Acq m :: t ++ [Rel m] -> runs (With m p) r l.
Proof. intros m p t r l Hp ->. apply r_with; assumption. Qed.
Lemma pre_nop : forall p q r u, runs p true [] -> runs q r u -> runs (Seq p q) r u.
Proof. intros p q r u Hp Hq. exact (r_seq p q [] u r Hp Hq). Qed.
Lemma post_nop : forall p q t, runs p true t -> runs q true [] -> runs (Seq p q) true t.
Proof. intros p q t Hp Hq. rewrite <- (app_nil_r t). apply r_seq; assumption. Qed.
Lemma run_skip : forall p, runs (Opt p) true [].
Proof. intro p. apply r_alt2. constructor. Qed.

(** A frame is delivered to its listeners; [f] is what they do. *)
Definition delivery (f : handler -> option (list op)) : list op := [Acq LFrames; Calls CFrames f; Rel LFrames].
Lemma delivery_io : forall f, (forall h b, f h = Some b -> runs (handle h) true b \/ runs (handle h) false b) ->
  history (eq io_work) (delivery f).
Proof.
  intros f Hf. rewrite <- (app_nil_r (delivery f)). apply h_call with (p := io_work) (r := true); [reflexivity| |constructor].
  rewrite <- (app_nil_r (delivery f)). apply r_rep; [|constructor]. apply r_alt2. apply r_try with true.
  apply (r_with LFrames (Dispatch CFrames) true [Calls CFrames f]). constructor. exact Hf.
Qed.

Definition listen_run (r : reader) : list op :=
  [Acq (LReader r); Acq LFrames; Reg CFrames (HReader r); Rel LFrames; Rel (LReader r)].
Lemma listen_runs : forall r, runs (listen r) true (listen_run r).
Proof.
  intro r. apply (r_with (LReader r) _ true [Acq LFrames; Reg CFrames (HReader r); Rel LFrames]).
  apply pre_nop; [apply run_wr|]. apply post_nop; [|apply post_nop; [apply run_skip | apply run_wr]].
  apply (r_with LFrames _ true [Reg CFrames (HReader r)]). constructor.
Qed.
Lemma sdo_init_runs : forall n, runs (sdo_init n) true (listen_run (RSdo n)).
Proof. intro n. apply pre_nop; [apply run_wr | apply listen_runs]. Qed.

(** The listener of a reader takes a frame. *)
Definition to_reader (r : reader) (h : handler) : option (list op) :=
  match h with
  | HReader r' => if reader_dec r r' then Some [Acq (LReader r); Rel (LReader r)] else None
  | _ => None
  end.
Lemma to_reader_runs : forall r h b, to_reader r h = Some b -> runs (handle h) true b \/ runs (handle h) false b.
Proof.
  intros r [] b; cbn; try discriminate. destruct (reader_dec r r0) as [<-|]; [|discriminate].
  intro He. inversion He; subst. left. apply run_touch.
Qed.

(** ** Deadlocks *)

(** The state after a schedule. *)
Definition after (sched : list nat) (todos : list (list op)) : sys :=
  match run sched (start todos) with Some s => s | None => start [] end.

Lemma knot_among : forall sched todos K,
  run sched (start todos) = Some (after sched todos) -> knot (after sched todos) K ->
  forall others, exists s', reach (start (todos ++ others)) s' /\ forall i, In i K -> stuck_for_good s' i.
Proof.
  intros sched todos K. generalize (after sched todos). intros s Hr Hk others. exists (mkSys (ths s ++ idle others) (regs s)). split.
  - exists sched. rewrite start_app. apply run_idle. exact Hr.
  - intros i Hi. apply knot_stuck with K; [apply knot_idle; exact Hk | exact Hi].
Qed.

(** Thread [i] waits for thread [j], by computation. *)
Lemma waits_now : forall s i j l a b x y,
  nth_error (ths s) i = Some (a, Acq l :: b) -> nth_error (ths s) j = Some (x, y) -> In l x -> waits s i j.
Proof. intros s i j l a b x y Hi Hj Hl. exists l. split; [exists a, b; exact Hi | exists x, y; split; assumption]. Qed.

(** If a chain that follows a SYNC from outside is initialised a second time,
    the listener is created anew under the mutex of the reader.  A SYNC that
    is delivered meanwhile waits for that mutex, holding the dispatcher that
    is needed to create the listener: neither thread ever goes on.  This holds
    with any other threads. *)
Theorem C105_sync_refuted : exists u v,
  history (eq ext_sync_init) u /\ history (eq io_work) v /\
  forall others, exists s, reach (start (u :: v :: others)) s /\ stuck_for_good s 0 /\ stuck_for_good s 1.
Proof.
  exists (listen_run RSync ++ listen_run RSync ++ []), (delivery (to_reader RSync)). split; [|split].
  - apply h_call with (p := ext_sync_init) (r := true); [reflexivity | apply listen_runs |].
    apply h_call with (p := ext_sync_init) (r := true); [reflexivity | apply listen_runs | constructor].
  - apply delivery_io. apply to_reader_runs.
  - intro others.
    destruct (knot_among [0; 0; 0; 0; 0; 0; 1; 1] [listen_run RSync ++ listen_run RSync ++ []; delivery (to_reader RSync)]
                [0; 1]) with (others := others) as (s & Hr & Hk).
    { vm_compute. reflexivity. }
    { intros i [<-|[<-|[]]]; [exists 1 | exists 0];
        (split; [cbn; auto | eapply waits_now; [vm_compute; reflexivity | vm_compute; reflexivity | left; reflexivity]]). }
    exists s. split; [exact Hr | split; apply Hk; cbn; auto].
Qed.
Print Assumptions C105_sync_refuted.

(** A run of Node::handleInit in which the device answers. *)
Definition brief (l : lock) : list op := [Acq l; Rel l].
Definition init_run (n : nat) : list op :=
  [Acq LFrames; Reg CFrames (HNmt n); Rel LFrames] ++ listen_run (RSdo n)
  ++ ([Acq (LNode n)] ++ brief (LStorage n) ++ brief LDriver ++ brief (LCond n) ++ [Rel (LNode n)])
  ++ brief (LMapper n) ++ brief (LStorage n) ++ listen_run (RSdo n)
  ++ [Acq (LNode n)] ++ brief LDriver ++ brief (LCond n) ++ [Rel (LNode n)].

Lemma run_send : runs send true (brief LDriver).
Proof. apply post_nop; [apply run_look | apply run_skip]. Qed.
Lemma run_storage : forall n, runs (storage n) true (brief (LStorage n)).
Proof. intro n. apply (r_with (LStorage n) _ true []). apply pre_nop; [apply run_wr | constructor]. Qed.
Lemma run_switch : forall n, runs (switch_state n) true [].
Proof. intro n. apply pre_nop; [apply run_wr|]. apply pre_nop; [apply run_skip|]. apply pre_nop; [apply run_wr | apply run_skip]. Qed.
Lemma run_wait_for : forall n, runs (wait_for n) true (brief (LCond n)).
Proof.
  intro n. apply pre_nop; [constructor|]. apply (r_with (LCond n) _ true []).
  apply pre_nop; [apply run_rd|]. apply pre_nop; [apply run_skip | apply run_switch].
Qed.

Lemma init_runs : forall n, runs (node_init n) true (init_run n).
Proof.
  intro n. unfold node_init, node_init_with, init_run.
  apply (r_seq _ _ [_; _; _]); [apply (r_with LFrames _ true [Reg CFrames (HNmt n)]); constructor|].
  apply (r_seq _ _ []); [apply run_skip|].
  apply (r_seq _ _ (listen_run (RSdo n))); [apply sdo_init_runs|].
  apply (r_seq _ _ (_ ++ _)).
  { apply (r_with (LNode n) _ true (brief (LStorage n) ++ brief LDriver ++ brief (LCond n) ++ [])).
    apply (r_seq _ _ (brief _)); [apply run_storage|]. apply (r_seq _ _ (brief _)); [apply run_send|].
    apply (r_seq _ _ (brief _)); [apply run_wait_for | apply pre_nop; [apply run_wr | apply run_skip]]. }
  apply (r_seq _ _ (brief _)).
  { apply (r_with (LMapper n) _ true []). apply pre_nop; [constructor|]. apply pre_nop; [constructor|]. apply pre_nop; [apply run_wr | constructor]. }
  apply (r_seq _ _ (brief _)); [apply run_storage|].
  apply (r_seq _ _ (listen_run (RSdo n))); [apply sdo_init_runs|].
  apply (r_with (LNode n) _ true (brief LDriver ++ brief (LCond n))). apply pre_nop; [apply run_rd|].
  apply (r_seq _ _ (brief _)); [apply run_send | apply run_wait_for].
Qed.

(** Initialising a node sets the SDO client up twice.  If a frame with the
    identifier of its SDO answers arrives while this is done the second time,
    the two threads wait for each other for ever. *)
Theorem C105_sdo_refuted : exists u v,
  runs (node_init 1) true u /\ history (eq io_work) v /\
  forall others, exists s, reach (start (u :: v :: others)) s /\ stuck_for_good s 0 /\ stuck_for_good s 1.
Proof.
  exists (init_run 1), (delivery (to_reader (RSdo 1))). split; [|split].
  - apply init_runs.
  - apply delivery_io. apply to_reader_runs.
  - intro others.
    destruct (knot_among (repeat 0 21 ++ [1; 1]) [init_run 1; delivery (to_reader (RSdo 1))]
                [0; 1]) with (others := others) as (s & Hr & Hk).
    { vm_compute. reflexivity. }
    { intros i [<-|[<-|[]]]; [exists 1 | exists 0];
        (split; [cbn; auto | eapply waits_now; [vm_compute; reflexivity | vm_compute; reflexivity | left; reflexivity]]). }
    exists s. split; [exact Hr | split; apply Hk; cbn; auto].
Qed.
Print Assumptions C105_sdo_refuted.

(** An access to the object 1017 through the SDO client of node 1. *)
Definition object_run : list op :=
  [Acq (LData 1 hb_object); Acq (LSdo 1)] ++ brief (LReader (RSdo 1)) ++ brief LDriver
  ++ (brief (LReader (RSdo 1)) ++ brief (LReader (RSdo 1))) ++ brief (LReader (RSdo 1))
  ++ [Rel (LSdo 1); Rel (LData 1 hb_object)].
Lemma object_runs : runs (heartbeat 1) true object_run.
Proof.
  eapply with_eq.
  - apply pre_nop; [apply run_wr|]. eapply seq_eq; [|apply pre_nop; [apply run_wr | apply pre_nop; [apply run_skip | apply run_wr]] | reflexivity].
    apply r_alt1. apply r_alt1. apply r_alt1.
    eapply with_eq; [|reflexivity]. apply pre_nop; [apply run_wr|].
    eapply seq_eq; [apply run_touch | | reflexivity].
    eapply seq_eq; [eapply r_try | apply pre_nop; [apply run_wr | apply run_touch] | reflexivity].
    apply pre_nop; [apply run_wr|].
    eapply seq_eq; [apply run_send | | reflexivity].
    eapply r_rep; [|constructor].
    eapply seq_eq; [|apply pre_nop; [apply run_wr | apply run_skip] | reflexivity].
    eapply seq_eq; [apply run_touch | | reflexivity].
    eapply r_rep; [apply run_touch | constructor].
  - reflexivity.
Qed.
Lemma service_runs : runs srv_object true (brief (LStorage 1) ++ object_run).
Proof.
  apply r_any with 1. apply r_seq; [apply run_storage|]. apply r_any with hb_object. apply object_runs.
Qed.

(** A heartbeat of node 1 is handled. *)
Definition to_node (h : handler) : option (list op) :=
  match h with
  | HNmt 1 => Some [Acq (LCond 1); Acq (LData 1 hb_object); Rel (LData 1 hb_object); Rel (LCond 1)]
  | _ => None
  end.
Lemma to_node_runs : forall h b, to_node h = Some b -> runs (handle h) true b \/ runs (handle h) false b.
Proof.
  intros [[|[|n]]| | | | | |] b; cbn; try discriminate. intro He. inversion He; subst. left.
  apply (r_with (LCond 1) _ true (brief (LData 1 hb_object))).
  apply post_nop; [|apply pre_nop; [apply run_wr | apply run_switch]]. apply r_alt1.
  apply (r_with (LData 1 hb_object) _ true []). do 4 (apply pre_nop; [first [apply run_wr | apply run_skip]|]). apply run_wr.
Qed.

(** It does not take a second initialisation: while node 1 is initialised for
    the first time, a service reads the object 1017 and a heartbeat arrives.
    The first thread holds the reader and waits for the dispatcher, the
    receiving thread holds the dispatcher and waits for the object, the service
    holds the object and waits for the reader. *)
Theorem C105_object_refuted : exists u v w,
  runs (node_init 1) true u /\ runs srv_object true v /\ history (eq io_work) w /\
  forall others, exists s, reach (start (u :: v :: w :: others)) s
    /\ stuck_for_good s 0 /\ stuck_for_good s 1 /\ stuck_for_good s 2.
Proof.
  exists (init_run 1), (brief (LStorage 1) ++ object_run), (delivery to_node). split; [|split; [|split]].
  - apply init_runs.
  - apply service_runs.
  - apply delivery_io. apply to_node_runs.
  - intro others.
    destruct (knot_among (repeat 0 4 ++ repeat 1 4 ++ repeat 2 3)
                [init_run 1; brief (LStorage 1) ++ object_run; delivery to_node]
                [0; 1; 2]) with (others := others) as (s & Hr & Hk).
    { vm_compute. reflexivity. }
    { intros i [<-|[<-|[<-|[]]]]; [exists 2 | exists 0 | exists 1];
        (split; [cbn; auto | eapply waits_now; [vm_compute; reflexivity | vm_compute; reflexivity | cbn [In]; auto]]). }
    exists s. split; [exact Hr | split; [|split]; apply Hk; cbn; auto].
Qed.
Print Assumptions C105_object_refuted.

(** The frame goes to BCMsync. *)
Definition to_bcm (h : handler) : option (list op) :=
  match h with HBcm => Some (brief LBcm) | _ => None end.
Lemma to_bcm_runs : forall h b, to_bcm h = Some b -> runs (handle h) true b \/ runs (handle h) false b.
Proof. intros [] b; cbn; try discriminate. intro He. inversion He; subst. left. apply run_touch. Qed.

(** Shutting the SYNC producer down removes its listener under the mutex which
    the listener takes: with a heartbeat delivered meanwhile neither thread
    ever goes on. *)
Theorem C105_bcm_refuted : exists t u v,
  runs bcm_init true t /\ runs bcm_shutdown true u /\ history (eq io_work) v /\
  forall others, exists s, reach (start ((t ++ u) :: v :: others)) s /\ stuck_for_good s 0 /\ stuck_for_good s 1.
Proof.
  exists [Acq LBcm; Acq LFrames; Reg CFrames HBcm; Rel LFrames; Rel LBcm],
         [Acq LBcm; Acq LFrames; Unreg CFrames HBcm; Rel LFrames; Rel LBcm], (delivery to_bcm).
  split; [|split; [|split]].
  - apply (r_with LBcm _ true [Acq LFrames; Reg CFrames HBcm; Rel LFrames]). apply pre_nop; [apply run_wr|]. apply post_nop; [|apply run_wr]. apply r_alt1.
    apply (r_with LFrames _ true [Reg CFrames HBcm]). constructor.
  - apply (r_with LBcm _ true [Acq LFrames; Unreg CFrames HBcm; Rel LFrames]). apply pre_nop; [apply run_wr|]. apply post_nop; [|apply run_wr]. apply r_alt1.
    apply (r_with LFrames _ true [Unreg CFrames HBcm]). constructor.
  - apply delivery_io. apply to_bcm_runs.
  - intro others. cbn [app].
    destruct (knot_among (repeat 0 6 ++ [1; 1])
                [[Acq LBcm; Acq LFrames; Reg CFrames HBcm; Rel LFrames; Rel LBcm;
                  Acq LBcm; Acq LFrames; Unreg CFrames HBcm; Rel LFrames; Rel LBcm]; delivery to_bcm]
                [0; 1]) with (others := others) as (s & Hr & Hk).
    { vm_compute. reflexivity. }
    { intros i [<-|[<-|[]]]; [exists 1 | exists 0];
        (split; [cbn; auto | eapply waits_now; [vm_compute; reflexivity | vm_compute; reflexivity | left; reflexivity]]). }
    exists s. split; [exact Hr | split; apply Hk; cbn; auto].
Qed.
Print Assumptions C105_bcm_refuted.

(** ** A thread that keeps its own answer away *)

(** A service that reads the object 1017 of an initialised node by SDO holds the
    object while it waits for the answer.  A heartbeat that arrives first is
    handled under the mutex of the dispatcher and waits for the object: as long
    as the service waits, no thread delivers a frame, in particular not the
    answer.  Only the time limit of the SDO client ends this. *)
Theorem C105_answer_refuted : exists u v w,
  runs (node_init 1) true u /\ runs srv_object true v /\ history (eq io_work) w /\
  exists s, reach (start [u; v; w]) s /\
    holds s 1 (LSdo 1) /\ holds s 1 (LData 1 hb_object) /\ asks s 1 (LReader (RSdo 1)) /\ holds s 2 LFrames /\
    forall sched s', run sched s = Some s' ->
      (forall a b s1, sched = a ++ b -> run a s = Some s1 -> holds s1 1 (LData 1 hb_object)) ->
      holds s' 2 LFrames /\ nth_error (ths s') 2 = nth_error (ths s) 2.
Proof.
  exists (init_run 1), (brief (LStorage 1) ++ object_run), (delivery to_node).
  split; [apply init_runs | split; [apply service_runs | split; [apply delivery_io; apply to_node_runs|]]].
  assert (H : exists s, run (repeat 0 (List.length (init_run 1)) ++ repeat 1 10 ++ repeat 2 3)
                (start [init_run 1; brief (LStorage 1) ++ object_run; delivery to_node]) = Some s
    /\ holds s 1 (LSdo 1) /\ holds s 1 (LData 1 hb_object) /\ asks s 1 (LReader (RSdo 1)) /\ holds s 2 LFrames
    /\ asks s 2 (LData 1 hb_object)).
  { exists (after (repeat 0 (List.length (init_run 1)) ++ repeat 1 10 ++ repeat 2 3)
                  [init_run 1; brief (LStorage 1) ++ object_run; delivery to_node]).
    split; [vm_compute; reflexivity|].
    split; [|split; [|split; [|split]]]; do 2 eexists.
    - split; [vm_compute; reflexivity | left; reflexivity].
    - split; [vm_compute; reflexivity | right; left; reflexivity].
    - vm_compute; reflexivity.
    - split; [vm_compute; reflexivity | right; left; reflexivity].
    - vm_compute; reflexivity. }
  destruct H as (s & Hr & H1 & H2 & H3 & H4 & H5). exists s. split; [eexists; exact Hr|].
  do 4 (split; [assumption|]). intros sched s' Hr' Hall.
  assert (He : nth_error (ths s') 2 = nth_error (ths s) 2) by exact (waiter_stays _ _ _ _ _ _ H5 Hr' Hall).
  split; [|exact He]. destruct H4 as (h & t & Hn & Hl). exists h, t. rewrite He. auto.
Qed.
Print Assumptions C105_answer_refuted.

(** ** An example: while a node is initialised, a frame arrives for the received
    PDO that is just being created. *)
Definition creation : list op :=
  New (LRpdo 1 0) :: [] ++ [Acq LFrames; Reg CFrames (HRpdo 1 0); Rel LFrames; Rel (LRpdo 1 0); Reg (CRpdos 1) (HSync 1 0)].
Definition service_run : list op :=
  [Acq LChain; Acq LFrames; Reg CFrames (HNmt 1); Rel LFrames; Acq (LNode 1)]
  ++ brief (LStorage 1) ++ brief LDriver ++ brief (LCond 1) ++ [Rel (LNode 1); Acq (LMapper 1)]
  ++ creation ++ [Rel (LMapper 1)] ++ brief (LStorage 1)
  ++ [Acq (LNode 1)] ++ brief LDriver ++ brief (LCond 1) ++ [Rel (LNode 1)]
  ++ brief LTimer ++ [Rel LChain].
Lemma service_history : history call service_run.
Proof.
  rewrite <- (app_nil_r service_run). eapply h_call with (r := true); [apply call_init | | constructor].
  eapply with_eq.
  - eapply seq_eq; [|apply run_skip | reflexivity]. eapply r_try.
    eapply seq_eq; [|apply r_alt2; apply run_touch | reflexivity].
    eapply r_rep; [|constructor]. eapply r_try. apply r_alt1. apply r_any with 1. apply r_alt1.
    eapply seq_eq; [eapply with_eq; [constructor | reflexivity] | | reflexivity].
    eapply seq_eq; [apply run_skip | | reflexivity]. eapply seq_eq; [constructor | | reflexivity].
    eapply seq_eq; [eapply with_eq; [|reflexivity] | | reflexivity].
    { eapply seq_eq; [apply run_storage | | reflexivity]. eapply seq_eq; [apply run_send | | reflexivity].
      eapply seq_eq; [apply run_wait_for | apply pre_nop; [apply run_wr | apply run_skip] | reflexivity]. }
    eapply seq_eq; [eapply with_eq; [|reflexivity] | | reflexivity].
    { eapply seq_eq; [constructor | | reflexivity]. eapply seq_eq; [|apply pre_nop; [apply run_wr | constructor] | reflexivity].
      eapply r_rep; [|constructor]. apply r_any with 0. eapply r_try. apply r_create. constructor. }
    eapply seq_eq; [apply run_storage | | reflexivity]. eapply seq_eq; [constructor | | reflexivity].
    eapply with_eq; [|reflexivity]. apply pre_nop; [apply run_rd|]. eapply seq_eq; [apply run_send | apply run_wait_for | reflexivity].
  - reflexivity.
Qed.
Definition to_rpdo (h : handler) : option (list op) :=
  match h with HRpdo 1 0 => Some (brief (LRpdo 1 0)) | _ => None end.
Lemma to_rpdo_runs : forall h b, to_rpdo h = Some b -> runs (handle h) true b \/ runs (handle h) false b.
Proof.
  intros [| |[|[|n]] [|i]| | | |] b; cbn; try discriminate. intro He. inversion He; subst. left.
  apply (r_seq _ _ [] (brief _)); [constructor | apply run_touch].
Qed.

Example C105_example :
  Forall (history call) [service_run; delivery to_rpdo] /\ distinct_objects [service_run; delivery to_rpdo]
  /\ exists s, reach (start [service_run; delivery to_rpdo]) s /\ waits s 1 0 /\ unfinished s 1 /\ moves s 0.
Proof.
  split; [|split].
  - constructor; [apply service_history | constructor; [|constructor]].
    rewrite <- (app_nil_r (delivery to_rpdo)). eapply h_call with (r := true); [apply call_io | | constructor].
    rewrite <- (app_nil_r (delivery to_rpdo)). eapply r_rep; [|constructor]. apply r_alt2. eapply r_try.
    apply (r_with LFrames (Dispatch CFrames) true [Calls CFrames to_rpdo]). constructor. apply to_rpdo_runs.
  - unfold distinct_objects. cbn. constructor; [intros [] | constructor].
  - exists (after (repeat 0 17 ++ [1; 1]) [service_run; delivery to_rpdo]). split; [|split; [|split]].
    + exists (repeat 0 17 ++ [1; 1]). vm_compute. reflexivity.
    + eapply waits_now; [vm_compute; reflexivity | vm_compute; reflexivity | cbn [In]; auto].
    + do 2 eexists. split; [vm_compute; reflexivity | discriminate].
    + vm_compute. discriminate.
Qed.
