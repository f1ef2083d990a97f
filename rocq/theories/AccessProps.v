(** Threads do not use data at the same time (C106). *)
From Coq Require Import List Arith Bool Lia.
From Verif Require Import LockModel LockSpec LockOrder LockProofs LockProps AccessSpec AccessProofs AccessInv.
Import ListNotations.

(** C106. Any number of threads make any calls: no two of them ever use the same
    data at the same time, if one of them writes it.  Left out of this theorem
    is the data of [exposed], for which the claim is false, see below. *)
Theorem C106_no_races_partial : forall todos s v,
  Forall (history full_call) todos -> distinct_objects todos -> reach (start todos) s ->
  ~ exposed v -> ~ race s v.
Proof.
  intros todos s v Hf Hd [sched Hr] Hv. destruct (rrun _ _ _ _ (rstart _ Hf Hd) Hr) as [E Hi]. exact (no_race _ _ _ Hi Hv).
Qed.
Print Assumptions C106_no_races_partial.

(** C106. A mutex has one holder, also the mutex of a received PDO that is taken
    when the object is made. *)
Theorem C106_one_holder : forall todos s i j l,
  Forall (history full_call) todos -> distinct_objects todos -> reach (start todos) s ->
  holds s i l -> holds s j l -> i = j.
Proof.
  intros todos s i j l Hf Hd [sched Hr]. destruct (rrun _ _ _ _ (rstart _ Hf Hd) Hr) as [E Hi]. exact (one_holder _ _ _ _ _ Hi).
Qed.
Print Assumptions C106_one_holder.

(** ** Races *)

Lemma once : forall p t, full_call p -> runs p true t -> history full_call t.
Proof. intros p t Hp Hr. rewrite <- (app_nil_r t). apply h_call with (p := p) (r := true); [exact Hp | exact Hr | constructor]. Qed.

Definition next_touch (s : sys) (i : nat) : option (var * bool) :=
  match nth_error (ths s) i with Some (_, o :: _) => touches o | _ => None end.
Lemma next_access : forall s i v w, next_touch s i = Some (v, w) -> at_access s i v w.
Proof.
  intros s i v w H. unfold next_touch in H. destruct (nth_error (ths s) i) as [[h [|o t]]|] eqn:Hn; try discriminate.
  exists h, o, t. auto.
Qed.

Lemma race_among : forall sched todos i j v w, i <> j ->
  run sched (start todos) = Some (after sched todos) ->
  next_touch (after sched todos) i = Some (v, true) -> next_touch (after sched todos) j = Some (v, w) ->
  forall others, exists s', reach (start (todos ++ others)) s' /\ race s' v.
Proof.
  intros sched todos i j v w Hij. generalize (after sched todos). intros s Hr H1 H2 others.
  assert (Hk : forall k x, next_touch s k = Some x -> next_touch (mkSys (ths s ++ idle others) (regs s)) k = Some x).
  { intros k x. unfold next_touch. cbn [ths]. destruct (nth_error (ths s) k) as [y|] eqn:Hn; [|discriminate].
    rewrite nth_error_app1; [rewrite Hn; auto | apply nth_error_Some; congruence]. }
  exists (mkSys (ths s ++ idle others) (regs s)). split.
  - exists sched. rewrite start_app. apply run_idle. exact Hr.
  - exists i, j, w. split; [exact Hij|]. split; apply next_access; apply Hk; assumption.
Qed.

(** Data is written or read once. *)
Lemma run_wr1 : forall v, runs (Wr v) true [Do v true].
Proof. intro v. apply (r_wr v [true]). Qed.
Lemma run_rd1 : forall v, runs (Rd v) true [Do v false].
Proof. intro v. apply (r_rd v 1). Qed.

(** The shutdown service; [t] is what the layers do. *)
Definition shutdown_run (t : list op) : list op := [Acq LChain; Acq LDiag] ++ brief LTimer ++ t ++ [Rel LDiag; Rel LChain].
Lemma shutdown_runs : forall p r t, runs p r t -> p = can_shutdown \/ p = manager_change -> runs srv_shutdown true (shutdown_run t).
Proof.
  intros p r t Hr Hp. assert (Hs : runs shutdown_pass true t).
  { rewrite <- (app_nil_r t). apply r_rep; [|constructor]. apply r_try with r. apply r_alt2. destruct Hp as [Hp|Hp]; subst p; [apply r_alt1 | apply r_alt2]; exact Hr. }
  apply with_eq with (t := Acq LDiag :: (brief LTimer ++ t) ++ [Rel LDiag]).
  - apply pre_nop; [constructor|]. apply r_with. apply r_seq; [apply run_touch|]. apply post_nop; [exact Hs | apply run_skip].
  - unfold shutdown_run. cbn. rewrite <- app_assoc. reflexivity.
Qed.
Definition can_shutdown_run : list op :=
  brief LDriver ++ brief LStateD ++ [Acq LFrames; Unreg CFrames HCan; Rel LFrames] ++ [Do VSocket true]
  ++ brief (LWaiter 0) ++ brief LDrv ++ brief LStateD.
Lemma can_shutdown_runs : runs can_shutdown true can_shutdown_run.
Proof.
  apply (r_seq _ _ (brief LDriver ++ brief LStateD)); [apply r_seq; [apply run_look | apply run_touch]|].
  apply (r_seq _ _ ([Acq LFrames; Unreg CFrames HCan; Rel LFrames] ++ [Do VSocket true] ++ brief (LWaiter 0) ++ brief LDrv)); [|apply run_touch].
  apply r_try with true. apply r_seq; [apply (r_with LFrames _ true [Unreg CFrames HCan]); constructor|].
  apply r_seq; [apply run_wr1|]. apply r_seq; [|apply (r_with LDrv Nop true []); constructor].
  apply r_any with 0. apply post_nop; [apply run_look | constructor].
Qed.

(** The driver thread reads from its socket. *)
Definition read_run : list op := [Acq LSend; Do VSocket true; Rel LSend].
Lemma read_history : history full_call read_run.
Proof.
  apply once with io_work; [apply full_of; apply call_io|].
  apply (r_rep _ true read_run []); [|constructor]. apply r_alt1. apply pre_nop; [constructor|].
  apply (r_with LSend _ true [Do VSocket true]). apply run_wr1.
Qed.

(** Shutting the driver down closes the socket without a mutex
    (asio_base.h 24-30), while its thread reads from it or another thread sends. *)
Theorem C106_socket_refuted : can_race VSocket.
Proof.
  exists [shutdown_run can_shutdown_run; read_run]. split; [|split].
  - constructor; [|constructor; [apply read_history | constructor]].
    apply once with srv_shutdown; [apply full_of; apply call_shutdown|]. eapply shutdown_runs; [apply can_shutdown_runs | left; reflexivity].
  - unfold distinct_objects. cbn. constructor.
  - apply (race_among (repeat 0 11 ++ [1]) _ 0 1 VSocket true); [discriminate | | |]; vm_compute; reflexivity.
Qed.
Print Assumptions C106_socket_refuted.

(** Initialising a node sets the SDO client up, without its mutex (sdo.cpp
    373-396).  A service that reads an object meanwhile uses the same members. *)
Definition sdo_init_run (n : nat) : list op := Do (VSdo n) true :: listen_run (RSdo n).
Lemma sdo_init_runs1 : forall n, runs (sdo_init n) true (sdo_init_run n).
Proof. intro n. apply (r_seq _ _ [_]); [apply run_wr1 | apply listen_runs]. Qed.
(** Node::handleInit: [a] is what the first call of SDOClient::init does, [m]
    what is done to create the PDOs. *)
Definition node_init_run (n : nat) (a m : list op) : list op :=
  [Acq LFrames; Reg CFrames (HNmt n); Rel LFrames] ++ a
  ++ (Acq (LNode n) :: (brief (LStorage n) ++ brief LDriver ++ brief (LCond n)) ++ [Rel (LNode n)])
  ++ (Acq (LMapper n) :: m ++ [Rel (LMapper n)]) ++ brief (LStorage n) ++ sdo_init_run n
  ++ (Acq (LNode n) :: (brief LDriver ++ brief (LCond n)) ++ [Rel (LNode n)]).
Lemma node_init_runs : forall n a m, runs (sdo_init n) true a -> runs (Rep (Any (fun i => rpdo_create n i))) true m ->
  runs (node_init n) true (node_init_run n a m).
Proof.
  intros n a m Ha Hm. unfold node_init, node_init_with, node_init_run.
  apply r_seq; [apply (r_with LFrames _ true [Reg CFrames (HNmt n)]); constructor|].
  apply pre_nop; [apply run_skip|]. apply r_seq; [exact Ha|].
  apply r_seq.
  { apply r_with. apply r_seq; [apply run_storage|]. apply r_seq; [apply run_send|].
    apply post_nop; [apply run_wait_for|]. apply pre_nop; [apply run_wr | apply run_skip]. }
  apply r_seq.
  { apply r_with. apply pre_nop; [constructor|]. apply post_nop; [exact Hm|]. apply pre_nop; [apply run_wr | constructor]. }
  apply r_seq; [apply run_storage|]. apply r_seq; [apply sdo_init_runs1|].
  apply r_with. apply pre_nop; [apply run_rd|]. apply r_seq; [apply run_send | apply run_wait_for].
Qed.

(** A service reads object 1 of node 1 by SDO. *)
Definition sdo_read : list op :=
  [Acq (LData 1 1); Acq (LSdo 1); Do (VSdo 1) true] ++ brief (LReader (RSdo 1)) ++ brief LDriver ++ brief (LReader (RSdo 1))
  ++ [Rel (LSdo 1); Rel (LData 1 1)].
Definition by_service (t : list op) : list op := brief (LStorage 1) ++ t.
Lemma service_history1 : forall t, runs (data 1 1) true t -> history full_call (by_service t).
Proof.
  intros t Ht. apply once with srv_object; [apply full_of; apply call_object|]. apply r_any with 1. apply r_seq; [apply run_storage|]. apply r_any with 1. exact Ht.
Qed.
Lemma sdo_read_runs : runs (data 1 1) true sdo_read.
Proof.
  eapply with_eq.
  - apply pre_nop; [apply run_wr|]. apply post_nop; [|apply pre_nop; [apply run_wr | apply pre_nop; [apply run_skip | apply run_wr]]].
    apply r_alt1. apply r_alt1. apply r_alt1.
    eapply with_eq.
    + eapply seq_eq; [apply run_wr1 | | reflexivity]. eapply seq_eq; [apply run_touch | | reflexivity].
      eapply seq_eq; [eapply r_try; apply pre_nop; [apply run_wr|]; apply post_nop; [apply run_send | constructor] | | reflexivity].
      apply pre_nop; [apply run_wr | apply run_touch].
    + reflexivity.
  - reflexivity.
Qed.

Theorem C106_sdo_refuted : can_race (VSdo 1).
Proof.
  exists [node_init_run 1 (sdo_init_run 1) []; by_service sdo_read]. split; [|split].
  - constructor; [|constructor; [apply service_history1; apply sdo_read_runs | constructor]].
    apply once with (node_init 1); [apply full_node|]. apply node_init_runs; [apply sdo_init_runs1 | constructor].
  - unfold distinct_objects. cbn. constructor.
  - apply (race_among (repeat 0 3 ++ repeat 1 4) _ 0 1 (VSdo 1) true); [discriminate | | |]; vm_compute; reflexivity.
Qed.
Print Assumptions C106_sdo_refuted.

(** When the objects of a PDO are mapped, the delegates that use the new buffers
    are set first; then the buffers are marked clean, without their mutexes (pdo.cpp
    143, canopen.h 80).  A service that writes such an object meanwhile marks
    its buffer dirty. *)
Definition buffer_write : list op := [Acq (LData 1 1); Acq (LBuf 1 0); Do (VDirty 1 0) true; Rel (LBuf 1 0); Rel (LData 1 1)].
Lemma buffer_write_runs : runs (data 1 1) true buffer_write.
Proof.
  eapply with_eq.
  - apply pre_nop; [apply run_wr|]. apply post_nop; [|apply pre_nop; [apply run_wr | apply pre_nop; [apply run_skip | apply run_wr]]].
    apply r_alt1. apply r_alt2. apply r_any with 0. apply (r_with (LBuf 1 0) _ true [Do (VDirty 1 0) true]). apply pre_nop; [apply run_wr | apply run_wr1].
  - reflexivity.
Qed.
Definition rpdo_run : list op :=
  (New (LRpdo 1 0) :: [Do (VDirty 1 0) true] ++ [Acq LFrames; Reg CFrames (HRpdo 1 0); Rel LFrames; Rel (LRpdo 1 0); Reg (CRpdos 1) (HSync 1 0)]) ++ [].
Lemma rpdo_runs : runs (Rep (Any (fun i => rpdo_create 1 i))) true rpdo_run.
Proof.
  apply r_rep; [|constructor]. apply r_any with 0. eapply r_try. apply r_create. 
  apply (r_rep _ true [_] []); [|constructor]. apply r_any with 0. do 3 apply r_alt2. apply run_wr1.
Qed.
Theorem C106_dirty_refuted : can_race (VDirty 1 0).
Proof.
  exists [node_init_run 1 (sdo_init_run 1) rpdo_run; by_service buffer_write]. split; [|split].
  - constructor; [|constructor; [apply service_history1; apply buffer_write_runs | constructor]].
    apply once with (node_init 1); [apply full_node|]. apply node_init_runs; [apply sdo_init_runs1 | apply rpdo_runs].
  - unfold distinct_objects. cbn. constructor; [intros [] | constructor].
  - apply (race_among (repeat 0 19 ++ repeat 1 4) _ 0 1 (VDirty 1 0) true); [discriminate | | |]; vm_compute; reflexivity.
Qed.
Print Assumptions C106_dirty_refuted.

(** The loop asks a node for its state under one mutex (node.cpp 39-42), the
    thread of the driver sets it under another (node.cpp 94-121). *)
Definition loop_run (t : list op) : list op := Acq LRun :: t ++ [Rel LRun].
Lemma loop_history_read : forall p r t, runs p r t -> p = node_read 1 \/ p = manager_read -> history full_call (loop_run t).
Proof.
  intros p r t Hr Hp. apply once with chain_run; [apply full_of; apply call_run|]. apply r_with.
  rewrite <- (app_nil_r t). apply r_rep; [|constructor]. apply r_try with true. apply post_nop; [|apply pre_nop; constructor].
  rewrite <- (app_nil_r t). apply r_rep; [|constructor]. apply r_try with r.
  destruct Hp as [Hp|Hp]; subst p; [apply r_alt1; apply r_any with 1; apply r_alt1 | apply r_alt2; apply r_alt2; apply r_alt2]; exact Hr.
Qed.
Lemma loop_history_write : forall r t, runs manager_write r t -> history full_call (loop_run t).
Proof.
  intros r t Hr. apply once with chain_run; [apply full_of; apply call_run|]. apply r_with.
  rewrite <- (app_nil_r t). apply r_rep; [|constructor]. apply r_try with true. apply pre_nop; [constructor|]. apply post_nop; [|constructor].
  rewrite <- (app_nil_r t). apply r_rep; [|constructor]. apply r_try with r. do 3 apply r_alt2. exact Hr.
Qed.
Definition state_read : list op := [Acq (LNode 1); Do (VNode 1) false; Rel (LNode 1)] ++ [Acq (LMapper 1); Calls (CRpdos 1) (fun _ => None); Rel (LMapper 1)].
Lemma state_read_runs : runs (node_read 1) true state_read.
Proof.
  apply pre_nop; [apply pre_nop; apply run_skip|]. apply r_seq; [apply (r_with (LNode 1) _ true [_]); apply run_rd1|].
  apply (r_with (LMapper 1) _ true [_]). constructor. discriminate.
Qed.
Definition nmt_frame (h : handler) : option (list op) :=
  match h with HNmt 1 => Some [Acq (LCond 1); Do (VNode 1) true; Rel (LCond 1)] | _ => None end.
Lemma nmt_runs : forall h b, nmt_frame h = Some b -> runs (handle h) true b \/ runs (handle h) false b.
Proof.
  intros [[|[|n]]| | | | | |] b; cbn; try discriminate. intro He. inversion He; subst. left.
  apply (r_with (LCond 1) _ true [_]). apply pre_nop; [apply run_skip|]. apply pre_nop; [apply run_wr|].
  apply post_nop; [apply run_wr1|]. apply pre_nop; [apply run_skip|]. apply pre_nop; [apply run_wr | apply run_skip].
Qed.
Lemma delivery_history : forall f, (forall h b, f h = Some b -> runs (handle h) true b \/ runs (handle h) false b) -> history full_call (delivery f).
Proof.
  intros f Hf. apply once with io_work; [apply full_of; apply call_io|].
  apply (r_rep _ true (delivery f) []); [|constructor]. apply r_alt2. apply r_try with true. apply (r_with LFrames _ true [_]). constructor. exact Hf.
Qed.
Theorem C106_node_refuted : can_race (VNode 1).
Proof.
  exists [loop_run state_read; delivery nmt_frame; node_init_run 1 (sdo_init_run 1) []]. split; [|split].
  - constructor; [|constructor; [apply delivery_history; apply nmt_runs | constructor; [|constructor]]].
    + eapply loop_history_read; [apply state_read_runs | left; reflexivity].
    + apply once with (node_init 1); [apply full_node|]. apply node_init_runs; [apply sdo_init_runs1 | constructor].
  - unfold distinct_objects. cbn. constructor.
  - apply (race_among (repeat 2 (List.length (node_init_run 1 (sdo_init_run 1) [])) ++ repeat 0 2 ++ repeat 1 3) _ 1 0 (VNode 1) false); [discriminate | | |]; vm_compute; reflexivity.
Qed.
Print Assumptions C106_node_refuted.

(** A mode switch turns the limits of a joint off and on (handle_layer.cpp
    211-215, robot_layer.cpp 106-246) while the loop enforces them (206-210);
    enable_limits_ is a plain bool. *)
Theorem C106_limits_refuted : can_race (VLimits 1).
Proof.
  exists [[Do (VLimits 1) true]; loop_run [Do (VLimits 1) false]]. split; [|split].
  - constructor; [|constructor; [|constructor]].
    + apply once with controller_switch; [apply full_of; apply call_switch|].
      apply (r_rep _ true [_] []); [|constructor]. apply r_any with 1. do 3 apply r_alt2. apply run_wr1.
    + apply loop_history_write with true. apply pre_nop; [apply run_rd|]. apply (r_rep _ true [_] []); [|constructor]. apply r_any with 1. apply run_rd1.
  - unfold distinct_objects. cbn. constructor.
  - apply (race_among [1] _ 0 1 (VLimits 1) false); [discriminate | | |]; vm_compute; reflexivity.
Qed.
Print Assumptions C106_limits_refuted.

(** The shutdown service resets the pointer to the controller manager
    (controller_manager_layer.cpp) while the loop, which is only stopped
    afterwards, uses it. *)
Theorem C106_manager_refuted : can_race VManager.
Proof.
  exists [shutdown_run [Do VManager true]; loop_run [Do VManager false]]. split; [|split].
  - constructor; [|constructor; [|constructor]].
    + apply once with srv_shutdown; [apply full_of; apply call_shutdown|]. eapply shutdown_runs; [apply run_wr1 | right; reflexivity].
    + eapply loop_history_read; [apply run_rd1 | right; reflexivity].
  - unfold distinct_objects. cbn. constructor.
  - apply (race_among (repeat 0 4 ++ [1]) _ 0 1 VManager false); [discriminate | | |]; vm_compute; reflexivity.
Qed.
Print Assumptions C106_manager_refuted.

(** ** An example: a frame for a received PDO is handled while the PDO is
    being made; its data is used by both threads, one after the other. *)
Definition making : list op :=
  (New (LRpdo 1 0) :: ([Do (VRpdo 1 0) true] ++ [Do (VBufs 1 0) true]) ++ [Acq LFrames; Reg CFrames (HRpdo 1 0); Rel LFrames; Rel (LRpdo 1 0); Reg (CRpdos 1) (HSync 1 0)]) ++ [].
Lemma making_runs : runs (Rep (Any (fun i => rpdo_create 1 i))) true making.
Proof.
  apply r_rep; [|constructor]. apply r_any with 0. eapply r_try. apply r_create.
  rewrite <- (app_nil_r (_ ++ _)). apply r_rep; [|constructor]. apply r_any with 0. do 2 apply r_alt2. apply r_alt1. apply r_seq; apply run_wr1.
Qed.
Definition pdo_frame (h : handler) : option (list op) :=
  match h with HRpdo 1 0 => Some ([Do (VBufs 1 0) false] ++ brief (LBuf 1 0) ++ [Acq (LRpdo 1 0); Do (VRpdo 1 0) true; Rel (LRpdo 1 0)]) | _ => None end.
Lemma pdo_frame_runs : forall h b, pdo_frame h = Some b -> runs (handle h) true b \/ runs (handle h) false b.
Proof.
  intros [| |[|[|n]] [|i]| | | |] b; cbn; try discriminate. intro He. inversion He; subst. left.
  apply (r_seq _ _ ([Do (VBufs 1 0) false] ++ brief (LBuf 1 0)) [Acq (LRpdo 1 0); Do (VRpdo 1 0) true; Rel (LRpdo 1 0)]).
  - rewrite <- (app_nil_r (_ ++ _)). apply r_rep; [|constructor]. apply r_any with 0. apply r_seq; [apply run_rd1|].
    apply (r_with (LBuf 1 0) _ true []). apply pre_nop; apply run_wr.
  - apply (r_with (LRpdo 1 0) _ true [_]). apply run_wr1.
Qed.
Example C106_example :
  let todos := [node_init_run 1 (sdo_init_run 1) making; delivery pdo_frame] in
  Forall (history full_call) todos /\ distinct_objects todos
  /\ (exists s, reach (start todos) s /\ at_access s 0 (VBufs 1 0) true)
  /\ (exists s, reach (start todos) s /\ at_access s 1 (VBufs 1 0) false /\ holds s 0 (LRpdo 1 0))
  /\ (exists s, reach (start todos) s /\ at_access s 1 (VRpdo 1 0) true /\ holds s 1 (LRpdo 1 0)).
Proof.
  cbv zeta. split; [|split; [|split; [|split]]].
  - constructor; [|constructor; [apply delivery_history; apply pdo_frame_runs | constructor]].
    apply once with (node_init 1); [apply full_node|]. apply node_init_runs; [apply sdo_init_runs1 | apply making_runs].
  - unfold distinct_objects. cbn. constructor; [intros [] | constructor].
  - exists (after (repeat 0 20) [node_init_run 1 (sdo_init_run 1) making; delivery pdo_frame]). split; [exists (repeat 0 20); vm_compute; reflexivity|].
    apply next_access. vm_compute. reflexivity.
  - exists (after (repeat 0 24 ++ [1; 1]) [node_init_run 1 (sdo_init_run 1) making; delivery pdo_frame]). split; [exists (repeat 0 24 ++ [1; 1]); vm_compute; reflexivity|].
    split; [apply next_access; vm_compute; reflexivity|]. do 2 eexists. split; [vm_compute; reflexivity | left; reflexivity].
  - exists (after (repeat 0 25 ++ repeat 1 6) [node_init_run 1 (sdo_init_run 1) making; delivery pdo_frame]). split; [exists (repeat 0 25 ++ repeat 1 6); vm_compute; reflexivity|].
    split; [apply next_access; vm_compute; reflexivity|]. do 2 eexists. split; [vm_compute; reflexivity | left; reflexivity].
Qed.
