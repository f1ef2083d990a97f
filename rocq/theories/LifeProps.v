(** C78, C79: start and stop of a CAN driver under the CAN layer. *)
From Verif Require Import Base SocketCanModel LifeModel LifeSpec LifeProofs.

(** ** C78 *)

(** An initialisation or recovery that returns without error leaves a working driver that is
    ready. *)
Theorem C78_started : forall o s0 s w, o <> OShutdown -> reachable s0 -> returns o s0 s (false, w) ->
  ds s = Ready /\ working s.
Proof. exact started. Qed.
Print Assumptions C78_started.

(** It works until the next call, whatever happens on the bus. *)
Theorem C78_keeps_working : forall s l, working s -> lp s = Idle -> Forall calm l -> Forall no_call l -> working (run l s).
Proof. exact keeps. Qed.
Print Assumptions C78_keeps_working.

(** A shutdown that returns leaves the driver off, in every interleaving in which no other
    thread is interrupted in setNotReady. *)
Theorem C78_stopped_partial : forall s0 s r, reachable s0 -> returns OShutdown s0 s r -> off s /\ fst r = false.
Proof. exact stopped_off. Qed.
Print Assumptions C78_stopped_partial.

(** A transmission that fails while the layer is shut down leaves the driver open without
    thread. Then no initialisation or recovery can succeed any more. *)
Theorem C78_left_open_refuted : exists l, res (run l sys0) = Some (false, false) /\ lp (run l sys0) = Idle /\
  forall l2, Forall alone l2 -> ds (run l2 (run l sys0)) = Open /\ rt (run l2 (run l sys0)) = RNone.
Proof.
  exists race_open. split; [vm_compute; reflexivity|]. split; [vm_compute; reflexivity|].
  intros l2 H. destruct (left_open l2 H) as (A & _ & B). auto.
Qed.
Print Assumptions C78_left_open_refuted.

Example C78_ex : exists s, reachable s /\ returns OInit sys0 s (false, false) /\
  exists s2, returns ORecover (step s NotReady) s2 (false, false) /\ exists s3, returns OShutdown s2 s3 (false, false).
Proof.
  eexists. split.
  - exists [Call OInit; Layer true; Layer true; Layer true; Layer true; Driver; Driver; Driver; Driver; Driver; Layer true; Layer true].
    split; [repeat constructor|vm_compute; reflexivity].
  - split.
    + exists [Layer true; Layer true; Layer true; Layer true; Driver; Driver; Driver; Driver; Driver; Layer true], true.
      repeat split; repeat constructor.
    + eexists. split.
      * exists [Layer true; Layer true; Layer true; Layer true; Layer true; Driver; Driver; Driver; Driver; Driver; Layer true; Layer true;
                Layer true; Layer true; Layer true; Layer true; Driver; Driver; Driver; Driver; Driver; Layer true], true.
        repeat split; repeat constructor.
      * eexists. exists [Layer true; Layer true; Layer true; Layer true; Driver; Driver; Driver; Driver; Driver; Layer true], true.
        repeat split; repeat constructor.
Qed.

(** ** C79 *)

(** A shutdown of a driver that works or is off returns in every fair schedule. *)
Theorem C79_shutdown_ends_partial : forall s0 rs, reachable s0 -> lp s0 = Idle -> working s0 \/ off s0 ->
  Forall fair rs -> Forall calm (List.concat rs) -> Forall no_call (List.concat rs) -> (12 <= List.length rs)%nat ->
  res (run (Call OShutdown :: List.concat rs) s0) <> None.
Proof. exact shutdown_ends. Qed.
Print Assumptions C79_shutdown_ends_partial.

(** Waits do not miss what they wait for: a wait that ends by its deadline did so in another
    state. *)
Theorem C79_no_lost_wakeup : forall s, reachable s ->
  (lp s = IWait -> ds s = Ready -> err (step s Deadline) = err s) /\
  (forall a, lp s = SWait a -> ds s = Closed -> warn (step s Deadline) = warn s).
Proof. exact no_lost_wakeup. Qed.
Print Assumptions C79_no_lost_wakeup.

Lemma wait_fact2 : all (fun c => implb (inv c) (let '(d, k, p, r, w, l) := c in
  match l with
  | IWait => implb (negb (drv_eqb d Ready)) (match w with Some Ready => false | _ => true end)
  | SWait _ => implb (negb (drv_eqb d Closed)) (match w with Some Closed => false | _ => true end)
  | _ => true
  end)) = true.
Proof. vm_compute. reflexivity. Qed.
(** Whatever a wait missed is reported: an initialisation whose driver does not get ready in time
    has an error, a shutdown whose driver is not closed in time a warning, and so has an
    initialisation that finds the thread of an earlier one. *)
Theorem C79_timed_out : forall s, reachable s ->
  (lp s = IWait -> ds s <> Ready -> err (step s Deadline) = true) /\
  (forall a, lp s = SWait a -> ds s <> Closed -> warn (step s Deadline) = true) /\
  (forall ok, lp s = IThread -> rt s <> RNone -> warn (step s (Layer ok)) = true /\ lp (step s (Layer ok)) = IFinal).
Proof.
  intros s R. pose proof (fact _ wait_fact2 s R) as K. cbn [core_of] in K. split; [|split; [intros a|intros ok]].
  - intros Hl Hd. cbn. unfold deadline. rewrite Hl in *. destruct (copy s) as [[]|], (ds s); try discriminate K; try reflexivity; congruence.
  - intros Hl Hd. cbn. unfold deadline. rewrite Hl in *. destruct (copy s) as [[]|], (ds s); try discriminate K; try reflexivity; congruence.
  - intros Hl Hr. cbn. unfold layer_step. rewrite Hl. destruct (rt s); [congruence|..]; split; reflexivity.
Qed.
Print Assumptions C79_timed_out.
Example C79_timed_out_ex : exists s, reachable s /\ lp s = IWait /\ ds s <> Ready.
Proof.
  exists (run [Call OInit; Layer true; Layer true; Layer true; Layer true] sys0).
  split; [eexists; split; [|reflexivity]; repeat constructor|]. split; [reflexivity|discriminate].
Qed.

(** If the driver's thread is slow at its start and the initialisation times out, the shutdown
    that follows may never return: run() resets the service after it was stopped. *)
Theorem C79_hangs_refuted : exists s, reachable s /\ lp s = SJoin false /\ forall l, lp (run l s) = SJoin false /\ res (run l s) = None.
Proof.
  exists (run race_stuck sys0). split; [exists race_stuck; split; [repeat constructor|reflexivity]|].
  split; [vm_compute; reflexivity|]. intros l. destruct (stuck l) as (A & _ & B). auto.
Qed.
Print Assumptions C79_hangs_refuted.

Example C79_ex : exists s rs, reachable s /\ lp s = Idle /\ working s /\ Forall fair rs /\ Forall calm (List.concat rs) /\
  Forall no_call (List.concat rs) /\ (12 <= List.length rs)%nat /\ exists s2, reachable s2 /\ lp s2 = IWait /\ ds s2 = Ready.
Proof.
  exists (run [Call OInit; Layer true; Layer true; Layer true; Layer true; Driver; Driver; Driver; Driver; Driver; Layer true; Layer true] sys0).
  exists (repeat [NotReady; Driver; Layer false] 12).
  split; [eexists; split; [|reflexivity]; repeat constructor|].
  split; [vm_compute; reflexivity|]. split; [repeat split|].
  split; [apply Forall_forall; intros x Hx; apply repeat_spec in Hx; subst x; split; [cbn; auto|exists false; cbn; auto]|]. split; [repeat constructor|]. split; [repeat constructor|].
  split; [cbn; lia|].
  exists (run [Call OInit; Layer true; Layer true; Layer true; Layer true; Driver; Driver; Driver; Driver; Driver] sys0).
  split; [eexists; split; [|reflexivity]; repeat constructor|]. split; vm_compute; reflexivity.
Qed.
