(** C63: admission of controller switches. C64: their execution. *)
From Coq Require Import ZArith List Bool Lia Permutation.
From Verif Require Import Base HandleModel HandleSpec HandleProofs RobotModel RobotSpec RobotProofs RobotSwitchProofs.
Import ListNotations.
Local Open Scope Z_scope.

(** A switch is accepted exactly if all controllers to stop are registered and each controller to
    start is startable: each claimed joint exists, the mode required for it fits to the claimed
    interface, is offered by the joint, and is active or can be entered; and different
    interfaces are claimed only with modes listed for joints. *)
Theorem C63_accepted_iff : forall ps env order starts stops x,
  fst (prepare_switch ps env order starts stops x) = true <->
  (forall c, In c stops -> known x c) /\ (forall c, In c starts -> startable x (ps (cname c)) c).
Proof. exact accepted_iff. Qed.
Print Assumptions C63_accepted_iff.

(** In an accepted switch no controller claims a joint for two interfaces, if motors do not
    support No_Mode as a mode (Motor402 does not, motor.cpp:267-272). *)
Theorem C63_one_interface : forall ps env order starts stops x c i i' j,
  reached x -> (forall j, sup (hands x j) 0 = false) ->
  fst (prepare_switch ps env order starts stops x) = true ->
  In c starts -> claims_joint c i j -> claims_joint c i' j ->
  i = i' /\ exists k, i = IJoint k.
Proof.
  intros ps env order starts stops x c i i' j R Z0 A I C C'.
  apply reached_inv in R. destruct R as (P & _).
  apply accepted_iff in A. destruct A as (_ & A). destruct (A c I) as (B & _).
  destruct (B _ _ C) as (_ & m & Q & F & (S & O) & _). destruct (B _ _ C') as (_ & m' & Q' & F' & _).
  assert (m' = m) by (apply get_mode_spec in Q; apply get_mode_spec in Q'; congruence). subst m'.
  destruct (command (cmds (hands x j)) m) as [k|] eqn:E; [|congruence].
  destruct (proj2 (P j) m k E) as [(-> & _)|(l & _ & L)]; [congruence|].
  rewrite (F l L), (F' l L). split; [reflexivity|eauto].
Qed.
Print Assumptions C63_one_interface.

(** A rejected switch changes no joint and stops no controller.
    Missing: see C63_rejected_refuted. *)
Theorem C63_rejected_partial : forall ps env order starts stops x,
  fst (prepare_switch ps env order starts stops x) = false ->
  hands (snd (prepare_switch ps env order starts stops x)) = hands x /\
  present (snd (prepare_switch ps env order starts stops x)) = present x /\
  stopping (snd (prepare_switch ps env order starts stops x)) = stopping x.
Proof. exact rejected. Qed.
Print Assumptions C63_rejected_partial.

Definition ex_hand : hand := register_handles (new_handle 0 true (fun m => (m =? 8) || (m =? 9))).
Definition ex_robot : robot := new_robot (fun j => (j =? 1) || (j =? 2)) (fun _ => ex_hand).
Definition all_8 (c : Z) : params := mkParams (Some 8) None true.
Definition all_9 (c : Z) : params := mkParams (Some 9) None true.
Definition works (n : nat) : entered := Entered.
Definition pos_ctrl (c : Z) (js : list Z) : controller := mkCtrl c [(IJoint KPos, js)].
Definition vel_ctrl (c : Z) (js : list Z) : controller := mkCtrl c [(IJoint KVel, js)].

Lemma pair_true (p : bool * robot) : fst p = true -> p = (true, snd p).
Proof. destruct p. cbn. now intros ->. Qed.

Lemma ex_reached : reached ex_robot.
Proof.
  exists (fun j => (j =? 1) || (j =? 2)), (fun _ => ex_hand), []. split; [|reflexivity].
  intros j. now exists 0, true, (fun m => (m =? 8) || (m =? 9)).
Qed.

(** A rejected switch does change something: the controllers that come before the rejected one
    count as started, so that a later request to stop one is accepted. *)
Theorem C63_rejected_refuted : exists ps env order starts x c,
  reached x /\ fst (prepare_switch ps env order starts [] x) = false /\
  fst (prepare_switch ps env order [] [c] x) = false /\
  fst (prepare_switch ps env order [] [c] (snd (prepare_switch ps env order starts [] x))) = true.
Proof.
  exists all_8, works, (fun l => l), [pos_ctrl 100 [1]; pos_ctrl 101 [3]], ex_robot, (pos_ctrl 100 [1]).
  split; [apply ex_reached|]. repeat split; vm_compute; reflexivity.
Qed.
Print Assumptions C63_rejected_refuted.

(** What a controller is started with are exactly its claimed joints with the modes required
    for them, if it was not known before.
    Missing: see C63_stale_refuted. *)
Theorem C63_required_partial : forall ps env order starts stops x y c d,
  prepare_switch ps env order starts stops x = (true, y) ->
  In c starts -> NoDup (map cname starts) -> ~ known x c ->
  (has_data y (cname c) d <->
   exists i j m, claims_joint c i j /\ required (ps (cname c)) j m /\ d = mkSd j m (plimits (ps (cname c)))).
Proof.
  intros ps env order starts stops x y c d E I N K.
  assert (A : fst (prepare_switch ps env order starts stops x) = true) by now rewrite E.
  apply accepted_iff in A. destruct A as (_ & A). specialize (A c I). destruct A as (A & _).
  apply prepare_accepted in E. destruct E as (f & ts & failed & E1 & E2 & _).
  assert (R : registered (reg y) (cname c) = Some (all_data (ps (cname c)) (claims c))).
  { rewrite E2, check_starts_reg by exact E1.
    unfold known in K. apply registered_none in K. rewrite K.
    assert (F : List.find (fun c' => cname c' =? cname c) starts = Some c).
    { clear - I N. induction starts as [|a t IH]; [destruct I|]. cbn [List.find]. inversion N. subst.
      destruct I as [->|I]; [now rewrite Z.eqb_refl|].
      destruct (cname a =? cname c) eqn:E; [|auto]. exfalso. apply H1. replace (cname a) with (cname c) by lia. now apply in_map. }
    now rewrite F. }
  unfold has_data. rewrite R. split.
  - intros (l & [= <-] & D). unfold all_data in D. apply in_flat_map in D. destruct D as ([i js] & L & D).
    apply in_map_iff in D. destruct D as (j & <- & J). cbn in J.
    assert (CJ : claims_joint c i j) by (exists js; auto).
    destruct (A i j CJ) as (_ & m & Q & _). exists i, j, m. split; [exact CJ|]. split; [exact Q|].
    unfold data_of. apply get_mode_spec in Q. now rewrite Q.
  - intros (i & j & m & (js & L & J) & Q & ->). eexists. split; [reflexivity|]. unfold all_data.
    apply in_flat_map. exists (i, js). split; [exact L|]. apply in_map_iff. exists j. split; [|exact J].
    unfold data_of. apply get_mode_spec in Q. now rewrite Q.
Qed.
Print Assumptions C63_required_partial.

(** A controller that was started before is started with its old modes, whatever is claimed and
    required now: required is mode 9, the joint runs in mode 8. *)
Theorem C63_stale_refuted : exists x ps env order c y, reached x /\ shuffles order /\
  prepare_switch ps env order [c] [] x = (true, y) /\
  (forall i j, claims_joint c i j -> i = IJoint KVel /\ j = 1) /\ claims_joint c (IJoint KVel) 1 /\
  required (ps (cname c)) 1 9 /\ mode (hands (do_switch [c] y) 1) = 8.
Proof.
  set (x0 := rrun [RPrepare all_8 works (fun l => l) [pos_ctrl 100 [1]] []; RDo [pos_ctrl 100 [1]];
                   RPrepare all_8 works (fun l => l) [] [pos_ctrl 100 [1]]] ex_robot).
  exists x0, all_9, works, (fun l => l), (vel_ctrl 100 [1]), (snd (prepare_switch all_9 works (fun l => l) [vel_ctrl 100 [1]] [] x0)).
  split.
  { exists (fun j => (j =? 1) || (j =? 2)), (fun _ => ex_hand), [RPrepare all_8 works (fun l => l) [pos_ctrl 100 [1]] []; RDo [pos_ctrl 100 [1]];
                   RPrepare all_8 works (fun l => l) [] [pos_ctrl 100 [1]]]. split; [|reflexivity].
    intros j. now exists 0, true, (fun m => (m =? 8) || (m =? 9)). }
  split; [intros l; apply Permutation_refl|]. split; [apply pair_true; vm_compute; reflexivity|]. split.
  { intros i j (js & [H|[]] & J). injection H as <- <-. destruct J as [<-|[]]. auto. }
  split; [exists [1]; split; now left|]. split; [|vm_compute; reflexivity].
  right. split; [reflexivity|]. discriminate.
Qed.
Print Assumptions C63_stale_refuted.

(** An accepted switch, executed without interference: each controller is either started, that
    is all its joints run in their modes, are connected and forward commands; or it is given to
    stopControllers and all its joints are stopped. The joints of stopped controllers that are
    not started again are stopped, all other joints are left alone.
    Missing: joints whose motors change their mode in between, see C64_interrupted_refuted. *)
Theorem C64_switch_partial : forall ps env order starts stops x y, reached x -> shuffles order ->
  prepare_switch ps env order starts stops x = (true, y) -> exclusive y (map cname starts) ->
  exists failed failed', stopping y = stopping x ++ failed /\ stopping (do_switch starts y) = stopping y ++ failed' /\
  incl failed' failed /\
  (forall c, In c starts ->
     (In (cname c) failed /\ forall j, has_joint y (cname c) j -> stopped (hands (do_switch starts y) j)) \/
     (~ In (cname c) failed /\ forall d, has_data y (cname c) d ->
        runs (smode d) (hands (do_switch starts y) (sjoint d)) /\ fwd (hands (do_switch starts y) (sjoint d)) = true /\
        lim (hands (do_switch starts y) (sjoint d)) = slimits d)) /\
  (forall c j, In c stops -> has_joint y (cname c) j -> (forall c', In c' starts -> ~ has_joint y (cname c') j) ->
     stopped (hands (do_switch starts y) j)) /\
  (forall j, (forall c, In c starts \/ In c stops -> ~ has_joint y (cname c) j) -> hands (do_switch starts y) j = hands x j).
Proof. exact switched. Qed.
Print Assumptions C64_switch_partial.

(** Between the two parts of a switch no joint of it gives commands to its motor. *)
Theorem C64_silent : forall ps env order starts stops x y c j, reached x -> shuffles order ->
  prepare_switch ps env order starts stops x = (true, y) -> exclusive y (map cname starts) ->
  In c starts -> has_joint y (cname c) j -> silent (hands y j).
Proof.
  intros ps env order starts stops x y c j R O E X I J.
  destruct (prepared _ _ _ _ _ _ _ R O E X) as (failed & _ & H & _).
  assert (P : rinv y).
  { replace y with (rstep x (RPrepare ps env order starts stops)) by (cbn; now rewrite E). apply rinv_step, reached_inv, R. }
  destruct (H c I) as [(_ & K)|(_ & K)].
  - right. now apply K.
  - destruct J as (d & D & <-). eapply started_silent; [apply P|apply K, D].
Qed.
Print Assumptions C64_silent.

(** No controller fails if all motors enter their modes and the joints have commands for them. *)
Theorem C64_all_start : forall ps order starts stops x y,
  prepare_switch ps works order starts stops x = (true, y) ->
  (forall c d, In c starts -> has_data y (cname c) d -> command (cmds (hands x (sjoint d))) (smode d) <> None) ->
  stopping y = stopping x.
Proof.
  intros ps order starts stops x y E C. apply prepare_accepted in E.
  destruct E as (f & ts & failed & _ & _ & E & _ & S & _).
  pose proof (perform_ok works (reg y) (map cname starts) (fun _ => eq_refl) 0 (hands x) (stop_set (reg y) stops)) as K.
  rewrite E in K. cbn in K. rewrite S, K, app_nil_r; [reflexivity|].
  intros n d I D. apply in_map_iff in I. destruct I as (c & <- & I). apply (C c d I). now apply has_data_iff.
Qed.
Print Assumptions C64_all_start.

(** In the second part a controller fails only if a motor is not in the mode that was entered,
    and the joint of this motor is stopped, whatever the motors did in between. *)
Theorem C64_failing_joint : forall x starts c, reached x -> exclusive x (map cname starts) ->
  (forall c, In c starts -> known x c) ->
  forall failed, stopping (do_switch starts x) = stopping x ++ failed -> In c failed ->
  exists d, has_data x c d /\ mode (hands x (sjoint d)) <> smode d /\ stopped (hands (do_switch starts x) (sjoint d)).
Proof.
  intros x starts c R X K failed. apply reached_inv in R. destruct R as (P & _). unfold do_switch.
  destruct (do_starts (reg x) (map cname starts) (hands x)) as [f' failed'] eqn:E. cbn. intros S I.
  apply app_inv_head in S. subst failed'.
  destruct (do_starts_spec (reg x) (map cname starts) (hands x) P (exclusive_apart _ _ X)) with (f' := f') (failed := failed)
    as (_ & _ & D & _); [|exact E|].
  - intros n J. apply in_map_iff in J. destruct J as (c' & <- & J). intros N. apply registered_none in N. apply N, K, J.
  - apply D in I. destruct I as (_ & d & D1 & D2). exists d. split; [now apply has_data_iff|exact D2].
Qed.
Print Assumptions C64_failing_joint.

(** If the motor of the second joint loses its mode between the two parts, the controller fails,
    but its first joint keeps running and forwards commands. *)
Theorem C64_interrupted_refuted : exists x starts c j, reached x /\ exclusive x (map cname starts) /\
  In c starts /\ In (cname c) (stopping (do_switch starts x)) /\ ~ In (cname c) (stopping x) /\
  has_joint x (cname c) j /\ mode (hands (do_switch starts x) j) = 8 /\
  jh (hands (do_switch starts x) j) = Some KPos /\ fwd (hands (do_switch starts x) j) = true.
Proof.
  set (l := [RPrepare all_8 works (fun l => l) [pos_ctrl 100 [1; 2]] [];
             REnv (fun j => if j =? 2 then ex_hand else with_mode 8 ex_hand)]).
  exists (rrun l ex_robot), [pos_ctrl 100 [1; 2]], (pos_ctrl 100 [1; 2]), 1.
  split.
  { exists (fun j => (j =? 1) || (j =? 2)), (fun _ => ex_hand), l. split; [|reflexivity].
    intros j. now exists 0, true, (fun m => (m =? 8) || (m =? 9)). }
  split; [repeat constructor|]. split; [now left|]. split; [vm_compute; now left|]. split; [vm_compute; intros []|].
  split; [apply has_joint_iff; vm_compute; now left|].
  repeat split; vm_compute; reflexivity.
Qed.
Print Assumptions C64_interrupted_refuted.

(** Two position controllers are started, the motor of joint 2 fails, the other works. *)
Definition second_fails (n : nat) : entered := match n with 1%nat => Failed 0 | _ => Entered end.
Definition ex_starts : list controller := [pos_ctrl 100 [1]; pos_ctrl 101 [2]].
Definition ex_prepared : robot := snd (prepare_switch all_8 second_fails (fun l => l) ex_starts [] ex_robot).
Example ex_switch :
  reached ex_robot /\ shuffles (fun l => l) /\
  prepare_switch all_8 second_fails (fun l => l) ex_starts [] ex_robot = (true, ex_prepared) /\
  exclusive ex_prepared (map cname ex_starts) /\
  stopping ex_prepared = [101] /\
  mode (hands (do_switch ex_starts ex_prepared) 1) = 8 /\ fwd (hands (do_switch ex_starts ex_prepared) 1) = true /\
  mode (hands (do_switch ex_starts ex_prepared) 2) = 0.
Proof.
  split; [apply ex_reached|]. split; [intros l; apply Permutation_refl|]. split; [apply pair_true; vm_compute; reflexivity|].
  split; [|repeat split; vm_compute; reflexivity].
  repeat constructor. intros j H H'. apply has_joint_iff in H. apply has_joint_iff in H'.
  change (In j [1]) in H. change (In j [2]) in H'. cbn in *. lia.
Qed.
Example ex_startable : startable ex_robot (all_8 100) (pos_ctrl 100 [1; 2]) /\ ~ startable ex_robot (all_8 100) (vel_ctrl 100 [1]).
Proof.
  split.
  - exact (proj2 (proj1 (accepted_iff all_8 works (fun l => l) [pos_ctrl 100 [1; 2]] [] ex_robot) ltac:(vm_compute; reflexivity)) _ (or_introl eq_refl)).
  - intros S. assert (fst (prepare_switch all_8 works (fun l => l) [vel_ctrl 100 [1]] [] ex_robot) = true).
    { apply accepted_iff. split; [intros c []|]. intros c [<-|[]]. exact S. }
    vm_compute in H. discriminate.
Qed.
Example ex_no_mode : forall j, sup (hands ex_robot j) 0 = false.
Proof. reflexivity. Qed.
Example ex_unknown : ~ known ex_robot (pos_ctrl 100 [1]) /\ NoDup (map cname ex_starts).
Proof. split; [intros []|]. repeat constructor; cbn; lia. Qed.
