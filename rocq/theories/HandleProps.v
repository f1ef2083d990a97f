(** C65: commands are forwarded only in the right mode. *)
From Coq Require Import ZArith List Bool Lia.
From Verif Require Import Base HandleModel HandleSpec HandleProofs.
Import ListNotations.
Local Open Scope Z_scope.

(** In every history of a joint whose motor changes its mode only on request: a value is given to
    the motor only by a write in state Ready, forwarding was enabled for the mode the motor is
    in and the mode was not left since, the value is the command this mode follows, converted
    by the expression for this command.
    Missing: modes changed by the motor itself, see C65_reinit_refuted. *)
Theorem C65_forwarded_partial : forall conv x l e v, fresh x -> obedient conv x l ->
  snd (jstep conv (jrun conv l x) e) = Some v ->
  e = JWrite true /\
  exists m k, mode (hd (jrun conv l x)) = m /\ enabled_for conv x l m /\ follows m k /\ v = conv k (cmd (jrun conv l x) k).
Proof. exact forwarded. Qed.
Print Assumptions C65_forwarded_partial.

(** If the motor is initialised again (and so has no mode), the handle still gives commands to it. *)
Theorem C65_reinit_refuted : exists conv x l v, fresh x /\
  snd (jstep conv (jrun conv l x) (JWrite true)) = Some v /\ mode (hd (jrun conv l x)) = 0.
Proof.
  exists (fun _ v => 1000 * v),
    (mkJoint (register_handles (new_handle 0 true (fun m => m =? 8))) (fun _ => 0) (fun _ => 0)),
    [JSwitch 8 Entered; JForward 8; JCommand KPos 5; JMotor 0 true], 5000.
  split; [now exists 0, true, (fun m => m =? 8)|]. split; reflexivity.
Qed.
Print Assumptions C65_reinit_refuted.

(** Conversely, once a mode was entered and forwarding enabled, every write in state Ready gives
    the latest command to the motor, converted, until the mode is switched. *)
Theorem C65_forwards : forall conv x l m r k l1 v l2, fresh x -> obedient conv x l ->
  fst (switch_mode m r (hd (jrun conv l x))) = true -> follows m k ->
  Forall calm l1 -> Forall (keeps_command k) l2 ->
  snd (jstep conv (jrun conv (l ++ JSwitch m r :: JForward m :: l1 ++ JCommand k v :: l2) x) (JWrite true)) = Some (conv k v).
Proof.
  intros conv x l m r k l1 v l2 F O E K C1 C2.
  apply fresh_inv in F. destruct F as (I & _ & _). pose proof (jinv_run _ _ _ I O) as ((W0 & W) & _).
  rewrite jrun_app. set (y := jrun conv l x) in *.
  pose proof (switch_mode_true _ _ _ E) as (M & J).
  set (y1 := fst (jstep conv y (JSwitch m r))).
  set (y2 := fst (jstep conv y1 (JForward m))).
  change (jrun conv (JSwitch m r :: JForward m :: l1 ++ JCommand k v :: l2) y)
    with (jrun conv (l1 ++ JCommand k v :: l2) y2).
  assert (Y2 : fwd (hd y2) = true /\ jh (hd y2) = Some k).
  { subst y2 y1. cbn [jstep fst hd]. unfold forward_for. rewrite M, Z.eqb_refl. cbn. split; [reflexivity|].
    apply W in J. destruct J as [(J & _)|(k' & J & J')]; [subst m; inversion K|].
    rewrite J. f_equal. eapply follows_fun; eauto. }
  destruct Y2 as (F2 & J2).
  assert (C : Forall calm (l1 ++ JCommand k v :: l2)).
  { apply Forall_app. split; [exact C1|]. constructor; [exact Logic.I|].
    eapply Forall_impl; [|exact C2]. intros []; cbn; try tauto. }
  destruct (calm_run conv y2 _ C F2) as (_ & J3 & F3). cbn [jstep].
  rewrite (write_true conv _ k F3) by (rewrite J3; exact J2). f_equal. f_equal.
  replace (l1 ++ JCommand k v :: l2) with ((l1 ++ [JCommand k v]) ++ l2) by (rewrite <- app_assoc; reflexivity).
  rewrite jrun_app, (keeps_run _ _ _ _ C2), jrun_snoc. cbn. unfold setv.
  now rewrite (proj2 (kind_eqb_spec k k) eq_refl).
Qed.
Print Assumptions C65_forwards.

(** Which commands a joint has: all modes of an interface, if the motor supports one of them. *)
Theorem C65_commands : forall m0 r s m k,
  command (cmds (register_handles (new_handle m0 r s))) m = Some (Some k) <->
  follows m k /\ exists n, follows n k /\ s n = true.
Proof. exact register_command. Qed.
Print Assumptions C65_commands.

(** A switch works if there is a command for the mode and the motor enters it. *)
Theorem C65_switch : forall m h, command (cmds h) m <> None ->
  fst (switch_mode m Entered h) = true /\ mode (snd (switch_mode m Entered h)) = m.
Proof.
  intros m h C. pose proof (switch_mode_succeeds m h C) as E. split; [exact E|].
  now apply switch_mode_true in E.
Qed.
Print Assumptions C65_switch.

(** A failed or aborted switch never leaves the joint forwarding. *)
Theorem C65_failed_switch : forall m r h, mode h <> m -> fst (switch_mode m r h) = false ->
  fwd (snd (switch_mode m r h)) = false /\ jh (snd (switch_mode m r h)) = None.
Proof.
  intros m r h N. unfold switch_mode, select. destruct (mode h =? m) eqn:E; [lia|].
  destruct (m =? 0).
  - cbn. destruct (command (cmds h) 0); cbn; [discriminate|auto].
  - destruct r; cbn; [|auto]. destruct (command (cmds h) m); cbn; [discriminate|auto].
Qed.
Print Assumptions C65_failed_switch.

(** Commands that are not forwarded follow the measured values in state Ready, so that a later
    start does not use old commands; the forwarded one is kept; without state Ready nothing
    changes. *)
Theorem C65_idle : forall conv x k,
  ((fwd (hd x) = false \/ jh (hd x) <> Some k) -> cmd (fst (joint_write conv true x)) k = act x k) /\
  (fwd (hd x) = true -> jh (hd x) = Some k -> cmd (fst (joint_write conv true x)) k = cmd x k) /\
  joint_write conv false x = (x, None).
Proof.
  intros conv x k. split; [apply idle_follows|]. split; [apply active_kept|reflexivity].
Qed.
Print Assumptions C65_idle.

(** A drive with cyclic position and velocity: switched to position, its position command is
    forwarded; after a switch to velocity nothing is forwarded before this is enabled. *)
Example ex_joint : joint :=
  mkJoint (register_handles (new_handle 0 true (fun m => (m =? 8) || (m =? 9)))) (fun _ => 0) (fun _ => 7).
Definition ex_conv (k : kind) (v : Z) : Z := match k with KPos => 1000 * v | KVel => 10 * v | KEff => v end.
Example ex_forwarded :
  fresh ex_joint /\
  obedient ex_conv ex_joint [JSwitch 8 Entered; JForward 8; JCommand KPos 5] /\
  snd (jstep ex_conv (jrun ex_conv [JSwitch 8 Entered; JForward 8; JCommand KPos 5] ex_joint) (JWrite true)) = Some 5000.
Proof.
  split; [now exists 0, true, (fun m => (m =? 8) || (m =? 9))|]. split; [|reflexivity].
  intros a m r b E. exfalso.
  assert (In (JMotor m r) [JSwitch 8 Entered; JForward 8; JCommand KPos 5]) by (rewrite E; apply in_elt).
  cbn in H. intuition discriminate.
Qed.
Example ex_not_forwarded :
  snd (jstep ex_conv (jrun ex_conv [JSwitch 8 Entered; JForward 8; JSwitch 9 Entered; JCommand KVel 5] ex_joint) (JWrite true)) = None /\
  snd (jstep ex_conv (jrun ex_conv [JSwitch 8 Entered; JForward 8; JSwitch 9 Entered; JForward 9; JCommand KVel 5] ex_joint) (JWrite true)) = Some 50.
Proof. split; reflexivity. Qed.
Example ex_forwards :
  fst (switch_mode 9 Entered (hd (jrun ex_conv [] ex_joint))) = true /\ follows 9 KVel /\
  Forall calm [JWrite true; JCommand KVel 1] /\ Forall (keeps_command KVel) [JRead (fun _ => 3)].
Proof. repeat split; repeat constructor. Qed.
Example ex_commands :
  command (cmds (hd ex_joint)) 1 = Some (Some KPos) /\ command (cmds (hd ex_joint)) 4 = None.
Proof. split; reflexivity. Qed.
Example ex_failed_switch :
  fst (switch_mode 8 (Failed 0) (hd ex_joint)) = false /\ mode (hd ex_joint) <> 8.
Proof. split; [reflexivity|discriminate]. Qed.
