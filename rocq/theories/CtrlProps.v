(** C83: the updates of controllers by the controller manager layer. *)
From Verif Require Import Base LayerModel CtrlModel CtrlSpec CtrlProofs.

(** Whatever the services do at any point of the control loop, short of a shutdown while the loop
    is in write(): nothing undefined happens; managers are made and destroyed in turn; an update
    concerns the existing manager; its reset flag is set exactly if the manager was started or
    recovered since the last update; its period is the fixed one, or exactly the time since the
    last update (or the start); limits are enforced after their update, with the same period and
    flag; nothing is reported but the exceptions of others. *)
Theorem C83_updates_partial : forall fixed r l c es, apart fixed es (ctrl0 r l c) ->
  exists x, run fixed es (ctrl0 r l c) = Ok x /\ all_placed fixed (tr x) /\
    (existsb throws es = false -> forall m, In m (tr x) -> match m with MReport _ => False | _ => True end).
Proof.
  intros fixed r l c es A. destruct (good_run fixed es _ (good0 fixed r l c) A) as (x & E & G). exists x. split; [exact E|].
  split; [apply (g_placed _ _ G)|]. intros T. refine (silent_run fixed es _ _ (good0 fixed r l c) A _ T E). intros m [].
Qed.
Print Assumptions C83_updates_partial.

Definition W (now : Z) : cevent := CLoop (DoWrite now false).
(** A session: started, two cycles (the second when halted and recovered within the first), shut
    down and started again *)
Definition session : list cevent :=
  [CTick 5; CInit true false; CTick 10; W 100; W 101; W 102; CHalt; CRecover true; W 103;
   CTick 7; W 110; W 111; W 112; W 113; CTick 3; W 120; W 120; W 120; W 120; CLoop DoRead; CShutdown; W 130; CInit true false; W 140; W 140; W 140; W 140].
Example session_ex :
  apart 0 session (ctrl0 false 77 1000) /\
  match run 0 session (ctrl0 false 77 1000) with
  | Ok x => tr x = [MStart 0 1005; MUpdate 0 1015 102 10 true; MRecover; MEnforce 10 true;
                    MUpdate 0 1022 112 7 true; MEnforce 7 true; MUpdate 0 1025 120 3 false; MEnforce 3 false;
                    MStop 0; MStart 1 1025; MUpdate 1 1025 140 0 true; MEnforce 0 true]
  | Undef => False
  end.
Proof. vm_compute. repeat split. Qed.

(** Shutting down while the loop is in write() destroys the manager under the running update. *)
Theorem C83_shutdown_refuted : exists es, (forall e, In e es -> throws e = false) /\ run 0 es (ctrl0 false 0 0) = Undef /\
  exists es', (forall e, In e es' -> throws e = false) /\ run 0 es' (ctrl0 false 0 0) = Undef /\ es <> es'.
Proof.
  exists [CInit true false; W 1; W 2; CShutdown; W 3]. split; [intros e [<-|[<-|[<-|[<-|[<-|[]]]]]]; reflexivity|]. split; [reflexivity|].
  exists [CInit true false; W 1; W 2; W 3; CShutdown; W 4]. split; [intros e [<-|[<-|[<-|[<-|[<-|[<-|[]]]]]]]; reflexivity|].
  split; [reflexivity|discriminate].
Qed.
Print Assumptions C83_shutdown_refuted.

(** With the real-time period the periods since the start add up to the time of the last update:
    no time is lost, whatever exceptions, halts and recoveries there were. *)
Theorem C83_no_time_lost : forall r l c es x a i t b u now p f, apart 0 es (ctrl0 r l c) -> run 0 es (ctrl0 r l c) = Ok x ->
  forall z, tr x = a ++ MStart i t :: b ++ MUpdate i u now p f :: z -> (forall m, In m b -> match m with MStart _ _ => False | _ => True end) ->
  t + periods b + p = u /\ 0 <= p.
Proof.
  intros r l c es x a i t b u now p f A E z Ez N. destruct (good_run 0 es _ (good0 0 r l c) A) as (x' & E' & G).
  rewrite E in E'. injection E' as <-. pose proof (g_placed _ _ G) as P. clear G.
  assert (Ez' : tr x = (a ++ MStart i t :: b) ++ MUpdate i u now p f :: z) by (rewrite Ez, <- app_assoc; reflexivity).
  pose proof (P _ _ _ Ez') as W. cbn in W. destruct W as (_ & _ & t0 & W1 & W2 & W3).
  assert (P' : all_placed 0 (a ++ MStart i t :: b)).
  { intros d m e Ed. apply (P d m (e ++ MUpdate i u now p f :: z)). rewrite Ez', Ed, <- app_assoc. reflexivity. }
  rewrite (periods_sum _ a i t b P' eq_refl N) in W1. injection W1 as <-. lia.
Qed.
Print Assumptions C83_no_time_lost.
Example C83_no_time_lost_ex : 1005 + periods [MUpdate 0 1015 102 10 true; MRecover; MEnforce 10 true; MUpdate 0 1022 112 7 true; MEnforce 7 true] + 3 = 1025.
Proof. reflexivity. Qed.

(** Controllers are updated, and limits enforced, once per cycle as long as the layer is on, even
    when it was halted. *)
Theorem C83_cycle : forall fixed r l c es x n1 n2 n3 n4, apart fixed es (ctrl0 r l c) -> run fixed es (ctrl0 r l c) = Ok x ->
  pc x = WIdle -> ls x <> Off ->
  exists i p x', run fixed [W n1; W n2; W n3; W n4] x = Ok x' /\ ls x' = ls x /\ pc x' = WIdle /\
    tr x' = tr x ++ [MUpdate i (clock x) n3 p (reset_due (tr x)); MEnforce p (reset_due (tr x))] /\
    run fixed [CLoop DoRead] x = Ok x.
Proof.
  intros fixed r l c es x n1 n2 n3 n4 A E I N. destruct (good_run fixed es _ (good0 fixed r l c) A) as (y & E' & G).
  rewrite E in E'. injection E' as <-. destruct (cycle fixed x n1 n2 n3 n4 false false false G I N) as (i & p & x' & C & R & T & P' & L & F).
  exists i, p, x'. split; [exact R|]. split; [exact L|]. split; [exact P'|]. destruct (g_flag _ _ G i C) as (<- & _). split; [exact T|].
  cbn. rewrite I, C. reflexivity.
Qed.
Print Assumptions C83_cycle.
Example C83_cycle_ex : match run 20 [CInit true false; CHalt] (ctrl0 false 0 0) with
  | Ok x => apart 20 [CInit true false; CHalt] (ctrl0 false 0 0) /\ ls x = Error /\ pc x = WIdle /\
            match run 20 [W 1; W 2; W 3; W 4] x with Ok y => tr y = [MStart 0 0; MUpdate 0 0 3 20 true; MEnforce 20 true] | Undef => False end
  | Undef => False end.
Proof. vm_compute. repeat split. Qed.

(** Nothing is updated, enforced or reported while the layer is off. *)
Theorem C83_off : forall fixed r l c es x ms, apart fixed es (ctrl0 r l c) -> run fixed es (ctrl0 r l c) = Ok x -> ls x = Off ->
  run fixed (map CLoop ms) x = Ok x /\ existing (tr x) = None.
Proof.
  intros fixed r l c es x ms A E L. destruct (good_run fixed es _ (good0 fixed r l c) A) as (y & E' & G).
  rewrite E in E'. injection E' as <-. pose proof (idle_off fixed x G L) as I. pose proof (g_ls _ _ G) as Lc. rewrite L in Lc.
  split; [|rewrite <- (g_cm _ _ G); exact Lc].
  induction ms as [|m ms IH]; [reflexivity|]. cbn [map run step]. destruct m; cbn [loop]; rewrite I, ?Lc, L; exact IH.
Qed.
Print Assumptions C83_off.
Example C83_off_ex : apart 0 [CInit true false; CShutdown] (ctrl0 true 0 0) /\
  match run 0 [CInit true false; CShutdown] (ctrl0 true 0 0) with Ok x => ls x = Off /\ tr x = [MStart 0 0; MStop 0] | Undef => False end.
Proof. vm_compute. repeat split. Qed.

(** Starting or recovering arms the reset of controllers at the next update; a failed start
    leaves nothing behind. *)
Theorem C83_services : forall fixed r l c es x, apart fixed es (ctrl0 r l c) -> run fixed es (ctrl0 r l c) = Ok x ->
  (ls x = Off -> exists i, tr (init true false x) = tr x ++ [MStart i (clock x)] /\ ls (init true false x) = Ready) /\
  (ls x = Off -> ls (init true true x) = Off /\ tr (init true true x) = tr x ++ [MReport ERROR] /\ init false false x = x) /\
  (ls x <> Off -> forall ok f, init ok f x = x) /\
  (ls x = Error -> tr (recover true x) = tr x ++ [MRecover] /\ ls (recover true x) = Ready /\ recover false x = x) /\
  (ls x <> Error -> forall ok, recover ok x = x) /\
  (ls x = Ready -> ls (halt x) = Error) /\ tr (halt x) = tr x /\
  (ls x <> Off -> exists i, existing (tr x) = Some i /\ tr (shutdown x) = tr x ++ [MStop i] /\ ls (shutdown x) = Off).
Proof.
  intros fixed r l c es x A E. destruct (good_run fixed es _ (good0 fixed r l c) A) as (y & E' & G).
  rewrite E in E'. injection E' as <-. pose proof (g_ls _ _ G) as Lc. pose proof (g_cm _ _ G) as Cm.
  split; [|split; [|split; [|split; [|split; [|split; [|split]]]]]].
  - intros L. rewrite L in Lc. exists (made x). unfold init, handle_init. rewrite L. cbn. rewrite Lc. cbn. auto.
  - intros L. rewrite L in Lc. unfold init, handle_init, shutdown. rewrite L. cbn. rewrite Lc. cbn. auto.
  - intros L ok f. unfold init. destruct (ls x); try reflexivity. now contradiction L.
  - intros L. rewrite L in Lc. destruct Lc as [i Lc]. unfold recover, handle_recover, halt. rewrite L. cbn. rewrite Lc. cbn. auto.
  - intros L ok. unfold recover. destruct (ls x); try reflexivity. now contradiction L.
  - intros L. unfold halt. rewrite L. reflexivity.
  - unfold halt. destruct (lgt (ls x) Halt); reflexivity.
  - intros L. assert (K : exists i, cm x = Some i) by (destruct (ls x); try contradiction; exact Lc). destruct K as [i K]. exists i.
    split; [congruence|]. unfold shutdown, handle_shutdown. destruct (ls x); try contradiction; cbn; rewrite K; cbn; auto.
Qed.
Print Assumptions C83_services.
Example C83_services_ex : match run 0 [CInit true true; CInit true false; CHalt; CRecover true] (ctrl0 true 0 0) with
  | Ok x => ls x = Ready /\ tr x = [MReport ERROR; MStart 0 0; MRecover] | Undef => False end.
Proof. vm_compute. repeat split. Qed.

(** The fixed period is the configured interval, and positive if the interval is. *)
Theorem C83_fixed : forall ms r l c es x, 0 < ms -> apart (fixed_period false ms) es (ctrl0 r l c) ->
  run (fixed_period false ms) es (ctrl0 r l c) = Ok x ->
  forall a i t now p f b, tr x = a ++ MUpdate i t now p f :: b -> p = ms * 1000000 /\ 0 < p.
Proof.
  intros ms r l c es x H A E a i t now p f b T. destruct (good_run _ es _ (good0 _ r l c) A) as (y & E' & G).
  rewrite E in E'. injection E' as <-. pose proof (g_placed _ _ G _ _ _ T) as W. cbn in W. destruct W as (_ & _ & W).
  unfold fixed_period in W. destruct (Z.eqb_spec (ms * 1000000) 0); lia.
Qed.
Print Assumptions C83_fixed.
(** A negative interval is accepted, and controllers run backwards. *)
Theorem C83_fixed_refuted : exists ms es, match run (fixed_period false ms) es (ctrl0 false 0 0) with
  | Ok x => exists i t now p f b, tr x = MStart 0 0 :: MUpdate i t now p f :: b /\ p < 0 | Undef => False end.
Proof.
  exists (-10), [CInit true false; W 1; W 2; W 3; W 4]. cbn. do 6 eexists. split; [reflexivity|]. reflexivity.
Qed.
Print Assumptions C83_fixed_refuted.
Example C83_fixed_ex : match run (fixed_period false 10) [CInit true false; CTick 3; W 1; W 2; W 3; W 4] (ctrl0 false 0 0) with
  | Ok x => tr x = [MStart 0 0; MUpdate 0 3 3 10000000 true; MEnforce 10000000 true] | Undef => False end.
Proof. reflexivity. Qed.

(** The reset of controllers is not repeated when the update that was to do it failed. *)
Theorem C83_reset_lost_refuted : exists es, apart 0 es (ctrl0 false 0 0) /\
  match run 0 es (ctrl0 false 0 0) with
  | Ok x => exists b, tr x = [MStart 0 0; MUpdate 0 0 3 0 true; MReport ERROR; MUpdate 0 0 7 0 false] ++ b
  | Undef => False end.
Proof.
  exists [CInit true false; W 1; W 2; W 3; CLoop (DoWrite 4 true); W 5; W 6; W 7; W 8]. split; [vm_compute; tauto|]. cbn. eexists. reflexivity.
Qed.
Print Assumptions C83_reset_lost_refuted.
