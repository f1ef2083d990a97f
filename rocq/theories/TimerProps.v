(** The claims about the heartbeat of the chain. *)
From Verif Require Import Base CanModel LayerModel LayerSpec LayerProofs LayerGroupProofs LayerOrderProofs ChainModel ChainSpec ChainProofs TimerModel TimerSpec TimerProofs.

(** ** C81 *)

(** A heartbeat is set up exactly for a positive rate and a text that is a valid frame; the frame
    is the one given and the period is 1/rate in whole nanoseconds. *)
Theorem C81_setup_partial : forall junk msg rate f p, (forall n d, rate = Some (n, d) -> 0 < d) ->
  (setup_heartbeat junk msg rate = Ok (Some (Some (f, p))) <->
   exists m num den, msg = Some m /\ rate = Some (num, den) /\ 0 < num /\ f = toframe junk m /\ frame_isValid f = true /\
     p < 2^63 /\ p * num <= 1000000000 * den < (p + 1) * num).
Proof.
  intros junk msg rate f p Hd. split.
  - intro E. unfold setup_heartbeat in E.
    assert (N : forall num den, rate = Some (num, den) ->
      (if num <=? 0 then Ok None else
         let f := toframe junk (match msg with Some m => m | None => [] end) in
         if frame_isValid f then match hb_period num den with Undef => Undef | Ok p => Ok (Some (Some (f, p))) end else Ok None) = Ok (Some (Some (f, p)))).
    { intros num den ->. destruct msg; exact E. }
    destruct rate as [[num den]|].
    2:{ destruct msg; cbn in E; discriminate. }
    specialize (N num den eq_refl). clear E. destruct (Z.leb_spec num 0); [discriminate|].
    destruct msg as [m|]; [|cbn in N; discriminate].
    cbv zeta in N. destruct (frame_isValid (toframe junk m)) eqn:V; [|discriminate].
    unfold hb_period in N. destruct (Z.ltb_spec (1000000000 * den / num) (2^63)); [|discriminate].
    assert (toframe junk m = f /\ 1000000000 * den / num = p) as [X Y] by (split; congruence). clear N.
    exists m, num, den. rewrite <- X. 
    pose proof (Z.mul_div_le (1000000000 * den) num). pose proof (Z.mul_succ_div_gt (1000000000 * den) num).
    repeat split; try assumption; nia.
  - intros (m & num & den & -> & -> & Hn & -> & V & Hp & H1 & H2). specialize (Hd num den eq_refl).
    unfold setup_heartbeat. destruct (Z.leb_spec num 0); [lia|]. rewrite V.
    assert (D : 1000000000 * den / num = p).
    { symmetry. apply (Z.div_unique_pos _ _ p (1000000000 * den - p * num)); lia. }
    unfold hb_period. rewrite D. destruct (Z.ltb_spec p (2^63)); [reflexivity|lia].
Qed.
Print Assumptions C81_setup_partial.
(** A rate that is too low overflows the period. *)
Theorem C81_setup_refuted : exists msg num den, 0 < num /\ 0 < den /\ setup_heartbeat (repeat 0 8) (Some msg) (Some (num, den)) = Undef.
Proof. exists (str "77f#05"), 1, (2^40). split; [lia|]. split; [lia|]. vm_compute. reflexivity. Qed.
Print Assumptions C81_setup_refuted.
Example C81_setup_ex : setup_heartbeat (repeat 0 8) (Some (str "77f#05")) (Some (20, 1)) =
  Ok (Some (Some (mkFrame (MsgHeader 1919 false) 1 [5; 0; 0; 0; 0; 0; 0; 0], 50000000))).
Proof. vm_compute. reflexivity. Qed.

(** Whatever the history of services, failures and delays, the heartbeat is never produced faster
    than configured, and nothing is undefined. *)
Theorem C81_rate : forall b tr rf f p l, NoDup (ids tr) -> 0 <= p ->
  exists c t, hrun b tr rf l (chain0, setup_timer (Some (f, p))) = Ok (c, t) /\
    Z.of_nat (List.length (beats t)) * p <= clock t.
Proof.
  intros b tr rf f p l ND Hp.
  destruct (hrun_slow b tr rf ND l chain0 (setup_timer (Some (f, p))) p Hp (inv0 tr)) as (c & t & E & _ & _ & (_ & H & _)).
  - split; reflexivity.
  - unfold slow, trues. cbn. lia.
  - exists c, t. split; [exact E|]. nia.
Qed.
Print Assumptions C81_rate.
(** Without configured heartbeat the initialisation reads the period that was never set. *)
Theorem C81_unconfigured_refuted : exists b tr, NoDup (ids tr) /\ hrun b tr false [HChain (VInit true)] (chain0, setup_timer None) = Undef.
Proof. exists (fun _ _ _ => []), (Leaf 0). split; [repeat constructor; intros []|]. vm_compute. reflexivity. Qed.
Print Assumptions C81_unconfigured_refuted.

(** A restarted timer: while all frames are sent, the heartbeats come at their times, one after
    each period, and delays do not add up. *)
Theorem C81_regular_partial : forall p t t0 l t', configured p t -> clean t -> 0 <= p ->
  restart t = Ok t0 -> all_sent l -> trun l t0 = Ok t' ->
  exists new, between t t' new /\
    Z.of_nat (List.length new) * p <= clock t' - clock t /\
    (forall k s ok, nth_error new k = Some (s, ok) -> ok = true /\ clock t + (Z.of_nat k + 1) * p <= s) /\
    (forall d, punctual d l t0 ->
       clock t' - clock t <= (Z.of_nat (List.length new) + 1) * p + d /\
       forall k s ok, nth_error new k = Some (s, ok) -> s <= clock t + (Z.of_nat k + 1) * p + d).
Proof.
  intros p t t0 l t' C Cl Hp R S E. pose proof (restart_regular p t t0 C Cl Hp R) as Re.
  destruct (regular_run l (clock t) p t t0 t' [] Hp S Re E) as [new [(C' & Pe & B & Ex & Ck & W & N) U]].
  cbn [app] in *. exists new. split; [exact B|]. split; [lia|]. split; [exact N|]. intros d Pu. split; [|apply U, Pu].
  specialize (Pu l [] t'). rewrite app_nil_r in Pu. specialize (Pu eq_refl E). lia.
Qed.
Print Assumptions C81_regular_partial.
(** ... and there always is a next one. *)
Theorem C81_goes_on_partial : forall p t t0 l t', configured p t -> clean t -> 0 <= p ->
  restart t = Ok t0 -> all_sent l -> trun l t0 = Ok t' ->
  exists l2 t2, all_sent l2 /\ trun l2 t' = Ok t2 /\ List.length (beats t2) = S (List.length (beats t')).
Proof.
  intros p t t0 l t' C Cl Hp R S E. pose proof (restart_regular p t t0 C Cl Hp R) as Re.
  destruct (regular_run l (clock t) p t t0 t' [] Hp S Re E) as [new [(C' & Pe & _) _]]. apply (goes_on p t' C'). lia.
Qed.
Print Assumptions C81_goes_on_partial.

(** Starting the timer at once is the same as starting it later and restarting it then. *)
Theorem C81_start : forall p t, restart (start_later p t) = Ok (start p t) /\ configured p (start_later p t) /\
  waits (start_later p t) = waits t /\ queue (start_later p t) = queue t /\ beats (start_later p t) = beats t.
Proof. intros p t. repeat split; reflexivity. Qed.
Print Assumptions C81_start.
(** Three heartbeats, the second 3 ns late *)
Definition beat_run : list tevent :=
  [TPass 100; TExpire; TRun true; TPass 103; TExpire; TRun true; TPass 97; TExpire; TRun true].
Example C81_regular_ex : exists t t0 t', configured 100 t /\ clean t /\ restart t = Ok t0 /\ all_sent beat_run /\
  trun beat_run t0 = Ok t' /\ rev (beats t') = [(100, true); (203, true); (300, true)] /\ punctual 3 beat_run t0.
Proof.
  exists (start_later 100 timer0). do 2 eexists. split; [split; reflexivity|]. split; [intros []|]. split; [reflexivity|].
  split; [repeat constructor|]. split; [vm_compute; reflexivity|]. split; [reflexivity|].
  intros l1 l2 s X Y. unfold beat_run in X.
  do 9 (destruct l1 as [|? l1]; [clear X; vm_compute in Y; injection Y as <-; vm_compute; discriminate|injection X as <- X]).
  destruct l1; [clear X; vm_compute in Y; injection Y as <-; vm_compute; discriminate|discriminate X].
Qed.

(** A frame that is not sent ends the heartbeat: nothing follows it ... *)
Theorem C81_failed_send : forall p t t0 l t' s rest l2 t2, configured p t -> clean t -> restart t = Ok t0 -> trun l t0 = Ok t' ->
  beats t' = (s, false) :: rest ++ beats t0 -> trun l2 t' = Ok t2 -> beats t2 = beats t'.
Proof.
  intros p t t0 l t' s rest l2 t2 C Cl R E B E2. destruct C as [P A].
  unfold restart in R. rewrite P in R. injection R as <-. apply trues_clean in Cl.
  assert (Z0 : pending t' = 0%nat).
  { eapply failed_ends; [| |exact E|exact B]; [split; [exact P|exact A]|].
    unfold pending, async_wait, expires_at, cancel. cbn [waits queue]. rewrite trues_app, trues_false. lia. }
  apply (silent_run l2 t' t2 Z0 E2).
Qed.
Print Assumptions C81_failed_send.
(** ... although the chain stays initialised, even if it is recovered: only a shutdown followed by
    an initialisation brings the heartbeat back. *)
Theorem C81_failed_send_refuted : exists b tr c t, NoDup (ids tr) /\
  hrun b tr false [HChain (VInit true); HTimer (TPass 100); HTimer TExpire; HTimer (TRun false)] (chain0, start_later 100 timer0) = Ok (c, t) /\
  ready tr c /\ List.length (beats t) = 1%nat /\
  forall l c' t', Forall up_event l -> hrun b tr false l (c, t) = Ok (c', t') -> beats t' = beats t /\ ~ off tr c'.
Proof.
  set (b := fun (_ : list event) (_ : nat) (_ : op) => @nil (sev * text)). set (tr := Leaf 0).
  assert (ND : NoDup (ids tr)) by (repeat constructor; intros []).
  destruct (hrun b tr false [HChain (VInit true); HTimer (TPass 100); HTimer TExpire; HTimer (TRun false)] (chain0, start_later 100 timer0)) as [[c t]|] eqn:E; [|exfalso; vm_compute in E; discriminate].
  assert (R : ready tr c) by (vm_compute in E; injection E as <- <-; intros i [<-|[]]; vm_compute; reflexivity).
  assert (P : pending t = 0%nat /\ List.length (beats t) = 1%nat /\ configured 100 t) by (vm_compute in E; injection E as <- <-; repeat split).
  destruct P as (P & L & C). exists b, tr, c, t. split; [exact ND|]. split; [exact E|]. split; [exact R|]. split; [exact L|].
  intros l c' t' U E'.
  destruct (hrun_slow b tr false ND [HChain (VInit true); HTimer (TPass 100); HTimer TExpire; HTimer (TRun false)] chain0 (start_later 100 timer0) 100) as (c1 & t1 & E1 & I1 & _);
    [lia|apply inv0|split; reflexivity|unfold slow, trues; cbn; lia|].
  assert (c1 = c) by congruence. subst c1.
  apply (hrun_dead b tr false ND l c t 100 c' t' I1 C); try assumption.
  intro O. specialize (R _ (root_in tr)). specialize (O _ (root_in tr)). congruence.
Qed.
Print Assumptions C81_failed_send_refuted.

(** If initialisations and shutdowns never meet an expired wait that its thread has not taken yet:
    the chain is silent while off, ... *)
Theorem C81_off_silent_partial : forall b tr rf f p l c t, NoDup (ids tr) ->
  clean_stops b tr rf l (chain0, setup_timer (Some (f, p))) ->
  hrun b tr rf l (chain0, setup_timer (Some (f, p))) = Ok (c, t) -> off tr c ->
  forall l2 t2, trun l2 t = Ok t2 -> beats t2 = beats t.
Proof.
  intros b tr rf f p l c t ND Cl E O l2 t2 E2.
  destruct (hrun_pending b tr rf ND l chain0 (setup_timer (Some (f, p))) p (c, t) (inv0 tr)) as (_ & _ & H & _); try assumption.
  - split; reflexivity.
  - intros _. reflexivity.
  - cbn. unfold pending. cbn. unfold trues. cbn. lia.
  - apply (silent_run l2 t t2 (H O) E2).
Qed.
Print Assumptions C81_off_silent_partial.
(** ... and while it is initialised and all frames were sent, the next heartbeat comes. *)
Theorem C81_on_beating_partial : forall b tr rf f p l c t, NoDup (ids tr) ->
  clean_stops b tr rf l (chain0, setup_timer (Some (f, p))) -> all_ok l ->
  hrun b tr rf l (chain0, setup_timer (Some (f, p))) = Ok (c, t) -> ~ off tr c ->
  exists l2 t2, all_sent l2 /\ trun l2 t = Ok t2 /\ List.length (beats t2) = S (List.length (beats t)).
Proof.
  intros b tr rf f p l c t ND Cl Ok E N.
  destruct (hrun_pending b tr rf ND l chain0 (setup_timer (Some (f, p))) p (c, t) (inv0 tr)) as (_ & C & _ & _ & H); try assumption.
  - split; reflexivity.
  - intros _. reflexivity.
  - cbn. unfold pending. cbn. unfold trues. cbn. lia.
  - apply (goes_on p t C). cbn in H. rewrite H; [lia|exact Ok| |exact N].
    intro X. destruct X. intros i _. reflexivity.
Qed.
Print Assumptions C81_on_beating_partial.
(** Otherwise the heartbeat goes on after the shutdown, as long as frames can be sent. *)
Theorem C81_stop_refuted : exists b tr c t, NoDup (ids tr) /\
  hrun b tr false [HChain (VInit true); HTimer (TPass 100); HTimer TExpire; HChain VShutdown] (chain0, start_later 100 timer0) = Ok (c, t) /\
  off tr c /\ forall n, exists l t', trun l t = Ok t' /\ List.length (beats t') = n.
Proof.
  set (b := fun (_ : list event) (_ : nat) (_ : op) => @nil (sev * text)). set (tr := Leaf 0).
  destruct (hrun b tr false [HChain (VInit true); HTimer (TPass 100); HTimer TExpire; HChain VShutdown] (chain0, start_later 100 timer0)) as [[c t]|] eqn:E; [|exfalso; vm_compute in E; discriminate].
  assert (O : off tr c) by (vm_compute in E; injection E as <- <-; intros i [<-|[]]; vm_compute; reflexivity).
  assert (P : pending t = 1%nat /\ List.length (beats t) = 0%nat /\ configured 100 t) by (vm_compute in E; injection E as <- <-; repeat split).
  destruct P as (P & L & C). exists b, tr, c, t. split; [repeat constructor; intros []|]. split; [exact E|]. split; [exact O|].
  intro n. destruct (goes_on_many n 100 t C) as [l [t' [E' B]]]; [lia|]. exists l, t'. split; [exact E'|]. lia.
Qed.
Print Assumptions C81_stop_refuted.
(** Initialised, three heartbeats, shut down, initialised again *)
Definition beat_history : list hevent :=
  HChain (VInit true) :: map HTimer beat_run ++ [HChain VHalt; HChain VShutdown; HTimer (TPass 50); HTimer (TRun true); HChain (VInit true)].
Example C81_history_ex : let b := fun _ _ _ => [] in let tr := Group KStack 0 [Leaf 1; Leaf 2] in
  NoDup (ids tr) /\ all_ok beat_history /\ clean_stops b tr false beat_history (chain0, start_later 100 timer0) /\
  exists c t, hrun b tr false beat_history (chain0, start_later 100 timer0) = Ok (c, t) /\ ready tr c /\ List.length (beats t) = 3%nat.
Proof.
  intros b tr. split; [repeat constructor; cbn; intuition congruence|]. split; [repeat constructor|]. split.
  - intros l1 e l2 s X Y. unfold beat_history, beat_run in X. cbn [map app] in X.
    do 15 (destruct l1 as [|? l1]; cbn [app] in X;
      [try discriminate X; injection X as Xe _; subst e; vm_compute in Y; injection Y as <-; try exact I;
       intro H; cbn in H; intuition discriminate
      |injection X as Xe X; subst]).
    destruct l1; discriminate X.
  - destruct (hrun b tr false beat_history (chain0, start_later 100 timer0)) as [[c t]|] eqn:E; [|exfalso; vm_compute in E; discriminate].
    exists c, t. split; [reflexivity|]. vm_compute in E. injection E as <- <-. split; [|reflexivity].
    intros i [<-|[<-|[<-|[]]]]; vm_compute; reflexivity.
Qed.
