(** CiA 402 states, transitions, control words and targets: C47, C48, C50 to C54, C56. *)
From Verif Require Import Base MotorModel MotorSpec MotorProofs.

(** ** C47 *)
Theorem C47_decoded : forall sw s, s <> Start -> (decode sw = s <-> denotes s sw).
Proof. exact decode_denotes. Qed.
Print Assumptions C47_decoded.
Theorem C47_unknown : forall sw, decode sw = Start <-> (forall s, ~ denotes s sw).
Proof. exact decode_unknown. Qed.
Print Assumptions C47_unknown.
(** Bits 0-3, 5 and 6 are all that matters. *)
Theorem C47_dont_care : forall a b, (forall i, In i [0; 1; 2; 3; 5; 6] -> Z.testbit a i = Z.testbit b i) -> decode a = decode b.
Proof.
  intros a b H. rewrite (decode_masked a), (decode_masked b). f_equal. apply Z.bits_inj'. intros i Hi. rewrite !Z.land_spec.
  destruct (Z.testbit 111 i) eqn:E; [|rewrite !andb_false_r; reflexivity]. rewrite !andb_true_r. apply H.
  destruct (Z.le_gt_cases 7 i) as [L|L].
  - rewrite Z.bits_above_log2 in E; [discriminate|lia|change (Z.log2 111) with 6; lia].
  - assert (I : i = 0 \/ i = 1 \/ i = 2 \/ i = 3 \/ i = 4 \/ i = 5 \/ i = 6) by lia.
    destruct I as [->|[->|[->|[->|[->|[->| ->]]]]]]; cbn; try tauto. discriminate E.
Qed.
Print Assumptions C47_dont_care.
(** The state is unique. *)
Theorem C47_unique : forall sw a b, denotes a sw -> denotes b sw -> a = b.
Proof.
  intros sw a b A B.
  assert (Na : a <> Start) by (intros ->; exact A). assert (Nb : b <> Start) by (intros ->; exact B).
  apply decode_denotes in A; [|exact Na]. apply decode_denotes in B; [|exact Nb]. congruence.
Qed.
Print Assumptions C47_unique.
Example C47_ex : decode 0x1637 = OperationEnable /\ denotes OperationEnable 0x1637 /\ decode 0x0004 = Start.
Proof. repeat split. Qed.

(** ** C48 *)

(** [last] is the word the drive has received last. *)
Theorem C48_commanded_partial : forall cw last from to hops cw' next g,
  set_transition cw from to hops = (true, cw', next) -> from <> to -> goal_of from to hops g ->
  ~ In (from, g) extra -> (from = Fault -> Z.testbit last 7 = false) ->
  drive_step from (rising last cw') cw' = g.
Proof.
  intros cw last from to hops cw' next g E N G X F. destruct (set_transition_goal cw from to hops N) as [g' [G' E']].
  rewrite (goal_unique from to hops g g' N G G') in *. rewrite E in E'.
  destruct (transition from g') as [o|] eqn:T; [|discriminate E'].
  assert (C : cw' = apply_op o cw) by congruence. rewrite C. apply transition_drive; assumption.
Qed.
Print Assumptions C48_commanded_partial.
(** The driver's two quick stop transitions from states without operation lead
    elsewhere. *)
Theorem C48_quick_stop_refuted : forall cw from, from = ReadyToSwitchOn \/ from = SwitchedOn ->
  exists cw', set_transition cw from QuickStopActive false = (true, cw', None) /\
    forall edge, drive_step from edge cw' = SwitchOnDisabled.
Proof.
  intros cw from D. exists (apply_op quickstop cw).
  assert (B1 : Z.testbit (apply_op quickstop cw) 1 = true) by (rewrite apply_op_bit by lia; cbn; rewrite orb_true_r; reflexivity).
  assert (B2 : Z.testbit (apply_op quickstop cw) 2 = false) by (rewrite apply_op_bit by lia; cbn; rewrite !andb_false_r; reflexivity).
  assert (B7 : Z.testbit (apply_op quickstop cw) 7 = false) by (rewrite apply_op_bit by lia; cbn; rewrite !andb_false_r; reflexivity).
  destruct D as [-> | ->]; (split; [reflexivity|]); intro edge; unfold drive_step, command_of; rewrite B1, B2, B7; reflexivity.
Qed.
Print Assumptions C48_quick_stop_refuted.
(** A fault reset bit still set from before is not an edge. *)
Theorem C48_stale_reset_refuted : forall cw, Z.testbit cw 7 = true ->
  exists cw', set_transition cw Fault SwitchOnDisabled false = (true, cw', None) /\ drive_step Fault (rising cw cw') cw' = Fault.
Proof.
  intros cw B. exists (apply_op fault_reset cw). split; [reflexivity|]. unfold drive_step, rising. rewrite B. reflexivity.
Qed.
Print Assumptions C48_stale_reset_refuted.
Theorem C48_other_bits : forall cw from to hops ok cw' next i,
  set_transition cw from to hops = (ok, cw', next) -> 0 <= i -> ~ state_bit i -> Z.testbit cw' i = Z.testbit cw i.
Proof.
  intros cw from to hops ok cw' next i E Hi N. destruct (state_eq_dec from to) as [->|D].
  - unfold set_transition in E. rewrite state_eqb_refl in E. congruence.
  - destruct (set_transition_goal cw from to hops D) as [g [_ E']]. rewrite E in E'.
    destruct (transition from g) as [o|] eqn:T.
    + assert (C : cw' = apply_op o cw) by congruence. rewrite C. apply (transition_bits from g); assumption.
    + congruence.
Qed.
Print Assumptions C48_other_bits.
(** Automatic transitions need no command. *)
Theorem C48_automatic : forall cw from to hops ok cw' next, In from [Start; NotReady; FaultReactionActive] ->
  set_transition cw from to hops = (ok, cw', next) -> cw' = cw.
Proof.
  intros cw from to hops ok cw' next I E. destruct (state_eq_dec from to) as [->|D].
  - unfold set_transition in E. rewrite state_eqb_refl in E. congruence.
  - destruct (set_transition_goal cw from to hops D) as [g [_ E']]. rewrite E in E'.
    destruct (transition from g) as [o|] eqn:T; [|congruence].
    assert (o = automatic) by (cbn in I; destruct I as [<-|[<-|[<-|[]]]]; destruct g; cbn in T; congruence). subst o.
    assert (C : cw' = apply_op automatic cw) by congruence. rewrite C. unfold apply_op. cbn. rewrite Z.land_m1_r. apply Z.lor_0_r.
Qed.
Print Assumptions C48_automatic.
Example C48_ex : set_transition 0x010F SwitchOnDisabled OperationEnable true = (true, 0x010E, Some ReadyToSwitchOn)
  /\ goal_of SwitchOnDisabled OperationEnable true ReadyToSwitchOn
  /\ drive_step SwitchOnDisabled (rising 0x010F 0x010E) 0x010E = ReadyToSwitchOn.
Proof. repeat split. left. split; [reflexivity|]. cbn. tauto. Qed.

(** ** C50 *)
Theorem C50_refused : forall cw from to hops ok cw' next g,
  set_transition cw from to hops = (ok, cw', next) -> from <> to -> goal_of from to hops g ->
  (ok = true <-> In (from, g) (standard ++ extra)).
Proof.
  intros cw from to hops ok cw' next g E N G. destruct (set_transition_goal cw from to hops N) as [g' [G' E']].
  rewrite (goal_unique from to hops g g' N G G') in *. rewrite E in E'.
  destruct (transition from g') as [o|] eqn:T.
  - injection E' as -> _ _. split; [intros _; exact (table _ _ _ T)|reflexivity].
  - injection E' as -> _ _. split; [discriminate|]. intro I. destruct (table_complete _ _ I) as [o' T']. congruence.
Qed.
Print Assumptions C50_refused.
Theorem C50_nothing_changes : forall cw from to hops cw' next,
  set_transition cw from to hops = (false, cw', next) -> cw' = cw.
Proof.
  intros cw from to hops cw' next E. destruct (state_eq_dec from to) as [->|D].
  - unfold set_transition in E. rewrite state_eqb_refl in E. congruence.
  - destruct (set_transition_goal cw from to hops D) as [g [_ E']]. rewrite E in E'.
    destruct (transition from g) as [o|] eqn:T; congruence.
Qed.
Print Assumptions C50_nothing_changes.
(** The own state can always be requested, without effect. *)
Theorem C50_same_state : forall cw s hops, set_transition cw s s hops = (true, cw, None).
Proof. intros. unfold set_transition. rewrite state_eqb_refl. reflexivity. Qed.
Print Assumptions C50_same_state.
(** Enabling is refused from no state. *)
Theorem C50_enabling : forall cw from, from <> OperationEnable ->
  exists cw' g, set_transition cw from OperationEnable true = (true, cw', Some g) /\ In (from, g) standard.
Proof.
  intros cw from N. destruct (set_transition_goal cw from OperationEnable true N) as [g [G E]].
  cbn in G. destruct G as [[_ G]|[X _]]; [|congruence]. pose proof (way_standard _ _ G) as I.
  destruct (table_complete from g) as [o T]; [apply in_or_app; left; exact I|]. rewrite T in E. eauto.
Qed.
Print Assumptions C50_enabling.
Example C50_ex : set_transition 0x0F SwitchOnDisabled SwitchedOn false = (false, 0x0F, None)
  /\ goal_of SwitchOnDisabled SwitchedOn false SwitchedOn /\ ~ In (SwitchOnDisabled, SwitchedOn) (standard ++ extra).
Proof.
  repeat split. intro H. cbn in H. repeat (destruct H as [H|H]; [discriminate H|]). exact H.
Qed.

(** ** C51 *)
Theorem C51_halt_bit : forall s sel shown sfr cw w sent sfr',
  handle_write s sel shown sfr cw = (w, sent, sfr') ->
  (Z.testbit sent 8 = false <->
   s = OperationEnable /\ exists b, sel = Some (shown, b) /\ okay b (Z.lor cw (2^8)) = true).
Proof.
  intros s sel shown sfr cw w sent sfr' H. rewrite (hw_sent_bits _ _ _ _ _ _ _ _ H) by lia. 
  replace (8 =? 7) with false by reflexivity. rewrite andb_false_r, andb_true_r. exact (hw_halt _ _ _ _ _ _ _ _ H).
Qed.
Print Assumptions C51_halt_bit.
(** The modes of the driver are content exactly if they have something to execute. *)
Theorem C51_executes : forall s m mask t shown sfr cw w sent sfr',
  handle_write s (Some (m, forward_beh mask t)) shown sfr cw = (w, sent, sfr') ->
  (Z.testbit sent 8 = false <-> s = OperationEnable /\ m = shown /\ has_target t = true).
Proof.
  intros s m mask t shown sfr cw w sent sfr' H. rewrite (C51_halt_bit _ _ _ _ _ _ _ _ H). split.
  - intros [A [b [B C]]]. injection B as -> <-. auto.
  - intros [A [-> C]]. split; [exact A|]. eexists. split; [reflexivity|exact C].
Qed.
Print Assumptions C51_executes.
Theorem C51_homing_executes : forall s m ex shown sfr cw w sent sfr',
  handle_write s (Some (m, homing_beh ex)) shown sfr cw = (w, sent, sfr') ->
  (Z.testbit sent 8 = false <-> s = OperationEnable /\ m = shown /\ ex = true).
Proof.
  intros s m ex shown sfr cw w sent sfr' H. rewrite (C51_halt_bit _ _ _ _ _ _ _ _ H). split.
  - intros [A [b [B C]]]. injection B as -> <-. auto.
  - intros [A [-> C]]. split; [exact A|]. eexists. split; [reflexivity|exact C].
Qed.
Print Assumptions C51_homing_executes.
Theorem C51_state_bits : forall s sel shown sfr cw w sent sfr' i,
  handle_write s sel shown sfr cw = (w, sent, sfr') -> 0 <= i -> ~ mode_bit i -> i <> 8 ->
  Z.testbit w i = Z.testbit cw i /\ (Z.testbit sent i = if sfr && (i =? 7) then false else Z.testbit cw i).
Proof.
  intros s sel shown sfr cw w sent sfr' i H Hi M N. pose proof (hw_state _ _ _ _ _ _ _ _ H i Hi M N) as E. split; [exact E|].
  rewrite (hw_sent_bits _ _ _ _ _ _ _ _ H) by lia. rewrite E. destruct (sfr && (i =? 7)); cbn; [apply andb_false_r|apply andb_true_r].
Qed.
Print Assumptions C51_state_bits.
(** Mode bits: those of the active mode if the drive shows it, cleared otherwise, as
    long as the drive is enabled. *)
Theorem C51_mode_bits_partial : forall s sel shown sfr cw w sent sfr' i,
  handle_write s sel shown sfr cw = (w, sent, sfr') -> mode_bit i ->
  Z.testbit sent i = Z.testbit w i /\
  (s = OperationEnable -> (forall b, sel <> Some (shown, b)) -> Z.testbit sent i = false).
Proof.
  intros s sel shown sfr cw w sent sfr' i H M. assert (Hi : 0 <= i) by (unfold mode_bit in M; lia).
  assert (E : Z.testbit sent i = Z.testbit w i).
  { rewrite (hw_sent_bits _ _ _ _ _ _ _ _ H) by lia. rewrite (proj2 (Z.eqb_neq i 7)) by (unfold mode_bit in M; lia). rewrite andb_false_r. apply andb_true_r. }
  split; [exact E|]. intros A B. rewrite E. exact (hw_mismatch _ _ _ _ _ _ _ _ H i M A B).
Qed.
Print Assumptions C51_mode_bits_partial.
Theorem C51_forward_bits : forall m mask t sfr cw w sent sfr' i,
  handle_write OperationEnable (Some (m, forward_beh mask t)) m sfr cw = (w, sent, sfr') -> mode_bit i ->
  Z.testbit sent i = if Z.testbit mask i then has_target t else Z.testbit cw i.
Proof.
  intros m mask t sfr cw w sent sfr' i H M. rewrite (proj1 (C51_mode_bits_partial _ _ _ _ _ _ _ _ i H M)).
  rewrite (hw_match _ _ _ _ _ _ _ _ H i (forward_beh mask t) M eq_refl eq_refl). rewrite forward_bits by assumption.
  rewrite halt_set by (unfold mode_bit in M; lia). rewrite (proj2 (Z.eqb_neq i 8)) by (unfold mode_bit in M; lia). rewrite orb_false_r.
  destruct (has_target t), (Z.testbit mask i), (Z.testbit cw i); reflexivity.
Qed.
Print Assumptions C51_forward_bits.
(** The modes of the standard: the bits that switch a mode on follow the target, all others are
    left alone. *)
Theorem C51_standard_bits : forall m idx sub lo hi t, target_object m idx sub lo hi ->
  exists b, forward_mode_beh m t = Some b /\
  forall sfr cw w sent sfr' i, handle_write OperationEnable (Some (m, b)) m sfr cw = (w, sent, sfr') -> mode_bit i ->
  (mode_on_bit m i -> Z.testbit sent i = has_target t) /\ (~ mode_on_bit m i -> Z.testbit sent i = Z.testbit cw i).
Proof.
  intros m idx sub lo hi t H.
  assert (F : exists k, forward_mode_beh m t = Some (forward_beh k t) /\ forall i, mode_bit i -> (Z.testbit k i = true <-> mode_on_bit m i)).
  { destruct H; (eexists; split; [reflexivity|]); unfold mode_bit, mode_on_bit;
      intros i Hi; assert (i = 4 \/ i = 5 \/ i = 6 \/ i = 9) as [->|[->|[->| ->]]] by lia; cbn; split; intro X; try reflexivity; try discriminate; try lia. }
  destruct F as [k [E K]]. exists (forward_beh k t). split; [exact E|].
  intros sfr cw w sent sfr' i Hw Hi. rewrite (C51_forward_bits _ _ _ _ _ _ _ _ i Hw Hi). specialize (K i Hi).
  destruct (Z.testbit k i); split; intro X; try reflexivity; [destruct X; apply K; reflexivity|apply K in X; discriminate].
Qed.
Print Assumptions C51_standard_bits.
Theorem C51_homing_bits : forall m ex sfr cw w sent sfr' i,
  handle_write OperationEnable (Some (m, homing_beh ex)) m sfr cw = (w, sent, sfr') -> mode_bit i ->
  Z.testbit sent i = if i =? 4 then ex else false.
Proof.
  intros m ex sfr cw w sent sfr' i H M. rewrite (proj1 (C51_mode_bits_partial _ _ _ _ _ _ _ _ i H M)).
  rewrite (hw_match _ _ _ _ _ _ _ _ H i (homing_beh ex) M eq_refl eq_refl). rewrite homing_bits by assumption.
  destruct ex, (i =? 4); reflexivity.
Qed.
Print Assumptions C51_homing_bits.
(** Mode bits stay as they are while the drive is not enabled, whatever its mode. *)
Theorem C51_disabled_refuted : forall s sel shown sfr cw w sent sfr' i, s <> OperationEnable ->
  handle_write s sel shown sfr cw = (w, sent, sfr') -> mode_bit i -> Z.testbit sent i = Z.testbit cw i.
Proof.
  intros s sel shown sfr cw w sent sfr' i N H M. rewrite (proj1 (C51_mode_bits_partial _ _ _ _ _ _ _ _ i H M)).
  exact (hw_disabled _ _ _ _ _ _ _ _ H i M N).
Qed.
Print Assumptions C51_disabled_refuted.
(** Velocity mode with a target: ramp bits 4, 5, 6 set, no halt. *)
Example C51_ex : handle_write OperationEnable (Some (2, forward_beh MASK456 (mkTgt 100 true))) 2 true 0x010F = (0x007F, 0x007F, false)
  /\ handle_write OperationEnable (Some (2, forward_beh MASK456 (mkTgt 100 true))) 3 false 0x018F = (0x018F, 0x018F, false)
  /\ handle_write SwitchedOn None 0 true 0x009F = (0x019F, 0x011F, false).
Proof. repeat split. Qed.

(** ** C52 *)
Theorem C52_first_word : forall pre e mid x w rest, restart e = true ->
  snd (wrun mid (fst (wrun (pre ++ [e]) x))) = w :: rest -> Z.testbit w 7 = false.
Proof. intros pre e mid x w rest R. apply first_word, restart_sfr, R. Qed.
Print Assumptions C52_first_word.
Theorem C52_edge : forall pre e mid x w, restart e = true ->
  let ws := snd (wrun mid (fst (wrun (pre ++ [e]) x))) in In w ws -> Z.testbit w 7 = true ->
  exists i, rising (nth i ws 0) (nth (S i) ws 0) = true /\ (S i < List.length ws)%nat.
Proof.
  intros pre e mid x w R ws I B. destruct ws as [|w0 rest] eqn:E; [destruct I|].
  apply (edge_exists (w0 :: rest) w0 rest w true eq_refl); [|exact I|exact B|reflexivity].
  apply (C52_first_word pre e mid x w0 rest R). exact E.
Qed.
Print Assumptions C52_edge.
(** Two writes suffice for an edge once the enabling procedure has seen the fault. *)
Theorem C52_reset_happens : forall pre e a b x, restart e = true ->
  Forall (fun e => is_write e = true) (a ++ b) -> b <> [] -> (2 <= List.length (a ++ b))%nat ->
  let ws := snd (wrun (a ++ ETransition Fault OperationEnable true :: b) (fst (wrun (pre ++ [e]) x))) in
  exists i, rising (nth i ws 0) (nth (S i) ws 0) = true /\ (S i < List.length ws)%nat.
Proof. exact reset_edge. Qed.
Print Assumptions C52_reset_happens.
Example C52_ex : snd (wrun [EWrite Fault None 0; ERecover; ETransition Fault OperationEnable true; EWrite Fault None 0; EWrite Fault None 0] (mkW 0x8F false))
  = [0x18F; 0x10F; 0x18F].
Proof. reflexivity. Qed.

(** ** C53 *)
Theorem C53_accepted : forall s sel v,
  fst (set_target s sel v) = true <->
  s = OperationEnable /\ (exists lo hi t, sel = STarget lo hi t) /\ v <> S754_nan.
Proof.
  intros s sel v. unfold set_target. destruct (state_eqb s OperationEnable) eqn:E.
  - apply state_eqb_eq in E. destruct sel as [|lo hi t|]; cbn.
    + split; [discriminate|]. intros [_ [[? [? [? X]]] _]]. discriminate X.
    + unfold helper_set_target. destruct v as [b|b| |b m e]; cbn.
      * split; [intros _; repeat split; eauto; discriminate|reflexivity].
      * split; [intros _; repeat split; eauto; discriminate|destruct b; reflexivity].
      * split; [discriminate|]. intros [_ [_ X]]. contradiction.
      * split; [intros _; repeat split; eauto; discriminate|]. destruct (_ <=? _); [reflexivity|]. destruct (_ <=? _); reflexivity.
    + split; [discriminate|]. intros [_ [[? [? [? X]]] _]]. discriminate X.
  - split; [discriminate|]. intros [-> _]. rewrite state_eqb_refl in E. discriminate.
Qed.
Print Assumptions C53_accepted.
Theorem C53_unchanged : forall s sel v, fst (set_target s sel v) = false -> snd (set_target s sel v) = sel.
Proof.
  intros s sel v. unfold set_target. destruct (state_eqb s OperationEnable); [|reflexivity].
  destruct sel as [|lo hi t|]; try reflexivity. unfold helper_set_target. destruct v as [b|b| |b m e]; cbn; try discriminate; try (destruct b; discriminate).
  - reflexivity.
  - destruct (_ <=? _); [discriminate|]. destruct (_ <=? _); discriminate.
Qed.
Print Assumptions C53_unchanged.
Example C53_ex : set_target SwitchedOn (STarget (-10) 10 (mkTgt 3 true)) (S754_finite false 5 0) = (false, STarget (-10) 10 (mkTgt 3 true))
  /\ set_target OperationEnable (STarget (-10) 10 (mkTgt 3 true)) (S754_finite false 5 0) = (true, STarget (-10) 10 (mkTgt 5 true)).
Proof. split; reflexivity. Qed.

(** ** C54 *)
Theorem C54_finite : forall lo hi v t num den n, lo <= 0 <= hi -> represents v num den -> truncation num den n ->
  helper_set_target lo hi v t = (true, mkTgt (Z.max lo (Z.min hi n)) true).
Proof. exact set_target_finite. Qed.
Print Assumptions C54_finite.
(** Every finite double is such a number with such a truncation. *)
Theorem C54_every_finite : forall v, (exists s, v = S754_zero s) \/ (exists s m e, v = S754_finite s m e) ->
  exists num den n, represents v num den /\ truncation num den n.
Proof.
  intros v [[s ->]|[s [m [e ->]]]].
  - exists 0, 1, 0. split; [split; [lia|reflexivity]|]. left. lia.
  - exists (scaled s m e), (scale e), (Z.quot (scaled s m e) (scale e)). split; [|apply trunc_quot, scale_pos].
    split; [apply scale_pos|]. unfold scaled, scale, signed. destruct (Z.leb_spec 0 e).
    + rewrite Z.max_l, Z.max_r by lia. change (2^0) with 1. destruct s; lia.
    + rewrite Z.max_r, Z.max_l by lia. change (2^0) with 1. destruct s; lia.
Qed.
Print Assumptions C54_every_finite.
Theorem C54_infinite : forall lo hi t,
  helper_set_target lo hi (S754_infinity false) t = (true, mkTgt hi true) /\
  helper_set_target lo hi (S754_infinity true) t = (true, mkTgt lo true).
Proof. split; reflexivity. Qed.
Print Assumptions C54_infinite.
Theorem C54_nan : forall lo hi t, helper_set_target lo hi S754_nan t = (false, t).
Proof. reflexivity. Qed.
Print Assumptions C54_nan.
(** In every mode the target goes to the object the standard names, limited to its type. *)
Theorem C54_object : forall m idx sub lo hi v t num den n, target_object m idx sub lo hi ->
  represents v num den -> truncation num den n ->
  forward_target m v t = Some (idx, sub, Z.max lo (Z.min hi n)).
Proof.
  intros m idx sub lo hi v t num den n H R T. unfold forward_target.
  assert (L : lo <= 0 <= hi) by (destruct H; lia).
  assert (F : exists k, forward_mode m = Some (m, idx, sub, k, (lo, hi))) by (destruct H; eexists; reflexivity).
  destruct F as [k ->]. rewrite (C54_finite lo hi v t num den n L R T). reflexivity.
Qed.
Print Assumptions C54_object.
Theorem C54_other_modes : forall m v t, (forall idx sub lo hi, ~ target_object m idx sub lo hi) -> forward_target m v t = None.
Proof.
  intros m v t H. unfold forward_target. destruct (forward_mode m) as [r|] eqn:E; [|reflexivity]. exfalso.
  apply List.find_some in E. destruct E as [I E]. apply Z.eqb_eq in E. subst m.
  repeat (destruct I as [<-|I]; [eapply H; constructor|]). destruct I.
Qed.
Print Assumptions C54_other_modes.
(** Restarting a mode drops the target. *)
Theorem C54_restart : forall mask t w, forward_out (helper_start t) = None /\ okay (forward_beh mask (helper_start t)) w = false.
Proof. split; reflexivity. Qed.
Print Assumptions C54_restart.
(** -2.5 is -5 * 2^-1; 40000.0 does not fit into 16 bit. *)
Example C54_ex : helper_set_target (-32768) 32767 (S754_finite true 5 (-1)) (mkTgt 0 false) = (true, mkTgt (-2) true)
  /\ represents (S754_finite true 5 (-1)) (-5) 2 /\ truncation (-5) 2 (-2)
  /\ helper_set_target (-32768) 32767 (S754_finite false 40000 0) (mkTgt 0 false) = (true, mkTgt 32767 true).
Proof. repeat split; try reflexivity. right. lia. Qed.

Example C54_object_ex : target_object 9 0x60FF 0 (-2147483648) 2147483647 /\
  forward_target 9 (S754_finite true 5 (-1)) (mkTgt 0 false) = Some (0x60FF, 0, -2).
Proof. split; [constructor|reflexivity]. Qed.

(** ** C56 *)
Theorem C56_supported : forall w modes mode,
  is_mode_supported (Some w) modes mode = Some true <->
  mode <> 6 /\ 1 <= mode <= 32 /\ Z.testbit w (mode - 1) = true /\ In mode modes.
Proof.
  intros w modes mode. unfold is_mode_supported. destruct (Z.eqb_spec mode 6) as [->|N].
  - split; [discriminate|]. intros [X _]. contradiction.
  - rewrite alloc_spec, by_device_spec. tauto.
Qed.
Print Assumptions C56_supported.
(** After init exactly the announced ones of the driver's modes are registered. *)
Theorem C56_registered : forall w ids l, init_modes (Some w) ids = Some l ->
  forall m, In m l <-> In m ids /\ 1 <= m <= 32 /\ Z.testbit w (m - 1) = true.
Proof. intros w ids l H m. rewrite (init_modes_spec (Some w) ids l H m), by_device_spec. reflexivity. Qed.
Print Assumptions C56_registered.
Theorem C56_init_total : forall w ids, exists l, init_modes (Some w) ids = Some l.
Proof.
  intros w ids. induction ids as [|i ids [l IH]]; [exists []; reflexivity|]. unfold init_modes in *. cbn [fold_right]. rewrite IH. cbn [by_device]. eauto.
Qed.
Print Assumptions C56_init_total.
(** Without object 6502 asking ends with an exception, and so does init. *)
Theorem C56_no_object : forall modes mode, mode <> 6 -> is_mode_supported None modes mode = None /\ init_modes None default_modes = None.
Proof. intros modes mode N. unfold is_mode_supported. rewrite (proj2 (Z.eqb_neq mode 6) N). split; reflexivity. Qed.
Print Assumptions C56_no_object.
Example C56_ex : init_modes (Some 0x3E5) default_modes = Some [1; 3; 6; 7; 8; 9; 10]
  /\ is_mode_supported (Some 0x3E5) [1; 3; 6; 7; 8; 9; 10] 8 = Some true /\ is_mode_supported (Some 0x3E5) [1; 3; 6; 7; 8; 9; 10] 2 = Some false
  /\ is_mode_supported (Some 0x3E5) [1; 3; 6; 7; 8; 9; 10] 6 = Some false.
Proof. repeat split. Qed.
(** With the modes registered by default: of the known modes those the device supports, and
    homing cannot be selected. *)
Theorem C56_defaults : forall w l m, init_modes (Some w) default_modes = Some l ->
  (In m l <-> known_mode m /\ Z.testbit w (m - 1) = true) /\
  (is_mode_supported (Some w) l m = Some true <-> known_mode m /\ m <> 6 /\ Z.testbit w (m - 1) = true).
Proof.
  intros w l m H.
  assert (K : In m default_modes <-> known_mode m).
  { split; [|intros []; cbn; auto 12]. intros X. cbn in X. repeat (destruct X as [<-|X]; [constructor|]). contradiction. }
  assert (R : known_mode m -> 1 <= m <= 32) by (intros []; lia).
  assert (A : In m l <-> known_mode m /\ Z.testbit w (m - 1) = true).
  { rewrite (C56_registered w _ l H m), K. tauto. }
  split; [exact A|]. rewrite C56_supported, A. tauto.
Qed.
Print Assumptions C56_defaults.

(** The first word after an initialisation, before any transition: nothing but halt *)
Theorem C52_init_word : forall pre x s sel shown, s <> OperationEnable ->
  snd (wrun [EWrite s sel shown] (fst (wrun (pre ++ [EInit]) x))) = [2^8].
Proof.
  intros pre x s sel shown N.
  assert (A : forall pre x, fst (wrun (pre ++ [EInit]) x) = mkW 0 true).
  { clear. induction pre as [|e pre IH]; intros x; [reflexivity|]. cbn [app wrun]. destruct (wstep x e) as [x1 o].
    specialize (IH x1). destruct (wrun (pre ++ [EInit]) x1). exact IH. }
  rewrite A. cbn [wrun wstep wcw wsfr]. unfold handle_write.
  assert (X : state_eqb s OperationEnable = false) by (apply state_eqb_neq; exact N). rewrite X. reflexivity.
Qed.
Print Assumptions C52_init_word.
