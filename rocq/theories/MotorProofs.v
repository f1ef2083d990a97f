(** Proofs about states, transitions and control words of CiA 402 motors. *)
From Verif Require Import Base MotorModel MotorSpec.

Lemma state_eqb_eq : forall a b, state_eqb a b = true <-> a = b.
Proof. intros a b. unfold state_eqb. destruct (state_eq_dec a b); split; congruence. Qed.
Lemma state_eqb_refl : forall a, state_eqb a a = true.
Proof. intro a. apply state_eqb_eq. reflexivity. Qed.
Lemma state_eqb_neq : forall a b, a <> b -> state_eqb a b = false.
Proof. intros a b H. destruct (state_eqb a b) eqn:E; [apply state_eqb_eq in E; contradiction|reflexivity]. Qed.

(** ** Status words *)
Definition denotesb (s : state402) (sw : Z) : bool :=
  match s with
  | NotReady => Z.land sw 0x4F =? 0x00
  | SwitchOnDisabled => Z.land sw 0x4F =? 0x40
  | ReadyToSwitchOn => Z.land sw 0x6F =? 0x21
  | SwitchedOn => Z.land sw 0x6F =? 0x23
  | OperationEnable => Z.land sw 0x6F =? 0x27
  | QuickStopActive => Z.land sw 0x6F =? 0x07
  | FaultReactionActive => Z.land sw 0x4F =? 0x0F
  | Fault => Z.land sw 0x4F =? 0x08
  | Start => false
  end.
Lemma denotesb_spec : forall s sw, denotesb s sw = true <-> denotes s sw.
Proof. intros [] sw; cbn; rewrite ?Z.eqb_eq; split; try congruence; contradiction. Qed.

Lemma decode_masked : forall sw, decode sw = decode (Z.land sw 0x6F).
Proof. intro sw. unfold decode. rewrite <- (Z.land_assoc sw). reflexivity. Qed.
Lemma denotesb_masked : forall s sw, denotesb s sw = denotesb s (Z.land sw 0x6F).
Proof. intros [] sw; unfold denotesb; rewrite <- ?(Z.land_assoc sw); reflexivity. Qed.
Lemma mask_range : forall sw, 0 <= Z.land sw 0x6F < 128.
Proof.
  intro sw. assert (E : Z.land sw 0x6F = Z.land (Z.land sw 0x6F) (2^7 - 1)) by (rewrite <- Z.land_assoc; reflexivity).
  rewrite E, land_ones_mod by lia. apply Z.mod_pos_bound. lia.
Qed.
Definition all_states := [Start; NotReady; SwitchOnDisabled; ReadyToSwitchOn; SwitchedOn; OperationEnable; QuickStopActive; FaultReactionActive; Fault].
Lemma in_all_states : forall s, In s all_states.
Proof. intros []; cbn; tauto. Qed.
Definition decode_ok (x : Z) : bool :=
  forallb (fun s => if state_eqb s Start then
                      Bool.eqb (state_eqb (decode x) Start) (forallb (fun s => negb (denotesb s x)) all_states)
                    else Bool.eqb (state_eqb (decode x) s) (denotesb s x)) all_states.
Lemma decode_ok_all : forall sw, decode_ok (Z.land sw 0x6F) = true.
Proof. intro sw. apply (forall_range 128 decode_ok); [vm_compute; reflexivity|apply mask_range]. Qed.

Lemma decode_denotes : forall sw s, s <> Start -> (decode sw = s <-> denotes s sw).
Proof.
  intros sw s Hs. rewrite <- denotesb_spec, denotesb_masked, decode_masked, <- state_eqb_eq.
  pose proof (decode_ok_all sw) as H. unfold decode_ok in H. rewrite forallb_forall in H.
  specialize (H s (in_all_states s)). rewrite (state_eqb_neq s Start Hs) in H. apply eqb_prop in H. rewrite H. reflexivity.
Qed.
Lemma decode_unknown : forall sw, decode sw = Start <-> (forall s, ~ denotes s sw).
Proof.
  intro sw. pose proof (decode_ok_all sw) as H. unfold decode_ok in H. rewrite forallb_forall in H.
  specialize (H Start (in_all_states Start)). rewrite state_eqb_refl in H. apply eqb_prop in H.
  rewrite decode_masked, <- state_eqb_eq, H, forallb_forall. split.
  - intros A s D. apply denotesb_spec in D. rewrite denotesb_masked in D. specialize (A s (in_all_states s)). rewrite D in A. discriminate.
  - intros A s _. destruct (denotesb s (Z.land sw 111)) eqn:E; [|reflexivity].
    rewrite <- denotesb_masked in E. apply denotesb_spec in E. destruct (A s E).
Qed.

(** ** Control words *)
Lemma apply_op_bit : forall o cw i, 0 <= i ->
  Z.testbit (apply_op o cw) i = (Z.testbit cw i && negb (Z.testbit (to_reset o) i)) || Z.testbit (to_set o) i.
Proof. intros o cw i Hi. unfold apply_op. rewrite Z.lor_spec, Z.land_spec, Z.lnot_spec by lia. reflexivity. Qed.

Lemma table : forall from to o, transition from to = Some o -> In (from, to) (standard ++ extra).
Proof. intros [] [] o H; try discriminate H; cbn; tauto. Qed.
Lemma table_complete : forall from to, In (from, to) (standard ++ extra) -> exists o, transition from to = Some o.
Proof. intros from to H. cbn in H. repeat (destruct H as [H|H]; [injection H as <- <-; eexists; reflexivity|]). contradiction. Qed.

Definition state_bits (w : Z) : list bool := map (Z.testbit w) [0; 1; 2; 3; 7].

Lemma transition_drive : forall from to o cw last,
  transition from to = Some o -> ~ In (from, to) extra -> (from = Fault -> Z.testbit last 7 = false) ->
  drive_step from (rising last (apply_op o cw)) (apply_op o cw) = to.
Proof.
  intros from to o cw last T E F.
  assert (B : forall i, 0 <= i -> Z.testbit (apply_op o cw) i = (Z.testbit cw i && negb (Z.testbit (to_reset o) i)) || Z.testbit (to_set o) i)
    by (intros; apply apply_op_bit; assumption).
  assert (B0 := B 0 ltac:(lia)). assert (B1 := B 1 ltac:(lia)). assert (B2 := B 2 ltac:(lia)).
  assert (B3 := B 3 ltac:(lia)). assert (B7 := B 7 ltac:(lia)). clear B.
  unfold drive_step, command_of, rising.
  destruct from, to; cbn in T; try discriminate T; injection T as <-;
    try (exfalso; apply E; cbn; tauto); try reflexivity;
    cbn [to_reset to_set disable_voltage shutdown switch_on enable_operation quickstop fault_reset] in *;
    try (rewrite (F eq_refl));
    rewrite ?B0, ?B1, ?B2, ?B3, ?B7; cbn; rewrite ?andb_false_r, ?andb_true_r, ?orb_true_r, ?orb_false_r; cbn; try reflexivity;
    try (destruct (Z.testbit cw 3); reflexivity);
    try (destruct (Z.testbit cw 0), (Z.testbit cw 2), (Z.testbit cw 3); reflexivity).
Qed.

Lemma transition_bits : forall from to o cw i, transition from to = Some o -> 0 <= i -> ~ state_bit i ->
  Z.testbit (apply_op o cw) i = Z.testbit cw i.
Proof.
  intros from to o cw i T Hi N. rewrite apply_op_bit by lia. unfold state_bit in N.
  assert (P : forall k, 0 <= k <= 3 \/ k = 7 -> Z.testbit (2^k) i = false) by (intros k Hk; apply Z.pow2_bits_false; lia).
  assert (A : forall n, 0 <= n < 256 -> (n < 16 \/ 128 <= n < 144) -> Z.testbit n i = false).
  { intros n Hn H. destruct (Z.le_gt_cases 8 i) as [L|L].
    - apply Z.bits_above_log2; [lia|]. destruct (Z.eq_dec n 0) as [->|]; [cbn; lia|]. apply Z.log2_lt_pow2; [lia|].
      apply Z.lt_le_trans with (2^8); [lia|]. apply Z.pow_le_mono_r; lia.
    - assert (Ii : i = 4 \/ i = 5 \/ i = 6) by lia.
      rewrite testbit_div by lia. destruct Ii as [->|[->| ->]]; apply Z.eqb_neq; change (2^4) with 16; change (2^5) with 32; change (2^6) with 64; lia. }
  destruct from, to; cbn in T; try discriminate T; injection T as <-; cbn [to_reset to_set disable_voltage automatic shutdown switch_on enable_operation quickstop fault_reset];
    unfold bit, CW_FaultReset, CW_EnableVoltage, CW_QuickStop, CW_SwitchOn, CW_EnableOperation;
    rewrite ?(A (2^7 + 2^1)), ?(A (2^2 + 2^1)), ?(A (2^7+2^0)), ?(A (2^2 + 2^1 + 2^0)), ?(A (2^7 + 2^3)), ?(A (2^2+2^1+2^0+2^3)), ?(A (2^7)), ?(A (2^1)), ?(A (2^7+2^2)), ?(A 0) by lia;
    rewrite ?andb_true_r, ?orb_false_r; reflexivity.
Qed.

Lemma way_spec : forall from g, from <> OperationEnable -> (In (from, g) way <-> next_for_enabling from = g).
Proof.
  intros from g N. split.
  - intro H. cbn in H. repeat (destruct H as [H|H]; [injection H as <- <-; reflexivity|]). contradiction.
  - intros <-. destruct from; cbn; tauto.
Qed.
Lemma way_standard : forall from g, In (from, g) way -> In (from, g) standard.
Proof. intros from g H. cbn in H. repeat (destruct H as [H|H]; [injection H as <- <-; cbn; tauto|]). contradiction. Qed.

Lemma set_transition_goal : forall cw from to hops, from <> to ->
  exists g, goal_of from to hops g /\
    set_transition cw from to hops =
    match transition from g with
    | Some o => (true, apply_op o cw, if hops then Some g else None)
    | None => (false, cw, if hops then Some g else None)
    end.
Proof.
  intros cw from to hops N. unfold set_transition. rewrite (state_eqb_neq from to N).
  destruct hops; cbn [andb].
  - destruct (state_eqb to OperationEnable) eqn:E.
    + apply state_eqb_eq in E. subst to. exists (next_for_enabling from). split; [|reflexivity].
      left. split; [reflexivity|]. apply way_spec; auto.
    + exists to. split; [|reflexivity]. right. split; [|reflexivity]. intros ->. rewrite state_eqb_refl in E. discriminate.
  - exists to. split; reflexivity.
Qed.
Lemma goal_unique : forall from to hops g1 g2, from <> to -> goal_of from to hops g1 -> goal_of from to hops g2 -> g1 = g2.
Proof.
  intros from to [|] g1 g2 N H1 H2; cbn in H1, H2; [|congruence].
  destruct H1 as [[A1 B1]|[A1 B1]], H2 as [[A2 B2]|[A2 B2]]; try congruence.
  subst to. apply way_spec in B1; [|assumption]. apply way_spec in B2; [|assumption]. congruence.
Qed.

(** ** handleWrite *)
Lemma MODE_MASK_bit : forall i, 0 <= i -> (Z.testbit MODE_MASK i = true <-> mode_bit i).
Proof.
  intros i Hi. unfold mode_bit. destruct (Z.le_gt_cases 10 i) as [L|L].
  - split; [|lia]. rewrite Z.bits_above_log2; [discriminate|vm_compute; discriminate|]. change (Z.log2 MODE_MASK) with 9. lia.
  - assert (I : i = 0 \/ i = 1 \/ i = 2 \/ i = 3 \/ i = 4 \/ i = 5 \/ i = 6 \/ i = 7 \/ i = 8 \/ i = 9) by lia.
    repeat (destruct I as [->|I]; [cbn; split; [intro; try discriminate; lia|intro; try reflexivity; lia]|]). subst i. cbn. split; [intro; lia|reflexivity].
Qed.
Lemma MODE_MASK_nbit : forall i, 0 <= i -> ~ mode_bit i -> Z.testbit MODE_MASK i = false.
Proof. intros i Hi N. destruct (Z.testbit MODE_MASK i) eqn:E; [|reflexivity]. apply MODE_MASK_bit in E; [contradiction|lia]. Qed.
Lemma access_other : forall a w i, 0 <= i -> ~ mode_bit i -> Z.testbit (access a w) i = Z.testbit w i.
Proof.
  intros a w i Hi N. apply MODE_MASK_nbit in N; [|lia].
  destruct a; cbn [access]; rewrite ?Z.lor_spec, ?Z.land_spec, ?Z.lnot_spec, ?Z.land_spec, N by lia; cbn; rewrite ?andb_true_r, ?andb_false_r, ?orb_false_r; reflexivity.
Qed.
Lemma accesses_other : forall l w i, 0 <= i -> ~ mode_bit i -> Z.testbit (accesses l w) i = Z.testbit w i.
Proof.
  unfold accesses. induction l as [|a l IH]; intros w i Hi N; [reflexivity|]. cbn. rewrite IH by assumption. apply access_other; assumption.
Qed.
Lemma assign0_mode : forall w i, mode_bit i -> Z.testbit (access (Assign 0) w) i = false.
Proof.
  intros w i M. assert (Hi : 0 <= i) by (unfold mode_bit in M; lia). apply MODE_MASK_bit in M; [|lia].
  cbn [access]. rewrite Z.lor_spec, !Z.land_spec, Z.lnot_spec, M, Z.bits_0 by lia. cbn. rewrite andb_false_r. reflexivity.
Qed.
Lemma halt_set : forall cw i, 0 <= i -> Z.testbit (Z.lor cw (bit CW_Halt)) i = Z.testbit cw i || (i =? 8).
Proof.
  intros cw i Hi. rewrite Z.lor_spec. f_equal. unfold bit, CW_Halt. destruct (Z.eqb_spec i 8) as [->|N].
  - reflexivity. - apply Z.pow2_bits_false. lia.
Qed.
Lemma clear_bit : forall w k i, 0 <= k -> 0 <= i -> Z.testbit (Z.land w (Z.lnot (bit k))) i = Z.testbit w i && negb (i =? k).
Proof.
  intros w k i Hk Hi. rewrite Z.land_spec, Z.lnot_spec by lia. do 2 f_equal. unfold bit. destruct (Z.eqb_spec i k) as [->|N].
  - apply Z.pow2_bits_true. lia. - apply Z.pow2_bits_false. lia.
Qed.

Section Write.
Variables (s : state402) (sel : option (Z * behaviour)) (shown : Z) (sfr : bool) (cw w sent : Z) (sfr' : bool).
Hypothesis H : handle_write s sel shown sfr cw = (w, sent, sfr').
Let w0 := Z.lor cw (bit CW_Halt).

Lemma hw_word : w = (if state_eqb s OperationEnable then
      match sel with
      | Some (m, b) =>
        if m =? shown then (if okay b w0 then Z.land (accesses (acts b w0) w0) (Z.lnot (bit CW_Halt)) else accesses (acts b w0) w0)
        else access (Assign 0) w0
      | None => access (Assign 0) w0
      end
    else w0).
Proof.
  unfold handle_write in H. fold w0 in H. injection H as H1 _ _. subst w. reflexivity.
Qed.
Lemma hw_sent : sent = if sfr then Z.land w (Z.lnot (bit CW_FaultReset)) else w.
Proof. rewrite hw_word. unfold handle_write in H. fold w0 in H. injection H as _ H1 _. subst sent. reflexivity. Qed.
Lemma hw_sfr : sfr' = false.
Proof. unfold handle_write in H. injection H as _ _ H1. congruence. Qed.

Lemma hw_halt : Z.testbit w 8 = false <->
  s = OperationEnable /\ exists b, sel = Some (shown, b) /\ okay b w0 = true.
Proof.
  rewrite hw_word. assert (M8 : ~ mode_bit 8) by (unfold mode_bit; lia).
  assert (W0 : Z.testbit w0 8 = true) by (unfold w0; rewrite halt_set by lia; apply orb_true_r).
  destruct (state_eqb s OperationEnable) eqn:E.
  - apply state_eqb_eq in E. destruct sel as [[m b]|].
    + destruct (Z.eqb_spec m shown) as [->|N].
      * destruct (okay b w0) eqn:O.
        -- rewrite clear_bit by (unfold CW_Halt; lia). cbn. rewrite andb_false_r.
           split; [intros _|reflexivity]. split; [exact E|]. exists b. auto.
        -- rewrite accesses_other, W0 by (auto; lia). split; [discriminate|]. intros [_ [b' [A B]]]. injection A as <-. congruence.
      * rewrite access_other, W0 by (auto; lia). split; [discriminate|]. intros [_ [b' [A B]]]. injection A as Hm _. contradiction.
    + rewrite access_other, W0 by (auto; lia). split; [discriminate|]. intros [_ [b' [A B]]]. discriminate A.
  - rewrite W0. split; [discriminate|]. intros [-> _]. rewrite state_eqb_refl in E. discriminate.
Qed.
Lemma hw_state : forall i, 0 <= i -> ~ mode_bit i -> i <> 8 -> Z.testbit w i = Z.testbit cw i.
Proof.
  intros i Hi M N. rewrite hw_word.
  assert (W0 : Z.testbit w0 i = Z.testbit cw i) by (unfold w0; rewrite halt_set by lia; rewrite (proj2 (Z.eqb_neq i 8) N); apply orb_false_r).
  destruct (state_eqb s OperationEnable); [|exact W0].
  destruct sel as [[m b]|]; [destruct (m =? shown)|]; [destruct (okay b w0)| |].
  - rewrite clear_bit by (unfold CW_Halt; lia). rewrite accesses_other by assumption. rewrite W0. unfold CW_Halt. rewrite (proj2 (Z.eqb_neq i 8) N). apply andb_true_r.
  - rewrite accesses_other; assumption.
  - rewrite access_other; assumption.
  - rewrite access_other; assumption.
Qed.
Lemma hw_mismatch : forall i, mode_bit i -> s = OperationEnable -> (forall b, sel <> Some (shown, b)) -> Z.testbit w i = false.
Proof.
  intros i M Es N. rewrite hw_word, (proj2 (state_eqb_eq _ _) Es). destruct sel as [[m b]|]; [destruct (Z.eqb_spec m shown) as [->|]|].
  - destruct (N b). reflexivity.
  - apply assign0_mode, M. - apply assign0_mode, M.
Qed.
Lemma hw_match : forall i b, mode_bit i -> s = OperationEnable -> sel = Some (shown, b) -> Z.testbit w i = Z.testbit (accesses (acts b w0) w0) i.
Proof.
  intros i b M Es El. rewrite hw_word, (proj2 (state_eqb_eq _ _) Es), El, Z.eqb_refl. destruct (okay b w0); [|reflexivity].
  assert (0 <= i) by (unfold mode_bit in M; lia).
  rewrite clear_bit by (unfold CW_Halt; lia). unfold CW_Halt. rewrite (proj2 (Z.eqb_neq i 8)) by (unfold mode_bit in M; lia). apply andb_true_r.
Qed.
Lemma hw_disabled : forall i, mode_bit i -> s <> OperationEnable -> Z.testbit w i = Z.testbit cw i.
Proof.
  intros i M N. rewrite hw_word, (state_eqb_neq _ _ N). unfold w0. assert (0 <= i) by (unfold mode_bit in M; lia).
  rewrite halt_set by lia. rewrite (proj2 (Z.eqb_neq i 8)) by (unfold mode_bit in M; lia). apply orb_false_r.
Qed.
Lemma hw_sent_bits : forall i, 0 <= i -> Z.testbit sent i = Z.testbit w i && negb (sfr && (i =? 7)).
Proof.
  intros i Hi. rewrite hw_sent. destruct sfr; cbn [andb].
  - rewrite clear_bit by (unfold CW_FaultReset; lia). reflexivity.
  - cbn. rewrite andb_true_r. reflexivity.
Qed.
End Write.

Lemma forward_bits : forall mask t w i, mode_bit i ->
  Z.testbit (accesses (acts (forward_beh mask t) w) w) i =
  if has_target t then Z.testbit w i || Z.testbit mask i else Z.testbit w i && negb (Z.testbit mask i).
Proof.
  intros mask t w i M. assert (Hi : 0 <= i) by (unfold mode_bit in M; lia). apply MODE_MASK_bit in M; [|lia].
  unfold accesses, forward_beh. cbn [acts]. destruct (has_target t); cbn [fold_left access];
    rewrite ?Z.lor_spec, ?Z.land_spec, ?Z.lor_spec, ?Z.lnot_spec, ?Z.land_spec, M by lia; cbn; rewrite ?andb_true_r, ?andb_false_r, ?orb_false_r; try reflexivity.
Qed.
Lemma homing_bits : forall ex w i, mode_bit i ->
  Z.testbit (accesses (acts (homing_beh ex) w) w) i = ex && (i =? 4).
Proof.
  intros ex w i M. assert (Hi : 0 <= i) by (unfold mode_bit in M; lia). 
  pose proof (assign0_mode w i M) as A. unfold accesses. cbn [acts homing_beh]. destruct ex; cbn [fold_left andb].
  - cbn [access] in *. rewrite Z.lor_spec, A. cbn [orb]. rewrite Z.land_spec. unfold bit.
    destruct (Z.eqb_spec i 4) as [->|N]; [reflexivity|]. rewrite Z.pow2_bits_false by lia. apply andb_false_r.
  - exact A.
Qed.

(** ** Targets *)
Lemma trunc_quot : forall num den, 0 < den -> truncation num den (Z.quot num den).
Proof.
  intros num den D. destruct (Z.le_gt_cases 0 num) as [P|P].
  - left. rewrite Z.quot_div_nonneg by lia. split; [exact P|]. split; [apply Z.div_pos; lia|]. nia.
  - right. split; [exact P|]. pose proof (Z.quot_opp_l num den ltac:(lia)) as Q. rewrite (Z.quot_div_nonneg (- num)) in Q by lia.
    assert (0 <= (- num) / den) by (apply Z.div_pos; lia). split; [lia|]. nia.
Qed.
Lemma trunc_unique : forall num den t1 t2, 0 < den -> truncation num den t1 -> truncation num den t2 -> t1 = t2.
Proof. unfold truncation. intros. nia. Qed.
Lemma trunc_scale : forall num den k t, 0 < den -> 0 < k -> truncation num den t -> truncation (num * k) (den * k) t.
Proof. unfold truncation. intros num den k t D K [H|H]; [left|right]; repeat split; try nia. Qed.
Lemma trunc_unscale : forall num den k t, 0 < den -> 0 < k -> truncation (num * k) (den * k) t -> truncation num den t.
Proof. unfold truncation. intros num den k t D K [H|H]; [left|right]; repeat split; try nia. Qed.

Lemma represents_scaled : forall s m e num den t, represents (S754_finite s m e) num den ->
  truncation num den t -> truncation (scaled s m e) (scale e) t.
Proof.
  intros s m e num den t [D R] T. cbv zeta in R. fold (signed s m) in R. unfold scaled, scale.
  destruct (0 <=? e) eqn:E.
  - rewrite Z.max_l, Z.max_r by lia. change (2^0) with 1. subst num. apply (trunc_unscale _ _ den); [lia|exact D|].
    replace (signed s m * 2^e * den) with (den * (signed s m * 2^e)) by ring. rewrite Z.mul_1_l. exact T.
  - rewrite Z.max_r, Z.max_l by lia. change (2^0) with 1. rewrite Z.mul_1_r.
    assert (P : 0 < 2^(-e)) by (apply Z.pow_pos_nonneg; lia).
    apply (trunc_unscale _ _ den); [exact P|exact D|].
    replace (signed s m * den) with (num * 2^(-e)) by lia. rewrite (Z.mul_comm (2^(-e)) den). apply trunc_scale; assumption.
Qed.
Lemma scale_pos : forall e, 0 < scale e.
Proof. intro e. apply Z.pow_pos_nonneg; lia. Qed.

Lemma set_target_finite : forall lo hi v t num den n, lo <= 0 <= hi -> represents v num den -> truncation num den n ->
  helper_set_target lo hi v t = (true, mkTgt (Z.max lo (Z.min hi n)) true).
Proof.
  intros lo hi v t num den n L R T. destruct v as [s|s| |s m e]; cbn in R; try (destruct R; contradiction).
  - destruct R as [D ->]. assert (n = 0) by (unfold truncation in T; nia). subst n. cbn. do 2 f_equal. lia.
  - pose proof (represents_scaled s m e num den n R T) as T'. pose proof (scale_pos e) as P.
    unfold helper_set_target, numeric_cast. set (x := scaled s m e) in *. set (d := scale e) in *.
    destruct (Z.leb_spec x ((lo - 1) * d)).
    + do 2 f_equal. assert (n < lo) by (unfold truncation in T'; nia). lia.
    + destruct (Z.leb_spec ((hi + 1) * d) x).
      * do 2 f_equal. assert (hi < n) by (unfold truncation in T'; nia). lia.
      * do 2 f_equal. rewrite (trunc_unique x d (Z.quot x d) n P (trunc_quot x d P) T').
        assert (lo <= n <= hi) by (unfold truncation in T'; nia). lia.
Qed.

(** ** First word after a restart *)
Lemma wrun_app : forall a b x, wrun (a ++ b) x = let (x1, w1) := wrun a x in let (x2, w2) := wrun b x1 in (x2, w1 ++ w2).
Proof.
  induction a as [|e a IH]; intros b x; cbn.
  - destruct (wrun b x). reflexivity.
  - destruct (wstep x e) as [x1 o]. rewrite IH. destruct (wrun a x1) as [x2 w1]. destruct (wrun b x2) as [x3 w2]. destruct o; reflexivity.
Qed.
Lemma wrun_quiet : forall l x, Forall (fun e => is_write e = false) l -> wsfr x = true ->
  wsfr (fst (wrun l x)) = true /\ snd (wrun l x) = [].
Proof.
  induction l as [|e l IH]; intros x F S; [split; [exact S|reflexivity]|].
  inversion F as [|? ? F1 F2]; subst. cbn.
  assert (K : wsfr (fst (wstep x e)) = true /\ snd (wstep x e) = None).
  { destruct e; cbn in F1 |- *; try discriminate; auto. destruct (set_transition (wcw x) from to hops) as [[r c] n]. auto. }
  destruct (wstep x e) as [x1 o]. cbn in K. destruct K as [K1 ->]. specialize (IH x1 F2 K1).
  destruct (wrun l x1) as [x2 ws]. exact IH.
Qed.
Lemma first_word : forall l x w rest, wsfr x = true -> snd (wrun l x) = w :: rest -> Z.testbit w 7 = false.
Proof.
  induction l as [|e l IH]; intros x w rest S E; [discriminate E|]. cbn [wrun] in E.
  destruct (is_write e) eqn:X.
  - destruct e; try discriminate X. cbn [wstep] in E.
    destruct (handle_write s sel shown (wsfr x) (wcw x)) as [[c w1] f] eqn:W. destruct (wrun l (mkW c f)) as [x2 ws].
    cbn [snd] in E. injection E as <- _. rewrite (hw_sent_bits _ _ _ _ _ _ _ _ W) by lia. rewrite S. apply andb_false_r.
  - destruct (wrun_quiet [e] x (Forall_cons _ X (Forall_nil _)) S) as [S1 N]. cbn [wrun] in S1, N.
    destruct (wstep x e) as [x1 o]. cbn [fst snd] in S1, N. destruct o; [discriminate N|].
    apply (IH x1 w rest S1). destruct (wrun l x1). exact E.
Qed.
Lemma restart_sfr : forall pre e x, restart e = true -> wsfr (fst (wrun (pre ++ [e]) x)) = true.
Proof.
  intros pre e x R. rewrite wrun_app. destruct (wrun pre x) as [x1 w1]. destruct e; try discriminate R; reflexivity.
Qed.
Lemma edge_exists : forall ws w0 rest w b, ws = w0 :: rest -> Z.testbit w0 7 = false -> In w ws -> Z.testbit w 7 = b -> b = true ->
  exists i, rising (nth i ws 0) (nth (S i) ws 0) = true /\ (S i < List.length ws)%nat.
Proof.
  induction ws as [|a ws IH]; intros w0 rest w b E Z0 I B T; [discriminate|]. injection E as -> ->.
  destruct I as [->|I]; [congruence|]. destruct rest as [|a' rest]; [destruct I|].
  destruct (Z.testbit a' 7) eqn:A.
  - exists 0%nat. cbn [nth List.length]. split; [unfold rising; rewrite Z0, A; reflexivity|lia].
  - destruct (IH a' rest w b eq_refl A I B T) as [i [X Y]]. exists (Datatypes.S i). split; [exact X|]. cbn [List.length] in *. lia.
Qed.
Lemma write_bit7 : forall l x, Forall (fun e => is_write e = true) l -> Z.testbit (wcw x) 7 = true -> wsfr x = false ->
  Forall (fun w => Z.testbit w 7 = true) (snd (wrun l x)).
Proof.
  induction l as [|e l IH]; intros x F B N; [constructor|]. inversion F as [|? ? F1 F2]; subst.
  destruct e; try discriminate F1. cbn [wrun wstep].
  destruct (handle_write s sel shown (wsfr x) (wcw x)) as [[c w] f] eqn:W.
  assert (C : Z.testbit c 7 = true) by (rewrite (hw_state _ _ _ _ _ _ _ _ W) by (unfold mode_bit; lia); exact B).
  pose proof (hw_sfr _ _ _ _ _ _ _ _ W) as ->.
  specialize (IH (mkW c false) F2 C eq_refl). destruct (wrun l (mkW c false)) as [x2 ws]. cbn [snd] in *. constructor; [|exact IH].
  rewrite (hw_sent_bits _ _ _ _ _ _ _ _ W) by lia. rewrite C, N. reflexivity.
Qed.
Lemma writes_sfr : forall l x, Forall (fun e => is_write e = true) l -> l <> [] -> wsfr (fst (wrun l x)) = false.
Proof.
  induction l as [|e l IH]; intros x F N; [contradiction|]. inversion F as [|? ? F1 F2]; subst. destruct e; try discriminate F1. cbn [wrun wstep].
  destruct (handle_write s sel shown (wsfr x) (wcw x)) as [[c w] f] eqn:W. pose proof (hw_sfr _ _ _ _ _ _ _ _ W) as ->.
  destruct l as [|e' l]; [reflexivity|]. specialize (IH (mkW c false) F2 ltac:(discriminate)). destruct (wrun (e' :: l) (mkW c false)). exact IH.
Qed.
Lemma fault_transition : forall x, exists c n, set_transition (wcw x) Fault OperationEnable true = (true, c, n) /\ Z.testbit c 7 = true.
Proof.
  intro x. eexists _, _. split; [reflexivity|]. rewrite apply_op_bit by lia. cbn. rewrite orb_true_r. reflexivity.
Qed.
Lemma reset_edge : forall pre e a b x, restart e = true -> Forall (fun e => is_write e = true) (a ++ b) -> b <> [] -> (2 <= List.length (a ++ b))%nat ->
  let ws := snd (wrun (a ++ ETransition Fault OperationEnable true :: b) (fst (wrun (pre ++ [e]) x))) in
  exists i, rising (nth i ws 0) (nth (Datatypes.S i) ws 0) = true /\ (Datatypes.S i < List.length ws)%nat.
Proof.
  intros pre e a b x R F Nb L ws. pose proof (restart_sfr pre e x R) as S0. set (x0 := fst (wrun (pre ++ [e]) x)) in *.
  apply Forall_app in F. destruct F as [Fa Fb].
  assert (G : forall l y, Forall (fun e => is_write e = true) l -> List.length (snd (wrun l y)) = List.length l).
  { induction l as [|e' l IH]; intros y Hl; [reflexivity|]. inversion Hl as [|? ? H1 H2]; subst. destruct e'; try discriminate H1. cbn [wrun wstep].
    destruct (handle_write s sel shown (wsfr y) (wcw y)) as [[c w] f]. specialize (IH (mkW c f) H2). destruct (wrun l (mkW c f)). cbn in *. lia. }
  assert (W : ws = snd (wrun a x0) ++ snd (wrun (ETransition Fault OperationEnable true :: b) (fst (wrun a x0)))).
  { unfold ws. rewrite wrun_app. destruct (wrun a x0) as [x1 w1]. cbn [fst snd]. destruct (wrun _ x1). reflexivity. }
  set (x1 := fst (wrun a x0)) in *. destruct (fault_transition x1) as [c [n [T C]]].
  assert (W2 : snd (wrun (ETransition Fault OperationEnable true :: b) x1) = snd (wrun b (mkW c (wsfr x1)))).
  { cbn [wrun wstep]. rewrite T. destruct (wrun b (mkW c (wsfr x1))). reflexivity. }
  rewrite W2 in W.
  assert (Len : List.length ws = List.length (a ++ b)) by (rewrite W, app_length, !G, app_length by assumption; reflexivity).
  destruct ws as [|w0 rest] eqn:Ws; [cbn in Len; lia|].
  assert (Z0 : Z.testbit w0 7 = false).
  { apply (first_word (a ++ ETransition Fault OperationEnable true :: b) x0 w0 rest S0). exact Ws. }
  assert (exists w, In w (w0 :: rest) /\ Z.testbit w 7 = true) as [w [I B]].
  { rewrite W. destruct a as [|e1 a].
    - destruct b as [|e1 b]; [contradiction|]. cbn [app List.length] in L. destruct b as [|e2 b]; [cbn in L; lia|].
      inversion Fb as [|? ? F1 F2]; subst. destruct e1; try discriminate F1. 
      set (m := (e2 :: b)) in *. cbn [wrun wstep fst snd app]. cbn [wcw wsfr].
      destruct (handle_write s sel shown (wsfr x1) c) as [[c1 w1] f] eqn:Hw. pose proof (hw_sfr _ _ _ _ _ _ _ _ Hw) as ->.
      assert (C1 : Z.testbit c1 7 = true) by (rewrite (hw_state _ _ _ _ _ _ _ _ Hw) by (unfold mode_bit; lia); exact C).
      pose proof (write_bit7 m (mkW c1 false) F2 C1 eq_refl) as Q. pose proof (G m (mkW c1 false) F2) as Lm.
      destruct (wrun m (mkW c1 false)) as [x3 ws3]. cbn [snd] in *. destruct ws3 as [|w3 ws3]; [unfold m in Lm; cbn in Lm; lia|].
      inversion Q; subst. exists w3. split; [right; left; reflexivity|assumption].
    - assert (S1 : wsfr x1 = false) by (apply writes_sfr; [exact Fa|discriminate]).
      pose proof (write_bit7 b (mkW c (wsfr x1)) Fb C S1) as Q. pose proof (G b (mkW c (wsfr x1)) Fb) as Lm.
      destruct (snd (wrun b (mkW c (wsfr x1)))) as [|w3 ws3]; [destruct b; [contradiction|cbn in Lm; lia]|].
      inversion Q; subst. exists w3. split; [apply in_or_app; right; left; reflexivity|assumption]. }
  apply (edge_exists (w0 :: rest) w0 rest w true eq_refl Z0 I B eq_refl).
Qed.

(** ** Modes *)
Lemma by_device_spec : forall w mode, by_device (Some w) mode = Some true <-> 1 <= mode <= 32 /\ Z.testbit w (mode - 1) = true.
Proof.
  intros w mode. unfold by_device. destruct (Z.ltb_spec 0 mode), (Z.leb_spec mode 32); cbn [andb]; try (split; [discriminate|lia]).
  rewrite pow2_testbit_has by lia. split; [intro H1; injection H1 as H1; split; [lia|exact H1]|intros [_ ->]; reflexivity].
Qed.
Lemma alloc_spec : forall w modes mode, alloc_mode w modes mode = Some true <-> by_device w mode = Some true /\ In mode modes.
Proof.
  intros w modes mode. unfold alloc_mode. destruct (by_device w mode) as [b|]; [|split; [discriminate|intros [H _]; discriminate]].
  assert (E : existsb (Z.eqb mode) modes = true <-> In mode modes).
  { rewrite existsb_exists. split; [intros [y [Hy E]]; apply Z.eqb_eq in E; subst; exact Hy|intro H; exists mode; split; [exact H|apply Z.eqb_refl]]. }
  destruct b; cbn [andb].
  - split; [intro H; injection H as H; split; [reflexivity|apply E, H]|intros [_ H]; apply E in H; rewrite H; reflexivity].
  - split; [discriminate|intros [H _]; discriminate].
Qed.
Lemma init_modes_spec : forall w ids l, init_modes w ids = Some l -> forall m, In m l <-> In m ids /\ by_device w m = Some true.
Proof.
  induction ids as [|i ids IH]; cbn; intros l H m.
  - injection H as <-. cbn. tauto.
  - fold (init_modes w ids) in H. destruct (by_device w i) as [b|] eqn:B; [|discriminate]. destruct (init_modes w ids) as [l'|]; [|discriminate].
    injection H as <-. specialize (IH l' eq_refl m). destruct b; cbn; rewrite IH.
    + split; [intros [->|[A C]]; auto|intros [[->|A] C]; auto].
    + split; [intros [A C]; auto|intros [[->|A] C]; [congruence|auto]].
Qed.
