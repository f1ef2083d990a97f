(** A command reaches the bus in the same cycle (C103) *)
From Coq Require Import Floats.SpecFloat QArith Qabs Lqa.
From Verif Require Import Base CanModel KeyModel StorageModel StorageSpec LayerModel MotorModel MotorSpec MotorProofs MotorProps HandleModel
  PdoModel PdoSpec PdoTxProofs PdoRxProofs PdoProps CycleModel CycleSpec CycleProofs.
From Verif Require JointModel JointSpec JointProps JointRoundProofs.
Import JointModel(meas, cmd).
Local Open Scope Z_scope.

Section Props.
Variable dv : device.
Variable d : dict.
Variable junk : nat -> spec_float.
Variable dtype : Z -> option Z.
Variable opens : Z -> bool.
Variable fstate ls : Type.
Notation hl := (JointModel.hl spec_float fstate ls).
Notation write_pass := (write_pass dv d junk dtype opens fstate ls).
Notation told active x := (snd (JointModel.handle_write spec_float S754_nan junk dtype opens fstate ls Ready active x)).

Definition target_known (lo hi : Z) (m : motor) : Prop := has_target (mo_tgt m) = true -> lo <= target (mo_tgt m) <= hi.

Lemma motor_sends T lay m n idx sub lo hi p w : target_object (mo_mode m) idx sub lo hi -> mo_state m = OperationEnable -> mo_shown m = mo_mode m ->
  mo_tgt m = mkTgt n true -> tx_mapped T d lay p w ->
  In (object_key idx sub) (keys lay) -> T (object_key idx sub) = TInt (mkIty true (target_size lo)) ->
  exists w1 b, write_target dv d m w = Ok (w1, true) /\ b = le_bytes (forward_size (mo_mode m)) n /\
    tx_inv T d lay (f_hdr (p_frame p)) p w1 (tx_write (mkTx (held_of w) (some_dirty p w)) (object_key idx sub) b).
Proof.
  intros TO E S0 Tg M Hk HT. destruct (forward_row _ _ _ _ _ TO) as (mask & F & _ & K & FS & _).
  assert (Inv : tx_inv T d lay (f_hdr (p_frame p)) p w (mkTx (held_of w) (some_dirty p w))) by (split; [exact M|]; repeat split).
  destruct (set_done T d lay (f_hdr (p_frame p)) dv p w _ (object_key idx sub) (le_bytes (forward_size (mo_mode m)) n) Inv Hk) as (w1 & O & I1).
  { rewrite le_len, HT. cbn [ty_size i_size]. lia. }
  exists w1, (le_bytes (forward_size (mo_mode m)) n). split; [|split; [reflexivity|exact I1]].
  unfold write_target. rewrite E, S0, K, Tg, Z.eqb_refl. change (state_eqb OperationEnable OperationEnable) with true. cbn [andb forward_out has_target target].
  rewrite O. reflexivity.
Qed.

(** The target: if the drive is enabled and displays the selected mode, and the object of the mode is mapped, the pass sends a
    frame, and the frame carries the command of the joint, as a whole number within the limits of the object, at the place
    of the object. *)
Theorem C103_target : forall T lay active (x : hl) m p w idx sub lo hi n y m1 p1 w1 f ok,
  mo_state m = OperationEnable -> mo_shown m = mo_mode m -> target_object (mo_mode m) idx sub lo hi -> target_known lo hi m ->
  commands lo hi (last_target (mo_tgt m)) (told active x) n ->
  tx_mapped T d lay p w -> In (object_key idx sub) (keys lay) -> T (object_key idx sub) = TInt (mkIty true (target_size lo)) ->
  (In control_word (keys lay) -> T control_word = TInt (mkIty false 2)) ->
  write_pass active x m p w = Ok (y, m1, p1, w1, f, ok) ->
  exists fr bs, f = Some fr /\ f_hdr fr = f_hdr (p_frame p) /\ f_dlc fr = Z.of_nat (total lay) /\
    slice lay (object_key idx sub) (f_data fr) = Some bs /\ signed_le bs = n /\
    last_target (mo_tgt m1) = Some n /\ target_known lo hi m1.
Proof.
  intros T lay active x m p w idx sub lo hi n y m1 p1 w1 f ok E S0 TO TK C M Hk HT HC R. change control_word with cw_key in *. unfold CycleModel.write_pass in R.
  destruct (JointModel.handle_write _ _ _ _ _ _ _ Ready active x) as [y0 tv]. cbn [snd] in C.
  fold (commanded tv m) in R. destruct (commanded_tgt tv m idx sub lo hi n TO E C TK) as [CM B]. rewrite CM in R.
  set (m' := with_tgt (mkTgt n true) m) in *. destruct (forward_row _ _ _ _ _ TO) as (mask & F & FB & K & FS & FP & LO & HI & NK).
  destruct (motor_sends T lay m' n idx sub lo hi p w TO E S0 eq_refl M Hk HT) as (w2 & b & WT & Eb & Inv).
  unfold motor_write in R. change (mo_mode m') with (mo_mode m) in *. rewrite FB, WT in R.
  destruct (handle_write (mo_state m') (Some (mo_mode m, forward_beh mask (mo_tgt m'))) (mo_shown m') (mo_sfr m') (mo_cw m')) as [[cw sent] sfr].
  destruct (obj dv d cw_key (SSetCached (le_bytes 2 sent)) w2) as [[w3 r]|] eqn:O; [|discriminate R].
  assert (Inv3 : exists s, tx_inv T d lay (f_hdr (p_frame p)) p w3 s /\ tx_cur s (object_key idx sub) = Some b /\ tx_changed s = true).
  { destruct (existsb (Z.eqb cw_key) (keys lay)) eqn:Ek.
    - apply existsb_eqb in Ek. assert (Le : List.length (le_bytes 2 sent) = ty_size (T cw_key)) by (rewrite (HC Ek); reflexivity).
      destruct (tx_mapped_op T d lay (f_hdr (p_frame p)) dv p w2 _ cw_key (SSetCached (le_bytes 2 sent)) Inv Ek) as (w4 & r4 & O4 & I4); [intros _; exact Le|].
      rewrite O in O4. injection O4 as <- <-. eexists. split; [exact I4|]. cbn [tx_spec_step]. rewrite (proj2 (existsb_eqb _ _) Ek).
      destruct (same _ _ _); cbn [tx_write tx_cur tx_changed]; rewrite ?Z.eqb_refl; [auto|]. rewrite (proj2 (Z.eqb_neq _ _) NK). auto.
    - apply existsb_neqb in Ek. eexists. split; [exact (tx_other T d lay _ dv p w2 _ cw_key (SSetCached (le_bytes 2 sent)) w3 r Inv Ek Logic.I O)|].
      cbn [tx_write tx_cur tx_changed]. rewrite Z.eqb_refl. auto. }
  destruct Inv3 as (s & I3 & Cs & Ch). destruct (tx_cycle T d lay _ p w3 s I3) as (p4 & w4 & f4 & TS & I4 & RO). rewrite TS in R.
  injection R as <- <- <- <- <- <-. cbn [tx_result_ok] in RO. destruct f4 as [fr|]; [|congruence]. destruct RO as (_ & H1 & H2 & _ & SH).
  exists fr, b. split; [reflexivity|]. split; [exact H1|]. split; [exact H2|]. split; [|split].
  - apply (shows_slice lay (tx_cur s) (f_data fr)); [exact (txm_keys _ _ _ _ _ M)|exact SH|exact Hk|exact Cs].
  - rewrite Eb. apply le_signed; [exact FP|]. lia.
  - split; [reflexivity|]. intros _. exact B.
Qed.

Lemma word_bits w i : 0 <= i < 16 -> Z.testbit (unsigned_le (le_bytes 2 w)) i = Z.testbit w i.
Proof. intros H. rewrite le_value. change (8 * Z.of_nat 2) with 16. apply Z.mod_pow2_bits_low. lia. Qed.

(** With the default conversion: the device is told a position that the driver itself would show as the one commanded, up to
    half a thousandth of a degree, after whatever history of the joint. *)
Theorem C103_position : forall fupd enf lrst ef et fc m0 c0 rnd l T lay m p w idx sub q y m1 p1 w1 f ok,
  let x := JointModel.run spec_float S754_nan junk dtype opens fstate ls fupd enf lrst fc l (JointModel.new_hl spec_float fstate ls ef et m0 c0) in
  (forall k, JointSpec.pure spec_float (et k)) -> JointSpec.rounds rnd -> et KPos = position_default rnd ->
  JointModel.dvalue (cmd spec_float fstate ls x KPos) = Some q -> (q == 0 \/ Qpower 2 (-800) <= Qabs q)%Q -> (Qabs q <= 37000)%Q ->
  mo_state m = OperationEnable -> mo_shown m = mo_mode m -> target_object (mo_mode m) idx sub (- 2 ^ 31) (2 ^ 31 - 1) -> target_known (- 2 ^ 31) (2 ^ 31 - 1) m ->
  tx_mapped T d lay p w -> In (object_key idx sub) (keys lay) -> T (object_key idx sub) = TInt (mkIty true 4) ->
  (In control_word (keys lay) -> T control_word = TInt (mkIty false 2)) ->
  write_pass (Some KPos) x m p w = Ok (y, m1, p1, w1, f, ok) ->
  exists fr bs pi v, f = Some fr /\ slice lay (object_key idx sub) (f_data fr) = Some bs /\ JointModel.dvalue JointModel.M_PI = Some pi /\
    JointModel.dvalue (JointModel.default_from_d (signed_le bs)) = Some v /\
    (Qabs (v - q) <= pi / 360000 * (1 + Qpower 2 (-50)) + Qpower 2 (-50) * Qabs q)%Q.
Proof.
  intros fupd enf lrst ef et fc m0 c0 rnd l T lay m p w idx sub q y m1 p1 w1 f ok x PU RN ET DQ LQ BQ E S0 TO TK M Hk HT HC R.
  destruct (JointProps.C95_target spec_float S754_nan junk dtype opens fstate ls fupd enf lrst ef et fc m0 c0 l KPos PU) as (y0 & v & HW & TG & _).
  fold x in HW, TG. change control_word with cw_key in *. destruct TG as (vs & F2 & Ev). rewrite ET in F2, Ev. cbn in F2, Ev.
  inversion F2 as [|n0 v0 ns vs0 [Hv _] F2' A1 A2]; subst. inversion F2'; subst. rewrite (Hv eq_refl) in HW. clear Hv F2 F2'.
  destruct (JointRoundProofs.back1 rnd _ q RN DQ LQ) as (z & n & v & Z1 & Z2 & Z3 & Z4 & Z5).
  { apply Qle_trans with (1 := BQ). vm_compute. discriminate. }
  destruct (dvalue_int _ z n Z1 Z2) as (num & den & RP & TR).
  assert (NB : (- 2 ^ 31 <= n <= 2 ^ 31 - 1)%Z).
  { set (k := (180000 / JointRoundProofs.PI)%Q) in *. assert (KP : (0 <= k)%Q) by (vm_compute; discriminate). assert (KB : (37000 * k <= 2147483646)%Q) by (vm_compute; discriminate).
    apply Qabs_Qle_condition in Z5. apply Qabs_Qle_condition in BQ.
    assert (U : (q * k <= 37000 * k)%Q) by (apply Qmult_le_compat_r; tauto). assert (L : (- (37000) * k <= q * k)%Q) by (apply Qmult_le_compat_r; tauto).
    assert (UB : (inject_Z n <= inject_Z (2 ^ 31 - 1))%Q) by (change (inject_Z (2 ^ 31 - 1)) with 2147483647%Q; lra).
    assert (LB : (inject_Z (- 2 ^ 31) <= inject_Z n)%Q) by (change (inject_Z (- 2 ^ 31)) with (- (2147483648))%Q; lra).
    rewrite <- Zle_Qle in UB, LB. lia. }
  destruct (C103_target T lay (Some KPos) x m p w idx sub (- 2 ^ 31) (2 ^ 31 - 1) n y m1 p1 w1 f ok E S0 TO TK) as (fr & bs & F1 & _ & _ & SL & SG & _); try assumption.
  { rewrite HW. cbn [snd]. set (dd := JointModel.default_to_d rnd (cmd spec_float fstate ls x KPos)) in *.
    assert (CL : n = Z.max (- 2 ^ 31) (Z.min (2 ^ 31 - 1) n)) by lia.
    destruct dd as [s|s| |s mm e]; cbn [commands]; try discriminate Z1; exists num, den, n; auto. }
  exists fr, bs, JointRoundProofs.PI, v. split; [exact F1|]. split; [exact SL|]. split; [reflexivity|]. rewrite SG. split; [exact Z3|]. exact Z4.
Qed.

(** The control word goes with it: no halt, the bits of the mode, and the others as they were. The pass succeeds, and the
    conditions for the next one hold. *)
Theorem C103_enabled : forall T lay active (x : hl) m p w idx sub lo hi n,
  mo_state m = OperationEnable -> mo_shown m = mo_mode m -> target_object (mo_mode m) idx sub lo hi -> target_known lo hi m ->
  commands lo hi (last_target (mo_tgt m)) (told active x) n ->
  tx_mapped T d lay p w -> In (object_key idx sub) (keys lay) -> T (object_key idx sub) = TInt (mkIty true (target_size lo)) ->
  In control_word (keys lay) -> T control_word = TInt (mkIty false 2) ->
  exists y m1 p1 w1 fr ws, write_pass active x m p w = Ok (y, m1, p1, w1, Some fr, true) /\
    mo_state m1 = mo_state m /\ mo_shown m1 = mo_shown m /\ mo_mode m1 = mo_mode m /\ tx_mapped T d lay p1 w1 /\
    slice lay control_word (f_data fr) = Some ws /\ Z.testbit (unsigned_le ws) 8 = false /\
    forall i, 0 <= i < 16 -> i <> 8 ->
      (mode_bit i /\ mode_on_bit (mo_mode m) i -> Z.testbit (unsigned_le ws) i = true) /\
      (~ (mode_bit i /\ mode_on_bit (mo_mode m) i) -> Z.testbit (unsigned_le ws) i = Z.testbit (mo_cw m) i && negb (mo_sfr m && (i =? 7))).
Proof.
  intros T lay active x m p w idx sub lo hi n E S0 TO TK C M Hk HT Hc HC. change control_word with cw_key in *. unfold CycleModel.write_pass.
  destruct (JointModel.handle_write _ _ _ _ _ _ _ Ready active x) as [y0 tv]. cbn [snd] in C.
  fold (commanded tv m). destruct (commanded_tgt tv m idx sub lo hi n TO E C TK) as [CM B]. rewrite CM.
  set (m' := with_tgt (mkTgt n true) m) in *. destruct (forward_row _ _ _ _ _ TO) as (mask & F & FB & K & FS & FP & LO & HI & NK).
  destruct (motor_sends T lay m' n idx sub lo hi p w TO E S0 eq_refl M Hk HT) as (w2 & b & WT & Eb & Inv).
  unfold motor_write. change (mo_mode m') with (mo_mode m) in *. rewrite FB, WT.
  destruct (handle_write (mo_state m') (Some (mo_mode m, forward_beh mask (mo_tgt m'))) (mo_shown m') (mo_sfr m') (mo_cw m')) as [[cw sent] sfr] eqn:HW.
  destruct (cached_done T d lay (f_hdr (p_frame p)) dv p w2 _ cw_key (le_bytes 2 sent) _ Inv Hc HC) as (w3 & s & O & I3 & Cs & Co & Ch); [rewrite HC; reflexivity|].
  rewrite O. destruct (tx_cycle T d lay _ p w3 s I3) as (p4 & w4 & f4 & TS & I4 & RO). rewrite TS.
  cbn [tx_result_ok] in RO. destruct f4 as [fr|]; [|rewrite Ch in RO; [discriminate|reflexivity]]. destruct RO as (_ & H1 & H2 & _ & SH).
  exists y0, (with_cw cw sfr m'), p4, w4, fr, (le_bytes 2 sent). repeat (split; [reflexivity|]). split; [exact (proj1 I4)|].
  split; [apply (shows_slice lay (tx_cur s) (f_data fr)); [exact (txm_keys _ _ _ _ _ M)|exact SH|exact Hc|exact Cs]|].
  change (mo_tgt m') with (mkTgt n true) in HW. change (mo_state m') with (mo_state m) in HW. change (mo_shown m') with (mo_shown m) in HW.
  change (mo_sfr m') with (mo_sfr m) in HW. change (mo_cw m') with (mo_cw m) in HW. rewrite E, S0 in HW.
  split.
  - rewrite word_bits by lia. apply (C51_executes _ _ _ _ _ _ _ _ _ _ HW). auto.
  - intros i Hi N8. rewrite word_bits by lia. destruct (C51_standard_bits (mo_mode m) idx sub lo hi (mkTgt n true) TO) as (b0 & FB0 & SB).
    rewrite FB in FB0. injection FB0 as <-.
    assert (DM : mode_bit i \/ ~ mode_bit i) by (unfold mode_bit; lia). destruct DM as [MB|MB].
    + destruct (SB _ _ _ _ _ i HW MB) as [SB1 SB2]. split; [intros [_ ON]; exact (SB1 ON)|].
      intros NO. rewrite SB2 by tauto. rewrite (proj2 (Z.eqb_neq i 7)) by (unfold mode_bit in MB; lia). rewrite andb_false_r, andb_true_r. reflexivity.
    + split; [tauto|]. intros _. rewrite (proj2 (C51_state_bits _ _ _ _ _ _ _ _ i HW ltac:(lia) MB N8)).
      destruct (mo_sfr m && (i =? 7)); cbn [negb]; [rewrite andb_false_r|rewrite andb_true_r]; reflexivity.
Qed.

(** A drive that is not enabled, or that displays another mode, or to which nothing was commanded yet, gets no target: the object keeps the value it was given last, and
    the control word has the halt bit. *)
Theorem C103_halted : forall T lay active (x : hl) m p w idx sub lo hi,
  mo_state m <> OperationEnable \/ mo_shown m <> mo_mode m \/ (last_target (mo_tgt m) = None /\ no_command (told active x)) -> target_object (mo_mode m) idx sub lo hi ->
  tx_mapped T d lay p w -> In control_word (keys lay) -> T control_word = TInt (mkIty false 2) ->
  exists y m1 p1 w1 f, write_pass active x m p w = Ok (y, m1, p1, w1, f, true) /\
    (forall fr k v, f = Some fr -> In k (keys lay) -> k <> control_word -> held_of w k = Some v -> slice lay k (f_data fr) = Some v) /\
    (exists ws, held_of w1 control_word = Some ws /\ Z.testbit (unsigned_le ws) 8 = true /\
       forall fr, f = Some fr -> slice lay control_word (f_data fr) = Some ws).
Proof.
  intros T lay active x m p w idx sub lo hi NO TO M Hc HC. change control_word with cw_key in *. unfold CycleModel.write_pass.
  destruct (JointModel.handle_write _ _ _ _ _ _ _ Ready active x) as [y0 tv]. cbn [snd] in NO.
  fold (commanded tv m). destruct (forward_row _ _ _ _ _ TO) as (mask & F & FB & K & FS & FP & LO & HI & NK).
  assert (CM : exists t, commanded tv m = with_tgt t m /\ (last_target (mo_tgt m) = None -> no_command tv -> last_target t = None)).
  { unfold commanded, command. rewrite F. destruct tv as [v|]; [|exists (mo_tgt m); split; [destruct m; reflexivity|auto]].
    unfold set_target. destruct (state_eqb (mo_state m) OperationEnable); [destruct (helper_set_target lo hi v (mo_tgt m)) as [o t] eqn:HT|]; (eexists; split; [reflexivity|]); [|auto].
    intros L0 [X|X]; [discriminate|]. injection X as ->. cbn in HT. injection HT as <- <-. exact L0. }
  destruct CM as (t & -> & LT). unfold motor_write. change (mo_mode (with_tgt t m)) with (mo_mode m). rewrite FB.
  assert (WT : write_target dv d (with_tgt t m) w = Ok (w, true)).
  { unfold write_target. change (mo_mode (with_tgt t m)) with (mo_mode m). change (mo_state (with_tgt t m)) with (mo_state m). change (mo_shown (with_tgt t m)) with (mo_shown m).
    destruct NO as [NO|[NO|[NO1 NO2]]].
    - unfold state_eqb. destruct (state_eq_dec _ _); [contradiction|]. reflexivity.
    - rewrite (proj2 (Z.eqb_neq (mo_mode m) (mo_shown m))) by congruence. rewrite andb_false_r. reflexivity.
    - specialize (LT NO1 NO2). unfold last_target in LT. change (mo_tgt (with_tgt t m)) with t. unfold forward_out. destruct (has_target t); [discriminate|].
      destruct (_ && _); destruct (forward_key _); reflexivity. }
  rewrite WT. destruct (handle_write _ _ _ _ _) as [[cw sent] sfr] eqn:HW.
  assert (Inv : tx_inv T d lay (f_hdr (p_frame p)) p w (mkTx (held_of w) (some_dirty p w))) by (split; [exact M|]; repeat split).
  destruct (cached_done T d lay (f_hdr (p_frame p)) dv p w _ cw_key (le_bytes 2 sent) _ Inv Hc HC) as (w3 & s & O & I3 & Cs & Co & Ch); [rewrite HC; reflexivity|].
  rewrite O. destruct (tx_cycle T d lay _ p w3 s I3) as (p4 & w4 & f4 & TS & I4 & RO). rewrite TS.
  do 5 eexists. split; [reflexivity|]. split.
  - intros fr k v -> Hk N Hv. cbn [tx_result_ok] in RO. destruct RO as (_ & _ & _ & _ & SH).
    apply (shows_slice lay (tx_cur s) (f_data fr)); [exact (txm_keys _ _ _ _ _ M)|exact SH|exact Hk|rewrite (Co k N); exact Hv].
  - exists (le_bytes 2 sent). split; [rewrite <- (proj1 (proj2 (proj2 I4)) cw_key Hc); exact Cs|]. split.
    + rewrite word_bits by lia. apply not_false_iff_true. intros X. apply (C51_executes _ _ _ _ _ _ _ _ _ _ HW) in X as (X1 & X2 & X3).
      cbn [with_tgt mo_state mo_shown mo_tgt] in X1, X2, X3. destruct NO as [NO|[NO|[NO1 NO2]]]; try congruence.
      specialize (LT NO1 NO2). unfold last_target in LT. change (mo_tgt (with_tgt t m)) with t in X3. destruct (has_target t); discriminate.
    + intros fr ->. cbn [tx_result_ok] in RO. destruct RO as (_ & _ & _ & _ & SH).
      apply (shows_slice lay (tx_cur s) (f_data fr)); [exact (txm_keys _ _ _ _ _ M)|exact SH|exact Hc|exact Cs].
Qed.

Lemma others_mapped : forall T lay p ops w w1, tx_mapped T d lay p w -> Forall (fun o => tx_allowed T lay (WObj (fst o) (snd o))) ops ->
  others dv d ops w = Ok w1 -> tx_mapped T d lay p w1.
Proof.
  intros T lay p. induction ops as [|[k o] ops IH]; intros w w1 M F E; cbn [others] in E; [injection E as <-; exact M|].
  inversion F as [|? ? F1 F2]; subst. cbn [fst snd] in F1. destruct (obj dv d k o w) as [[w2 r]|] eqn:O; [|discriminate].
  apply (IH w2 w1); [|exact F2|exact E].
  assert (Inv : tx_inv T d lay (f_hdr (p_frame p)) p w (mkTx (held_of w) (some_dirty p w))) by (split; [exact M|]; repeat split).
  destruct (existsb (Z.eqb k) (keys lay)) eqn:Ek.
  - apply existsb_eqb in Ek. destruct (tx_mapped_op T d lay (f_hdr (p_frame p)) dv p w _ k o Inv Ek F1) as (w3 & r3 & O3 & I3).
    assert (X : w3 = w2) by congruence. subst w3. exact (proj1 I3).
  - apply existsb_neqb in Ek. refine (proj1 (tx_other T d lay (f_hdr (p_frame p)) dv p w _ k o w2 r Inv Ek _ O)). destruct o; try exact Logic.I. contradiction.
Qed.

(** A whole trajectory: as long as the drive is enabled and displays the mode, every pass sends a frame, and the frames carry the commands one
    by one and none of them with the halt bit, whatever else is done with the objects in between. *)
Theorem C103_trajectory : forall T lay active cs m p w idx sub lo hi ns fs,
  mo_state m = OperationEnable -> mo_shown m = mo_mode m -> target_object (mo_mode m) idx sub lo hi -> target_known lo hi m ->
  trajectory lo hi (last_target (mo_tgt m)) (map (fun c => told active (snd c)) cs) ns ->
  Forall (fun c => Forall (fun o => tx_allowed T lay (WObj (fst o) (snd o))) (fst c)) cs ->
  tx_mapped T d lay p w -> In (object_key idx sub) (keys lay) -> T (object_key idx sub) = TInt (mkIty true (target_size lo)) ->
  In control_word (keys lay) -> T control_word = TInt (mkIty false 2) ->
  write_passes dv d junk dtype opens fstate ls active cs m p w = Ok fs ->
  Forall2 (fun f n => exists fr bs ws, f = Some fr /\ slice lay (object_key idx sub) (f_data fr) = Some bs /\ signed_le bs = n /\
    slice lay control_word (f_data fr) = Some ws /\ Z.testbit (unsigned_le ws) 8 = false) fs ns.
Proof.
  intros T lay active. induction cs as [|[ops x] cs IH]; intros m p w idx sub lo hi ns fs E S0 TO TK TR A M Hk HT Hc HC R; cbn [write_passes map] in *.
  - injection R as <-. inversion TR. constructor.
  - inversion TR as [|? ? ? n ns' C TR']; subst. inversion A as [|? ? A1 A2]; subst. cbn [fst snd] in *.
    destruct (others dv d ops w) as [w1|] eqn:O; [|discriminate]. pose proof (others_mapped T lay p ops w w1 M A1 O) as M1.
    destruct (C103_enabled T lay active x m p w1 idx sub lo hi n E S0 TO TK C M1 Hk HT Hc HC) as (y & m1 & p1 & w2 & fr & ws & W & E1 & S1 & O1 & M2 & SW & H8 & _).
    destruct (C103_target T lay active x m p w1 idx sub lo hi n y m1 p1 w2 (Some fr) true E S0 TO TK C M1 Hk HT (fun _ => HC) W) as (fr2 & bs & F2 & _ & _ & SB & SG & LT & TK1).
    rewrite W in R. destruct (write_passes _ _ _ _ _ _ _ active cs m1 p1 w2) as [fs1|] eqn:R1; [|discriminate]. injection R as <-.
    injection F2 as <-. constructor; [exists fr, bs, ws; auto 10|].
    apply (IH m1 p1 w2 idx sub lo hi ns' fs1); try assumption; try congruence. rewrite LT. exact TR'.
Qed.

(** ** The way back (C104) *)

(** What is read after a frame: the numbers at the places of the objects in the frame. *)
Theorem C104_polled : forall T lay last p w f p1 w1 ks w2 rd k i,
  rx_mapped T d lay last p w -> Z.of_nat (total lay) <= f_dlc f <= 8 -> List.length (f_data f) = 8%nat -> Forall (fun x => 0 <= x < 256) (f_data f) ->
  rpdo_handle p f w = Ok (p1, w1) -> poll dv d T ks w1 = Ok (w2, rd) ->
  In k ks -> In k (keys lay) -> T k = TInt i ->
  exists bs, slice lay k (f_data f) = Some bs /\ rd k = Some (UnitModel.double_of_int (frame_value i bs)).
Proof.
  intros T lay last p w f p1 w1 ks w2 rd k i M D L B H P Hk Hl HT.
  destruct (rx_frame T d lay last p w f M (conj D L)) as (p3 & w3 & H3 & M3). rewrite H in H3. injection H3 as <- <-.
  destruct (poll_ok T d lay dv ks _ _ _ _ _ M3 P) as [_ R]. rewrite (R k Hk Hl). cbn [rx_last].
  destruct (slice_in lay k (f_data f) Hl) as [bs E]. rewrite E. exists bs. split; [reflexivity|]. rewrite HT. cbn [number]. do 2 f_equal.
  apply wrap_value; [exact (slice_bytes _ _ _ _ _ B E)|].
  destruct (keys_entry _ _ Hl) as [n Hn]. rewrite (slice_length lay k n (f_data f) bs (rxm_keys _ _ _ _ _ _ M) Hn ltac:(lia) E).
  destruct (combine_left _ _ _ (p_bufs p) _ (rxm_len _ _ _ _ _ _ M) Hn) as [j Hj].
  destruct (rxm_slots _ _ _ _ _ _ M _ _ Hj) as (b & _ & _ & _ & c & e & _ & _ & _ & Nu & Sz & _). cbn [fst snd] in *. rewrite HT in Nu, Sz.
  cbn [numeric ty_size] in Nu, Sz. lia.
Qed.

(** The joint shows what the frame says: after any history with an initialisation or a read, without a filter, the measured value
    is that of its expression for the numbers in the frame. *)
Theorem C104_shown : forall fupd enf lrst ef et fc m0 c0 l T lay last p w f p1 w1 ks w2 rd s k,
  let x := JointModel.run spec_float S754_nan junk dtype opens fstate ls fupd enf lrst fc (l ++ [JointModel.ERead spec_float ls s rd]) (JointModel.new_hl spec_float fstate ls ef et m0 c0) in
  (forall k, JointSpec.pure spec_float (ef k)) -> JointSpec.configurable fstate fc -> fc k = None ->
  JointSpec.polls spec_float ls true l <> [] -> JointSpec.reading s = true ->
  rx_mapped T d lay last p w -> Z.of_nat (total lay) <= f_dlc f <= 8 -> List.length (f_data f) = 8%nat -> Forall (fun x => 0 <= x < 256) (f_data f) ->
  rpdo_handle p f w = Ok (p1, w1) -> poll dv d T ks w1 = Ok (w2, rd) ->
  (forall n key, In n (JointModel.names spec_float (ef k)) -> JointSpec.stands_for dtype opens n key -> In key ks /\ In key (keys lay) /\ exists i, T key = TInt i) ->
  exists vs, Forall2 (fun n v => (exists key i bs, JointSpec.stands_for dtype opens n key /\ T key = TInt i /\ slice lay key (f_data f) = Some bs /\
                                    v = UnitModel.double_of_int (frame_value i bs)) \/
                                 (JointSpec.no_object dtype opens n /\ v = S754_nan)) (JointModel.names spec_float (ef k)) vs /\
    meas spec_float fstate ls x k = snd (JointModel.eval spec_float (ef k) vs).
Proof.
  intros fupd enf lrst ef et fc m0 c0 l T lay last p w f p1 w1 ks w2 rd s k x PU CF FK PO RS M D L B H P N.
  assert (E : exists p0 ps, JointSpec.polls spec_float ls true (l ++ [JointModel.ERead spec_float ls s rd]) = p0 :: ps ++ [rd]).
  { assert (A : forall l, JointSpec.polls spec_float ls true (l ++ [JointModel.ERead spec_float ls s rd]) = JointSpec.polls spec_float ls true l ++ [rd]).
    { induction l0 as [|e l0 IH]; cbn [app JointSpec.polls]; [rewrite RS; reflexivity|]. destruct e; rewrite ?IH; try reflexivity. destruct (JointSpec.reading s0); reflexivity. }
    rewrite A. destruct (JointSpec.polls spec_float ls true l) as [|p0 ps]; [congruence|]. exists p0, ps. reflexivity. }
  destruct E as (p0 & ps & E).
  assert (G : forall n key, In n (JointModel.names spec_float (ef k)) -> JointSpec.stands_for dtype opens n key ->
     exists i bs, T key = TInt i /\ slice lay key (f_data f) = Some bs /\ rd key = Some (UnitModel.double_of_int (frame_value i bs))).
  { intros n key In0 ST. destruct (N n key In0 ST) as (K1 & K2 & i & K3).
    destruct (C104_polled T lay last p w f p1 w1 ks w2 rd key i M D L B H P K1 K2 K3) as (bs & S1 & S2). exists i, bs. auto. }
  destruct (JointProps.C94_current_partial spec_float S754_nan junk dtype opens fstate ls fupd enf lrst ef et fc m0 c0 _ p0 ps rd k PU CF E FK) as (vs & F2 & MV).
  { intros n key In0 ST. destruct (G n key In0 ST) as (i & bs & _ & _ & R). congruence. }
  exists vs. split; [|exact MV]. clear MV. clear - F2 G.
  induction F2 as [|n v ns vs [(key & ST & R)|[NO ->]] F2 IH]; [constructor| |].
  - constructor; [left|apply IH; intros n' key' In1; apply G; right; exact In1].
    destruct (G n key (or_introl eq_refl) ST) as (i & bs & T1 & S1 & R1). exists key, i, bs. repeat (split; [assumption|]). congruence.
  - constructor; [right; auto|]. apply IH. intros n' key' In1. apply G. right. exact In1.
Qed.

Lemma names_6064 key : JointSpec.stands_for dtype opens (str "obj6064") key -> key = key_index 0x6064.
Proof. intros (s & t & E & -> & _). change (str "obj6064") with (str "obj" ++ str "6064") in E. apply app_inv_head in E. subst s. vm_compute. reflexivity. Qed.
(** With the default conversion: the position shown is the one in the frame. *)
Theorem C104_position : forall fupd enf lrst ef et fc m0 c0 l T lay last p w f p1 w1 ks w2 rd s,
  let x := JointModel.run spec_float S754_nan junk dtype opens fstate ls fupd enf lrst fc (l ++ [JointModel.ERead spec_float ls s rd]) (JointModel.new_hl spec_float fstate ls ef et m0 c0) in
  let position := key_index 0x6064 in
  (forall k, JointSpec.pure spec_float (ef k)) -> JointSpec.configurable fstate fc -> fc KPos = None -> ef KPos = position_shown ->
  dtype position = Some 4 -> opens position = true ->
  JointSpec.polls spec_float ls true l <> [] -> JointSpec.reading s = true ->
  rx_mapped T d lay last p w -> Z.of_nat (total lay) <= f_dlc f <= 8 -> List.length (f_data f) = 8%nat -> Forall (fun x => 0 <= x < 256) (f_data f) ->
  rpdo_handle p f w = Ok (p1, w1) -> poll dv d T ks w1 = Ok (w2, rd) ->
  In position ks -> In position (keys lay) -> T position = TInt (mkIty true 4) ->
  exists bs, slice lay position (f_data f) = Some bs /\ meas spec_float fstate ls x KPos = JointModel.default_from_d (signed_le bs).
Proof.
  intros fupd enf lrst ef et fc m0 c0 l T lay last p w f p1 w1 ks w2 rd s x position PU CF FK EF DT OP PO RS M D L B H P K1 K2 K3.
  destruct (C104_shown fupd enf lrst ef et fc m0 c0 l T lay last p w f p1 w1 ks w2 rd s KPos PU CF FK PO RS M D L B H P) as (vs & F2 & MV).
  { rewrite EF. intros n key [<-|[]] ST. apply names_6064 in ST. subst key. eauto. }
  fold x in MV. rewrite EF in F2, MV. cbn [JointModel.names JointModel.eval position_shown snd] in F2, MV.
  inversion F2 as [|n0 v0 ns vs0 HV F2' A1 A2]; subst. inversion F2'; subst. clear F2 F2'.
  destruct HV as [(key & i & bs & ST & T1 & S1 & ->)|[NO _]].
  - apply names_6064 in ST. subst key. fold position in T1, S1. exists bs. split; [exact S1|]. rewrite MV. rewrite K3 in T1. injection T1 as <-. reflexivity.
  - exfalso. apply (NO position). exists (str "6064"), 4. repeat split; try assumption. cbn. auto.
Qed.

(** There and back: a device that goes to its target is shown at the commanded position, up to half a thousandth of a degree. *)
Theorem C104_loop : forall fupd enf lrst ef et fc m0 c0 rnd l T lay layr last m p w pr wr idx sub q y m1 p1 w1 f ok fr pr1 wr1 ks wr2 rd s,
  let new := JointModel.new_hl spec_float fstate ls ef et m0 c0 in
  let run := JointModel.run spec_float S754_nan junk dtype opens fstate ls fupd enf lrst fc in
  let x := run l new in
  let z := run (l ++ [JointModel.EWrite spec_float ls Ready (Some KPos); JointModel.ERead spec_float ls s rd]) new in
  let position := key_index 0x6064 in
  (forall k, JointSpec.pure spec_float (et k)) -> (forall k, JointSpec.pure spec_float (ef k)) -> JointSpec.rounds rnd ->
  et KPos = position_default rnd -> ef KPos = position_shown -> JointSpec.configurable fstate fc -> fc KPos = None ->
  dtype position = Some 4 -> opens position = true -> JointSpec.polls spec_float ls true l <> [] -> JointSpec.reading s = true ->
  JointModel.dvalue (cmd spec_float fstate ls x KPos) = Some q -> (q == 0 \/ Qpower 2 (-800) <= Qabs q)%Q -> (Qabs q <= 37000)%Q ->
  mo_state m = OperationEnable -> mo_shown m = mo_mode m -> target_object (mo_mode m) idx sub (- 2 ^ 31) (2 ^ 31 - 1) -> target_known (- 2 ^ 31) (2 ^ 31 - 1) m ->
  tx_mapped T d lay p w -> In (object_key idx sub) (keys lay) -> T (object_key idx sub) = TInt (mkIty true 4) ->
  (In control_word (keys lay) -> T control_word = TInt (mkIty false 2)) ->
  write_pass (Some KPos) x m p w = Ok (y, m1, p1, w1, f, ok) ->
  rx_mapped T d layr last pr wr -> Z.of_nat (total layr) <= f_dlc fr <= 8 -> List.length (f_data fr) = 8%nat -> Forall (fun x => 0 <= x < 256) (f_data fr) ->
  rpdo_handle pr fr wr = Ok (pr1, wr1) -> poll dv d T ks wr1 = Ok (wr2, rd) ->
  In position ks -> In position (keys layr) -> T position = TInt (mkIty true 4) ->
  (forall sent, f = Some sent -> slice layr position (f_data fr) = slice lay (object_key idx sub) (f_data sent)) ->
  exists pi v, JointModel.dvalue JointModel.M_PI = Some pi /\ JointModel.dvalue (meas spec_float fstate ls z KPos) = Some v /\
    (Qabs (v - q) <= pi / 360000 * (1 + Qpower 2 (-50)) + Qpower 2 (-50) * Qabs q)%Q.
Proof.
  intros fupd enf lrst ef et fc m0 c0 rnd l T lay layr last m p w pr wr idx sub q y m1 p1 w1 f ok fr pr1 wr1 ks wr2 rd s new run x z position
    PT PF RN ET EF CF FK DT OP PO RS DQ LQ BQ E S0 TO TK M Hk HT HC R MR D L B H P K1 K2 K3 Echo.
  destruct (C103_position fupd enf lrst ef et fc m0 c0 rnd l T lay m p w idx sub q y m1 p1 w1 f ok PT RN ET DQ LQ BQ E S0 TO TK M Hk HT HC R)
    as (sent & bs & pi & v & F1 & SL & PI0 & DV & NEAR).
  assert (PO2 : JointSpec.polls spec_float ls true (l ++ [JointModel.EWrite spec_float ls Ready (Some KPos)]) <> []).
  { clear - PO. change control_word with cw_key in *. induction l as [|e l IH]; cbn [app JointSpec.polls] in *; [congruence|]. destruct e; try discriminate; auto. destruct (JointSpec.reading s); [discriminate|auto]. }
  destruct (C104_position fupd enf lrst ef et fc m0 c0 (l ++ [JointModel.EWrite spec_float ls Ready (Some KPos)]) T layr last pr wr fr pr1 wr1 ks wr2 rd s
    PF CF FK EF DT OP PO2 RS MR D L B H P K1 K2 K3) as (bs' & SL' & MV).
  specialize (Echo sent F1). fold position in SL'. rewrite SL', SL in Echo. injection Echo as ->.
  exists pi, v. split; [exact PI0|]. split; [|exact NEAR]. unfold z. unfold run, new in *.
  rewrite <- app_assoc in MV. cbn [app] in MV. rewrite MV. exact DV.
Qed.
End Props.
Print Assumptions C103_target.
Print Assumptions C103_position.
Print Assumptions C103_enabled.
Print Assumptions C103_halted.
Print Assumptions C103_trajectory.
Print Assumptions C104_polled.
Print Assumptions C104_shown.
Print Assumptions C104_position.
Print Assumptions C104_loop.

(** ** An example: the device receives its control word and its target position in one frame, and sends its status word and its
    position in another. *)
Definition T32 : ty := TInt (mkIty true 4).
Definition tgt_key := object_key 0x607A 0.
Definition sw_key := key_index 0x6041.
Definition pos_key := key_index 0x6064.
Definition loop_dict : dict := [
  (key_sub 0x1400 0, ro (h8 2) no_value); (key_sub 0x1400 1, rw (h32 0x201) no_value); (key_sub 0x1400 2, rw (h8 1) no_value);
  (key_sub 0x1600 0, rw (h8 2) no_value); (key_sub 0x1600 1, rw (h32 0x60400010) no_value); (key_sub 0x1600 2, rw (h32 0x607A0020) no_value);
  (key_sub 0x1800 0, ro (h8 2) no_value); (key_sub 0x1800 1, rw (h32 0x181) no_value); (key_sub 0x1800 2, rw (h8 1) no_value);
  (key_sub 0x1A00 0, rw (h8 2) no_value); (key_sub 0x1A00 1, rw (h32 0x60410010) no_value); (key_sub 0x1A00 2, rw (h32 0x60640020) no_value);
  (cw_key, rw (h16 0) no_value); (tgt_key, rw (hold_int (mkIty true 4) 0) no_value); (sw_key, ro (typed T16) no_value); (pos_key, ro (typed T32) no_value)].
Definition loop_init := mapper_init dev loop_dict 1 junk8 4 4 (mkMapper [] []) fresh.
Definition loop_world : pw := Eval vm_compute in match loop_init with Ok (w, _, _) => w | Undef => fresh end.
Definition loop_rpdo : pdo := Eval vm_compute in match loop_init with Ok (_, m, _) => List.hd nopdo (rpdos m) | Undef => nopdo end.
Definition loop_tpdo : pdo := Eval vm_compute in match loop_init with Ok (_, m, _) => List.hd nopdo (tpdos m) | Undef => nopdo end.
Definition out_layout : layout := [(Some cw_key, 2%nat); (Some tgt_key, 4%nat)].
Definition in_layout : layout := [(Some sw_key, 2%nat); (Some pos_key, 4%nat)].
Definition loop_T (k : Z) : ty := if (k =? cw_key) || (k =? sw_key) then T16 else T32.
Example loop_out : tx_mapped loop_T loop_dict out_layout loop_tpdo loop_world.
Proof.
  constructor.
  - vm_compute. reflexivity.
  - vm_compute. intuition discriminate.
  - vm_compute. repeat constructor; cbn; intuition discriminate.
  - vm_compute. repeat constructor; cbn; intuition discriminate.
  - vm_compute. lia.
  - vm_compute. reflexivity.
  - vm_compute. reflexivity.
  - intros x i H. vm_compute in H. destruct H as [H|[H|[]]]; injection H as <- <-;
      (eexists; split; [vm_compute; reflexivity|]; split; [reflexivity|]; split; [reflexivity|]; cbn [fst];
      do 2 eexists; repeat (split; [vm_compute; reflexivity|]); split; [vm_compute; repeat split|]; repeat (split; [vm_compute; auto|]); vm_compute; auto).
  - apply own_spec. vm_compute. reflexivity.
Qed.
Example loop_in : rx_mapped loop_T loop_dict in_layout (held_of loop_world) loop_rpdo loop_world.
Proof.
  constructor.
  - vm_compute. reflexivity.
  - vm_compute. intuition discriminate.
  - vm_compute. repeat constructor; cbn; intuition discriminate.
  - vm_compute. repeat constructor; cbn; intuition discriminate.
  - intros x i H. vm_compute in H. destruct H as [H|[H|[]]]; injection H as <- <-;
      (eexists; split; [vm_compute; reflexivity|]; split; [reflexivity|]; split; [reflexivity|]; cbn [fst];
      do 2 eexists; repeat (split; [vm_compute; reflexivity|]); vm_compute; repeat split).
  - apply own_spec. vm_compute. reflexivity.
Qed.

(** The joint, with the default conversions for positions; it was read once and is commanded to 1.25 rad, or -1.25 rad. *)
Definition none : spec_float := S754_nan.
Definition ef_default (k : kind) : JointModel.expr spec_float := match k with KPos => position_shown | _ => JointModel.mkExpr spec_float [] (fun vs => (vs, none)) end.
Definition et_default (k : kind) : JointModel.expr spec_float := match k with KPos => position_default JointModel.rint_c | _ => JointModel.mkExpr spec_float [] (fun vs => (vs, none)) end.
Definition loop_dtype (k : Z) : option Z := if k =? pos_key then Some 4 else None.
Definition loop_joint (l : list (JointModel.event spec_float unit)) : JointModel.hl spec_float unit unit :=
  JointModel.run spec_float S754_nan (fun _ => none) loop_dtype (fun _ => true) unit unit (fun f v => (f, Some v)) (fun _ _ _ _ c st => (st, c)) (fun st => st) (fun _ => None) l
    (JointModel.new_hl spec_float unit unit ef_default et_default (fun _ => none) (fun _ => none)).
Definition rad (s : bool) : spec_float := S754_finite s 5 (-2).
Definition commanded_to (s : bool) : list (JointModel.event spec_float unit) :=
  [JointModel.EInit spec_float unit (fun _ => None); JointModel.ECommand spec_float unit KPos (rad s)].
Definition enabled_motor : motor := mkMotor OperationEnable 8 8 (mkTgt 0 false) false 0x010F.
Definition loop_pass (s : bool) := write_pass dev loop_dict (fun _ => none) loop_dtype (fun _ => true) unit unit (Some KPos) (loop_joint (commanded_to s)) enabled_motor loop_tpdo loop_world.
(** 71620 thousandths of a degree; the control word is 0x000F. The device answers with the same position. *)
Example C103_ex : match loop_pass false, loop_pass true with
  | Ok (_, m1, _, _, Some f, true), Ok (_, _, _, _, Some g, true) =>
      firstn 6 (f_data f) = [0x0F; 0; 0xC4; 0x17; 1; 0] /\ firstn 6 (f_data g) = [0x0F; 0; 0x3C; 0xE8; 0xFE; 0xFF] /\ signed_le [0x3C; 0xE8; 0xFE; 0xFF] = -71620 /\ mo_tgt m1 = mkTgt 71620 true
  | _, _ => False
  end.
Proof. vm_compute. auto. Qed.
(** Three passes; in between the position is read and somebody else writes a target, which is replaced. *)
Example C103_trajectory_ex : match write_passes dev loop_dict (fun _ => none) loop_dtype (fun _ => true) unit unit (Some KPos)
    [([], loop_joint (commanded_to false)); ([(tgt_key, SSet [9; 9; 9; 9])], loop_joint (commanded_to true)); ([(pos_key, SGet false)], loop_joint (commanded_to true))]
    enabled_motor loop_tpdo loop_world with
  | Ok [Some f; Some g; Some h] => firstn 6 (f_data f) = [0x0F; 0; 0xC4; 0x17; 1; 0] /\ firstn 6 (f_data g) = [0x0F; 0; 0x3C; 0xE8; 0xFE; 0xFF] /\
      firstn 6 (f_data h) = [0x0F; 0; 0x3C; 0xE8; 0xFE; 0xFF]
  | _ => False
  end.
Proof. vm_compute. auto. Qed.
Example C103_conditions : target_object 8 0x607A 0 (- 2 ^ 31) (2 ^ 31 - 1) /\ target_known (- 2 ^ 31) (2 ^ 31 - 1) enabled_motor /\
  JointModel.dvalue (cmd spec_float unit unit (loop_joint (commanded_to false)) KPos) = Some (inject_Z 5 * Qpower 2 (-2))%Q /\
  In tgt_key (keys out_layout) /\ loop_T tgt_key = TInt (mkIty true 4) /\ In cw_key (keys out_layout) /\ loop_T cw_key = TInt (mkIty false 2) /\
  JointSpec.polls spec_float unit true (commanded_to false) <> [] /\ JointSpec.configurable unit (fun _ => None).
Proof.
  split; [apply TSyncPosition|]. split; [discriminate|]. split; [vm_compute; reflexivity|]. split; [cbn; auto|]. split; [reflexivity|]. split; [cbn; auto|].
  split; [reflexivity|]. split; [discriminate|]. intros k. discriminate.
Qed.
(** A drive in another state, and one that displays another mode: the frame has the halt bit, and the target is the one that was there. *)
Example C103_halted_ex : match write_pass dev loop_dict (fun _ => none) loop_dtype (fun _ => true) unit unit (Some KPos) (loop_joint (commanded_to false))
      (mkMotor SwitchedOn 8 8 (mkTgt 5 true) false 7) loop_tpdo loop_world,
    write_pass dev loop_dict (fun _ => none) loop_dtype (fun _ => true) unit unit (Some KPos) (loop_joint (commanded_to false))
      (mkMotor OperationEnable 8 1 (mkTgt 5 true) false 0x1F) loop_tpdo loop_world with
  | Ok (_, _, _, _, Some f, true), Ok (_, _, _, _, Some g, true) => firstn 6 (f_data f) = [7; 1; 0; 0; 0; 0] /\ firstn 6 (f_data g) = [0x0F; 1; 0; 0; 0; 0]
  | _, _ => False
  end.
Proof. vm_compute. auto. Qed.
Example C104_ex : match rpdo_handle loop_rpdo (mkFrame (mkHeader 0x181 false false false) 6 [0x37; 0x02; 0x3C; 0xE8; 0xFE; 0xFF; 0; 0]) loop_world with
  | Ok (_, w1) => match poll dev loop_dict loop_T [pos_key] w1 with
    | Ok (_, rd) => rd pos_key = Some (UnitModel.double_of_int (-71620)) /\
        meas spec_float unit unit (loop_joint (commanded_to true ++ [JointModel.ERead spec_float unit Ready rd])) KPos = JointModel.default_from_d (-71620)
    | Undef => False
    end
  | Undef => False
  end.
Proof. vm_compute. auto. Qed.
