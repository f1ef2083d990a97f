(** Profiled position handshake: C55. *)
From Verif Require Import Base MotorModel MotorSpec MotorProofs PosModel PosSpec PosProofs.

(** New-setpoint (bit 4) is raised only with the target just written to 607A and without
    acknowledge (bit 12 of the status word read last) ... *)
Theorem C55_raised : forall p w p' w' o ok, pp_write p w = (p', w', o, ok) ->
  Z.testbit w 4 = false -> Z.testbit w' 4 = true ->
  o = Some (target (ptgt p)) /\ has_target (ptgt p) = true /\ Z.testbit (psw p) 12 = false.
Proof.
  intros p w p' w' o ok H A B. change 4 with NEW_POINT in A, B.
  destruct (pp_write_cases _ _ _ _ _ _ H) as [C|[C|[C|[C|C]]]].
  - destruct C as [_ [_ [_ [_ C]]]]. congruence.
  - destruct C as [_ [_ [_ [_ [C _]]]]]. congruence.
  - tauto.
  - destruct C as [_ [_ [_ [_ [_ C]]]]]. congruence.
  - destruct C as [_ [_ [_ [_ [_ [_ C]]]]]]. congruence.
Qed.
Print Assumptions C55_raised.
(** ... the object is written only then ... *)
Theorem C55_written : forall p w p' w' o ok v, pp_write p w = (p', w', o, ok) -> o = Some v ->
  Z.testbit w 4 = false /\ Z.testbit w' 4 = true /\ v = target (ptgt p) /\ plast p <> Some v.
Proof.
  intros p w p' w' o ok v H E. change 4 with NEW_POINT.
  destruct (pp_write_cases _ _ _ _ _ _ H) as [C|[C|[C|[C|C]]]].
  - destruct C as [_ [_ [C _]]]. congruence.
  - destruct C as [_ [_ [_ [_ [_ [_ [C _]]]]]]]. congruence.
  - destruct C as [_ [_ [_ [C1 [C2 [_ [C3 C4]]]]]]]. assert (V : v = target (ptgt p)) by congruence. rewrite V. auto.
  - destruct C as [_ [_ [_ [_ [C _]]]]]. congruence.
  - destruct C as [_ [_ [_ [_ [_ [C _]]]]]]. congruence.
Qed.
Print Assumptions C55_written.
(** ... and it is lowered once acknowledged. *)
Theorem C55_lowered : forall p w p' w' o ok, pp_write p w = (p', w', o, ok) ->
  has_target (ptgt p) = true -> Z.testbit (psw p) 12 = true -> Z.testbit w' 4 = false.
Proof.
  intros p w p' w' o ok H T A. change 4 with NEW_POINT.
  destruct (pp_write_cases _ _ _ _ _ _ H) as [C|[C|[C|[C|C]]]]; try tauto; destruct C as [C1 [C2 [C3 _]]]; congruence.
Qed.
Print Assumptions C55_lowered.
(** Before that it is lowered only to command another target. *)
Theorem C55_kept : forall p w p' w' o ok, pp_write p w = (p', w', o, ok) ->
  Z.testbit (psw p) 12 = false -> Z.testbit w 4 = true -> Z.testbit w' 4 = false ->
  has_target (ptgt p) = true /\ plast p <> Some (target (ptgt p)).
Proof.
  intros p w p' w' o ok H A B C'. change 4 with NEW_POINT in B, C'.
  destruct (pp_write_cases _ _ _ _ _ _ H) as [C|[C|[C|[C|C]]]]; try tauto.
  - destruct C as [_ [_ [_ [_ C]]]]. congruence.
  - destruct C as [_ [_ [C _]]]. congruence.
  - destruct C as [_ [_ [_ [_ [_ [_ C]]]]]]. congruence.
Qed.
Print Assumptions C55_kept.
(** Halt (the result false) exactly without target; other bits are left alone, bit 5
    (change immediately) is set. *)
Theorem C55_bits : forall p w p' w' o ok i, pp_write p w = (p', w', o, ok) -> 0 <= i -> i <> 4 ->
  ok = has_target (ptgt p) /\ (Z.testbit w' i = if i =? 5 then true else Z.testbit w i).
Proof.
  intros p w p' w' o ok i H Hi N. split.
  - destruct (pp_write_cases _ _ _ _ _ _ H) as [C|[C|[C|[C|C]]]]; destruct C as [C1 C2]; rewrite C1; tauto.
  - destruct (Z.eqb_spec i 5) as [->|N5]; [|exact (pp_write_other _ _ _ _ _ _ i H Hi N N5)].
    assert (S : forall x, Z.testbit (access (Set_ IMMEDIATE) x) 5 = true) by (intro x; cbn [access]; rewrite Z.lor_spec; apply orb_true_r).
    assert (R : forall x, Z.testbit (access (Reset_ NEW_POINT) x) 5 = Z.testbit x 5).
    { intro x. cbn [access]. rewrite Z.land_spec, Z.lnot_spec by lia. apply andb_true_r. }
    assert (S4 : forall x, Z.testbit (access (Set_ NEW_POINT) x) 5 = Z.testbit x 5).
    { intro x. cbn [access]. rewrite Z.lor_spec. apply orb_false_r. }
    unfold pp_write in H. destruct (has_target (ptgt p)); [destruct (_ && _); [destruct (Z.testbit _ NEW_POINT)|destruct (has _ _)]|];
      apply (f_equal (fun x => snd (fst (fst x)))) in H; cbn [fst snd] in H; rewrite <- H; rewrite ?R, ?S4, ?S; reflexivity.
Qed.
Print Assumptions C55_bits.

(** The latest target is taken by the drive within two rounds of write, drive, status and
    read, whatever else happens in between and however old the status words are, if
    the drive sees every control word. *)
Theorem C55_commanded_partial : forall pre v r w sw,
  paced false (pre ++ PSet v :: r) -> settled r -> subseq (round ++ round) r ->
  taken (run (pre ++ PSet v :: r) (init w sw)) = Some v.
Proof. exact liveness. Qed.
Print Assumptions C55_commanded_partial.
(** If the drive misses a low phase a target is lost for good, even if it sees every
    word from then on. *)
Theorem C55_missed_refuted : forall r, settled r ->
  let s := run ([PSet 1; PWrite; PDrive; PSet 2; PWrite; PWrite; PDrive] ++ r) (init 0x0F 0) in
  target (ptgt (mode s)) = 2 /\ taken s = Some 1.
Proof.
  intros r Se s. unfold s. rewrite run_app. set (s0 := run [PSet 1; PWrite; PDrive; PSet 2; PWrite; PWrite; PDrive] (init 15 0)). split.
  - destruct (set_target_kept r s0 Se) as [-> _]. reflexivity.
  - rewrite (missed_run r s0 Se); [reflexivity|split; reflexivity|reflexivity].
Qed.
Print Assumptions C55_missed_refuted.

(** Starting the mode again drops the target: nothing is written and no position is announced
    until a new target is set. *)
Theorem C55_restart : forall s l, Forall (fun e => match e with PSet _ => False | _ => True end) l ->
  let s' := run l (step s PRestart) in
  pobj s' = pobj s /\ Z.testbit (pcw s') 4 = Z.testbit (pcw s) 4 /\
  snd (pp_write (mode s') (pcw s')) = false.
Proof.
  intros s l H s'.
  assert (K : forall l s0, has_target (ptgt (mode s0)) = false -> Forall (fun e => match e with PSet _ => False | _ => True end) l ->
    has_target (ptgt (mode (run l s0))) = false /\ pobj (run l s0) = pobj s0 /\ Z.testbit (pcw (run l s0)) 4 = Z.testbit (pcw s0) 4).
  { clear. induction l as [|e l IH]; intros s0 T F; [auto|]. inversion_clear F as [|? ? F1 F2]. cbn [run fold_left].
    change (fold_left step l (step s0 e)) with (run l (step s0 e)).
    assert (X : has_target (ptgt (mode (step s0 e))) = false /\ pobj (step s0 e) = pobj s0 /\ Z.testbit (pcw (step s0 e)) 4 = Z.testbit (pcw s0) 4).
    { destruct e as [v| | | |sw|]; cbn [step]; [destruct F1|auto| | |auto|auto].
      - unfold pp_write. rewrite T. cbn [mode pobj pcw]. split; [exact T|]. split; [reflexivity|].
        cbn [access]. rewrite Z.lor_spec. apply orb_false_r.
      - unfold drive_sees. destruct (Z.testbit (pcw s0) NEW_POINT); [destruct (Z.testbit (rword s0) NEW_POINT)|]; auto. }
    destruct X as (X1 & X2 & X3). destruct (IH (step s0 e) X1 F2) as (Y1 & Y2 & Y3). rewrite Y2, Y3. auto. }
  destruct (K l (step s PRestart) eq_refl H) as (A & B & C). split; [exact B|]. split; [exact C|].
  unfold pp_write, s'. rewrite A. reflexivity.
Qed.
Print Assumptions C55_restart.
Example C55_restart_ex : let s := run [PSet 1; PWrite; PDrive] (init 0x0F 0) in
  pobj s = 1 /\ pobj (run [PStatus 0; PRead; PWrite; PDrive; PWrite] (step s PRestart)) = 1 /\
  has_target (ptgt (mode s)) = true.
Proof. vm_compute. auto. Qed.

Example C55_ex : let one := [PWrite; PDrive; PStatus 0; PRead] in let r := one ++ one in
  paced false ([PSet 1] ++ one ++ PSet 7 :: r) /\ settled r /\ subseq (round ++ round) r /\
  pobj (run ([PSet 1] ++ one ++ PSet 7 :: r) (init 0x0F 0)) = 7.
Proof.
  cbv zeta. split; [cbn; tauto|]. split; [repeat constructor|]. split; [|reflexivity].
  repeat (apply SubTake; [exact I|]). apply SubNil.
Qed.

(** Reading the status word reports failure exactly if the drive shows a following error. *)
Theorem C55_error : forall sw p, snd (pp_read sw p) = negb (Z.testbit sw 13) /\ ptgt (fst (pp_read sw p)) = ptgt p.
Proof.
  intros sw p. split; [|reflexivity]. unfold pp_read. cbn [snd]. unfold SW_ERROR, bit.
  destruct (Z.eqb_spec (Z.land sw (2^13)) 0) as [E|E].
  - apply (f_equal (fun z => Z.testbit z 13)) in E. rewrite Z.land_spec, Z.pow2_bits_true, Z.bits_0, andb_true_r in E by lia. rewrite E. reflexivity.
  - destruct (Z.testbit sw 13) eqn:T; [reflexivity|]. exfalso. apply E. apply Z.bits_inj'. intros i Hi.
    rewrite Z.land_spec, Z.bits_0. destruct (Z.eq_dec i 13) as [->|N]; [rewrite T; reflexivity|].
    rewrite Z.pow2_bits_false by congruence. apply andb_false_r.
Qed.
Print Assumptions C55_error.

(** Without a target nothing is commanded, whatever the drive does. *)
Theorem C55_no_target : forall l w sw, Forall (fun e => match e with PSet _ => False | _ => True end) l ->
  taken (run l (init w sw)) = None.
Proof.
  assert (K : forall l s, has_target (ptgt (mode s)) = false -> Z.testbit (rword s) 4 = Z.testbit (pcw s) 4 -> taken s = None ->
    Forall (fun e => match e with PSet _ => False | _ => True end) l -> taken (run l s) = None).
  { induction l as [|e l IH]; intros s T B N F; [exact N|]. inversion_clear F as [|? ? F1 F2]. cbn [run fold_left].
    change (fold_left step l (step s e)) with (run l (step s e)).
    assert (W : forall w, Z.testbit (access (Set_ IMMEDIATE) w) 4 = Z.testbit w 4) by (intro x; cbn [access]; rewrite Z.lor_spec; apply orb_false_r).
    destruct e as [v| | | |sw|]; [contradiction| | | | |]; apply IH; auto; cbn [step]; try assumption; try reflexivity.
    - unfold pp_write. rewrite T. exact T.
    - unfold pp_write. rewrite T. cbn [rword pcw]. rewrite W. exact B.
    - unfold pp_write. rewrite T. exact N.
    - unfold drive_sees. change NEW_POINT with 4. rewrite B. destruct (Z.testbit (pcw s) 4); exact T.
    - unfold drive_sees. change NEW_POINT with 4. rewrite B. destruct (Z.testbit (pcw s) 4); reflexivity.
    - unfold drive_sees. change NEW_POINT with 4. rewrite B. destruct (Z.testbit (pcw s) 4); exact N. }
  intros l w sw F. apply K; auto.
Qed.
Print Assumptions C55_no_target.
Example C55_ex_no_target : taken (run [PStatus 0x1000; PRead; PWrite; PDrive; PRestart; PWrite; PDrive] (init 0x1F 0)) = None.
Proof. reflexivity. Qed.
