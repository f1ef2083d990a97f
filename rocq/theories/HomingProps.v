(** The claims about homing. *)
From Verif Require Import Base MotorModel MotorSpec MotorProofs MotorProps HomingModel HomingSpec HomingProofs.

(** ** C58: the result of homing *)

(** With a homing method set, success means that the drive signalled "target reached" and
    "homing attained" and no error at one time during the run. *)
Theorem C58_success_partial : forall valid method x w l y, method <> 0 -> stored x w ->
  hrun l (execute_homing valid method x) = (y, HDone true) -> valid = true /\ signalled l w.
Proof.
  intros valid method x w l y Hm Hs E. unfold execute_homing in E. destruct valid; cbn [negb] in E.
  - rewrite (proj2 (Z.eqb_neq method 0) Hm) in E. split; [reflexivity|].
    pose proof (I_run x w Hs l) as [_ H]. rewrite E in H. apply H.
  - exfalso. assert (K : forall l y, snd (hrun l (y, HDone false)) = HDone false).
    { clear. induction l as [|e l IH]; intro y; [reflexivity|]. destruct e; cbn; apply IH. }
    unfold failed in E. specialize (K l (mkH (status x) false)). rewrite E in K. discriminate.
Qed.
Print Assumptions C58_success_partial.

(** In every outcome of a homing that began, the start bit is not requested any more ... *)
Theorem C58_execute_lowered : forall x w l y b, stored x w ->
  hrun l (x, HPrepare) = (y, HDone b) -> execute y = false.
Proof. intros x w l y b Hs E. pose proof (I_run x w Hs l) as [_ H]. rewrite E in H. destruct b; [apply H|exact H]. Qed.
Print Assumptions C58_execute_lowered.
(** ... so that the next word written to a drive which is enabled and in homing mode has the
    start bit (bit 4) low and halts the drive. *)
Theorem C58_bit_lowered_partial : forall x w l y b m sfr cw w' sent sfr', stored x w ->
  hrun l (x, HPrepare) = (y, HDone b) ->
  handle_write OperationEnable (Some (m, homing_beh (execute y))) m sfr cw = (w', sent, sfr') ->
  Z.testbit sent 4 = false /\ Z.testbit sent 8 = true.
Proof.
  intros x w l y b m sfr cw w' sent sfr' Hs E W. rewrite (C58_execute_lowered x w l y b Hs E) in W. split.
  - rewrite (C51_homing_bits _ _ _ _ _ _ _ 4 W) by (unfold mode_bit; lia). reflexivity.
  - destruct (Z.testbit sent 8) eqn:T; [reflexivity|]. apply (C51_homing_executes _ _ _ _ _ _ _ _ _ W) in T. destruct T as [_ [_ T]]. discriminate.
Qed.
Print Assumptions C58_bit_lowered_partial.
(** Before the drive is found idle the start bit is not requested at all, if it was not before. *)
Theorem C58_not_before : forall x w l y, stored x w -> execute x = false ->
  hrun l (x, HPrepare) = (y, HPrepare) -> execute y = false.
Proof. intros x w l y Hs He E. pose proof (I_run x w Hs l) as [_ H]. rewrite E in H. cbn in H. congruence. Qed.
Print Assumptions C58_not_before.
(** Deadlines end the homing from every wait. *)
Theorem C58_ends : forall x p, ~ ended p -> exists n, ended (snd (hrun (repeat HTimeout n) (x, p))) /\ (n <= 4)%nat.
Proof.
  intros x p N.
  assert (D : forall y b n, ended (snd (hrun (repeat HTimeout n) (y, HDone b)))).
  { intros y b. induction n; cbn; [exists b; reflexivity|exact IHn]. }
  assert (F : forall y k, ended (snd (hrun (repeat HTimeout k) (failed y)))) by (intros; apply D).
  assert (A4 : forall y k, ended (snd (hrun (repeat HTimeout (Datatypes.S k)) (y, HStop)))).
  { intros y k. change (ended (snd (hrun (repeat HTimeout k) (hstep HTimeout (y, HStop))))). cbn [hstep].
    destruct (ready HStop (status y)); [|apply F]. unfold advance. destruct (has_mask (status y) SW_Error); [apply F|].
    destruct (_ && _); [apply D|apply F]. }
  assert (A3 : forall y k, ended (snd (hrun (repeat HTimeout (Datatypes.S (Datatypes.S k))) (y, HAttain)))).
  { intros y k. change (ended (snd (hrun (repeat HTimeout (Datatypes.S k)) (hstep HTimeout (y, HAttain))))). cbn [hstep].
    destruct (ready HAttain (status y)); [|apply F]. unfold advance. destruct (has_mask (status y) SW_Error); [apply F|]. apply A4. }
  assert (A2 : forall y k, ended (snd (hrun (repeat HTimeout (Datatypes.S (Datatypes.S (Datatypes.S k)))) (y, HStart)))).
  { intros y k. change (ended (snd (hrun (repeat HTimeout (Datatypes.S (Datatypes.S k))) (hstep HTimeout (y, HStart))))). cbn [hstep].
    destruct (ready HStart (status y)); [|apply F]. unfold advance. destruct (has_mask (status y) SW_Error); [apply F|]. apply A3. }
  exists 4%nat. split; [|lia]. destruct p; [|apply A2|apply A3|apply A4|apply D].
  change (ended (snd (hrun (repeat HTimeout 3) (hstep HTimeout (x, HPrepare))))). cbn [hstep].
  destruct (ready HPrepare (status x)); [|apply F]. unfold advance. destruct (has_mask (status x) SW_Error); [apply F|]. apply A2.
Qed.
Print Assumptions C58_ends.
(** An error signalled at any time during the waits ends the homing with failure. *)
Theorem C58_error : forall x p w, ~ ended p -> Z.testbit w 13 = true ->
  snd (hrun [HRead w; HThread] (x, p)) = HDone false.
Proof.
  intros x p w N T.
  assert (E : has_mask (Z.land w HMASK) SW_Error = true).
  { rewrite has_mask_bit by (unfold SW_Error; lia). rewrite mask_bits by (cbn; auto). exact T. }
  assert (R : ready p (Z.land w HMASK) = true).
  { assert (K : forall mask v, Z.testbit mask 13 = true -> Z.testbit v 13 = false -> not_equal mask v (Z.land w HMASK) = true).
    { intros mask v A B. unfold not_equal. destruct (Z.eqb_spec (Z.land (Z.land w HMASK) mask) v) as [X|X]; [|reflexivity].
      exfalso. apply (f_equal (fun z => Z.testbit z 13)) in X. rewrite Z.land_spec, mask_bits, A, B, T in X by (cbn; auto). discriminate. }
    destruct p; try (apply K; reflexivity). destruct N. eexists. reflexivity. }
  change (snd (if ready p (Z.land w HMASK) then advance p (hread w x) else (hread w x, p)) = HDone false).
  rewrite R. unfold advance. change (status (hread w x)) with (Z.land w HMASK). rewrite E. reflexivity.
Qed.
Print Assumptions C58_error.

Definition homing_ok : list hevent :=
  [HRead 0x437; HThread; HRead 0x37; HThread; HRead 0x1037; HThread; HRead 0x1437; HThread].
Example ex_C58_success : hrun homing_ok (execute_homing true 35 (mkH 0 false)) = (mkH 0x1400 false, HDone true) /\ stored (mkH 0 false) 0.
Proof. split; reflexivity. Qed.
Example ex_C58_requested : requested homing_ok (mkH 0 false, HPrepare).
Proof. exists (firstn 3 homing_ok), (skipn 3 homing_ok). split; reflexivity. Qed.
Example ex_C58_timeout : hrun [HRead 0x437; HThread; HRead 0x37; HThread; HTimeout] (mkH 0 false, HPrepare) = (mkH 0 false, HDone false).
Proof. reflexivity. Qed.
Example ex_C58_error : Z.testbit 0x2437 13 = true /\ ~ ended HAttain.
Proof. split; [reflexivity|]. intros [b H]. discriminate. Qed.

(** With method 0 success is reported at once, without any signal of the drive. *)
Theorem C58_method_zero_refuted : forall x, execute_homing true 0 x = (x, HDone true).
Proof. reflexivity. Qed.
Print Assumptions C58_method_zero_refuted.
(** A drive which still shows the end of an earlier homing: success is reported although the
    start bit is not requested long enough for a word to be written: the thread runs through
    in one go once the status word is read. *)
Theorem C58_stale_refuted : forall x w, homed w ->
  snd (hrun [HRead w; HThread; HThread; HThread; HThread] (x, HPrepare)) = HDone true.
Proof.
  intros x w [A [B C]].
  assert (M : forall i, In i [10; 12; 13] -> has_mask (Z.land w HMASK) i = Z.testbit w i).
  { intros i Hi. rewrite has_mask_bit by (destruct Hi as [<-|[<-|[<-|[]]]]; lia). apply mask_bits, Hi. }
  assert (K : forall mask v b, In b [10; 12; 13] -> Z.testbit mask b = true -> Z.testbit v b <> Z.testbit w b -> not_equal mask v (Z.land w HMASK) = true).
  { intros mask v b I Tm N. unfold not_equal. destruct (Z.eqb_spec (Z.land (Z.land w HMASK) mask) v) as [X|X]; [|reflexivity].
    exfalso. apply (f_equal (fun z => Z.testbit z b)) in X. rewrite Z.land_spec, mask_bits, Tm, andb_true_r in X by exact I. congruence. }
  assert (R : ready HPrepare (Z.land w HMASK) = true /\ ready HStart (Z.land w HMASK) = true /\ ready HAttain (Z.land w HMASK) = true /\ ready HStop (Z.land w HMASK) = true).
  { cbn [ready]. repeat split; [apply (K _ _ 10)|apply (K _ _ 12)|apply (K _ _ 12)|apply (K _ _ 10)]; try (cbn; tauto); try reflexivity.
    - rewrite A. discriminate.
    - rewrite B. discriminate.
    - rewrite B. discriminate.
    - rewrite A. discriminate. }
  destruct R as [R1 [R2 [R3 R4]]].
  assert (M1 : has_mask (Z.land w HMASK) SW_Reached = true) by (unfold SW_Reached; rewrite M by (cbn; auto); exact A).
  assert (M2 : has_mask (Z.land w HMASK) SW_Attained = true) by (unfold SW_Attained; rewrite M by (cbn; auto); exact B).
  assert (M3 : has_mask (Z.land w HMASK) SW_Error = false) by (unfold SW_Error; rewrite M by (cbn; auto); exact C).
  set (v := Z.land w HMASK) in *.
  assert (S1 : forall e, hstep HThread (mkH v e, HPrepare) = (mkH v true, HStart)).
  { intro e. cbn [hstep status]. rewrite R1. unfold advance. cbn [status]. rewrite M3. reflexivity. }
  assert (S2 : hstep HThread (mkH v true, HStart) = (mkH v true, HAttain)).
  { cbn [hstep status]. rewrite R2. unfold advance. cbn [status]. rewrite M3. reflexivity. }
  assert (S3 : hstep HThread (mkH v true, HAttain) = (mkH v true, HStop)).
  { cbn [hstep status]. rewrite R3. unfold advance. cbn [status]. rewrite M3. reflexivity. }
  assert (S4 : hstep HThread (mkH v true, HStop) = (mkH v false, HDone true)).
  { cbn [hstep status]. rewrite R4. unfold advance. cbn [status]. rewrite M3, M1, M2. reflexivity. }
  change (snd (hstep HThread (hstep HThread (hstep HThread (hstep HThread (mkH v (execute x), HPrepare))))) = HDone true).
  rewrite S1, S2, S3, S4. reflexivity.
Qed.
Print Assumptions C58_stale_refuted.
Example ex_C58_stale : homed 0x1437.
Proof. repeat split. Qed.
(** If the drive leaves Operation Enabled during homing (a fault), homing ends without the
    start bit being lowered in the words written afterwards. *)
Theorem C58_fault_refuted : forall s m ex shown cw w sent sfr', s <> OperationEnable -> Z.testbit cw 4 = true ->
  handle_write s (Some (m, homing_beh ex)) shown false cw = (w, sent, sfr') -> Z.testbit sent 4 = true.
Proof.
  intros s m ex shown cw w sent sfr' N T E. unfold handle_write in E.
  assert (X : state_eqb s OperationEnable = false) by (apply state_eqb_neq; exact N). rewrite X in E.
  assert (Y : sent = Z.lor cw (bit CW_Halt)) by congruence. rewrite Y, Z.lor_spec, T. reflexivity.
Qed.
Print Assumptions C58_fault_refuted.
Example ex_C58_fault : snd (fst (handle_write Fault (Some (6, homing_beh false)) 6 false 0x1f)) = 0x11f.
Proof. reflexivity. Qed.

(** A drive that is idle when the mode has been started, then moves, and finally shows the
    home as attained and the target as reached: homing succeeds, and the start bit is
    requested from the first wake-up until then. *)
Theorem C58_completes : forall x method l1 l2 l3 l4, method <> 0 ->
  stage h_idle 1 l1 -> stage h_moving 1 l2 -> (l3 = [] \/ stage h_stopping 1 l3) -> stage h_done 2 l4 ->
  let s1 := hrun l1 (execute_homing true method (hstart x)) in let s2 := hrun (l2 ++ l3) s1 in let s3 := hrun l4 s2 in
  execute (fst s1) = true /\ execute (fst s2) = true /\ snd s3 = HDone true /\ execute (fst s3) = false.
Proof.
  intros x method l1 l2 l3 l4 M. unfold execute_homing. cbn [negb]. replace (method =? 0) with false by lia. apply completes.
Qed.
Print Assumptions C58_completes.
Example C58_ex_completes : stage h_idle 1 [HThread; HRead 0x0637; HThread; HThread] /\ stage h_moving 1 [HRead 0x0237; HRead 0x0233; HThread] /\
  stage h_stopping 1 [HRead 0x1237; HThread] /\ stage h_done 2 [HRead 0x1637; HThread; HRead 0x1633; HThread].
Proof.
  split; [|split; [|split]].
  - exists [HThread], 0x0637, [HThread; HThread]. split; [reflexivity|]. split; [repeat constructor|]. split; [repeat split|]. split; [repeat constructor|cbn; lia].
  - exists [], 0x0237, [HRead 0x0233; HThread]. split; [reflexivity|]. split; [constructor|]. split; [repeat split|].
    split; [|cbn; lia]. constructor; [right; exists 0x0233; repeat split|repeat constructor].
  - exists [], 0x1237, [HThread]. split; [reflexivity|]. split; [constructor|]. split; [repeat split|]. split; [repeat constructor|cbn; lia].
  - exists [], 0x1637, [HThread; HRead 0x1633; HThread]. split; [reflexivity|]. split; [constructor|]. split; [repeat split|].
    split; [|cbn; lia]. constructor; [left; reflexivity|]. constructor; [right; exists 0x1633; repeat split|repeat constructor].
Qed.
(** An object that cannot be read ends it at once. *)
Theorem C58_invalid : forall x method l, snd (hrun l (execute_homing false method x)) = HDone false /\ execute (fst (hrun l (execute_homing false method x))) = false.
Proof.
  intros x method l. unfold execute_homing. cbn [negb]. unfold failed.
  assert (K : forall y, execute y = false -> snd (hrun l (y, HDone false)) = HDone false /\ execute (fst (hrun l (y, HDone false))) = false).
  { induction l as [|e l IH]; intros y Hy; [auto|]. destruct e; cbn [hrun fold_left]; apply IH; exact Hy. }
  apply K. reflexivity.
Qed.
Print Assumptions C58_invalid.
