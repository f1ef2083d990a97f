(** The quick stop reaches the bus in the same cycle (C113) *)
From Coq Require Import Floats.SpecFloat.
From Verif Require Import Base CanModel KeyModel StorageModel StorageSpec StorageProofs LayerModel MotorModel MotorSpec MotorProofs MotorProps
  PdoModel PdoSpec PdoTxProofs PdoProps CycleModel CycleSpec CycleProofs CycleProps StopModel StopSpec StopProofs StopBusModel.
From Verif Require JointModel.
Local Open Scope Z_scope.

(** A halted joint sets no target. *)
Lemma halted_handle : forall junk dtype opens fstate ls active x,
  JointModel.handle_write spec_float S754_nan junk dtype opens fstate ls Error active x = (x, None).
Proof. reflexivity. Qed.

Lemma two_bytes : forall w i, 0 <= i < 16 -> Z.testbit (unsigned_le (le_bytes 2 w)) i = Z.testbit w i.
Proof. intros w i H. rewrite le_value. change (8 * Z.of_nat 2) with 16. apply Z.mod_pow2_bits_low. lia. Qed.
Lemma stops_word : forall w, stops w -> stops (unsigned_le (le_bytes 2 w)).
Proof. intros w H. apply stops_bits in H as (A & B & C). apply stops_bits. rewrite (two_bytes w 7), (two_bytes w 2), (two_bytes w 1) by lia. auto. Qed.

(** If the control word is mapped, and the target of the mode as well if there is one, an enabled drive that was halted is sent a frame with a quick stop
    in the next write pass, unless it was told to stop already. *)
Theorem C113_frame : forall dv d T lay m p w idx sub lo hi,
  mo_state m = OperationEnable -> target_object (mo_mode m) idx sub lo hi ->
  tx_mapped T d lay p w -> In control_word (keys lay) -> T control_word = TInt (mkIty false 2) ->
  (has_target (mo_tgt m) = true -> In (object_key idx sub) (keys lay) /\ T (object_key idx sub) = TInt (mkIty true (target_size lo))) ->
  exists m1 p1 w1 f ws, halted_pass dv d (motor_halt m) p w = Ok (m1, p1, w1, f, true) /\
    tx_mapped T d lay p1 w1 /\ held_of w1 control_word = Some ws /\ stops (unsigned_le ws) /\
    (forall fr, f = Some fr -> slice lay control_word (f_data fr) = Some ws) /\
    ((forall old, held_of w control_word = Some old -> ~ stops (unsigned_le old)) -> exists fr, f = Some fr).
Proof.
  intros dv d T lay m p w idx sub lo hi E TO M Hc HC HM. change control_word with cw_key in *.
  destruct (halt_word (mkDrive (mo_state m) (mo_cw m) (mo_sfr m))) as (_ & _ & K2 & _). specialize (K2 E).
  unfold halted_pass, motor_write. set (m' := motor_halt m). change (mo_mode m') with (mo_mode m). change (mo_tgt m') with (mo_tgt m).
  destruct (forward_row _ _ _ _ _ TO) as (mask & F & FB & K & FS & FP & LO & HI & NK). rewrite FB.
  set (h := f_hdr (p_frame p)).
  assert (WT : exists w1 s1, write_target dv d m' w = Ok (w1, true) /\ tx_inv T d lay h p w1 s1 /\ tx_cur s1 cw_key = held_of w cw_key).
  { assert (Inv : tx_inv T d lay h p w (mkTx (held_of w) (some_dirty p w))) by (split; [exact M|]; repeat split).
    assert (SAME : write_target dv d m' w = Ok (w, true) -> exists w1 s1, write_target dv d m' w = Ok (w1, true) /\ tx_inv T d lay h p w1 s1 /\ tx_cur s1 cw_key = held_of w cw_key).
    { intros W. exists w, (mkTx (held_of w) (some_dirty p w)). auto. }
    destruct (has_target (mo_tgt m)) eqn:HT.
    - destruct (HM eq_refl) as [Hk Tk]. destruct (Z.eqb_spec (mo_mode m) (mo_shown m)) as [Sh|Sh].
      + destruct (mo_tgt m) as [n ht] eqn:Tg. cbn in HT. subst ht.
        destruct (motor_sends dv d (fun _ => None) (fun _ => false) T lay m' n idx sub lo hi p w TO E (eq_sym Sh) Tg M Hk Tk) as (w1 & bs & W & _ & I1).
        exists w1, (tx_write (mkTx (held_of w) (some_dirty p w)) (object_key idx sub) bs). split; [exact W|]. split; [exact I1|].
        cbn [tx_write tx_cur]. rewrite (proj2 (Z.eqb_neq _ _)) by congruence. reflexivity.
      + apply SAME. unfold write_target. change (mo_mode m') with (mo_mode m). change (mo_shown m') with (mo_shown m).
        rewrite (proj2 (Z.eqb_neq _ _) Sh), andb_false_r. reflexivity.
    - apply SAME. unfold write_target. change (mo_tgt m') with (mo_tgt m). unfold forward_out. rewrite HT. destruct (_ && _); [|reflexivity]. destruct (forward_key _); reflexivity. }
  destruct WT as (w1 & s1 & -> & I1 & Cu).
  destruct (handle_write (mo_state m') (Some (mo_mode m, forward_beh mask (mo_tgt m))) (mo_shown m') (mo_sfr m') (mo_cw m')) as [[cw sent] sfr] eqn:HW.
  assert (SS : stops sent).
  { change (mo_cw m') with (word (drive_halt (mkDrive (mo_state m) (mo_cw m) (mo_sfr m)))) in HW. apply stops_bits in K2 as (A & B & C). apply stops_bits.
    destruct (C51_state_bits _ _ _ _ _ _ _ _ 7 HW ltac:(lia) ltac:(unfold mode_bit; lia) ltac:(lia)) as [_ B7].
    destruct (C51_state_bits _ _ _ _ _ _ _ _ 2 HW ltac:(lia) ltac:(unfold mode_bit; lia) ltac:(lia)) as [_ B2].
    destruct (C51_state_bits _ _ _ _ _ _ _ _ 1 HW ltac:(lia) ltac:(unfold mode_bit; lia) ltac:(lia)) as [_ B1].
    rewrite A in B7. rewrite B in B2. rewrite C in B1. cbn [Z.eqb Pos.eqb] in B1, B2. rewrite andb_false_r in B1, B2.
    split; [destruct (_ && _) in B7; exact B7|auto]. }
  assert (Le : List.length (le_bytes 2 sent) = ty_size (T cw_key)) by (rewrite HC; reflexivity).
  destruct (cached_done T d lay h dv p w1 s1 cw_key (le_bytes 2 sent) _ I1 Hc HC Le) as (w2 & s2 & O & I2 & Cs & _ & _).
  destruct (tx_mapped_op T d lay h dv p w1 s1 cw_key (SSetCached (le_bytes 2 sent)) I1 Hc) as (w2' & r' & O' & I2'); [intros _; exact Le|].
  rewrite O in O'. injection O' as <- <-. rewrite O.
  destruct (tx_cycle T d lay h p w2 _ I2') as (p3 & w3 & f & TS & I3 & RO). rewrite TS.
  exists (with_cw cw sfr m'), p3, w3, f, (le_bytes 2 sent). split; [reflexivity|]. split; [exact (proj1 I3)|].
  assert (Held : forall k, In k (keys lay) -> tx_cur (tx_spec_step T d lay s1 (WObj cw_key (SSetCached (le_bytes 2 sent)))) k = tx_cur s2 k).
  { intros k Hk. rewrite (proj1 (proj2 (proj2 I2')) k Hk), (proj1 (proj2 (proj2 I2)) k Hk). reflexivity. }
  split; [|split; [apply stops_word; exact SS|split]].
  - rewrite <- (proj1 (proj2 (proj2 I3)) cw_key Hc). cbn [tx_cur]. rewrite (Held cw_key Hc). exact Cs.
  - intros fr ->. cbn [tx_result_ok] in RO. destruct RO as (_ & _ & _ & _ & SH).
    apply (shows_slice lay _ (f_data fr)) with (2 := SH); [exact (txm_keys _ _ _ _ _ M)|exact Hc|]. rewrite (Held cw_key Hc). exact Cs.
  - intros NS. destruct f as [fr|]; [eauto|]. exfalso. cbn [tx_result_ok tx_spec_step] in RO. rewrite (proj2 (existsb_eqb _ _) Hc) in RO.
    destruct (same (T cw_key) (le_bytes 2 sent) (tx_cur s1 cw_key)) eqn:Sm; [|discriminate RO].
    rewrite Cu in Sm. destruct (held_of w cw_key) as [old|] eqn:Ho; [|discriminate Sm]. apply (NS old eq_refl).
    rewrite HC in Sm. cbn [same val_eqb] in Sm. apply StorageProofs.bytes_eqb_spec in Sm. subst old. apply stops_word, SS.
Qed.
Print Assumptions C113_frame.

(** The drive of the example of C103, enabled and moving; it was told 0x000F last. Halted, it is told 0x000B, where the quick stop bit is missing. *)
Definition running : motor := mkMotor OperationEnable 8 8 (mkTgt 71620 true) false 0x000F.
Example C113_frame_ex : mo_state running = OperationEnable /\ target_object (mo_mode running) 0x607A 0 (- 2 ^ 31) (2 ^ 31 - 1) /\
  tx_mapped loop_T loop_dict out_layout loop_tpdo loop_world /\ In control_word (keys out_layout) /\ loop_T control_word = TInt (mkIty false 2) /\
  (has_target (mo_tgt running) = true -> In (object_key 0x607A 0) (keys out_layout) /\ loop_T (object_key 0x607A 0) = TInt (mkIty true (target_size (- 2 ^ 31)))) /\
  match halted_pass dev loop_dict (motor_halt running) loop_tpdo loop_world with
  | Ok (_, _, _, Some f, true) => firstn 2 (f_data f) = [0x0B; 0] /\ stops (unsigned_le (firstn 2 (f_data f)))
  | _ => False
  end.
Proof.
  split; [reflexivity|]. split; [apply TSyncPosition|]. split; [exact loop_out|]. split; [vm_compute; auto|]. split; [reflexivity|].
  split; [intros _; split; [vm_compute; auto|reflexivity]|]. vm_compute. auto.
Qed.
