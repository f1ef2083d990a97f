From Verif Require Import Base CanModel CanSpec CanProofs SocketCanModel SocketCanSpec.

(** ** Masks *)

Lemma testbit_if : forall (b : bool) j i, 0 <= i -> 0 <= j ->
  Z.testbit (if b then 2^j else 0) i = b && (j =? i).
Proof.
  intros b j i Hi Hj. destruct b; [|rewrite Z.bits_0; reflexivity].
  rewrite Z.pow2_bits_eqb by lia. reflexivity.
Qed.

Lemma add_bit_bits : forall s d m j i, 0 <= i -> 0 <= j ->
  Z.testbit (add_bit s d m (2^j)) i =
  Z.testbit m i || (match s (2^j) with Some b => b | None => Z.testbit d j end && (j =? i)).
Proof.
  intros s d m j i Hi Hj. unfold add_bit, get_optional. rewrite Z.lor_spec, testbit_if by lia.
  rewrite pow2_testbit_has by assumption. reflexivity.
Qed.

Lemma parse_error_mask_pow : forall s d, parse_error_mask s d =
  let m := add_bit s d 0 (2^1) in let m := add_bit s d m (2^2) in let m := add_bit s d m (2^3) in
  let m := add_bit s d m (2^4) in let m := add_bit s d m (2^5) in let m := add_bit s d m (2^0) in
  let m := add_bit s d m (2^6) in let m := add_bit s d m (2^7) in add_bit s d m (2^8).
Proof. reflexivity. Qed.

Lemma parse_error_mask_bits : forall s d i, 0 <= i ->
  Z.testbit (parse_error_mask s d) i =
  (i <=? 8) && match s (2^i) with Some b => b | None => Z.testbit d i end.
Proof.
  intros s d i Hi. rewrite parse_error_mask_pow. cbv zeta. rewrite !add_bit_bits by lia.
  rewrite Z.bits_0.
  set (v := fun j => match s (2^j) with Some b => b | None => Z.testbit d j end).
  change (false || v 1 && (1 =? i) || v 2 && (2 =? i) || v 3 && (3 =? i) || v 4 && (4 =? i)
    || v 5 && (5 =? i) || v 0 && (0 =? i) || v 6 && (6 =? i) || v 7 && (7 =? i) || v 8 && (8 =? i)
    = (i <=? 8) && v i).
  assert (K : i = 0 \/ i = 1 \/ i = 2 \/ i = 3 \/ i = 4 \/ i = 5 \/ i = 6 \/ i = 7 \/ i = 8 \/ 8 < i) by lia.
  destruct K as [E|[E|[E|[E|[E|[E|[E|[E|[E|E]]]]]]]]];
    try (rewrite E; cbn [Z.eqb Pos.eqb]; rewrite ?andb_true_r, ?andb_false_r, ?orb_false_r, ?orb_false_l; reflexivity).
  replace (i <=? 8) with false by lia.
  replace (1 =? i) with false by lia. replace (2 =? i) with false by lia.
  replace (3 =? i) with false by lia. replace (4 =? i) with false by lia.
  replace (5 =? i) with false by lia. replace (6 =? i) with false by lia.
  replace (7 =? i) with false by lia. replace (8 =? i) with false by lia.
  replace (0 =? i) with false by lia. rewrite !andb_false_r. reflexivity.
Qed.

Lemma cond_bound : forall i, In i conditions -> 0 <= i <= 8.
Proof. intros i H. cbn in H. lia. Qed.

Lemma const_bits : forall i, 0 <= i <= 8 ->
  Z.testbit fatal_errors i = default_fatal i /\ Z.testbit report_errors i = default_reported i /\
  Z.testbit CAN_ERR_BUSOFF i = (i =? busoff).
Proof.
  intros i H.
  pose proof (forall_range 9 (fun i =>
    Bool.eqb (Z.testbit fatal_errors i) (default_fatal i) &&
    Bool.eqb (Z.testbit report_errors i) (default_reported i) &&
    Bool.eqb (Z.testbit CAN_ERR_BUSOFF i) (i =? busoff)) eq_refl i ltac:(lia)) as E.
  cbv beta in E. apply andb_true_iff in E. destruct E as [E E3].
  apply andb_true_iff in E. destruct E as [E1 E2].
  rewrite !eqb_true_iff in *. auto.
Qed.

Lemma masks_spec : forall se sf e f, init_masks se sf = (e, f) ->
  forall i, 0 <= i ->
  (In i conditions -> Z.testbit f i = fatal_spec sf i /\ Z.testbit e i = reported_spec se sf i) /\
  (~ In i conditions -> Z.testbit f i = false /\ Z.testbit e i = false).
Proof.
  intros se sf e f H i Hi. unfold init_masks in H.
  apply (f_equal fst) in H as He. apply (f_equal snd) in H as Hf. cbn [fst snd] in He, Hf.
  subst e f. clear H.
  repeat (rewrite ?Z.lor_spec; rewrite ?parse_error_mask_bits by assumption).
  split; intro HI.
  - apply cond_bound in HI. destruct (const_bits i HI) as (A & B & C). rewrite A, B, C.
    destruct (Z.leb_spec i 8); [|lia]. cbn [andb].
    unfold reported_spec, fatal_spec.
    destruct (i =? busoff), (sf (2^i)) as [[]|], (se (2^i)) as [[]|], (default_fatal i), (default_reported i); split; reflexivity.
  - destruct (Z.leb_spec i 8).
    { exfalso. apply HI. cbn. lia. }
    cbn [andb orb].
    assert (Z.testbit CAN_ERR_BUSOFF i = false) as ->.
    { change CAN_ERR_BUSOFF with (2^6). rewrite Z.pow2_bits_eqb by lia. lia. }
    auto.
Qed.

Lemma busoff_always_fatal : forall se sf e f, init_masks se sf = (e, f) ->
  Z.testbit f busoff = true.
Proof.
  intros se sf e f H. destruct (masks_spec _ _ _ _ H busoff ltac:(unfold busoff; lia)) as [A _].
  destruct A as [A _]; [cbn; auto 10|]. rewrite A. reflexivity.
Qed.

Lemma fatal_is_reported : forall se sf e f, init_masks se sf = (e, f) ->
  forall i, 0 <= i -> Z.testbit f i = true -> Z.testbit e i = true.
Proof.
  intros se sf e f H i Hi T. unfold init_masks in H.
  apply (f_equal fst) in H as He. apply (f_equal snd) in H as Hf. cbn [fst snd] in He, Hf.
  subst e f. rewrite Z.lor_spec. rewrite T. apply orb_true_r.
Qed.

(** ** Codec *)

Lemma enqueue_defined : forall f, (exists k, enqueue_frame f = Ok k) <-> f_dlc f <= 8.
Proof.
  intros. unfold enqueue_frame. destruct (Z.leb_spec (f_dlc f) 8); split; intros; eauto; try lia.
  destruct H0. discriminate.
Qed.

Lemma kid_sum : forall h, header_ok h ->
  Z.lor (Z.lor (h_id h) (if h_ext h then CAN_EFF_FLAG else 0)) (if h_rtr h then CAN_RTR_FLAG else 0)
  = h_id h + b2z (h_rtr h) * 2^30 + b2z (h_ext h) * 2^31.
Proof.
  intros [i e r x] H. unfold header_ok in H; cbn [h_id h_ext h_rtr] in *.
  unfold CAN_EFF_FLAG, CAN_RTR_FLAG.
  rewrite <- Z.lor_assoc. rewrite (Z.lor_comm (if e then _ else _)). rewrite Z.lor_assoc.
  replace (if r then 2^30 else 0) with (b2z r * 2^30) by (destruct r; reflexivity).
  replace (if e then 2^31 else 0) with (b2z e * 2^31) by (destruct e; reflexivity).
  rewrite (lor_disjoint_add 30) by lia.
  rewrite (lor_disjoint_add 31) by (destruct r; cbn [b2z]; lia). reflexivity.
Qed.

Lemma overwrite_firstn : forall (a old : bytes) n, (n <= List.length a)%nat ->
  firstn n (overwrite (firstn n a) old) = firstn n a.
Proof.
  intros. unfold overwrite. rewrite firstn_app, firstn_length.
  replace (n - Nat.min n (List.length a))%nat with 0%nat by lia. cbn. rewrite app_nil_r.
  rewrite firstn_firstn. f_equal. lia.
Qed.

Lemma codec_round_trip : forall f prev k,
  valid_frame f -> is_message f -> enqueue_frame f = Ok k ->
  same_frame (read_frame prev k) f.
Proof.
  intros f prev k [[H [D [L B]]] [V8 V11]] M E. unfold is_message in M.
  unfold enqueue_frame in E. destruct (f_dlc f <=? 8); [|discriminate]. inversion E; subst k; clear E.
  unfold read_frame. cbn [k_id k_dlc k_data]. rewrite kid_sum by assumption.
  set (w := h_id (f_hdr f) + b2z (h_rtr (f_hdr f)) * 2 ^ 30 + b2z (h_ext (f_hdr f)) * 2 ^ 31).
  assert (W : 0 <= w < 2^32).
  { unfold w. unfold header_ok in H. destruct (h_rtr (f_hdr f)), (h_ext (f_hdr f)); cbn [b2z]; lia. }
  unfold CAN_ERR_FLAG, CAN_EFF_FLAG, CAN_RTR_FLAG, CAN_EFF_MASK, CAN_SFF_MASK.
  rewrite !has_word by lia.
  assert (W29 : (w / 2^29) mod 2 =? 1 = false).
  { unfold w, header_ok in *. destruct (h_rtr (f_hdr f)), (h_ext (f_hdr f)); cbn [b2z]; lia. }
  assert (W30 : (w / 2^30) mod 2 =? 1 = h_rtr (f_hdr f)).
  { unfold w, header_ok in *. destruct (h_rtr (f_hdr f)), (h_ext (f_hdr f)); cbn [b2z]; lia. }
  assert (W31 : (w / 2^31) mod 2 =? 1 = h_ext (f_hdr f)).
  { unfold w, header_ok in *. destruct (h_rtr (f_hdr f)), (h_ext (f_hdr f)); cbn [b2z]; lia. }
  rewrite W29, W30, W31.
  split; [|split; [reflexivity|]].
  - cbn [f_hdr]. destruct (f_hdr f) as [i e r x]; cbn [h_id h_ext h_rtr h_err] in *. subst x.
    f_equal. destruct e.
    + rewrite land_ones_mod by lia. unfold w, header_ok in *; cbn [h_id] in *.
      destruct r; cbn [b2z]; lia.
    + rewrite land_ones_mod by lia. specialize (V11 eq_refl). unfold w, header_ok in *; cbn [h_id] in *.
      destruct r; cbn [b2z]; lia.
  - unfold payload at 1. cbn [f_dlc f_data].
    assert (PL : List.length (payload f) = Z.to_nat (f_dlc f)).
    { unfold payload. rewrite firstn_length. lia. }
    replace (Nat.min (Z.to_nat (f_dlc f)) 8) with (Z.to_nat (f_dlc f)) by lia.
    rewrite overwrite_firstn.
    + rewrite <- PL. apply firstn_overwrite.
    + unfold overwrite. rewrite app_length, skipn_length, PL; cbn [repeat List.length]. lia.
Qed.

Lemma read_frame_stateless : forall k p1 p2,
  Z.testbit (k_id k) 29 = false -> List.length (k_data k) = 8%nat -> k_dlc k <= 8 ->
  same_frame (read_frame p1 k) (read_frame p2 k).
Proof.
  intros k p1 p2 T L D. unfold same_frame, read_frame. cbn [f_hdr f_dlc].
  change CAN_ERR_FLAG with (2^29). rewrite pow2_testbit_has by lia. rewrite T.
  split; [reflexivity|]. split; [reflexivity|].
  unfold payload. cbn [f_dlc f_data].
  replace (Nat.min (Z.to_nat (k_dlc k)) 8) with (Z.to_nat (k_dlc k)) by lia.
  rewrite !overwrite_firstn by lia. reflexivity.
Qed.

Lemma error_frame_stale : exists k p1 p2,
  List.length (k_data k) = 8%nat /\ k_dlc k <= 8 /\ frame_ok p1 /\ frame_ok p2 /\
  ~ same_frame (read_frame p1 k) (read_frame p2 k).
Proof.
  exists (mkK (2^29 + 4) 8 (repeat 0 8)),
         (mkFrame (mkHeader 1 true true false) 0 (repeat 0 8)),
         (mkFrame (mkHeader 1 false false false) 0 (repeat 0 8)).
  split; [reflexivity|]. split; [cbn; lia|].
  split; [repeat split; cbn; try lia; repeat constructor; cbn; lia|].
  split; [repeat split; cbn; try lia; repeat constructor; cbn; lia|].
  intros [H _]. vm_compute in H. discriminate.
Qed.

Lemma enqueue_error_as_data : exists f k,
  valid_frame f /\ ~ is_message f /\ enqueue_frame f = Ok k /\ Z.testbit (k_id k) 29 = false.
Proof.
  exists (mkFrame (mkHeader 4 false false true) 0 (repeat 0 8)). eexists.
  split; [repeat split; cbn; try lia; repeat constructor; cbn; lia|].
  split; [discriminate|]. split; reflexivity.
Qed.

(** ** State machine *)

Lemma drv_eqb_spec : forall a b, drv_eqb a b = true <-> a = b.
Proof. intros [] []; cbn; split; congruence. Qed.

Definition tells (d : driver) (r : driver * list output) : Prop :=
  known (st d) (snd r) = st (fst r) /\ no_repeat (st d) (snd r).

Lemma known_app : forall a b s, known s (a ++ b) = known (known s a) b.
Proof. induction a as [|[] a IH]; intros b s0; cbn; auto. Qed.
Lemma no_repeat_app : forall a b s, no_repeat s a -> no_repeat (known s a) b -> no_repeat s (a ++ b).
Proof.
  induction a as [|[] a IH]; intros b s0 H1 H2; cbn in *; auto. destruct H1. split; auto.
Qed.

Lemma tells_seq : forall d a f, tells d a -> (forall d1, tells d1 (f d1)) -> tells d (seq a f).
Proof.
  intros d [d1 o1] f [K1 N1] H. unfold seq, tells in *. cbn [fst snd] in *.
  specialize (H d1). destruct (f d1) as [d2 o2]. cbn [fst snd] in *. destruct H as [K2 N2].
  rewrite known_app, K1. split; [assumption|]. apply no_repeat_app; [assumption|]. rewrite K1. assumption.
Qed.

Lemma tells_ret : forall d, tells d (d, []).
Proof. intros. split; cbn; auto. Qed.

Lemma tells_setErrorCode : forall d e, tells d (setErrorCode d e).
Proof.
  intros. unfold setErrorCode, tells. destruct (Z.eqb_spec (error_code (st d)) e); cbn; auto.
  repeat split. intro H. apply n. rewrite <- H. reflexivity.
Qed.
Lemma tells_setInternalError : forall d e, tells d (setInternalError d e).
Proof.
  intros. unfold setInternalError, tells. destruct (Z.eqb_spec (internal_error (st d)) e); cbn; auto.
  repeat split. intro H. apply n. rewrite <- H. reflexivity.
Qed.
Lemma tells_setDriverState : forall d x, tells d (setDriverState d x).
Proof.
  intros. unfold setDriverState, tells. destruct (drv_eqb (driver_state (st d)) x) eqn:E; cbn; auto.
  repeat split. intro H. rewrite <- H in E. cbn in E. destruct x; discriminate.
Qed.
Lemma tells_setNotReady : forall d, tells d (setNotReady d).
Proof. intros. apply tells_setDriverState. Qed.

Lemma tells_out : forall d o, (match o with Announce _ => False | _ => True end) -> tells d (d, [o]).
Proof. intros d [] H; split; cbn; auto; contradiction. Qed.

Lemma tells_same_st : forall d d' r, st d' = st d -> tells d' r -> tells d r.
Proof. intros d d' r E [A B]. unfold tells. rewrite <- E. auto. Qed.

Lemma step_known : forall d e d' o, step d e = Ok (d', o) -> known (st d) o = st d'.
Proof.
  intros d e d' o H.
  assert (T : is_run_end e = false -> tells d (d', o)).
  { intro NE. destruct e; cbn in NE; try discriminate; cbn [step] in H.
    - destruct masks as [em fm]. destruct (driver_state (st d)).
      + destruct setup_ok; injection H as H; rewrite <- H.
        * apply tells_seq; [|intro; apply tells_out; exact I].
          apply tells_seq; [|intro; apply tells_setDriverState].
          apply tells_seq; [|intro; apply tells_setInternalError].
          eapply tells_same_st; [|apply tells_setErrorCode]. reflexivity.
        * apply tells_seq; [|intro; apply tells_out; exact I].
          eapply tells_same_st; [|apply tells_setErrorCode]. reflexivity.
      + injection H as <- <-. apply tells_out. exact I.
      + injection H as <- <-. apply tells_out. exact I.
    - injection H as H. rewrite <- H. apply tells_seq; [apply tells_setNotReady|].
      intro d1. destruct (driver_state (st d1)); try apply tells_ret. apply tells_setDriverState.
    - injection H as H. rewrite <- H. apply tells_seq; [|intro; apply tells_out; exact I].
      destruct (has (k_id k) CAN_ERR_FLAG && has (k_id k) (fatal_error_mask_ d)).
      + apply tells_seq; [|intro; apply tells_setNotReady].
        eapply tells_same_st; [|apply tells_setInternalError]. reflexivity.
      + eapply tells_same_st; [|apply tells_ret]. reflexivity.
    - injection H as H. rewrite <- H. apply tells_seq; [apply tells_setErrorCode|intro; apply tells_setNotReady].
    - destruct (driver_state (st d)).
      + injection H as <- <-. apply tells_out. exact I.
      + injection H as <- <-. apply tells_out. exact I.
      + destruct (enqueue_frame msg); [|discriminate]. destruct (write_ec =? 0).
        * injection H as <- <-. apply tells_out. exact I.
        * injection H as H. rewrite <- H. apply tells_seq; [|intro; apply tells_out; exact I].
          apply tells_seq; [apply tells_setErrorCode|intro; apply tells_setNotReady].
    - injection H as <- <-. split; cbn; auto. }
  destruct (is_run_end e) eqn:NE; [|apply T; reflexivity].
  destruct e; try discriminate. cbn [step] in H. injection H as H.
  pose proof (tells_seq d (setErrorCode d ec) setNotReady (tells_setErrorCode d ec) tells_setNotReady) as [K _].
  destruct (seq (setErrorCode d ec) setNotReady) as [d1 o1]. cbn in H. inversion H; subst.
  cbn in K. rewrite known_app. reflexivity.
Qed.

Lemma step_no_repeat : forall d e d' o, step d e = Ok (d', o) -> is_run_end e = false -> no_repeat (st d) o.
Proof.
  intros d e d' o H NE. assert (T : tells d (d', o)); [|apply T].
  destruct e; cbn in NE; try discriminate; cbn [step] in H.
  - destruct masks as [em fm]. destruct (driver_state (st d)).
    + destruct setup_ok; injection H as H; rewrite <- H.
      * apply tells_seq; [|intro; apply tells_out; exact I].
        apply tells_seq; [|intro; apply tells_setDriverState].
        apply tells_seq; [|intro; apply tells_setInternalError].
        eapply tells_same_st; [|apply tells_setErrorCode]. reflexivity.
      * apply tells_seq; [|intro; apply tells_out; exact I].
        eapply tells_same_st; [|apply tells_setErrorCode]. reflexivity.
    + injection H as <- <-. apply tells_out. exact I.
    + injection H as <- <-. apply tells_out. exact I.
  - injection H as H. rewrite <- H. apply tells_seq; [apply tells_setNotReady|].
    intro d1. destruct (driver_state (st d1)); try apply tells_ret. apply tells_setDriverState.
  - injection H as H. rewrite <- H. apply tells_seq; [|intro; apply tells_out; exact I].
    destruct (has (k_id k) CAN_ERR_FLAG && has (k_id k) (fatal_error_mask_ d)).
    + apply tells_seq; [|intro; apply tells_setNotReady].
      eapply tells_same_st; [|apply tells_setInternalError]. reflexivity.
    + eapply tells_same_st; [|apply tells_ret]. reflexivity.
  - injection H as H. rewrite <- H. apply tells_seq; [apply tells_setErrorCode|intro; apply tells_setNotReady].
  - destruct (driver_state (st d)).
    + injection H as <- <-. apply tells_out. exact I.
    + injection H as <- <-. apply tells_out. exact I.
    + destruct (enqueue_frame msg); [|discriminate]. destruct (write_ec =? 0).
      * injection H as <- <-. apply tells_out. exact I.
      * injection H as H. rewrite <- H. apply tells_seq; [|intro; apply tells_out; exact I].
        apply tells_seq; [apply tells_setErrorCode|intro; apply tells_setNotReady].
  - injection H as <- <-. split; cbn; auto.
Qed.

Lemma run_known : forall es d d' o, run d es = Ok (d', o) -> known (st d) o = st d'.
Proof.
  induction es as [|e es IH]; intros d d' o H; cbn [run] in H.
  - inversion H; subst. reflexivity.
  - destruct (step d e) as [[d1 o1]|] eqn:S; [|discriminate].
    destruct (run d1 es) as [[d2 o2]|] eqn:R; [|discriminate].
    inversion H; subst. rewrite known_app. rewrite (step_known _ _ _ _ S). eapply IH. eassumption.
Qed.

Lemma run_no_repeat : forall es d d' o,
  Forall (fun e => is_run_end e = false) es -> run d es = Ok (d', o) -> no_repeat (st d) o.
Proof.
  induction es as [|e es IH]; intros d d' o F H; cbn [run] in H.
  - inversion H; subst. exact I.
  - inversion F; subst. destruct (step d e) as [[d1 o1]|] eqn:S; [|discriminate].
    destruct (run d1 es) as [[d2 o2]|] eqn:R; [|discriminate].
    inversion H; subst. apply no_repeat_app; [eapply step_no_repeat; eassumption|].
    rewrite (step_known _ _ _ _ S). eapply IH; eassumption.
Qed.

(** ** Fatal errors *)

Lemma has_bits : forall x m, has x m = true <-> exists i, 0 <= i /\ Z.testbit x i = true /\ Z.testbit m i = true.
Proof.
  intros x m. unfold has. split.
  - intro H. apply negb_true_iff, Z.eqb_neq in H.
    assert (E : exists i, 0 <= i /\ Z.testbit (Z.land x m) i = true).
    { destruct (Z.eq_dec (Z.land x m) 0); [contradiction|].
      destruct (Z.lt_ge_cases (Z.land x m) 0) as [N|P].
      - (* negative: some high bit is set *)
        exists (Z.succ (Z.log2 (Z.pred (- Z.land x m)))).
        pose proof (Z.log2_nonneg (Z.pred (- Z.land x m))). split; [lia|].
        apply Z.bits_above_log2_neg; lia.
      - exists (Z.log2 (Z.land x m)). split; [apply Z.log2_nonneg|]. apply Z.bit_log2. lia. }
    destruct E as [i [Hi T]]. rewrite Z.land_spec in T. apply andb_true_iff in T. exists i. tauto.
  - intros [i [Hi [A B]]]. apply negb_true_iff, Z.eqb_neq. intro E.
    assert (T : Z.testbit (Z.land x m) i = true) by (rewrite Z.land_spec, A, B; reflexivity).
    rewrite E, Z.bits_0 in T. discriminate.
Qed.

Lemma fatal_frame_has : forall fatal k,
  fatal_frame fatal k <-> has (k_id k) CAN_ERR_FLAG && has (k_id k) fatal = true.
Proof.
  intros. unfold fatal_frame. change CAN_ERR_FLAG with (2^29).
  rewrite andb_true_iff, pow2_testbit_has by lia. rewrite has_bits. reflexivity.
Qed.

Lemma setDriverState_drv : forall d x, driver_state (st (fst (setDriverState d x))) = x.
Proof.
  intros. unfold setDriverState. destruct (drv_eqb (driver_state (st d)) x) eqn:E; [|reflexivity].
  apply drv_eqb_spec in E. assumption.
Qed.

Lemma setNotReady_drv : forall d, driver_state (st (fst (setNotReady d))) <> Ready.
Proof. intros. unfold setNotReady. rewrite setDriverState_drv. destruct (socket_open d); discriminate. Qed.

Lemma setNotReady_ierr : forall d, internal_error (st (fst (setNotReady d))) = internal_error (st d).
Proof.
  intros. unfold setNotReady, setDriverState.
  destruct (drv_eqb (driver_state (st d)) (if socket_open d then Open else Closed)); reflexivity.
Qed.

Lemma setInternalError_ierr : forall d e, internal_error (st (fst (setInternalError d e))) = e.
Proof.
  intros. unfold setInternalError. destruct (Z.eqb_spec (internal_error (st d)) e); [assumption|reflexivity].
Qed.

Lemma seq_fst : forall a f, fst (seq a f) = fst (f (fst a)).
Proof. intros [d o] f. cbn. destruct (f d). reflexivity. Qed.

Lemma receive_fatal : forall d k d' o,
  fatal_frame (fatal_error_mask_ d) k -> step d (EReceive k) = Ok (d', o) ->
  driver_state (st d') <> Ready /\ internal_error (st d') = k_id k mod 2^29 /\
  exists f, In (Deliver f) o /\ h_err (f_hdr f) = true.
Proof.
  intros d k d' o F H. apply fatal_frame_has in F. cbn [step] in H. rewrite F in H.
  injection H as H. apply (f_equal fst) in H as H1. apply (f_equal snd) in H as H2.
  rewrite !seq_fst in H1. cbn [fst snd] in H1, H2.
  rewrite <- H1. split; [apply setNotReady_drv|]. split.
  - rewrite setNotReady_ierr, setInternalError_ierr. unfold read_frame. cbn [f_hdr].
    apply andb_true_iff in F. destruct F as [F _]. rewrite F. cbn [h_id].
    unfold CAN_EFF_MASK. apply land_ones_mod. lia.
  - exists (read_frame (input_ d) k). rewrite <- H2. split.
    + match goal with |- In _ (snd (seq ?a ?f)) => destruct a as [x y] end. cbn. apply in_or_app. right. left. reflexivity.
    + unfold read_frame. cbn [f_hdr]. apply andb_true_iff in F. destruct F as [F _]. rewrite F. reflexivity.
Qed.

Lemma receive_nonfatal : forall d k,
  ~ fatal_frame (fatal_error_mask_ d) k ->
  exists d', step d (EReceive k) = Ok (d', [Deliver (read_frame (input_ d) k)]) /\ st d' = st d.
Proof.
  intros d k F. cbn [step].
  destruct (has (k_id k) CAN_ERR_FLAG && has (k_id k) (fatal_error_mask_ d)) eqn:E.
  - exfalso. apply F, fatal_frame_has. assumption.
  - eexists. split; reflexivity.
Qed.

(** ** Sending *)

Lemma send_not_ready : forall d msg ec,
  driver_state (st d) <> Ready -> step d (ESend msg ec) = Ok (d, [Sent false None]).
Proof. intros d msg ec H. cbn [step]. destruct (driver_state (st d)); congruence. Qed.

Lemma send_ready : forall d msg,
  driver_state (st d) = Ready -> f_dlc msg <= 8 ->
  exists k, enqueue_frame msg = Ok k /\ step d (ESend msg 0) = Ok (d, [Sent true (Some k)]).
Proof.
  intros d msg H L. destruct (proj2 (enqueue_defined msg) L) as [k K].
  exists k. split; [assumption|]. cbn [step]. rewrite H, K. reflexivity.
Qed.

Lemma send_failed : forall d msg ec d' o,
  ec <> 0 -> driver_state (st d) = Ready -> step d (ESend msg ec) = Ok (d', o) ->
  driver_state (st d') <> Ready /\ error_code (st d') = ec /\ In (Sent false None) o.
Proof.
  intros d msg ec d' o N R H. cbn [step] in H. rewrite R in H.
  destruct (enqueue_frame msg); [|discriminate].
  destruct (Z.eqb_spec ec 0); [contradiction|]. injection H as H.
  apply (f_equal fst) in H as H1. apply (f_equal snd) in H as H2.
  rewrite !seq_fst in H1. cbn [fst snd] in H1, H2. rewrite <- H1. split; [apply setNotReady_drv|]. split.
  - unfold setNotReady, setDriverState, setErrorCode.
    destruct (Z.eqb_spec (error_code (st d)) ec); cbn [fst].
    + destruct (drv_eqb _ _); cbn; assumption.
    + destruct (drv_eqb _ _); reflexivity.
  - rewrite <- H2. match goal with |- In _ (snd (seq ?a ?f)) => destruct a as [x y] end.
    cbn. apply in_or_app. right. left. reflexivity.
Qed.

(** Only the start of the driver loop makes the driver ready. *)
Lemma ready_only_by_run : forall d e d' o,
  step d e = Ok (d', o) -> e <> ERunBegin -> driver_state (st d') = Ready -> driver_state (st d) = Ready.
Proof.
  intros d e d' o H NB R. destruct e; try congruence; cbn [step] in H.
  - destruct masks as [em fm]. destruct (driver_state (st d)) eqn:D.
    + exfalso. destruct setup_ok; injection H as H; apply (f_equal fst) in H; rewrite !seq_fst in H;
        cbn [fst] in H; rewrite <- H in R.
      * rewrite setDriverState_drv in R. discriminate.
      * unfold setErrorCode in R. destruct (error_code _ =? ec); cbn in R; congruence.
    + inversion H; subst. congruence.
    + reflexivity.
  - exfalso. injection H as H. apply (f_equal fst) in H. rewrite !seq_fst in H. cbn [fst] in H.
    rewrite <- H in R. revert R. apply setNotReady_drv.
  - injection H as H. apply (f_equal fst) in H. rewrite !seq_fst in H. cbn [fst] in H.
    destruct (has (k_id k) CAN_ERR_FLAG && has (k_id k) (fatal_error_mask_ d)).
    + exfalso. rewrite seq_fst in H. rewrite <- H in R. revert R. apply setNotReady_drv.
    + cbn in H. rewrite <- H in R. exact R.
  - exfalso. injection H as H. apply (f_equal fst) in H. rewrite !seq_fst in H. cbn [fst] in H.
    rewrite <- H in R. revert R. apply setNotReady_drv.
  - destruct (driver_state (st d)) eqn:D.
    + inversion H; subst. congruence.
    + inversion H; subst. congruence.
    + reflexivity.
  - inversion H; subst. exact R.
Qed.

Lemma stays_not_ready : forall es d d' o,
  run d es = Ok (d', o) -> driver_state (st d) <> Ready -> ~ In ERunBegin es ->
  driver_state (st d') <> Ready /\ (forall k ok, In (Sent ok k) o -> ok = false /\ k = None).
Proof.
  induction es as [|e es IH]; intros d d' o H N NI; cbn [run] in H.
  - inversion H; subst. split; [assumption|]. intros k ok [].
  - destruct (step d e) as [[d1 o1]|] eqn:S; [|discriminate].
    destruct (run d1 es) as [[d2 o2]|] eqn:R; [|discriminate]. inversion H; subst.
    assert (N1 : driver_state (st d1) <> Ready).
    { intro K. apply N. eapply ready_only_by_run; [eassumption| |assumption].
      intro; subst; apply NI; left; reflexivity. }
    destruct (IH _ _ _ R N1) as [A B]; [intro; apply NI; right; assumption|].
    split; [assumption|]. intros k ok I. apply in_app_or in I. destruct I as [I|I]; [|apply B; assumption].
    destruct e.
    + cbn [step] in S. destruct masks as [em fm].
      destruct (driver_state (st d)); [destruct setup_ok|..]; injection S as S;
        unfold setErrorCode, setInternalError, setDriverState, seq in S;
        repeat (match type of S with context [if ?c then _ else _] => destruct c end);
        inversion S; subst; cbn in I; intuition discriminate.
    + exfalso. apply NI. left. reflexivity.
    + cbn [step] in S. injection S as S. unfold setErrorCode, setNotReady, setDriverState, seq in S.
      repeat (match type of S with context [if ?c then _ else _] => destruct c end);
        inversion S; subst; cbn in I; intuition discriminate.
    + cbn [step] in S. injection S as S. unfold setInternalError, setNotReady, setDriverState, seq in S.
      repeat (match type of S with context [if ?c then _ else _] => destruct c end);
        inversion S; subst; cbn in I; intuition discriminate.
    + cbn [step] in S. injection S as S. unfold setErrorCode, setNotReady, setDriverState, seq in S.
      repeat (match type of S with context [if ?c then _ else _] => destruct c end);
        inversion S; subst; cbn in I; intuition discriminate.
    + rewrite send_not_ready in S by assumption. inversion S; subst. destruct I as [I|[]].
      inversion I; auto.
    + inversion S; subst. destruct I.
Qed.
