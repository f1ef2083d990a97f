(** Properties C10, C11, C12. *)
From Verif Require Import Base CanModel CanSpec SocketCanModel SocketCanSpec SocketCanProofs.

(** C10. Writing a data or remote frame and reading the kernel frame back. *)
Theorem C10_frame_codec : forall f prev k,
  valid_frame f -> is_message f -> enqueue_frame f = Ok k ->
  same_frame (read_frame prev k) f.
Proof. exact codec_round_trip. Qed.
Print Assumptions C10_frame_codec.

(** Every frame of at most 8 bytes can be written; longer ones overrun the
    kernel frame. *)
Theorem C10_send_defined : forall f, (exists k, enqueue_frame f = Ok k) <-> f_dlc f <= 8.
Proof. exact enqueue_defined. Qed.
Print Assumptions C10_send_defined.

(** Missing for C10: kernel error frames, see the next theorem. *)
Theorem C10_no_history_partial : forall k p1 p2,
  Z.testbit (k_id k) 29 = false -> List.length (k_data k) = 8%nat -> k_dlc k <= 8 ->
  same_frame (read_frame p1 k) (read_frame p2 k).
Proof. exact read_frame_stateless. Qed.
Print Assumptions C10_no_history_partial.

(** Error frames keep the extended and remote flags of the frame before. *)
Theorem C10_no_history_refuted : exists k p1 p2,
  List.length (k_data k) = 8%nat /\ k_dlc k <= 8 /\ frame_ok p1 /\ frame_ok p2 /\
  ~ same_frame (read_frame p1 k) (read_frame p2 k).
Proof. exact error_frame_stale. Qed.
Print Assumptions C10_no_history_refuted.

(** Sending a frame marked as error frame puts a normal frame on the bus. *)
Theorem C10_error_frames_sent_as_data : exists f k,
  valid_frame f /\ ~ is_message f /\ enqueue_frame f = Ok k /\ Z.testbit (k_id k) 29 = false.
Proof. exact enqueue_error_as_data. Qed.
Print Assumptions C10_error_frames_sent_as_data.

(** The kernel frame of a frame: its length, its bytes, and zeros. *)
Theorem C10_written : forall f k, frame_ok f -> enqueue_frame f = Ok k ->
  k_dlc k = f_dlc f /\ k_data k = firstn (Z.to_nat (f_dlc f)) (f_data f) ++ repeat 0 (8 - Z.to_nat (f_dlc f)).
Proof.
  intros f k (H & D & L & B) E. unfold enqueue_frame in E. destruct (f_dlc f <=? 8) eqn:D8; [|discriminate]. apply Z.leb_le in D8.
  injection E as <-. cbn [k_dlc k_data]. split; [reflexivity|]. unfold overwrite.
  assert (PL : List.length (payload f) = Z.to_nat (f_dlc f)) by (unfold payload; rewrite firstn_length; lia).
  rewrite PL. unfold payload. f_equal. 
  assert (N : (Z.to_nat (f_dlc f) <= 8)%nat) by lia. revert N. generalize (Z.to_nat (f_dlc f)). intros n N.
  do 9 (destruct n as [|n]; [reflexivity|]). lia.
Qed.
Print Assumptions C10_written.

(** What is read of a kernel frame without error flag: the flags are bits 30 and 31, the identifier has 11 or 29 bits. *)
Theorem C10_read : forall k prev, 0 <= k_id k < 2 ^ 32 -> Z.testbit (k_id k) 29 = false ->
  f_hdr (read_frame prev k) = mkHeader (k_id k mod 2 ^ (if Z.testbit (k_id k) 31 then 29 else 11)) (Z.testbit (k_id k) 31) (Z.testbit (k_id k) 30) false /\
  f_dlc (read_frame prev k) = k_dlc k /\
  forall i, (i < Z.to_nat (k_dlc k))%nat -> (i < 8)%nat -> List.length (k_data k) = 8%nat -> nth_error (f_data (read_frame prev k)) i = nth_error (k_data k) i.
Proof.
  intros k prev W E. unfold read_frame. cbn [f_hdr f_dlc f_data].
  change CAN_ERR_FLAG with (2^29). change CAN_EFF_FLAG with (2^31). change CAN_RTR_FLAG with (2^30). rewrite !pow2_testbit_has by lia. rewrite E.
  split; [|split; [reflexivity|]].
  - f_equal. unfold CAN_EFF_MASK, CAN_SFF_MASK. destruct (Z.testbit (k_id k) 31); rewrite land_ones_mod by lia; reflexivity.
  - intros i I1 I2 L. unfold overwrite. rewrite nth_error_app1 by (rewrite firstn_length; lia).
    set (n := Nat.min (Z.to_nat (k_dlc k)) 8). assert (N : (i < n)%nat) by lia. clearbody n. revert i n N I1 I2 L.
    generalize (k_data k). intros l i n N _ _ _. revert l i N. induction n as [|n IH]; intros l i N; [lia|].
    destruct l as [|x l]; [reflexivity|]. destruct i as [|i]; [reflexivity|]. cbn. apply IH. lia.
Qed.
Print Assumptions C10_read.

Example C10_example :
  let f := mkFrame (mkHeader 74565 true true false) 3 [222;173;190;0;0;0;0;0] in
  let k := mkK (2^31 + 2^30 + 74565) 3 [222;173;190;0;0;0;0;0] in
  let old := mkFrame (mkHeader 1 false false false) 8 [9;9;9;9;9;9;9;9] in
  valid_frame f /\ is_message f /\ enqueue_frame f = Ok k /\
  read_frame old k = mkFrame (f_hdr f) 3 [222;173;190;9;9;9;9;9].
Proof. repeat split; cbn; try lia; try (repeat constructor; cbn; lia). Qed.

(** C11. The masks after init. *)
Theorem C11_masks : forall cfg_error cfg_fatal error fatal,
  init_masks cfg_error cfg_fatal = (error, fatal) ->
  forall i, 0 <= i ->
  (In i conditions -> Z.testbit fatal i = fatal_spec cfg_fatal i /\
                      Z.testbit error i = reported_spec cfg_error cfg_fatal i) /\
  (~ In i conditions -> Z.testbit fatal i = false /\ Z.testbit error i = false).
Proof. exact masks_spec. Qed.
Print Assumptions C11_masks.

Theorem C11_busoff_always_fatal : forall cfg_error cfg_fatal error fatal,
  init_masks cfg_error cfg_fatal = (error, fatal) -> Z.testbit fatal busoff = true.
Proof. exact busoff_always_fatal. Qed.
Print Assumptions C11_busoff_always_fatal.

Theorem C11_fatal_is_reported : forall cfg_error cfg_fatal error fatal,
  init_masks cfg_error cfg_fatal = (error, fatal) ->
  forall i, 0 <= i -> Z.testbit fatal i = true -> Z.testbit error i = true.
Proof. exact fatal_is_reported. Qed.
Print Assumptions C11_fatal_is_reported.

Example C11_example :
  (* bus-off configured non-fatal, arbitration loss configured fatal *)
  let sf := fun e => if e =? CAN_ERR_BUSOFF then Some false
                     else if e =? CAN_ERR_LOSTARB then Some true else None in
  init_masks (fun _ => Some false) sf = (1 + 2 + 64 + 128 + 256, 1 + 2 + 64 + 128 + 256).
Proof. reflexivity. Qed.

(** C12. *)
Theorem C12_fatal_error_stops : forall d k d' o,
  fatal_frame (fatal_error_mask_ d) k -> step d (EReceive k) = Ok (d', o) ->
  driver_state (st d') <> Ready /\ internal_error (st d') = k_id k mod 2^29 /\
  exists f, In (Deliver f) o /\ h_err (f_hdr f) = true.
Proof. exact receive_fatal. Qed.
Print Assumptions C12_fatal_error_stops.

Theorem C12_other_frames_change_nothing : forall d k,
  ~ fatal_frame (fatal_error_mask_ d) k ->
  exists d', step d (EReceive k) = Ok (d', [Deliver (read_frame (input_ d) k)]) /\ st d' = st d.
Proof. exact receive_nonfatal. Qed.
Print Assumptions C12_other_frames_change_nothing.

(** The last announced state is the state, after every history. *)
Theorem C12_listeners_know_the_state : forall es d d' o,
  run d es = Ok (d', o) -> known (st d) o = st d'.
Proof. exact run_known. Qed.
Print Assumptions C12_listeners_know_the_state.

(** Every announcement is news, except the one at the end of the driver loop. *)
Theorem C12_announcements_are_news : forall es d d' o,
  Forall (fun e => is_run_end e = false) es -> run d es = Ok (d', o) -> no_repeat (st d) o.
Proof. exact run_no_repeat. Qed.
Print Assumptions C12_announcements_are_news.

(** A driver that is not ready transmits nothing until its loop is started
    again; all sends fail. *)
Theorem C12_not_ready_sends_nothing : forall es d d' o,
  run d es = Ok (d', o) -> driver_state (st d) <> Ready -> ~ In ERunBegin es ->
  driver_state (st d') <> Ready /\ (forall k ok, In (Sent ok k) o -> ok = false /\ k = None).
Proof. exact stays_not_ready. Qed.
Print Assumptions C12_not_ready_sends_nothing.

Theorem C12_ready_sends : forall d msg,
  driver_state (st d) = Ready -> f_dlc msg <= 8 ->
  exists k, enqueue_frame msg = Ok k /\ step d (ESend msg 0) = Ok (d, [Sent true (Some k)]).
Proof. exact send_ready. Qed.
Print Assumptions C12_ready_sends.

Theorem C12_failed_write_stops : forall d msg ec d' o,
  ec <> 0 -> driver_state (st d) = Ready -> step d (ESend msg ec) = Ok (d', o) ->
  driver_state (st d') <> Ready /\ error_code (st d') = ec /\ In (Sent false None) o.
Proof. exact send_failed. Qed.
Print Assumptions C12_failed_write_stops.

(** init opens a closed driver without errors, or records why it could not; otherwise it tells whether the driver is ready. *)
Theorem C12_init : forall d em fm ok ec d' o, step d (EInit (em, fm) ok ec) = Ok (d', o) ->
  (driver_state (st d) = Closed -> ok = true ->
     st d' = mkState Open 0 0 /\ socket_open d' = true /\ error_mask_ d' = em /\ fatal_error_mask_ d' = fm /\ forall r, In (InitResult r) o <-> r = true) /\
  (driver_state (st d) = Closed -> ok = false ->
     st d' = mkState Closed ec (internal_error (st d)) /\ socket_open d' = socket_open d /\ forall r, In (InitResult r) o <-> r = false) /\
  (driver_state (st d) <> Closed -> d' = d /\ forall r, In (InitResult r) o <-> (r = true <-> driver_state (st d) = Ready)).
Proof.
  intros [[ds0 e0 i0] so em0 fm0 inp] em fm ok ec d' o E. cbn [step st driver_state error_code internal_error socket_open] in *.
  assert (R : forall r x : bool, (InitResult x = InitResult r) <-> r = x) by (intros; split; congruence).
  destruct ds0.
  - destruct ok; match type of E with Ok ?a = _ => assert (E1 : fst a = d') by (apply (f_equal (fun x => match x with Ok y => fst y | Undef => fst a end)) in E; exact E); assert (E2 : snd a = o) by (apply (f_equal (fun x => match x with Ok y => snd y | Undef => snd a end)) in E; exact E) end; clear E;
      (split; [|split]); try congruence; intros _ _.
    + unfold setErrorCode in *. cbn [st error_code driver_state internal_error] in *.
      destruct (Z.eqb_spec e0 0); unfold setInternalError, set_st in *; cbn [st error_code driver_state internal_error seq] in *;
      (destruct (Z.eqb_spec i0 0); unfold setDriverState, set_st in *; cbn in E1, E2; subst; cbn; repeat (split; [congruence|]); intros r; rewrite R; intuition congruence).
    + unfold setErrorCode, set_st in *. cbn [st error_code driver_state internal_error] in *.
      destruct (Z.eqb_spec e0 ec); cbn in E1, E2; subst; cbn; repeat (split; [congruence|]); intros r; rewrite R; intuition congruence.
  - injection E as E1 E2. split; [|split]; try congruence. intros _. split; [congruence|]. intros r. rewrite <- E2. cbn [In drv_eqb]. rewrite R. destruct r; intuition congruence.
  - injection E as E1 E2. split; [|split]; try congruence. intros _. split; [congruence|]. intros r. rewrite <- E2. cbn [In drv_eqb]. rewrite R. destruct r; intuition congruence.
Qed.
Print Assumptions C12_init.

(** A driver that was never opened stays closed: starting its loop, sending and shutting down do nothing, and nothing is announced. *)
Theorem C12_unused : forall es junk d' o,
  Forall (fun e => match e with ERunBegin | ESend _ _ | EShutdown => True | _ => False end) es -> run (driver0 junk) es = Ok (d', o) ->
  st d' = mkState Closed 0 0 /\ forall x, In x o -> x = Sent false None.
Proof.
  intros es junk. assert (G : forall es d d' o, st d = mkState Closed 0 0 -> socket_open d = false ->
    Forall (fun e => match e with ERunBegin | ESend _ _ | EShutdown => True | _ => False end) es -> run d es = Ok (d', o) ->
    st d' = mkState Closed 0 0 /\ forall x, In x o -> x = Sent false None).
  { clear. induction es as [|e es IH]; intros [s so em fm inp] d' o S0 SO F R; cbn [st socket_open] in *; subst s so.
    - injection R as <- <-. split; [reflexivity|intros x []].
    - inversion F as [|? ? F1 F2]; subst. cbn [run] in R. destruct (step _ e) as [[d1 o1]|] eqn:E; [|discriminate].
      destruct (run d1 es) as [[d2 o2]|] eqn:R2; [|discriminate]. injection R as <- <-.
      assert (G : st d1 = mkState Closed 0 0 /\ socket_open d1 = false /\ forall x, In x o1 -> x = Sent false None).
      { destruct e; try contradiction; cbn in E; injection E as <- <-; repeat split; cbn; intuition. }
      destruct G as (G1 & G2 & G3). destruct (IH _ _ _ G1 G2 F2 R2) as [H1 H2]. split; [exact H1|].
      intros x X. apply in_app_or in X as [X|X]; auto. }
  intros d' o F R. exact (G es (driver0 junk) d' o eq_refl eq_refl F R).
Qed.
Print Assumptions C12_unused.
Example C12_unused_example : let f := mkFrame (mkHeader 5 false false false) 0 [0;0;0;0;0;0;0;0] in
  exists d, run (driver0 [0;0;0;0;0;0;0;0]) [ERunBegin; ESend f 0; EShutdown; ESend f 0] = Ok (d, [Sent false None; Sent false None]).
Proof. eexists. reflexivity. Qed.

Example C12_example :
  let busoff_frame := mkK (2^29 + 64) 8 [0;0;0;0;0;0;0;0] in
  let f := mkFrame (mkHeader 5 false false false) 0 [0;0;0;0;0;0;0;0] in
  exists d,
    run (driver0 [0;0;0;0;0;0;0;0])
        [EInit (511, 64) true 0; ERunBegin; ESend f 0; EReceive busoff_frame; ESend f 0]
    = Ok (d,
      [Announce (mkState Open 0 0); InitResult true; Announce (mkState Ready 0 0);
       Sent true (Some (mkK 5 0 [0;0;0;0;0;0;0;0]));
       Announce (mkState Ready 0 64); Announce (mkState Open 0 64);
       Deliver (mkFrame (mkHeader 64 false false true) 8 [0;0;0;0;0;0;0;0]); Sent false None]) /\
    fatal_frame 64 busoff_frame /\ st d = mkState Open 0 64.
Proof.
  cbv zeta. eexists. split; [vm_compute; reflexivity|].
  split; [split; [reflexivity|exists 6; cbn; lia]|reflexivity].
Qed.
