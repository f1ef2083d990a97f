(** C110: the bridge between a bus and topics. *)
From Verif Require Import Base CanModel CanSpec FilterModel FilterSpec SocketCanModel BridgeModel BridgeSpec RelayModel RelaySpec RelayProofs.

(** Whatever happened before and in between, exactly the wanted frames are
    published, once each and in order, and each message shows its frame.
    Missing for C110: flags of error reports and bytes behind the length, see
    the next theorems. *)
Theorem C110_published_partial : forall can_ids l es d, setup can_ids = Some l -> Forall message_event es ->
  exists d' o ks, rrun l d es = Ok (d', o) /\ those (wanted can_ids) (received es) ks /\ Forall2 shows (published o) ks.
Proof. intros ids l es d S0 F. exact (rrun_published ids l S0 es d F). Qed.
Print Assumptions C110_published_partial.

(** The same frame may be published as different messages, depending on the
    frames before: bytes behind its length are left from those, *)
Theorem C110_bytes_refuted : exists k a b d o1 o2 d1 d2 m1 m2,
  from_kernel k /\ from_kernel a /\ from_kernel b /\ k_err k = false /\
  rrun LAll d [Bus (EReceive a); Bus (EReceive k)] = Ok (d1, o1) /\ rrun LAll d [Bus (EReceive b); Bus (EReceive k)] = Ok (d2, o2) /\
  nth_error (published o1) 1 = Some m1 /\ nth_error (published o2) 1 = Some m2 /\ m_data m1 <> k_data k /\ m_data m1 <> m_data m2.
Proof.
  exists (mkK 5 1 [7;0;0;0;0;0;0;0]), (mkK 6 2 [1;2;0;0;0;0;0;0]), (mkK 6 2 [1;3;0;0;0;0;0;0]), (driver0 (repeat 0 8)).
  eexists. eexists. eexists. eexists. eexists. eexists.
  split; [|split; [|split; [|split; [reflexivity|split; [vm_compute; reflexivity|split; [vm_compute; reflexivity|split; [vm_compute; reflexivity|split; [vm_compute; reflexivity|split; discriminate]]]]]]]];
  (split; [cbn [k_id]; lia|split; [cbn [k_dlc]; lia|split; [reflexivity|split; [repeat constructor; unfold byte_ok; lia|discriminate]]]]).
Qed.
Print Assumptions C110_bytes_refuted.

(** and a report of an error looks like a remote frame after a remote frame. *)
Theorem C110_flags_refuted : exists k a d o d1 m,
  from_kernel k /\ from_kernel a /\ k_err k = true /\ k_rtr k = false /\ k_ext k = false /\
  rrun LAll d [Bus (EReceive a); Bus (EReceive k)] = Ok (d1, o) /\
  nth_error (published o) 1 = Some m /\ m_rtr m = true /\ m_ext m = true.
Proof.
  exists (mkK (2^29 + 4) 8 [0;8;0;0;0;0;0;0]), (mkK (2^31 + 2^30 + 5) 0 (repeat 0 8)), (driver0 (repeat 0 8)).
  eexists. eexists. eexists.
  split; [|split; [|split; [reflexivity|split; [reflexivity|split; [reflexivity|split; [vm_compute; reflexivity|split; [vm_compute; reflexivity|split; reflexivity]]]]]]];
  (split; [cbn [k_id]; lia|split; [cbn [k_dlc]; lia|split; [reflexivity|split; [repeat constructor; unfold byte_ok; lia|]]]]).
  - intros _. vm_compute. reflexivity.
  - discriminate.
Qed.
Print Assumptions C110_flags_refuted.

(** Every message on sent_messages is answered once and in order: a message
    that is no frame is refused, another is written as its frame or fails.
    Missing for C110: reports of errors and identifiers of more than 29 bits,
    see the next theorems. *)
Theorem C110_sent_partial : forall l es d d' o, Forall message_event es ->
  Forall (fun m => m_err m = false /\ m_id m < 2^29) (topics es) -> rrun l d es = Ok (d', o) ->
  Forall2 answer (topics es) (answers o).
Proof. exact rrun_answers. Qed.
Print Assumptions C110_sent_partial.

(** With a driver that is ready and a write without error it is written. *)
Theorem C110_ready : forall l d m, message_ok m -> describes m -> driver_state (st d) = Ready ->
  exists k, rstep l d (Topic m 0) = Ok (d, [Written k]) /\ carries m k.
Proof. exact rstep_ready. Qed.
Print Assumptions C110_ready.

(** With one that is not, nothing is written, and the node goes on. *)
Theorem C110_not_ready : forall l d m wec, driver_state (st d) <> Ready ->
  exists o, rstep l d (Topic m wec) = Ok (d, o) /\ forall k, ~ In (Written k) o.
Proof.
  intros l d m wec N. destruct (topic_any l d m wec) as (d' & x & E & _).
  destruct (rstep_not_ready l d m wec d' [x] N E) as [-> W]. exists [x]. auto.
Qed.
Print Assumptions C110_not_ready.

(** If the write fails, the driver knows the error and is not ready any more, so that nothing is written until it
    runs again. *)
Theorem C110_failed : forall l d m wec, message_ok m -> describes m -> driver_state (st d) = Ready -> wec <> 0 ->
  exists d', rstep l d (Topic m wec) = Ok (d', [Failed]) /\ error_code (st d') = wec /\ driver_state (st d') <> Ready /\ socket_open d' = socket_open d.
Proof.
  intros l d m wec O D R W. pose proof D as (E & _ & V).
  assert (L : m_id m < 2^29) by (destruct (m_ext m); lia).
  destruct (msg_frame m O E L) as [(_ & f & k & M & K & C)|(N & _)]; [|contradiction].
  cbn [rstep]. rewrite M. cbn [SocketCanModel.step]. rewrite R, K. rewrite (proj2 (Z.eqb_neq wec 0) W).
  unfold seq, setNotReady, setErrorCode, setDriverState. destruct d as [[ds ec ie] so em fm inp]. cbn in R. subst ds.
  cbn [st error_code]. destruct (Z.eqb_spec ec wec) as [Q|Q]; destruct so; eexists; (split; [cbn; reflexivity|]); cbn; repeat split; congruence.
Qed.
Print Assumptions C110_failed.

(** A report of an error that is relayed to sent_messages becomes a data frame
    on the bus. *)
Theorem C110_error_refuted : exists d d' k m k2 o, from_kernel k /\ k_err k = true /\
  rrun LAll d [Bus (EReceive k)] = Ok (d, [Published m]) /\
  driver_state (st d') = Ready /\ rstep LAll d' (Topic m 0) = Ok (d', o) /\ In (Written k2) o /\ k_err k2 = false /\ k_id k2 = k_id k - 2^29.
Proof.
  set (inp := mkFrame (mkHeader 4 false false true) 8 [0;8;0;0;0;0;0;0]).
  exists (mkDriver (mkState Ready 0 0) true 0 0 inp), (mkDriver (mkState Ready 0 0) true 0 0 inp), (mkK (2^29 + 4) 8 [0;8;0;0;0;0;0;0]).
  eexists. eexists. eexists.
  split; [split; [cbn [k_id]; lia|split; [cbn [k_dlc]; lia|split; [reflexivity|split; [repeat constructor; unfold byte_ok; lia|intros _; vm_compute; reflexivity]]]]|].
  split; [reflexivity|]. split; [vm_compute; reflexivity|]. split; [reflexivity|]. split; [vm_compute; reflexivity|].
  split; [left; reflexivity|]. split; vm_compute; reflexivity.
Qed.
Print Assumptions C110_error_refuted.

(** An identifier of more than 29 bits is cut. *)
Theorem C110_number_refuted : exists d m k o, message_ok m /\ m_err m = false /\ ~ describes m /\
  driver_state (st d) = Ready /\ rstep LAll d (Topic m 0) = Ok (d, o) /\ In (Written k) o.
Proof.
  exists (mkDriver (mkState Ready 0 0) true 0 0 (mkFrame (mkHeader 0 false false false) 0 (repeat 0 8))), (mkMsg (2^29 + 5) false false false 0 (repeat 0 8)).
  eexists. eexists.
  split; [split; [cbn [m_id]; lia|split; [cbn [m_dlc]; lia|split; [reflexivity|repeat constructor; unfold byte_ok; lia]]]|].
  split; [reflexivity|]. split; [intros (_ & _ & V); cbn [m_id m_ext] in V; lia|]. split; [reflexivity|]. split; [vm_compute; reflexivity|].
  left. reflexivity.
Qed.
Print Assumptions C110_number_refuted.

(** Two bridges on one bus: what is sent through one is published by the other. *)
Theorem C110_through : forall l1 es1 d1 d1' o1 es2 d2,
  Forall message_event es1 -> Forall describes (topics es1) -> rrun l1 d1 es1 = Ok (d1', o1) -> ~ In Failed o1 ->
  Forall message_event es2 -> received es2 = written o1 ->
  exists d2' o2, rrun LAll d2 es2 = Ok (d2', o2) /\ Forall2 alike (topics es1) (published o2).
Proof. exact through. Qed.
Print Assumptions C110_through.

(** The node ends on a filter that is neither number nor text, and only then. *)
Theorem C110_setup : forall can_ids, setup can_ids = None <-> exists ps, can_ids = Some ps /\ In POther ps.
Proof. exact setup_none. Qed.
Print Assumptions C110_setup.

(** An empty list of filters silences the node. *)
Theorem C110_empty : forall l es d d' o, setup (Some []) = Some l -> Forall message_event es -> rrun l d es = Ok (d', o) -> published o = [].
Proof.
  intros l es d d' o S0 F R. destruct (rrun_published (Some []) l S0 es d F) as (d2 & o2 & ks & E & T & SH).
  assert (X : o2 = o) by congruence. subst o2.
  assert (K : ks = []).
  { clear - T. remember (received es) as rs eqn:Z0. clear Z0. induction T as [|a rs ks W T IH|a rs ks W T IH]; [reflexivity| |exact IH]. destruct W as (p & [] & _). }
  subst ks. inversion SH. reflexivity.
Qed.
Print Assumptions C110_empty.

Example C110_example :
  let d := mkDriver (mkState Ready 0 0) true 0 64 (mkFrame (mkHeader 0 false false false) 0 (repeat 0 8)) in
  let k1 := mkK 0x181 2 [1;2;0;0;0;0;0;0] in let k2 := mkK (2^31 + 0x181) 1 [3;0;0;0;0;0;0;0] in let k3 := mkK 0x182 0 (repeat 0 8) in
  let m := mkMsg 0x201 false false false 1 [9;9;9;9;9;9;9;9] in let bad := mkMsg 0x801 false false false 1 (repeat 0 8) in
  setup (Some [PInt 0x181]) = Some (LFiltered [tofilter_id 0x181]) /\
  Forall message_event [Bus (EReceive k1); Topic m 0; Bus (EReceive k3); Topic bad 0; Bus (EReceive k2)] /\
  exists d', rrun (LFiltered [tofilter_id 0x181]) d [Bus (EReceive k1); Topic m 0; Bus (EReceive k3); Topic bad 0; Bus (EReceive k2)]
  = Ok (d', [Published (mkMsg 0x181 false false false 2 [1;2;0;0;0;0;0;0]); Written (mkK 0x201 1 [9;0;0;0;0;0;0;0]);
             Refused; Published (mkMsg 0x181 false true false 1 [3;2;0;0;0;0;0;0])]).
Proof.
  cbv zeta. split; [reflexivity|]. split.
  - repeat apply Forall_cons; try apply Forall_nil; cbn [message_event];
      first [ split; [cbn [k_id m_id]; lia|split; [cbn [k_dlc m_dlc]; lia|split; [reflexivity|split; [repeat constructor; unfold byte_ok; lia|discriminate]]]]
            | split; [cbn [m_id]; lia|split; [cbn [m_dlc]; lia|split; [reflexivity|repeat constructor; unfold byte_ok; lia]]] ].
  - eexists. vm_compute. reflexivity.
Qed.
(** A bus off report ends the transmissions until the driver runs again. *)
Example C110_busoff_example :
  let d := mkDriver (mkState Ready 0 0) true 0 64 (mkFrame (mkHeader 0 false false false) 0 (repeat 0 8)) in
  let m := mkMsg 0x201 false false false 1 [9;9;9;9;9;9;9;9] in
  exists d', rrun LAll d [Bus (EReceive (mkK (2^29 + 64) 8 (repeat 0 8))); Topic m 0; Bus ERunBegin; Topic m 0]
  = Ok (d', [Published (mkMsg 64 false false true 8 (repeat 0 8)); Failed; Written (mkK 0x201 1 [9;0;0;0;0;0;0;0])]).
Proof. eexists. vm_compute. reflexivity. Qed.
(** So does a write that fails. *)
Example C110_failed_example :
  let d := mkDriver (mkState Ready 0 0) true 0 64 (mkFrame (mkHeader 0 false false false) 0 (repeat 0 8)) in
  let m := mkMsg 0x201 false false false 1 [9;9;9;9;9;9;9;9] in
  exists d', rrun LAll d [Topic m 5; Topic m 0; Bus ERunBegin; Topic m 0] = Ok (d', [Failed; Failed; Written (mkK 0x201 1 [9;0;0;0;0;0;0;0])]).
Proof. eexists. vm_compute. reflexivity. Qed.
