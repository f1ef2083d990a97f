(** Property C107: several devices on one bus. *)
From Verif Require Import Base CanModel CanSpec CanProofs KeyModel StorageModel PdoModel ReaderModel SdoModel SdoChanModel BusModel BusSpec BusProofs.
From Verif Require NodeModel EmcyModel.

(** C107. Whatever the devices, the master and others send, and whatever the
    other threads of the master do: what becomes of a node is what the messages
    of its own device and the master's actions on this node alone make of it. *)
Theorem C107_isolated : forall h c c' i u, Forall fair h -> run (map event_of h) c = Ok c' ->
  nth_error c i = Some u -> predefined u ->
  exists u', nth_error c' i = Some u' /\ run (concerning i (id_of u) h) [u] = Ok [u'].
Proof. exact isolated. Qed.
Print Assumptions C107_isolated.

(** C107. A frame is for one node at most if the ids differ; remote, error and
    extended frames are for none. *)
Theorem C107_one : forall c f i j u v, Forall predefined c -> NoDup (map id_of c) -> header_ok (f_hdr f) ->
  nth_error c i = Some u -> nth_error c j = Some v ->
  (exists now, receive now f u <> Ok u) -> (exists now, receive now f v <> Ok v) ->
  i = j /\ h_ext (f_hdr f) = false /\ h_rtr (f_hdr f) = false /\ h_err (f_hdr f) = false.
Proof.
  intros c f i j u v P N O U V [t1 CU] [t2 CV].
  assert (X : forall t w, In w c -> receive t f w <> Ok w -> own_header (id_of w) (f_hdr f)).
  { intros t w W H. rewrite Forall_forall in P. destruct (P w W) as [D A].
    assert (Y : ~ ~ own_header (id_of w) (f_hdr f)).
    { intros B. apply H. apply receive_deaf. intros (a & C & K). apply B. exact (key_own _ _ _ D (A _ C) O K). }
    assert (Dec : own_header (id_of w) (f_hdr f) \/ ~ own_header (id_of w) (f_hdr f)).
    { unfold own_header. destruct (h_ext (f_hdr f)), (h_rtr (f_hdr f)), (h_err (f_hdr f)); try (right; intros (?&?&?&?); discriminate).
      destruct (in_dec Z.eq_dec (h_id (f_hdr f)) (own_ids (id_of w))); [left; auto | right; intros (?&?&?&?); auto]. }
    destruct Dec; [assumption | contradiction]. }
  pose proof (X t1 u (nth_error_In _ _ U) CU) as (A1 & A2 & A3 & A4). pose proof (X t2 v (nth_error_In _ _ V) CV) as (_ & _ & _ & B4).
  split; [|auto]. rewrite Forall_forall in P.
  destruct (P u (nth_error_In _ _ U)) as [DU _], (P v (nth_error_In _ _ V)) as [DV _].
  pose proof (own_apart _ _ _ DU DV A4 B4) as E.
  apply (proj1 (NoDup_nth_error (map id_of c)) N i j).
  - rewrite List.map_length. apply nth_error_Some. rewrite U. discriminate.
  - rewrite (map_nth_error id_of i c U), (map_nth_error id_of j c V), E. reflexivity.
Qed.
Print Assumptions C107_one.

(** The node of a device whose dictionary has no object 1200sub2, the usual
    identifier in object 1014 or no such object, and the usual identifiers of
    its process data objects, uses the addresses of the device. *)
Theorem C107_default : forall dict d n v em ps w, device d -> NodeModel.n_id n = d ->
  lookup (key_sub 0x1200 2) dict = None -> v = None \/ v = Some (0x80 + d) ->
  (forall p, In p ps -> p_listen p = None \/
     exists k, In k [0x180; 0x280; 0x380; 0x480] /\ p_listen p = Some (pdoid_header (k + d) false)) ->
  predefined (mkUnit n (client_init dict d) (new_emcy_header v) em ps w).
Proof.
  intros dict d n v em ps w D I L V P. split; [unfold id_of; cbn; rewrite I; exact D|].
  unfold id_of. cbn [u_node]. rewrite I. unfold device in D.
  intros h [->|[->|[E|(p & Q & R)]]]; cbn [u_node u_sdo u_emcy_header u_rpdos] in *.
  - unfold heartbeat_header. rewrite I. unfold own_header, MsgHeader, Header. cbn [h_ext h_rtr h_err h_id].
    rewrite Z.mod_small by lia. do 3 (split; [reflexivity|]). do 6 right. left; reflexivity.
  - unfold client_init. cbn [c_server]. unfold sdo_server_id, sdo_id. rewrite L. unfold own_header, MsgHeader, Header. cbn [h_ext h_rtr h_err h_id].
    rewrite Z.mod_small by lia. do 3 (split; [reflexivity|]). do 5 right. left; reflexivity.
  - destruct V as [->| ->]; [discriminate|]. unfold new_emcy_header, EmcyModel.emcy_header, option_map in E.
    assert (EH : h = Header ((0x80 + d) mod 2^29) (Z.testbit (0x80 + d) 29) false false) by congruence. rewrite EH.
    assert (T : Z.testbit (0x80 + d) 29 = false).
    { apply Z.bits_above_log2; [lia|]. apply Z.log2_lt_pow2; lia. }
    unfold own_header, Header. cbn [h_ext h_rtr h_err h_id]. rewrite T. rewrite Z.mod_mod by lia. rewrite Z.mod_small by lia.
    do 3 (split; [reflexivity|]). left; reflexivity.
  - destruct (P p Q) as [N|(k & K & N)]; rewrite N in R; [discriminate|].
    assert (RH : h = pdoid_header (k + d) false) by congruence. rewrite RH.
    unfold own_header, pdoid_header, Header. cbn [h_ext h_rtr h_err h_id].
    assert (B : 0x180 <= k <= 0x480) by (repeat (destruct K as [<-|K]; [lia|]); destruct K).
    assert (T : has (k + d) (2^29) = false).
    { unfold has. apply negb_false_iff, Z.eqb_eq. apply Z.bits_inj'. intros m Hm. rewrite Z.land_spec, Z.bits_0.
      destruct (Z.eq_dec m 29) as [->|Nm]; [|rewrite Z.pow2_bits_false by congruence; apply andb_false_r].
      rewrite (Z.bits_above_log2 (k + d) 29); [reflexivity|lia|]. apply Z.log2_lt_pow2; lia. }
    rewrite T. split; [reflexivity|]. split; [reflexivity|]. split; [reflexivity|].
    rewrite (land_ones_mod (k + d) 29) by lia. rewrite Z.mod_mod by lia. rewrite Z.mod_small by lia.
    repeat (destruct K as [<-|K]; [cbn [own_ids In]; tauto|]). destruct K.
Qed.
Print Assumptions C107_default.

(** C107. If the heartbeat intervals are known, the buffers of the PDOs exist
    and heartbeats have one byte, no frame at all ends the process. *)
Theorem C107_survives_partial : forall es c, Forall sound c -> Forall (heartbeats_fit c) es -> run es c <> Undef.
Proof. exact survives. Qed.
Print Assumptions C107_survives_partial.

(** A single heartbeat of another length ends it. *)
Theorem C107_length_refuted : forall now f c u, In u c -> NodeModel.n_listening (u_node u) = true ->
  f_hdr f = heartbeat_header (u_node u) -> f_dlc f <> 1 -> forall es, run (Frame_ now f :: es) c = Undef.
Proof. exact length_ends. Qed.
Print Assumptions C107_length_refuted.

(** ** Example: two devices, one PDO each *)

Definition ex_frame (id : Z) (data : bytes) : frame := mkFrame (MsgHeader id false) (Z.of_nat (List.length data)) (data ++ repeat 0 (8 - List.length data)).
Definition ex_unit (d : Z) : unit_ :=
  mkUnit (NodeModel.mkNode d false true NodeModel.PreOperational (NodeModel.HbVal 0) (NodeModel.HbVal 0) 0 0)
         (client_init [] d) (new_emcy_header (Some (0x80 + d))) EmcyModel.new_emcy
         [mkPdo (ex_frame (0x180 + d) []) 255 [0%nat] (-1) (Some (pdoid_header (0x180 + d) false))]
         (mkPW [] [] (fun i => if (i =? 0)%nat then Some (buf_new 2) else None) 1%nat).
Definition ex_history : list happens :=
  [Sent 2 1 (ex_frame 0x702 [5]); Sent 1 2 (ex_frame 0x181 [17; 18]); Sent 0 3 (ex_frame 0x80 []); Done 0 (fun u => u);
   Sent 0 4 (ex_frame 0x601 [64; 24; 16; 1; 0; 0; 0; 0]); Sent 2 5 (ex_frame 0x82 [0; 0; 0; 0; 0; 0; 0; 0]);
   Sent 1 6 (ex_frame 0x81 [1; 16; 1; 0; 0; 0; 0; 0]); Sent 1 7 (ex_frame 0x701 [127])].

Lemma ex_predefined : forall d, device d -> predefined (ex_unit d).
Proof.
  intros d D. apply C107_default; [exact D | reflexivity | reflexivity | right; reflexivity|].
  intros p [<-|[]]. right. exists 0x180. split; [left; reflexivity | reflexivity].
Qed.
Lemma ex_sound : forall d, sound (ex_unit d).
Proof. intros d. split; [discriminate|]. intros p b [<-|[]] [<-|[]]. discriminate. Qed.

Lemma ex_from : forall d now id data, device d -> In id (own_ids d) -> fair (Sent d now (ex_frame id data)).
Proof.
  intros d now id data D H. pose proof (own_range _ _ D H) as R. unfold fair, ex_frame, MsgHeader, Header, header_ok, own_header. cbn [f_hdr h_id h_ext h_rtr h_err].
  rewrite Z.mod_small by lia. split; [lia|]. left. auto.
Qed.
Lemma ex_other : forall now id data, id = 0x80 \/ 0x601 <= id <= 0x67F -> fair (Sent 0 now (ex_frame id data)).
Proof.
  intros now id data H. unfold fair, ex_frame, MsgHeader, Header, header_ok, own_header. cbn [f_hdr h_id h_ext h_rtr h_err].
  rewrite Z.mod_small by lia. split; [lia|]. right. split; [reflexivity|]. unfold device. intros p P (_ & _ & _ & I).
  repeat (destruct I as [I|I]; [lia|]). destruct I.
Qed.

Example C107_example :
  Forall fair ex_history /\ Forall predefined [ex_unit 1; ex_unit 2] /\ Forall sound [ex_unit 1; ex_unit 2] /\
  Forall (heartbeats_fit [ex_unit 1; ex_unit 2]) (map event_of ex_history) /\
  exists u v, run (map event_of ex_history) [ex_unit 1; ex_unit 2] = Ok [u; v]
    /\ (NodeModel.n_state (u_node u), NodeModel.n_state (u_node v)) = (127, 5)
    /\ (EmcyModel.has_error (u_emcy u), EmcyModel.has_error (u_emcy v)) = (true, false)
    /\ option_map b_data (w_bufs (u_world u) 0) = Some [17; 18] /\ option_map b_empty (w_bufs (u_world v) 0) = Some true.
Proof.
  split; [|split; [|split; [|split]]].
  - unfold ex_history.
    repeat (constructor; [first [ apply ex_from; [unfold device; lia | vm_compute; tauto] | apply ex_other; lia | intros x; split; [reflexivity | auto] ] |]).
    constructor.
  - do 2 (constructor; [apply ex_predefined; unfold device; lia|]). constructor.
  - do 2 (constructor; [apply ex_sound|]). constructor.
  - unfold ex_history. cbn [map event_of].
    repeat (constructor; [intros u; first [ intros [<-|[<-|[]]]; vm_compute; (reflexivity || discriminate) | split; [reflexivity | auto] ] |]).
    constructor.
  - do 2 eexists. split; [vm_compute; reflexivity|]. vm_compute. auto.
Qed.

(** The frame of C107_length_refuted, for this chain. *)
Example C107_example_length : forall es, run (Frame_ 1 (ex_frame 0x702 [5; 0]) :: es) [ex_unit 1; ex_unit 2] = Undef.
Proof. intros es. apply C107_length_refuted with (ex_unit 2); [right; left; reflexivity | reflexivity | reflexivity | discriminate]. Qed.
