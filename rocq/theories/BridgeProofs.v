From Verif Require Import Base CanModel CanSpec BridgeModel BridgeSpec SocketCanModel SocketCanSpec SocketCanProofs.

Lemma firstn8 : forall l : bytes, List.length l = 8%nat -> firstn 8 l = l.
Proof. intros l H. rewrite <- H. apply firstn_all. Qed.

Lemma convert_back : forall f, frame_ok f ->
  convertMessageToSocketCAN (convertSocketCANToMessage f) = f.
Proof.
  intros [[i e r x] d a] [H [D [L B]]]. unfold header_ok in H. cbn [f_hdr h_id f_dlc f_data] in *.
  unfold convertMessageToSocketCAN, convertSocketCANToMessage.
  cbn [f_hdr h_id h_ext h_rtr h_err f_dlc f_data m_id m_ext m_rtr m_err m_dlc m_data].
  rewrite Z.mod_small by assumption. rewrite !(firstn8 a) by assumption. reflexivity.
Qed.

Lemma isValid_iff : forall f, frame_ok f -> (frame_isValid f = true <-> valid_frame f).
Proof.
  intros [[i e r x] d a] H. unfold valid_frame. pose proof H as [Hh [D [L B]]].
  unfold header_ok in Hh. unfold frame_isValid, header_isValid. cbn [f_hdr h_id h_ext f_dlc f_data] in *.
  destruct e; split; intro K.
  - split; [assumption|]. split; [lia|]. discriminate.
  - lia.
  - split; [assumption|]. split; [lia|]. intros _. lia.
  - destruct K as [_ [K1 K2]]. specialize (K2 eq_refl). lia.
Qed.

Lemma denotes_convert : forall f, frame_ok f -> denotes (convertSocketCANToMessage f) f.
Proof.
  intros f [H [D [L B]]]. unfold denotes, convertSocketCANToMessage. cbn [m_id m_ext m_rtr m_err m_dlc m_data]. rewrite firstn8 by assumption. auto 10.
Qed.

Lemma denotes_frame_ok : forall m f, message_ok m -> m_id m < 2^29 -> denotes m f -> frame_ok f.
Proof.
  intros m f [A [B [C D]]] L [E1 [E2 [E3 [E4 [E5 E6]]]]].
  unfold frame_ok, header_ok. rewrite <- E1, <- E5, <- E6. auto with zarith.
Qed.

Lemma convert_denotes : forall m f, message_ok m -> m_id m < 2^29 ->
  (denotes m f <-> convertMessageToSocketCAN m = f).
Proof.
  intros m [[i e r x] d a] [A [B [C D]]] L. unfold denotes, convertMessageToSocketCAN.
  cbn [f_hdr h_id h_ext h_rtr h_err f_dlc f_data]. rewrite Z.mod_small by lia.
  rewrite firstn8 by assumption. split.
  - intros [-> [-> [-> [-> [-> ->]]]]]. reflexivity.
  - intro H. inversion H. auto 10.
Qed.

Lemma msg_sent : forall m f, message_ok m -> m_id m < 2^29 ->
  (msgCallback m = Some f <-> denotes m f /\ valid_frame f).
Proof.
  intros m f M L. unfold msgCallback. rewrite (convert_denotes m f M L).
  assert (F : frame_ok (convertMessageToSocketCAN m)).
  { apply (denotes_frame_ok m _ M L). apply convert_denotes; auto. }
  destruct (frame_isValid (convertMessageToSocketCAN m)) eqn:V.
  - apply isValid_iff in V; [|assumption]. split.
    + intro H. inversion H; subst. auto.
    + intros [-> _]. reflexivity.
  - split; [discriminate|]. intros [E W]. subst f.
    apply isValid_iff in W; [congruence|assumption].
Qed.

Lemma msg_sent_any : forall m f, message_ok m ->
  msgCallback m = Some f ->
  valid_frame f /\ denotes (mkMsg (m_id m mod 2^29) (m_rtr m) (m_ext m) (m_err m) (m_dlc m) (m_data m)) f.
Proof.
  intros m f M H.
  set (m' := mkMsg (m_id m mod 2^29) (m_rtr m) (m_ext m) (m_err m) (m_dlc m) (m_data m)).
  assert (M' : message_ok m').
  { destruct M as [A [B C]]. unfold message_ok, m'. cbn [m_id m_dlc m_data].
    pose proof (Z.mod_pos_bound (m_id m) (2^29) ltac:(lia)). split; [lia|]. auto. }
  assert (L : m_id m' < 2^29) by (unfold m'; cbn [m_id]; apply Z.mod_pos_bound; lia).
  assert (E : msgCallback m' = Some f).
  { rewrite <- H. unfold msgCallback, convertMessageToSocketCAN, m'.
    cbn [m_id m_rtr m_ext m_err m_dlc m_data]. rewrite Z.mod_mod by lia. reflexivity. }
  apply msg_sent in E; tauto.
Qed.

Lemma wrong_id_sent : exists m f, message_ok m /\ msgCallback m = Some f /\ ~ denotes m f.
Proof.
  exists (mkMsg (2^29 + 5) false false false 0 (repeat 0 8)). eexists.
  split; [|split; [vm_compute; reflexivity|]].
  - unfold message_ok. cbn [m_id m_dlc m_data]. repeat split; try lia. repeat constructor; unfold byte_ok; lia.
  - intros [H _]. vm_compute in H. discriminate.
Qed.

Lemma frame_published : forall f m, frame_ok f ->
  (frameCallback f = Some m <-> denotes m f /\ valid_frame f).
Proof.
  intros f m F. unfold frameCallback. destruct (frame_isValid f) eqn:V.
  - apply isValid_iff in V; [|assumption]. split.
    + intro H. injection H as <-. split; [apply denotes_convert|]; assumption.
    + intros [D _]. f_equal. destruct m, D as [E1 [E2 [E3 [E4 [E5 E6]]]]].
      destruct F as [_ [_ [L _]]].
      cbn in *. subst. unfold convertSocketCANToMessage. rewrite firstn8 by assumption. reflexivity.
  - split; [discriminate|]. intros [_ W]. apply isValid_iff in W; [congruence|assumption].
Qed.

(** A frame received by one bridge and sent by another one. *)
Lemma relay : forall f m, valid_frame f -> frameCallback f = Some m -> msgCallback m = Some f.
Proof.
  intros f m V H. assert (F : frame_ok f) by apply V.
  unfold frameCallback in H. destruct (frame_isValid f) eqn:I; [|discriminate]. injection H as <-.
  unfold msgCallback. rewrite convert_back by assumption. rewrite I. reflexivity.
Qed.
