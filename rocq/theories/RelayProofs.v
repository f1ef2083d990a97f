From Verif Require Import Base CanModel CanSpec CanProofs FilterModel FilterSpec FilterProofs SocketCanModel SocketCanSpec SocketCanProofs BridgeModel BridgeSpec BridgeProofs RelayModel RelaySpec.

(** ** Frames read *)
Lemma number_range : forall k, 0 <= k_number k < 2^29.
Proof.
  intro k. unfold k_number. destruct (k_err k || k_ext k); pose proof (Z.mod_pos_bound (k_id k) (2^29) ltac:(lia)); pose proof (Z.mod_pos_bound (k_id k) (2^11) ltac:(lia)); lia.
Qed.
Lemma read_header : forall k p, exists e r,
  f_hdr (read_frame p k) = mkHeader (k_number k) e r (k_err k) /\ (k_err k = false -> e = k_ext k /\ r = k_rtr k).
Proof.
  intros k p. unfold read_frame. cbn [f_hdr]. change CAN_ERR_FLAG with (2^29). change CAN_EFF_FLAG with (2^31). change CAN_RTR_FLAG with (2^30).
  rewrite !pow2_testbit_has by lia. unfold k_number, k_err, k_ext, k_rtr. destruct (Z.testbit (k_id k) 29); cbn [orb].
  - unfold CAN_EFF_MASK. rewrite land_ones_mod by lia. eexists. eexists. split; [reflexivity|discriminate].
  - exists (Z.testbit (k_id k) 31), (Z.testbit (k_id k) 30). split; [|auto]. f_equal. unfold CAN_EFF_MASK, CAN_SFF_MASK.
    destruct (Z.testbit (k_id k) 31); rewrite land_ones_mod by lia; reflexivity.
Qed.
Lemma read_published : forall k p, from_kernel k ->
  exists m, frameCallback (read_frame p k) = Some m /\ shows m k.
Proof.
  intros k p (W & D & L & B & E). destruct (read_header k p) as (e & r & H & F).
  pose proof (number_range k) as N.
  assert (V : frame_isValid (read_frame p k) = true).
  { unfold frame_isValid. rewrite H. unfold header_isValid. cbn [h_id h_ext]. cbn [read_frame f_dlc].
    apply andb_true_intro. split; [apply Z.leb_le; lia|]. apply Z.ltb_lt. destruct (k_err k) eqn:X.
    - specialize (E eq_refl). destruct e; lia.
    - destruct (F eq_refl) as [-> _]. unfold k_number in *. rewrite X in *. cbn [orb] in *. destruct (k_ext k); [lia|].
      apply Z.mod_pos_bound. lia. }
  unfold frameCallback. rewrite V. eexists. split; [reflexivity|]. unfold shows, convertSocketCANToMessage. rewrite H.
  cbn [m_id m_err m_dlc m_ext m_rtr m_data h_id h_ext h_rtr h_err]. cbn [read_frame f_dlc f_data].
  split; [reflexivity|]. split; [reflexivity|]. split; [reflexivity|]. split; [exact F|].
  rewrite firstn_firstn. replace (Nat.min (Z.to_nat (k_dlc k)) 8) with (Z.to_nat (k_dlc k)) by lia.
  apply overwrite_firstn. lia.
Qed.

(** ** Filters *)
Lemma selects_pass : forall p f k q, tofilter_param p = Some f ->
  (pass f (f_hdr (read_frame q k)) = true <-> selects p k).
Proof.
  intros p f k q E. destruct (read_header k q) as (e & r & H & F). rewrite H. pose proof (number_range k) as N.
  assert (O : header_ok (mkHeader (k_number k) e r (k_err k))) by (unfold header_ok; cbn [h_id]; lia).
  assert (K : filter_word (mkHeader (k_number k) e r (k_err k)) = k_word k).
  { unfold filter_word, k_word. cbn [h_id h_ext h_rtr h_err]. destruct (k_err k); [reflexivity|]. destruct (F eq_refl) as [-> ->]. reflexivity. }
  destruct p as [z|t|]; cbn [tofilter_param] in E; [| |discriminate]; injection E as <-; cbn [selects].
  - unfold tofilter_id. assert (MR : MASK_RELAXED = 2^31 - 1) by reflexivity. rewrite MR. clear MR. rewrite mask_filter_pass by exact O. cbv iota. rewrite agree_relaxed, K.
    assert (M : (z mod 2^32) mod 2^31 = z mod 2^31).
    { replace (2^32) with (2^31 * 2) by lia. rewrite Z.rem_mul_r by lia. rewrite Z.mul_comm, Z.mod_add by lia. apply Z.mod_mod. lia. }
    change (Z.pow_pos 2 32) with (2^32). rewrite M. reflexivity.
  - assert (O2 : header_ok (mkHeader (k_number k) (k_ext k) (k_rtr k) (k_err k))) by (unfold header_ok; cbn [h_id]; lia).
    assert (K2 : key (mkHeader (k_number k) e r (k_err k)) = key (mkHeader (k_number k) (k_ext k) (k_rtr k) (k_err k))).
    { rewrite !key_word by assumption. rewrite K. reflexivity. }
    unfold pass. rewrite K2. reflexivity.
Qed.
Lemma tofilters_heard : forall ps fs k q, tofilters ps = Some fs ->
  (heard (LFiltered fs) (read_frame q k) = [read_frame q k] /\ (exists p, In p ps /\ selects p k)) \/
  (heard (LFiltered fs) (read_frame q k) = [] /\ ~ exists p, In p ps /\ selects p k).
Proof.
  induction ps as [|p ps IH]; intros fs k q E; cbn [tofilters] in E.
  - injection E as <-. right. split; [reflexivity|]. intros (p & [] & _).
  - destruct (tofilter_param p) as [f|] eqn:P; [|discriminate]. destruct (tofilters ps) as [gs|] eqn:T; [|discriminate].
    injection E as <-. cbn [heard filtered_callback]. pose proof (selects_pass p f k q P) as SP.
    destruct (pass f (f_hdr (read_frame q k))).
    + left. split; [reflexivity|]. exists p. split; [left; reflexivity|]. apply SP. reflexivity.
    + specialize (IH gs k q eq_refl). cbn [heard] in IH. destruct IH as [[A (x & B & C)]|[A N]]; rewrite A.
      * left. split; [reflexivity|]. exists x. split; [right; exact B|exact C].
      * right. split; [reflexivity|]. intros (x & [<-|B] & C); [|apply N; exists x; auto]. apply SP in C. discriminate.
Qed.
Lemma setup_heard : forall ids l k q, setup ids = Some l ->
  (heard l (read_frame q k) = [read_frame q k] /\ wanted ids k) \/ (heard l (read_frame q k) = [] /\ ~ wanted ids k).
Proof.
  intros [ps|] l k q E; cbn [setup] in E.
  - destruct (tofilters ps) as [fs|] eqn:T; [|discriminate]. cbn in E. injection E as <-. exact (tofilters_heard ps fs k q T).
  - injection E as <-. left. split; [reflexivity|exact Logic.I].
Qed.
Lemma setup_none : forall ids, setup ids = None <-> exists ps, ids = Some ps /\ In POther ps.
Proof.
  intros [ps|]; cbn [setup].
  - assert (T : tofilters ps = None <-> In POther ps).
    { induction ps as [|p ps IH]; cbn [tofilters In]; [split; [discriminate|tauto]|].
      destruct p; cbn [tofilter_param]; try (destruct (tofilters ps); split; [discriminate|intros [A|A]; [discriminate|apply IH in A; discriminate]|intros _; right; apply IH; reflexivity|reflexivity]).
      split; auto. }
    destruct (tofilters ps) as [fs|]; cbn [option_map].
    + split; [discriminate|]. intros (x & E & N). injection E as <-. apply T in N. discriminate.
    + split; [|reflexivity]. intros _. exists ps. split; [reflexivity|]. apply T. reflexivity.
  - split; [discriminate|]. intros (x & E & _). discriminate.
Qed.

(** ** Messages sent *)
Lemma msg_frame : forall m, message_ok m -> m_err m = false -> m_id m < 2^29 ->
  (describes m /\ exists f k, msgCallback m = Some f /\ enqueue_frame f = Ok k /\ carries m k) \/
  (~ describes m /\ msgCallback m = None).
Proof.
  intros m (I1 & D & L & B) E R. unfold msgCallback, frame_isValid, header_isValid, convertMessageToSocketCAN.
  cbn [f_hdr f_dlc h_id h_ext]. rewrite Z.mod_small by lia. unfold describes.
  destruct (Z.leb_spec (m_dlc m) 8) as [D8|D8]; cbn [andb].
  - destruct (Z.ltb_spec (m_id m) (if m_ext m then 2^29 else 2^11)) as [V|V].
    + left. split; [auto|]. eexists. eexists. split; [reflexivity|]. unfold enqueue_frame. cbn [f_hdr f_dlc].
      replace (m_dlc m <=? 8) with true by (symmetry; apply Z.leb_le; lia). split; [reflexivity|].
      unfold carries. cbn [k_id k_dlc k_data]. split; [|split; [reflexivity|]].
      * rewrite kid_sum by (unfold header_ok; cbn [h_id]; lia). reflexivity.
      * unfold payload, overwrite. cbn [f_dlc f_data]. rewrite firstn8 by exact L. rewrite firstn_length, L.
        f_equal. replace (Nat.min (Z.to_nat (m_dlc m)) 8) with (Z.to_nat (m_dlc m)) by lia.
        assert (N : (Z.to_nat (m_dlc m) <= 8)%nat) by lia. revert N. generalize (Z.to_nat (m_dlc m)). intros n N.
        do 9 (destruct n as [|n]; [reflexivity|]). lia.
    + right. split; [|reflexivity]. intros (_ & _ & X). lia.
  - right. split; [|reflexivity]. intros (_ & X & _). lia.
Qed.

(** ** Steps *)
Lemma published_app : forall a b, published (a ++ b) = published a ++ published b.
Proof. induction a as [|[] a IH]; intro b; cbn; rewrite ?IH; reflexivity. Qed.
Lemma answers_app : forall a b, answers (a ++ b) = answers a ++ answers b.
Proof. induction a as [|[] a IH]; intro b; cbn; rewrite ?IH; reflexivity. Qed.
Lemma flat_map_nil : forall (A B : Type) (f : A -> list B) l, (forall x, In x l -> f x = []) -> flat_map f l = [].
Proof. induction l as [|a l IH]; intro H; [reflexivity|]. cbn. rewrite (H a (or_introl eq_refl)). apply IH. intros x X. apply H. right. exact X. Qed.

Definition quiet (o : list output) : Prop := forall x, In x o -> match x with Deliver _ | Sent _ _ => False | _ => True end.
Lemma quiet_nil : quiet []. Proof. intros x []. Qed.
Lemma quiet_app : forall a b, quiet a -> quiet b -> quiet (a ++ b).
Proof. intros a b A B x X. apply in_app_or in X. destruct X as [X|X]; [exact (A x X)|exact (B x X)]. Qed.
Lemma quiet_one : forall x, match x with Deliver _ | Sent _ _ => False | _ => True end -> quiet [x].
Proof. intros x H y [<-|[]]. exact H. Qed.
Lemma quiet_seq : forall a f, quiet (snd a) -> (forall d, quiet (snd (f d))) -> quiet (snd (seq a f)).
Proof.
  intros [d o] f A F. unfold seq. specialize (F d). destruct (f d) as [d2 o2]. cbn [snd] in *. apply quiet_app; assumption.
Qed.
Lemma quiet_error : forall d e, quiet (snd (setErrorCode d e)).
Proof. intros. unfold setErrorCode. destruct (_ =? _); [apply quiet_nil|apply quiet_one; exact Logic.I]. Qed.
Lemma quiet_internal : forall d e, quiet (snd (setInternalError d e)).
Proof. intros. unfold setInternalError. destruct (_ =? _); [apply quiet_nil|apply quiet_one; exact Logic.I]. Qed.
Lemma quiet_state : forall d e, quiet (snd (setDriverState d e)).
Proof. intros. unfold setDriverState. destruct (drv_eqb _ _); [apply quiet_nil|apply quiet_one; exact Logic.I]. Qed.
Lemma quiet_not_ready : forall d, quiet (snd (setNotReady d)).
Proof. intros. apply quiet_state. Qed.

Ltac quiet_tac := repeat first
  [ apply quiet_seq; [|intro] | apply quiet_error | apply quiet_internal | apply quiet_state | apply quiet_not_ready
  | apply quiet_nil | apply quiet_one; exact Logic.I ].

(** Only frames received and sent make the driver speak of frames. *)
Lemma bus_quiet : forall d e, (forall k, e <> EReceive k) -> (forall f w, e <> ESend f w) ->
  exists d' o, SocketCanModel.step d e = Ok (d', o) /\ quiet o.
Proof.
  intros d e N1 N2.
  assert (G : exists r, SocketCanModel.step d e = Ok r /\ quiet (snd r)).
  { destruct e as [[em fm] ok ec| |ec|k|ec|f w|]; cbn [SocketCanModel.step].
    - destruct (driver_state (st d)); [destruct ok| |]; eexists; (split; [reflexivity|]); quiet_tac.
    - eexists. split; [reflexivity|]. quiet_tac. destruct (driver_state (st _)); quiet_tac.
    - eexists. split; [reflexivity|]. quiet_tac.
    - destruct (N1 k eq_refl).
    - eexists. split; [reflexivity|]. quiet_tac.
    - destruct (N2 f w eq_refl).
    - eexists. split; [reflexivity|]. quiet_tac. }
  destruct G as ([d' o] & E & Qo). exists d', o. auto.
Qed.
Lemma quiet_publish : forall l o, quiet o -> flat_map (publish l) o = [].
Proof. intros l o H. apply flat_map_nil. intros x X. specialize (H x X). destruct x; [reflexivity|contradiction|contradiction|reflexivity]. Qed.
Lemma quiet_sent : forall o, quiet o -> flat_map sent o = [].
Proof. intros o H. apply flat_map_nil. intros x X. specialize (H x X). destruct x; [reflexivity|contradiction|contradiction|reflexivity]. Qed.

Lemma receive_deliver : forall d k, exists d' o, SocketCanModel.step d (EReceive k) = Ok (d', o ++ [Deliver (read_frame (input_ d) k)]) /\ quiet o.
Proof.
  intros d k. cbn [SocketCanModel.step].
  match goal with |- context [Ok (seq ?a _)] => set (x := a) end.
  assert (X : quiet (snd x)) by (unfold x; destruct (_ && _); quiet_tac).
  destruct x as [d1 o1]. exists d1, o1. split; [reflexivity|exact X].
Qed.
Lemma receive_rstep : forall ids l d k, setup ids = Some l -> from_kernel k ->
  exists d' o, rstep l d (Bus (EReceive k)) = Ok (d', o) /\ answers o = [] /\
  ((wanted ids k /\ exists m, published o = [m] /\ shows m k) \/ (~ wanted ids k /\ published o = [])).
Proof.
  intros ids l d k S0 K. destruct (receive_deliver d k) as (d' & o & E & Qo). cbn [rstep]. rewrite E. eexists. eexists. split; [reflexivity|].
  rewrite flat_map_app, (quiet_publish l o Qo). cbn [flat_map publish app]. rewrite app_nil_r.
  destruct (setup_heard ids l k (input_ d) S0) as [[H W]|[H W]]; rewrite H; cbn [flat_map]; [|cbn; auto].
  destruct (read_published k (input_ d) K) as (m & M & SH). rewrite M. cbn. split; [reflexivity|]. left. split; [exact W|]. exists m. auto.
Qed.

Lemma send_out : forall d f k wec, enqueue_frame f = Ok k ->
  exists d' o x, SocketCanModel.step d (ESend f wec) = Ok (d', o ++ [x]) /\ quiet o /\ (x = Sent true (Some k) \/ x = Sent false None).
Proof.
  intros d f k wec E. cbn [SocketCanModel.step]. destruct (driver_state (st d)).
  - exists d, [], (Sent false None). split; [reflexivity|]. split; [apply quiet_nil|auto].
  - exists d, [], (Sent false None). split; [reflexivity|]. split; [apply quiet_nil|auto].
  - rewrite E. destruct (wec =? 0).
    + exists d, [], (Sent true (Some k)). split; [reflexivity|]. split; [apply quiet_nil|auto].
    + match goal with |- context [Ok (seq ?a _)] => set (y := a) end.
      assert (Y : quiet (snd y)) by (unfold y; quiet_tac).
      destruct y as [d1 o1]. exists d1, o1, (Sent false None). split; [reflexivity|]. split; [exact Y|auto].
Qed.
(** Any message: one answer, and nothing is published. *)
Lemma topic_any : forall l d m wec, exists d' x, rstep l d (Topic m wec) = Ok (d', [x]) /\
  match x with Refused => msgCallback m = None | Failed => msgCallback m <> None
  | Written k => exists f, msgCallback m = Some f /\ enqueue_frame f = Ok k | Published _ => False end.
Proof.
  intros l d m wec. cbn [rstep]. destruct (msgCallback m) as [f|] eqn:M.
  - assert (D8 : f_dlc f <= 8).
    { unfold msgCallback in M. destruct (frame_isValid _) eqn:V; [|discriminate]. injection M as <-.
      unfold frame_isValid in V. apply andb_prop in V. destruct V as [V _]. apply Z.leb_le in V. exact V. }
    destruct (proj2 (enqueue_defined f) D8) as [k K]. destruct (send_out d f k wec K) as (d' & o & x & E & Qo & X).
    rewrite E. rewrite flat_map_app, (quiet_sent o Qo). cbn [flat_map app]. rewrite app_nil_r.
    destruct X as [-> | ->]; cbn [sent]; eexists; eexists; (split; [reflexivity|]); cbn; [exists f; auto|discriminate].
  - exists d, Refused. split; reflexivity.
Qed.
Lemma topic_rstep : forall l d m wec, message_ok m -> m_err m = false -> m_id m < 2^29 ->
  exists d' x, rstep l d (Topic m wec) = Ok (d', [x]) /\ answer m x.
Proof.
  intros l d m wec O E R. destruct (topic_any l d m wec) as (d' & x & S0 & X). exists d', x. split; [exact S0|].
  destruct (msg_frame m O E R) as [(D & f & k & M & K & C)|(D & M)]; rewrite M in X.
  - destruct x as [?|k2| |]; cbn [answer]; [contradiction| |exact D|discriminate]. destruct X as (f2 & F & K2).
    injection F as <-. rewrite K in K2. injection K2 as <-. auto.
  - destruct x as [?|k2| |]; cbn [answer]; [contradiction| |congruence|exact D]. destruct X as (f2 & F & _). discriminate.
Qed.

(** ** Histories *)
Lemma bus_rstep : forall l d e, (forall k, e <> EReceive k) -> (forall f w, e <> ESend f w) ->
  exists d', rstep l d (Bus e) = Ok (d', []).
Proof.
  intros l d e N1 N2. destruct (bus_quiet d e N1 N2) as (d' & o & E & Qo). cbn [rstep]. rewrite E. exists d'. rewrite quiet_publish by exact Qo. reflexivity.
Qed.
Lemma rrun_published : forall ids l, setup ids = Some l -> forall es d, Forall message_event es ->
  exists d' o ks, rrun l d es = Ok (d', o) /\ those (wanted ids) (received es) ks /\ Forall2 shows (published o) ks.
Proof.
  intros ids l S0. induction es as [|e es IH]; intros d F.
  - exists d, [], []. split; [reflexivity|]. split; constructor.
  - inversion F as [|? ? F1 F2]; subst. cbn [rrun].
    assert (G : (exists k, e = Bus (EReceive k)) \/ ((forall t, received (e :: t) = received t) /\ exists d1 o1, rstep l d e = Ok (d1, o1) /\ published o1 = [])).
    { destruct e as [e|m w].
      - destruct e as [mm ok ec| |ec|k|ec|f w|]; try (left; eexists; reflexivity); try contradiction; right; (split; [reflexivity|]);
          match goal with |- context [Bus ?x] => destruct (bus_rstep l d x) as [d1 E1]; [discriminate|discriminate|]; exists d1, []; split; [exact E1|reflexivity] end.
      - right. split; [reflexivity|]. destruct (topic_any l d m w) as (d1 & x & E1 & X). exists d1, [x]. split; [exact E1|]. destruct x; [contradiction| | |]; reflexivity. }
    destruct G as [[k ->]|(R & d1 & o1 & E1 & P1)].
    + destruct (receive_rstep ids l d k S0 F1) as (d1 & o1 & E1 & _ & C). rewrite E1.
      destruct (IH d1 F2) as (d2 & o2 & ks & E2 & T & SH). rewrite E2. cbn [received].
      destruct C as [(W & m & P & SM)|(W & P)].
      * exists d2, (o1 ++ o2), (k :: ks). split; [reflexivity|]. split; [constructor; assumption|]. rewrite published_app, P. cbn. constructor; assumption.
      * exists d2, (o1 ++ o2), ks. split; [reflexivity|]. split; [apply those_out; assumption|]. rewrite published_app, P. exact SH.
    + rewrite E1. destruct (IH d1 F2) as (d2 & o2 & ks & E2 & T & SH). rewrite E2, R. exists d2, (o1 ++ o2), ks.
      split; [reflexivity|]. split; [exact T|]. rewrite published_app, P1. exact SH.
Qed.
Lemma rrun_answers : forall l es d d' o, Forall message_event es -> Forall (fun m => m_err m = false /\ m_id m < 2^29) (topics es) ->
  rrun l d es = Ok (d', o) -> Forall2 answer (topics es) (answers o).
Proof.
  intro l. induction es as [|e es IH]; intros d d' o F T E; cbn [rrun] in E.
  - injection E as <- <-. constructor.
  - inversion F as [|? ? F1 F2]; subst. destruct (rstep l d e) as [[d1 o1]|] eqn:E1; [|discriminate].
    destruct (rrun l d1 es) as [[d2 o2]|] eqn:E2; [|discriminate]. injection E as <- <-. rewrite answers_app.
    destruct e as [e|m w].
    + assert (A : answers o1 = []).
      { cbn [rstep] in E1. destruct (SocketCanModel.step d e) as [[d3 o3]|]; [|discriminate].
        assert (X : flat_map (publish l) o3 = o1) by congruence. rewrite <- X. clear.
        induction o3 as [|x o3 IH]; [reflexivity|]. cbn [flat_map]. rewrite answers_app, IH, app_nil_r.
        destruct x as [|f| |]; try reflexivity. cbn [publish]. generalize (heard l f). intro h. induction h as [|g h IHh]; [reflexivity|].
        cbn [flat_map]. rewrite answers_app, IHh, app_nil_r. destruct (frameCallback g); reflexivity. }
      rewrite A. cbn [topics app] in *. exact (IH d1 d2 o2 F2 T E2).
    + cbn [topics] in *. inversion T as [|? ? [T1 T2] T3]; subst.
      destruct (topic_rstep l d m w F1 T1 T2) as (d3 & x & E3 & X). rewrite E3 in E1. injection E1 as <- <-.
      pose proof (IH d3 d2 o2 F2 T3 E2) as G. destruct x; cbn [answers app]; try (constructor; assumption). contradiction.
Qed.
(** A ready driver and a write without error. *)
Lemma rstep_ready : forall l d m, message_ok m -> describes m -> driver_state (st d) = Ready ->
  exists k, rstep l d (Topic m 0) = Ok (d, [Written k]) /\ carries m k.
Proof.
  intros l d m O D R. pose proof D as (E & _ & V).
  assert (L : m_id m < 2^29) by (destruct (m_ext m); lia).
  destruct (msg_frame m O E L) as [(_ & f & k & M & K & C)|(N & _)]; [|contradiction].
  exists k. split; [|exact C]. cbn [rstep]. rewrite M. cbn [SocketCanModel.step]. rewrite R, K. reflexivity.
Qed.
Lemma rstep_not_ready : forall l d m wec d' o, driver_state (st d) <> Ready -> rstep l d (Topic m wec) = Ok (d', o) ->
  d' = d /\ forall k, ~ In (Written k) o.
Proof.
  intros l d m wec d' o N E. cbn [rstep] in E. destruct (msgCallback m).
  - cbn [SocketCanModel.step] in E. destruct (driver_state (st d)); [| |congruence]; injection E as <- <-; (split; [reflexivity|]); intros k [X|[]]; discriminate.
  - injection E as <- <-. split; [reflexivity|]. intros k [X|[]]; discriminate.
Qed.

(** ** From one bus to the other *)
Lemma word_bits : forall n e r, 0 <= n < 2^29 ->
  let w := n + b2z r * 2^30 + b2z e * 2^31 in
  Z.testbit w 31 = e /\ Z.testbit w 30 = r /\ Z.testbit w 29 = false /\ 0 <= w < 2^32 /\ w mod 2^29 = n.
Proof.
  intros n e r N w. 
  assert (D : forall q, w = n + q * 2^29 -> w mod 2^29 = n) by (intros q ->; rewrite Z.mod_add by lia; apply Z.mod_small; lia).
  rewrite !Z.testbit_eqb by lia. unfold w in *. destruct e, r; cbn [b2z] in *;
    (split; [|split; [|split; [|split; [lia|]]]]); try (rewrite (D 6) by lia; reflexivity); try (rewrite (D 4) by lia; reflexivity); try (rewrite (D 2) by lia; reflexivity); try (rewrite (D 0) by lia; reflexivity).
  all: match goal with |- (?a / ?b mod 2 =? 1) = ?c => idtac end.
  all: match goal with
       | |- ((?a / 2^31) mod 2 =? 1) = true => assert (X : a / 2^31 = 1) by (symmetry; apply (Z.div_unique a (2^31) 1 (a - 2^31)); lia); rewrite X; reflexivity
       | |- ((?a / 2^31) mod 2 =? 1) = false => assert (X : a / 2^31 = 0) by (apply Z.div_small; lia); rewrite X; reflexivity
       | |- ((?a / 2^30) mod 2 =? 1) = _ => first
           [ assert (X : a / 2^30 = 3) by (symmetry; apply (Z.div_unique a (2^30) 3 (a - 3*2^30)); lia); rewrite X; reflexivity
           | assert (X : a / 2^30 = 2) by (symmetry; apply (Z.div_unique a (2^30) 2 (a - 2*2^30)); lia); rewrite X; reflexivity
           | assert (X : a / 2^30 = 1) by (symmetry; apply (Z.div_unique a (2^30) 1 (a - 2^30)); lia); rewrite X; reflexivity
           | assert (X : a / 2^30 = 0) by (apply Z.div_small; lia); rewrite X; reflexivity ]
       | |- ((?a / 2^29) mod 2 =? 1) = _ => first
           [ assert (X : a / 2^29 = 6) by (symmetry; apply (Z.div_unique a (2^29) 6 (a - 6*2^29)); lia); rewrite X; reflexivity
           | assert (X : a / 2^29 = 4) by (symmetry; apply (Z.div_unique a (2^29) 4 (a - 4*2^29)); lia); rewrite X; reflexivity
           | assert (X : a / 2^29 = 2) by (symmetry; apply (Z.div_unique a (2^29) 2 (a - 2*2^29)); lia); rewrite X; reflexivity
           | assert (X : a / 2^29 = 0) by (apply Z.div_small; lia); rewrite X; reflexivity ]
       end.
Qed.
(** Two messages say the same. *)
Lemma carried : forall m k, message_ok m -> describes m -> carries m k ->
  from_kernel k /\ k_number k = m_id m /\ k_ext k = m_ext m /\ k_rtr k = m_rtr m /\ k_err k = false /\
  firstn (Z.to_nat (k_dlc k)) (k_data k) = firstn (Z.to_nat (m_dlc m)) (m_data m).
Proof.
  intros m k (I1 & D & L & B) (E & D8 & V) (W & KD & KB).
  assert (N : 0 <= m_id m < 2^29) by (destruct (m_ext m); lia).
  destruct (word_bits (m_id m) (m_ext m) (m_rtr m) N) as (B31 & B30 & B29 & R & M). rewrite <- W in *.
  assert (NB : k_number k = m_id m).
  { unfold k_number, k_err, k_ext. rewrite B29, B31. cbn [orb]. destruct (m_ext m); [exact M|].
    rewrite W. cbn [b2z]. replace (m_id m + b2z (m_rtr m) * 2^30 + 0 * 2^31) with (m_id m + (b2z (m_rtr m) * 2^19) * 2^11) by lia.
    rewrite Z.mod_add by lia. apply Z.mod_small. lia. }
  assert (FL : List.length (firstn (Z.to_nat (m_dlc m)) (m_data m)) = Z.to_nat (m_dlc m)) by (rewrite firstn_length; lia).
  split; [|split; [exact NB|split; [exact B31|split; [exact B30|split; [exact B29|]]]]].
  - unfold from_kernel. split; [exact R|]. split; [lia|]. split; [rewrite KB, app_length, FL, repeat_length; lia|]. split.
    + rewrite KB. unfold bytes_ok in *. apply Forall_app. split.
      * apply Forall_forall. intros x X. rewrite Forall_forall in B. apply B. rewrite <- (firstn_skipn (Z.to_nat (m_dlc m)) (m_data m)). apply in_or_app. left. exact X.
      * apply Forall_forall. intros x X. apply repeat_spec in X. subst x. unfold byte_ok. lia.
    + unfold k_err. rewrite B29. discriminate.
  - rewrite KB, KD, firstn_app, FL, Nat.sub_diag. cbn [firstn]. rewrite app_nil_r. rewrite firstn_firstn, Nat.min_id. reflexivity.
Qed.

Lemma carried_shown : forall m k m2, message_ok m -> describes m -> carries m k -> shows m2 k -> alike m m2.
Proof.
  intros m k m2 O D C (S1 & S2 & S3 & S4 & S5). destruct (carried m k O D C) as (_ & N & X & R & E & B).
  destruct (S4 E) as [S6 S7]. destruct D as (ME & _). destruct C as (_ & CD & _).
  unfold alike. rewrite S1, S2, S3, S6, S7, S5, CD. rewrite CD in B. repeat split; congruence.
Qed.
Lemma those_all : forall A (l out : list A), those (fun _ => True) l out -> out = l.
Proof. intros A l out H. induction H; [reflexivity|congruence|tauto]. Qed.
Lemma answers_written : forall ms xs, Forall2 answer ms xs -> Forall describes ms -> ~ In Failed xs ->
  Forall2 carries ms (written xs).
Proof.
  intros ms xs H. induction H as [|m x ms xs A H IH]; intros D N; [constructor|]. inversion D; subst.
  destruct x; cbn [answer written] in *; [contradiction| |destruct N; left; reflexivity|contradiction].
  constructor; [apply A|]. apply IH; [assumption|]. intro X. apply N. right. exact X.
Qed.
Lemma written_answers : forall o, written (answers o) = written o.
Proof. induction o as [|[] o IH]; cbn; rewrite ?IH; reflexivity. Qed.
Lemma failed_answers : forall o, In Failed (answers o) -> In Failed o.
Proof. induction o as [|[] o IH]; cbn; intro H; auto; destruct H as [H|H]; auto; discriminate. Qed.
Lemma topics_ok : forall es, Forall message_event es -> Forall message_ok (topics es).
Proof.
  induction es as [|[e|m w] es IH]; intro F; cbn [topics]; [constructor| |]; inversion F; subst; [apply IH; assumption|constructor; [assumption|apply IH; assumption]].
Qed.
Lemma alike_all : forall ms ks, Forall2 carries ms ks -> Forall message_ok ms -> Forall describes ms ->
  forall ps, Forall2 shows ps ks -> Forall2 alike ms ps.
Proof.
  intros ms ks H. induction H as [|m k ms ks C H IH]; intros O D ps P; inversion P; subst; [constructor|].
  inversion O; inversion D; subst. constructor; [|apply IH; assumption]. eapply carried_shown; eassumption.
Qed.
Lemma through : forall l1 es1 d1 d1' o1 es2 d2,
  Forall message_event es1 -> Forall describes (topics es1) -> rrun l1 d1 es1 = Ok (d1', o1) -> ~ In Failed o1 ->
  Forall message_event es2 -> received es2 = written o1 ->
  exists d2' o2, rrun LAll d2 es2 = Ok (d2', o2) /\ Forall2 alike (topics es1) (published o2).
Proof.
  intros l1 es1 d1 d1' o1 es2 d2 F1 D R1 NF F2 RV.
  destruct (rrun_published None LAll eq_refl es2 d2 F2) as (d2' & o2 & ks & R2 & T & SH).
  exists d2', o2. split; [exact R2|]. apply those_all in T. subst ks. rewrite RV in SH.
  assert (A : Forall2 answer (topics es1) (answers o1)).
  { refine (rrun_answers l1 es1 d1 d1' o1 F1 _ R1). eapply Forall_impl; [|exact D]. intros m (E & _ & V). split; [exact E|]. destruct (m_ext m); lia. }
  apply (alike_all _ (written o1)); [|apply topics_ok; exact F1|exact D|exact SH].
  rewrite <- written_answers. apply answers_written; [exact A|exact D|]. intro X. apply NF, failed_answers, X.
Qed.
