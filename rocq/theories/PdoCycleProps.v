(** Properties C68 and C86, continued: what the PDOs themselves access, and that
    the histories of C86 contain all that is done with them. *)
From Verif Require Import Base CanModel CanSpec KeyModel StorageModel StorageProofs PdoModel PdoSpec PdoTxProofs PdoConfProofs SdoChanSpec PdoSetupSpec PdoBootSpec PdoCycleSpec PdoHeldProofs PdoBootProofs PdoSetupProps PdoAgainProps PdoBootProps PdoProps.

Lemma spread_defined : forall ids bufs n src, (forall i, In i ids -> bufs i <> None) ->
  exists bufs1, rpdo_spread bufs ids n src = Ok bufs1 /\ forall i, bufs i <> None -> bufs1 i <> None.
Proof.
  induction ids as [|i ids IH]; intros bufs n src H; cbn [rpdo_spread]; [eauto|].
  pose proof (H i (or_introl eq_refl)) as Hi. destruct (bufs i) as [b|] eqn:E; [|contradiction].
  assert (U : forall b1 j, bufs j <> None -> upd bufs i (Some b1) j <> None) by (intros b1 j Hj; unfold upd; destruct (j =? i)%nat; [discriminate|exact Hj]).
  destruct (b_size b <=? n)%nat.
  - destruct (IH (upd bufs i (Some (buf_put b src))) (n - b_size b)%nat (skipn (b_size b) src)) as [b1 [E1 E2]].
    + intros j Hj. apply U, H. right. exact Hj.
    + exists b1. split; [exact E1|]. intros j Hj. apply E2, U, Hj.
  - apply IH. intros j Hj. apply H. right. exact Hj.
Qed.
Lemma fill_defined : forall ids bufs n data u, (forall i, In i ids -> bufs i <> None) ->
  exists bufs1 out u1, tpdo_fill bufs ids n data u = Ok (bufs1, out, u1) /\ forall i, bufs i <> None -> bufs1 i <> None.
Proof.
  induction ids as [|i ids IH]; intros bufs n data u H; cbn [tpdo_fill]; [eauto 10|].
  pose proof (H i (or_introl eq_refl)) as Hi. destruct (bufs i) as [b|] eqn:E; [|contradiction].
  assert (U : forall b1 j, bufs j <> None -> upd bufs i (Some b1) j <> None) by (intros b1 j Hj; unfold upd; destruct (j =? i)%nat; [discriminate|exact Hj]).
  destruct (b_size b <=? n)%nat.
  - destruct (buf_fetch b) as [[b' x] v].
    destruct (IH (upd bufs i (Some b')) (n - b_size b)%nat (skipn (b_size b) data) (v || u)) as [b1 [o1 [u1 [E1 E2]]]].
    + intros j Hj. apply U, H. right. exact Hj.
    + rewrite E1. do 3 eexists. split; [reflexivity|]. intros j Hj. apply E2, U, Hj.
  - apply IH. intros j Hj. apply H. right. exact Hj.
Qed.

Lemma sound_update : forall w w1 m m1, sound w m -> w_next w1 = w_next w -> (forall i, w_bufs w i <> None -> w_bufs w1 i <> None) ->
  List.map p_bufs (rpdos m1) = List.map p_bufs (rpdos m) -> List.map p_bufs (tpdos m1) = List.map p_bufs (tpdos m) -> sound w1 m1.
Proof.
  intros w w1 m m1 [S1 S2 S3] N L R T.
  assert (G : forall ps qs p, List.map p_bufs ps = List.map p_bufs qs -> In p ps -> exists q, In q qs /\ p_bufs q = p_bufs p).
  { intros ps qs p E Hp. apply (in_map p_bufs) in Hp. rewrite E in Hp. apply in_map_iff in Hp as [q [X Y]]. eauto. }
  constructor.
  - lia.
  - intros p i Hp Hi. rewrite N. assert (X : exists q, In q (rpdos m ++ tpdos m) /\ p_bufs q = p_bufs p).
    { apply in_app_or in Hp as [Hp|Hp]; [destruct (G _ _ _ R Hp) as [q [A B]]|destruct (G _ _ _ T Hp) as [q [A B]]]; exists q; split; auto using in_or_app. }
    destruct X as [q [A B]]. rewrite <- B in Hi. destruct (S2 q i A Hi). auto.
  - intros p q i Hp Hq Hi Hj. destruct (G _ _ _ R Hp) as [p' [A B]]. destruct (G _ _ _ T Hq) as [q' [A' B']].
    rewrite <- B in Hi. rewrite <- B' in Hj. exact (S3 p' q' i A A' Hi Hj).
Qed.

Lemma operates_sound : forall w m, operates w m -> sound w m.
Proof.
  intros w m O. induction O as [w H|dv d k o w w1 r m O IH H|d w m O IH|dv d nid junk nt nx w m w1 m1 x O IH H
    |w ps p qs ts msg p1 w1 O IH H|w ps p qs ts p1 t f O IH H|w rs ps p qs p1 w1 f O IH H].
  - constructor; [exact H|intros p i []|intros p q i []].
  - destruct (obj_inv _ _ _ _ _ _ _ H) as [[-> _]|(c & e & rd & wr & c1 & ev & res & Ec & Ee & Es & El & -> & _)]; [exact IH|].
    apply (sound_update w _ m m); auto. intros i Hi. cbn [w_bufs]. apply ext_events, Hi.
  - apply (sound_update w _ m m); auto.
  - exact (sound_mapper _ _ _ _ _ _ _ _ _ _ _ IH H).
  - unfold rpdo_handle in H. destruct (spread_defined (p_bufs p) (w_bufs w) (Z.to_nat (f_dlc msg)) (f_data msg)) as [b1 [E1 E2]].
    { intros i Hi. apply (so_live _ _ IH p i); [apply in_or_app; left; apply in_elt|exact Hi]. }
    rewrite E1 in H. injection H as <- <-. apply (sound_update w _ (mkMapper (ps ++ p :: qs) ts)); auto. cbn. rewrite !map_app. reflexivity.
  - apply (sound_update w _ (mkMapper (ps ++ p :: qs) ts)); auto. cbn. rewrite !map_app. cbn [List.map]. do 2 f_equal.
    unfold rpdo_sync in H. destruct (_ && _) in H; [|injection H as <- _ _; reflexivity].
    repeat match type of H with context [if ?c then _ else _] => destruct c end; injection H as <- _ _; reflexivity.
  - unfold tpdo_sync in H. destruct (fill_defined (p_bufs p) (w_bufs w) (Z.to_nat (f_dlc (p_frame p))) (f_data (p_frame p)) false) as [b1 [o1 [u1 [E1 E2]]]].
    { intros i Hi. apply (so_live _ _ IH p i); [apply in_or_app; right; apply in_elt|exact Hi]. }
    rewrite E1 in H. injection H as <- <- _. apply (sound_update w _ (mkMapper rs (ps ++ p :: qs))); auto. cbn. rewrite !map_app. reflexivity.
Qed.

(** Neither a received frame nor a cycle accesses a buffer that was destroyed,
    however often the PDOs were set up and whatever went wrong in doing so. *)
Theorem C68_cycles : forall w m, operates w m ->
  (forall p msg, In p (rpdos m) -> exists p1 w1, rpdo_handle p msg w = Ok (p1, w1)) /\
  (forall p, In p (tpdos m) -> exists p1 w1 f, tpdo_sync p w = Ok (p1, w1, f)).
Proof.
  intros w m O. apply operates_sound in O. split.
  - intros p msg Hp. unfold rpdo_handle. destruct (spread_defined (p_bufs p) (w_bufs w) (Z.to_nat (f_dlc msg)) (f_data msg)) as [b1 [E1 _]].
    { intros i Hi. apply (so_live _ _ O p i); [apply in_or_app; auto|exact Hi]. }
    rewrite E1. eauto.
  - intros p Hp. unfold tpdo_sync. destruct (fill_defined (p_bufs p) (w_bufs w) (Z.to_nat (f_dlc (p_frame p))) (f_data (p_frame p)) false) as [b1 [o1 [u1 [E1 _]]]].
    { intros i Hi. apply (so_live _ _ O p i); [apply in_or_app; auto|exact Hi]. }
    rewrite E1. eauto.
Qed.
Print Assumptions C68_cycles.

(** A node is set up, booted again with a device that fails, and still has PDOs to
    send. *)
Example C68_cycles_ex : exists w m p x, operates w m /\ tpdos m = [p] /\ p_bufs p <> [] /\
  mapper_init half ex_dict 1 junk8 4 4 (mkMapper [ex_rpdo] [ex_tpdo]) (reset_world ex_dict ex_world) = Ok (w, m, Some x) /\
  exists p1 w1 f, tpdo_sync p w = Ok (p1, w1, f).
Proof.
  assert (E : exists w m x, mapper_init half ex_dict 1 junk8 4 4 (mkMapper [ex_rpdo] [ex_tpdo]) (reset_world ex_dict ex_world) = Ok (w, m, Some x) /\ tpdos m = [ex_tpdo])
    by (do 3 eexists; split; vm_compute; reflexivity).
  destruct E as (w & m & x & E & T). exists w, m, ex_tpdo, x.
  assert (O : operates w m).
  { refine (Osetup half ex_dict 1 junk8 4%nat 4%nat _ _ w m _ (Oreset ex_dict _ _ (Osetup dev ex_dict 1 junk8 4%nat 4%nat fresh (mkMapper [] []) ex_world (mkMapper [ex_rpdo] [ex_tpdo]) None _ ex_init_run)) E).
    apply Onew. cbn. lia. }
  split; [exact O|]. split; [exact T|]. split; [vm_compute; discriminate|]. split; [exact E|].
  apply (proj2 (C68_cycles w m O)). rewrite T. left. reflexivity.
Qed.

(** ** Received frames, cycles and accesses are part of the histories of C86 *)
Lemma upd_none : forall (bufs : nat -> option pbuf) i b b1 j, bufs i = Some b -> (upd bufs i (Some b1) j = None <-> bufs j = None).
Proof. intros bufs i b b1 j E. unfold upd. destruct (Nat.eqb_spec j i) as [->|N]; [|reflexivity]. rewrite E. split; discriminate. Qed.
Lemma spread_none : forall ids bufs n src bufs1, rpdo_spread bufs ids n src = Ok bufs1 -> forall j, bufs1 j = None <-> bufs j = None.
Proof.
  induction ids as [|i ids IH]; intros bufs n src bufs1; cbn [rpdo_spread]; [intros H; injection H as <-; reflexivity|].
  destruct (bufs i) as [b|] eqn:E; [|discriminate]. destruct (b_size b <=? n)%nat; intros H j; [|exact (IH _ _ _ _ H j)].
  rewrite (IH _ _ _ _ H j). apply (upd_none bufs i b), E.
Qed.
Lemma fill_none : forall ids bufs n data u bufs1 out u1, tpdo_fill bufs ids n data u = Ok (bufs1, out, u1) -> forall j, bufs1 j = None <-> bufs j = None.
Proof.
  induction ids as [|i ids IH]; intros bufs n data u bufs1 out u1; cbn [tpdo_fill]; [intros H; injection H as <- _ _; reflexivity|].
  destruct (bufs i) as [b|] eqn:E; [|discriminate]. destruct (b_size b <=? n)%nat; [|intros H; exact (IH _ _ _ _ _ _ _ H)].
  destruct (buf_fetch b) as [[b' x] v]. destruct (tpdo_fill (upd bufs i (Some b')) ids (n - b_size b) (skipn (b_size b) data) (v || u)) as [[[b2 rest] u2]|] eqn:E2; [|discriminate].
  intros H j. injection H as <- _ _. rewrite (IH _ _ _ _ _ _ _ E2 j). apply (upd_none bufs i b), E.
Qed.
Lemma events_none : forall ev bufs j, fold_left apply_event ev bufs j = None <-> bufs j = None.
Proof.
  induction ev as [|x ev IH]; intros bufs j; [reflexivity|]. cbn [fold_left]. rewrite IH.
  destruct x as [[|n] b [|]|[|n] b [|]]; cbn [apply_event]; try reflexivity.
  - destruct (bufs (S n)) as [b0|] eqn:E; [apply (upd_none bufs (S n) b0), E|reflexivity].
  - destruct (bufs (S n)) as [b0|] eqn:E; [destruct (buf_set b0 b); [apply (upd_none bufs (S n) b0), E|reflexivity]|reflexivity].
Qed.
Lemma only_buffers : forall T d ks w w2, PdoBootProofs.typed T d ks w -> w_store w2 = w_store w -> w_next w2 = w_next w ->
  (forall i, w_bufs w2 i = None <-> w_bufs w i = None) -> only_values T d ks w w2.
Proof.
  intros T d ks w w2 Ty E1 E2 E3. split; [exact E2|]. split; [exact E3|]. intros k c Hc. rewrite E1 in Hc.
  split; [exact (Ty k c Hc)|]. rewrite Hc. auto.
Qed.

Section Histories.
Variable T : Z -> ty.
Variable d : dict.
Variable nid : Z.
Variables nr_tx nr_rx : nat.
Variables rxs txs : list pdo_desc.
Local Notation ks := (all_keys rxs ++ all_keys txs).
Local Notation hist := (endures T d nid nr_tx nr_rx ks).

Theorem C86_history_frames : node_described T d nid rxs txs -> forall w ps p qs ts msg p1 w1,
  hist w (mkMapper (ps ++ p :: qs) ts) -> rpdo_handle p msg w = Ok (p1, w1) -> hist w1 (mkMapper (ps ++ p1 :: qs) ts).
Proof.
  intros D w ps p qs ts msg p1 w1 L H. destruct (endures_running _ _ _ _ _ _ _ _ _ D L) as [_ [Ty _]]. unfold rpdo_handle in H.
  destruct (rpdo_spread (w_bufs w) (p_bufs p) (Z.to_nat (f_dlc msg)) (f_data msg)) as [b1|] eqn:E; [|discriminate]. injection H as <- <-.
  apply (Eused _ _ _ _ _ _ w _ (mkMapper (ps ++ p :: qs) ts)); [exact L| |].
  - apply only_buffers; [exact Ty|reflexivity|reflexivity|]. intros i. exact (spread_none _ _ _ _ _ E i).
  - split; [|reflexivity]. cbn. rewrite !map_app. reflexivity.
Qed.
Theorem C86_history_cycle : node_described T d nid rxs txs ->
  (forall w rs ps p qs p1 w1 f, hist w (mkMapper rs (ps ++ p :: qs)) -> tpdo_sync p w = Ok (p1, w1, f) -> hist w1 (mkMapper rs (ps ++ p1 :: qs))) /\
  (forall w ps p qs ts p1 t f, hist w (mkMapper (ps ++ p :: qs) ts) -> rpdo_sync p = (p1, t, f) -> hist w (mkMapper (ps ++ p1 :: qs) ts)).
Proof.
  intros D. split.
  - intros w rs ps p qs p1 w1 f L H. destruct (endures_running _ _ _ _ _ _ _ _ _ D L) as [_ [Ty _]]. unfold tpdo_sync in H.
    destruct (tpdo_fill (w_bufs w) (p_bufs p) (Z.to_nat (f_dlc (p_frame p))) (f_data (p_frame p)) false) as [[[b1 o1] u1]|] eqn:E; [|discriminate].
    injection H as <- <- _. apply (Eused _ _ _ _ _ _ w _ (mkMapper rs (ps ++ p :: qs))); [exact L| |].
    + apply only_buffers; [exact Ty|reflexivity|reflexivity|]. intros i. exact (fill_none _ _ _ _ _ _ _ _ E i).
    + split; [reflexivity|]. cbn. rewrite !map_app. reflexivity.
  - intros w ps p qs ts p1 t f L H. destruct (endures_running _ _ _ _ _ _ _ _ _ D L) as [_ [Ty _]].
    apply (Eused _ _ _ _ _ _ w _ (mkMapper (ps ++ p :: qs) ts)); [exact L| |].
    + apply only_buffers; [exact Ty|reflexivity|reflexivity|reflexivity].
    + split; [|reflexivity]. cbn. rewrite !map_app. unfold rpdo_sync in H. injection H as <- _ _. reflexivity.
Qed.

(** Accesses through the storage: reads and writes of any object, with any device,
    if mapped objects keep their size. *)
Theorem C86_history_access : node_described T d nid rxs txs -> forall dv k o w w1 r m, hist w m ->
  (match o with SMap _ _ => False | _ => True end) -> obj dv d k o w = Ok (w1, r) ->
  (In k ks -> forall c, lookup k (w_store w1) = Some c -> List.length (c_buf c) = ty_size (T k)) -> hist w1 m.
Proof.
  intros D dv k o w w1 r m L N H Sz. destruct (endures_running _ _ _ _ _ _ _ _ _ D L) as [_ [Ty _]].
  destruct (obj_inv _ _ _ _ _ _ _ H) as [[-> _]|(c & e & rd & wr & c1 & ev & res & Ec & Ee & Es & El & -> & _)]; [exact L|].
  assert (NM : not_map (to_op o rd wr)) by (destruct o; try exact Logic.I; contradiction).
  destruct (step_uses _ _ _ _ _ _ NM Es) as [[K0 [K1 K2]] _].
  apply (Eused _ _ _ _ _ _ w _ m); [exact L| |split; reflexivity].
  split; [reflexivity|]. split; [intros i; cbn [w_bufs]; apply events_none|]. cbn [w_store] in *. intros k' c' Hc. destruct (Z.eq_dec k' k) as [->|Nk].
  - specialize (fun X => Sz X c' Hc). rewrite lookup_store_eq in Hc. injection Hc as <-. rewrite Ec. split; [|auto].
    destruct (Ty k c Ec) as [T1 T2]. split; [rewrite K0; exact T1|]. intros Hk. split; [rewrite K0; apply T2, Hk|exact (Sz Hk)].
  - rewrite lookup_store_neq in Hc by congruence. rewrite Hc. split; [exact (Ty k' c' Hc)|auto].
Qed.
End Histories.
Print Assumptions C86_history_frames.
Print Assumptions C86_history_cycle.
Print Assumptions C86_history_access.

(** A node is booted, receives a frame, sends, an object is read, and it is booted
    again. *)
Example C86_history_ex : exists p1 w1 p2 w2 f w3 r w4 m4,
  rpdo_handle ex_rpdo (mkFrame (mkHeader 0x181 false false false) 3 [1; 2; 3]) ex_world = Ok (p1, w1) /\
  tpdo_sync ex_tpdo w1 = Ok (p2, w2, f) /\ obj dev ex_dict k_sw (SGet false) w2 = Ok (w3, inl r) /\ r = RVal [1; 2] /\
  mapper_init dev ex_dict 1 junk8 4 4 (mkMapper [p1] [p2]) (reset_world ex_dict w3) = Ok (w4, m4, None) /\
  Forall2 (receives ex_T ex_dict w4) [rx_desc] (rpdos m4) /\ Forall2 (transmits ex_T ex_dict w4) [tx_desc] (tpdos m4).
Proof.
  assert (E : exists p1 w1 p2 w2 f w3 r w4 m4,
    rpdo_handle ex_rpdo (mkFrame (mkHeader 0x181 false false false) 3 [1; 2; 3]) ex_world = Ok (p1, w1) /\
    tpdo_sync ex_tpdo w1 = Ok (p2, w2, f) /\ obj dev ex_dict k_sw (SGet false) w2 = Ok (w3, inl r) /\ r = RVal [1; 2] /\
    mapper_init dev ex_dict 1 junk8 4 4 (mkMapper [p1] [p2]) (reset_world ex_dict w3) = Ok (w4, m4, None) /\
    option_map (fun c => List.length (c_buf c)) (lookup k_sw (w_store w3)) = Some 2%nat).
  { do 9 eexists. split; [vm_compute; reflexivity|]. split; [vm_compute; reflexivity|]. split; [vm_compute; reflexivity|].
    split; [reflexivity|]. split; vm_compute; reflexivity. }
  destruct E as (p1 & w1 & p2 & w2 & f & w3 & r & w4 & m4 & E1 & E2 & E3 & E4 & E5 & E6).
  exists p1, w1, p2, w2, f, w3, r, w4, m4. repeat (split; [assumption|]).
  refine (C86_after_failure ex_T dev ex_dict 1 junk8 4%nat 4%nat [rx_desc] [tx_desc] w3 _ (mkMapper [p1] [p2]) w4 m4 C86_every_boot_described _ eq_refl (fun _ _ _ _ => eq_refl) (Rquiet _ _ _) E5).
  refine (C86_history_access ex_T ex_dict 1 4%nat 4%nat [rx_desc] [tx_desc] C86_every_boot_described dev k_sw (SGet false) w2 w3 _ _ _ Logic.I E3 _).
  - refine (proj1 (C86_history_cycle ex_T ex_dict 1 4%nat 4%nat [rx_desc] [tx_desc] C86_every_boot_described) w1 [p1] [] ex_tpdo [] p2 w2 f _ E2).
    refine (C86_history_frames ex_T ex_dict 1 4%nat 4%nat [rx_desc] [tx_desc] C86_every_boot_described ex_world [] ex_rpdo [] [ex_tpdo] _ p1 w1 _ E1).
    refine (Eboot _ _ _ _ _ _ dev junk8 fresh _ ex_world (mkMapper [] []) _ None _ eq_refl (fun _ _ _ _ => eq_refl) (Rquiet _ _ _) ex_init_run).
    apply Enew; [cbn; lia|]. intros k c H. discriminate.
  - intros _ c Hc. rewrite Hc in E6. injection E6 as E6. rewrite E6. reflexivity.
Qed.
