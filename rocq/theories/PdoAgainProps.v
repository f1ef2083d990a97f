(** Properties C68 and C86, continued: the PDOs of a node that was set up before.
    PDOMapper::init (canopen_master/src/pdo.cpp 175-209) destroys the PDOs of the
    earlier set-up, buffers included, and creates new ones. *)
From Verif Require Import Base CanModel CanSpec KeyModel StorageModel StorageSpec PdoModel PdoSpec PdoConfProofs PdoTxProofs SdoChanSpec PdoSetupSpec PdoSetupProofs PdoBootSpec PdoNodeProofs PdoSetupProps PdoProps.

(** The PDOs are the described ones after any later set-up as well. [m0] are the
    PDOs of the earlier one. *)
Theorem C86_again : forall T dv d nid junk nr_tx nr_rx rxs txs m0 w w1 m, List.length junk = 8%nat -> sub_counts d ->
  described d nid 0x1800 0x1A00 (range 512) rxs -> described d nid 0x1400 0x1600 (range 512) txs ->
  node_ready T dv d rxs txs w ->
  (forall p i, In p (rpdos m0 ++ tpdos m0) -> In i (p_bufs p) -> (i < w_next w)%nat) ->
  mapper_init dv d nid junk nr_tx nr_rx m0 w = Ok (w1, m, None) ->
  Forall2 (receives T d w1) (firstn nr_tx rxs) (rpdos m) /\ Forall2 (transmits T d w1) (firstn nr_rx txs) (tpdos m).
Proof. exact mapper_setup_again. Qed.
Print Assumptions C86_again.

(** The buffers of the earlier PDOs are gone, and none of the new PDOs has one of
    their numbers. *)
Theorem C68_freed : forall T dv d nid junk nr_tx nr_rx rxs txs m0 w w1 m, List.length junk = 8%nat -> sub_counts d ->
  described d nid 0x1800 0x1A00 (range 512) rxs -> described d nid 0x1400 0x1600 (range 512) txs ->
  node_ready T dv d rxs txs w ->
  (forall p i, In p (rpdos m0 ++ tpdos m0) -> In i (p_bufs p) -> (i < w_next w)%nat) ->
  mapper_init dv d nid junk nr_tx nr_rx m0 w = Ok (w1, m, None) ->
  forall p i, In p (rpdos m0 ++ tpdos m0) -> In i (p_bufs p) ->
    w_bufs w1 i = None /\ forall q, In q (rpdos m ++ tpdos m) -> ~ In i (p_bufs q).
Proof.
  intros T dv d nid junk nt nx rxs txs m0 w w1 m Hj Hs Dr Dt R Cr H p i Hp Hi.
  destruct (mapper_setup_any _ _ _ _ _ _ _ _ _ _ _ _ _ Hj Hs Dr Dt R Cr H) as [F1 [F2 [_ [_ [_ Fr]]]]].
  split; [apply Fr; exists p; auto|]. pose proof (Cr p i Hp Hi) as L.
  assert (G : forall rx qs ps, Forall2 (is_pdo T d rx (w_next w) w1) qs ps -> forall q, In q ps -> ~ In i (p_bufs q)).
  { intros rx qs ps F. induction F as [|x y qs ps [_ [X _]] F IH]; intros q Hq; [contradiction|].
    destruct Hq as [->|Hq]; [|apply IH, Hq]. intros Y. specialize (X i Y). lia. }
  intros q Hq. apply in_app_or in Hq as [Hq|Hq]; [exact (G _ _ _ F1 q Hq)|exact (G _ _ _ F2 q Hq)].
Qed.
Print Assumptions C68_freed.

(** No object is connected to a destroyed buffer after a later set-up that ends
    without exception, if the objects that were connected to the earlier PDOs are
    mapped again. *)
Theorem C68_again_partial : forall T dv d nid junk nr_tx nr_rx rxs txs m0 w w1 m, List.length junk = 8%nat -> sub_counts d ->
  described d nid 0x1800 0x1A00 (range 512) rxs -> described d nid 0x1400 0x1600 (range 512) txs ->
  node_ready T dv d rxs txs w ->
  (forall p i, In p (rpdos m0 ++ tpdos m0) -> In i (p_bufs p) -> (i < w_next w)%nat) ->
  (forall p k c, In p (rpdos m0 ++ tpdos m0) -> lookup k (w_store w) = Some c -> In (c_rd c) (p_bufs p) \/ In (c_wr c) (p_bufs p) ->
     In k (all_keys (firstn nr_tx rxs) ++ all_keys (firstn nr_rx txs))) ->
  no_dangling w -> mapper_init dv d nid junk nr_tx nr_rx m0 w = Ok (w1, m, None) -> no_dangling w1.
Proof.
  intros T dv d nid junk nt nx rxs txs m0 w w1 m Hj Hs Dr Dt R Cr Ag Nd H k c Hc.
  destruct (mapper_setup_any _ _ _ _ _ _ _ _ _ _ _ _ _ Hj Hs Dr Dt R Cr H) as [F1 [F2 [[W1 [W2 W3]] [Sm [Kp _]]]]].
  assert (G : forall rx qs ps, Forall2 (is_pdo T d rx (w_next w) w1) qs ps -> In k (all_keys qs) -> live w1 (c_rd c) = true /\ live w1 (c_wr c) = true).
  { intros rx qs ps F. induction F as [|q p qs ps [X [_ O]] F IH]; intros Hk; [contradiction|].
    unfold all_keys in Hk. cbn [flat_map] in Hk. apply in_app_or in Hk as [Hk|Hk]; [|apply IH, Hk].
    specialize (O k c Hk Hc). pose proof Hk as Hk0. unfold keys in Hk. apply in_flat_map in Hk as [[[k'|] n] [Hin Y]]; [|contradiction].
    destruct Y as [->|[]]. destruct rx.
    - destruct X as [M _]. destruct (combine_left _ _ _ (p_bufs p) _ (rxm_len _ _ _ _ _ _ M) Hin) as [i Hi].
      destruct (rxm_slots _ _ _ _ _ _ M _ _ Hi) as (b & Hb & _ & _ & c' & e & Hc' & _ & _ & _ & _ & Hd & _).
      assert (c' = c) by congruence. subst c'. rewrite O. split; [|reflexivity]. rewrite Hd. unfold live. rewrite Hb. destruct i; reflexivity.
    - destruct X as [M _]. destruct (combine_left _ _ _ (p_bufs p) _ (txm_len _ _ _ _ _ M) Hin) as [i Hi].
      destruct (txm_slots _ _ _ _ _ M _ _ Hi) as (b & Hb & _ & _ & c' & e & Hc' & _ & _ & _ & _ & Hd & _).
      assert (c' = c) by congruence. subst c'. rewrite O. split; [reflexivity|]. rewrite Hd. unfold live. rewrite Hb. destruct i; reflexivity. }
  destruct (in_dec Z.eq_dec k (all_keys (firstn nt rxs))) as [K1|K1]; [exact (G _ _ _ F1 K1)|].
  destruct (in_dec Z.eq_dec k (all_keys (firstn nx txs))) as [K2|K2]; [exact (G _ _ _ F2 K2)|].
  assert (Dp : pdo_parameter k \/ ~ pdo_parameter k).
  { assert (E : forall is, (exists i s, In i is /\ 0 <= s <= 255 /\ k = key_sub i s) \/ ~ (exists i s, In i is /\ 0 <= s <= 255 /\ k = key_sub i s)).
    { clear. induction is as [|i is [IH|IH]]; [right; intros [i [s [[] _]]]|left; destruct IH as [j [s [X Y]]]; exists j, s; cbn; auto|].
      destruct (classic_param i i k) as [[s [Hs E]]|N].
      - left. exists i, s. split; [cbn; auto|]. split; [exact Hs|]. destruct E; assumption.
      - right. intros [j [s [[<-|X] [Y Z]]]]; [apply N; exists s; auto|apply IH; exists j, s; auto]. }
    destruct (E (List.map (fun i => 0x1400 + i) (range 2048))) as [[i [s [X [Y Z]]]]|N].
    - left. exists i, s. apply in_map_iff in X as [j [<- X]]. apply range_in in X. split; [lia|auto].
    - right. intros [i [s [X [Y V]]]]. apply N. exists i, s. split; [|auto]. apply in_map_iff. exists (i - 0x1400). split; [lia|].
      unfold range. apply in_map_iff. exists (Z.to_nat (i - 0x1400)). split; [lia|]. apply in_seq. lia. }
  destruct Dp as [Dp|Dp].
  - destruct (W3 k Dp c Hc) as [E1 E2]. rewrite E1, E2. auto.
  - rewrite Sm in Hc; [|intros X; apply in_app_or in X as [X|X]; contradiction|exact Dp].
    destruct (Nd k c Hc) as [L1 L2]. destruct (nr_used _ _ _ _ _ _ R k c Hc) as [U1 U2].
    assert (Nk : ~ In k (all_keys (firstn nt rxs) ++ all_keys (firstn nx txs))) by (intros X; apply in_app_or in X as [X|X]; contradiction).
    assert (L : forall i, (i < w_next w)%nat -> i = c_rd c \/ i = c_wr c -> live w i = true -> live w1 i = true).
    { intros i Hi Hw Hl. unfold live in *. rewrite Kp; [exact Hl|exact Hi|]. intros [p [X Y]]. apply Nk. apply (Ag p k c X Hc). destruct Hw; subst i; auto. }
    split; apply L; auto.
Qed.
Print Assumptions C68_again_partial.

(** ** Booting a node again *)

Lemma lookup_reset : forall d k s, lookup k (storage_reset d s) =
  match lookup k s with
  | Some c => Some (match lookup k d with Some e => data_reset e c | None => c end)
  | None => None
  end.
Proof.
  intros d k. induction s as [|[k' c] s IH]; [reflexivity|]. cbn [storage_reset map lookup fst snd].
  destruct (Z.eqb_spec k' k) as [->|N]; [reflexivity|exact IH].
Qed.
Lemma reset_keeps : forall d k s c, lookup k (storage_reset d s) = Some c ->
  exists c0, lookup k s = Some c0 /\ c_rd c = c_rd c0 /\ c_wr c = c_wr c0 /\ c_type c = c_type c0 /\
    (c = c0 /\ lookup k d = None \/ exists e, lookup k d = Some e /\ c = data_reset e c0).
Proof.
  intros d k s c H. rewrite lookup_reset in H. destruct (lookup k s) as [c0|]; [|discriminate]. injection H as <-. exists c0. split; [reflexivity|].
  destruct (lookup k d) as [e|]; [|auto 10]. 
  assert (X : c_rd (data_reset e c0) = c_rd c0 /\ c_wr (data_reset e c0) = c_wr c0 /\ c_type (data_reset e c0) = c_type c0).
  { unfold data_reset. destruct (h_data (e_def e)), (h_type (e_def e)) as [t|]; auto. destruct (ty_eqb t (c_type c0)); auto. }
  destruct X as [X1 [X2 X3]]. repeat (split; [assumption|]). right. exists e. auto.
Qed.

Lemma reset_ready : forall T dv d rxs txs w, node_running T d (all_keys rxs ++ all_keys txs) w ->
  NoDup (all_keys rxs ++ all_keys txs) -> (forall k, In k (all_keys rxs ++ all_keys txs) -> ~ pdo_parameter k) ->
  (forall log k b, In k (all_keys rxs ++ all_keys txs) -> List.length (fst (dv_read dv log k b)) = List.length b) ->
  (forall q, In q rxs -> mappable T d sendable (q_layout q)) -> (forall q, In q txs -> mappable T d receivable (q_layout q)) ->
  node_ready T dv d rxs txs (reset_world d w).
Proof.
  intros T dv d rxs txs w [U1 U2 U3 U4 U5] K A L Mr Mt.
  assert (Mk : forall k, In k (all_keys rxs ++ all_keys txs) -> numeric (T k) /\ exists e, lookup k d = Some e /\ h_type (e_def e) = Some (T k) /\ entry_plain (T k) e).
  { assert (G : forall use qs, (forall q, In q qs -> mappable T d use (q_layout q)) -> forall k, In k (all_keys qs) -> numeric (T k) /\ exists e, lookup k d = Some e /\ h_type (e_def e) = Some (T k) /\ entry_plain (T k) e).
    { intros use qs M k Hk. unfold all_keys in Hk. apply in_flat_map in Hk as [q [Hq Hk]]. destruct (M q Hq) as [_ M']. destruct (M' k Hk) as [N [e [E1 [E2 [E3 _]]]]]. eauto 10. }
    intros k Hk. apply in_app_or in Hk as [Hk|Hk]; [exact (G _ _ Mr k Hk)|exact (G _ _ Mt k Hk)]. }
  constructor; auto.
  - intros k c Hc. destruct (reset_keeps _ _ _ _ Hc) as [c0 [H0 [E1 [E2 _]]]]. rewrite E1, E2. apply (U2 k c0 H0).
  - intros k Hk c Hc. destruct (reset_keeps _ _ _ _ Hc) as [c0 [H0 [E1 [E2 _]]]]. rewrite E1, E2. apply (U3 k Hk c0 H0).
  - intros index s c e b Hi Hs Hc He Hg Hn. destruct (reset_keeps _ _ _ _ Hc) as [c0 [H0 [_ [_ [_ [[_ X]|[e' [He' ->]]]]]]]]; [congruence|].
    assert (e' = e) by congruence. subst e'. destruct Hg as [[G _]|[_ [G1 G2]]]; [congruence|].
    unfold data_reset. rewrite G1, G2, (U4 index s c0 e Hi Hs H0 He G2 Hn). cbn. auto.
  - intros k c Hk Hc. destruct (reset_keeps _ _ _ _ Hc) as [c0 [H0 [_ [_ [E3 [[_ X]|[e' [He' E]]]]]]]]; destruct (Mk k Hk) as [Nm [e [M1 [M2 M3]]]]; [congruence|].
    assert (e' = e) by congruence. subst e'. destruct (U5 k c0 Hk H0) as [V1 V2]. split; [congruence|].
    unfold data_reset in E. rewrite M2, V1 in E. destruct (h_data (e_def e)) as [dv0|] eqn:Ed.
    + assert (Tt : ty_eqb (T k) (T k) = true) by (unfold numeric in Nm; destruct (T k) as [i|n| |i]; try contradiction; cbn; unfold ity_eqb; rewrite ?Z.eqb_refl, ?Bool.eqb_reflx, ?Nat.eqb_refl; reflexivity). rewrite Tt in E. subst c. cbn [set_buf c_buf c_valid]. split; [|auto].
      destruct M3 as [M3 _]. unfold hold_ok in M3. rewrite Ed in M3. destruct M3 as [_ M3]. unfold value_ok in M3. destruct (T k); [exact M3|exact M3|contradiction|contradiction].
    + subst c. cbn [c_buf c_valid]. split; [exact V2|]. intros e0 He0 X. exfalso. apply X. congruence.
Qed.

(** After a reset of the storage, whatever values and connections it had, the
    PDOs are the described ones and no object is connected to a destroyed buffer. *)
Theorem C86_boot_again : forall T dv d nid junk nr_tx nr_rx rxs txs m0 w w1 m, List.length junk = 8%nat -> sub_counts d ->
  described d nid 0x1800 0x1A00 (range 512) rxs -> described d nid 0x1400 0x1600 (range 512) txs ->
  NoDup (all_keys rxs ++ all_keys txs) -> (forall k, In k (all_keys rxs ++ all_keys txs) -> ~ pdo_parameter k) ->
  (forall log k b, In k (all_keys rxs ++ all_keys txs) -> List.length (fst (dv_read dv log k b)) = List.length b) ->
  (forall q, In q rxs -> mappable T d sendable (q_layout q)) -> (forall q, In q txs -> mappable T d receivable (q_layout q)) ->
  node_running T d (all_keys rxs ++ all_keys txs) w ->
  (forall p i, In p (rpdos m0 ++ tpdos m0) -> In i (p_bufs p) -> (i < w_next w)%nat) ->
  mapper_init dv d nid junk nr_tx nr_rx m0 (reset_world d w) = Ok (w1, m, None) ->
  Forall2 (receives T d w1) (firstn nr_tx rxs) (rpdos m) /\ Forall2 (transmits T d w1) (firstn nr_rx txs) (tpdos m) /\
  ((forall p k c, In p (rpdos m0 ++ tpdos m0) -> lookup k (w_store w) = Some c -> In (c_rd c) (p_bufs p) \/ In (c_wr c) (p_bufs p) ->
      In k (all_keys (firstn nr_tx rxs) ++ all_keys (firstn nr_rx txs))) ->
   no_dangling w -> no_dangling w1).
Proof.
  intros T dv d nid junk nt nx rxs txs m0 w w1 m Hj Hs Dr Dt K A L Mr Mt U Cr H.
  pose proof (reset_ready T dv d rxs txs w U K A L Mr Mt) as R.
  destruct (C86_again _ _ _ _ _ _ _ _ _ _ _ _ _ Hj Hs Dr Dt R Cr H) as [F1 F2]. split; [exact F1|]. split; [exact F2|].
  intros Ag Nd. refine (C68_again_partial _ _ _ _ _ _ _ _ _ _ _ _ _ Hj Hs Dr Dt R Cr _ _ H).
  - intros p k c Hp Hc. destruct (reset_keeps _ _ _ _ Hc) as [c0 [H0 [E1 [E2 _]]]]. rewrite E1, E2. apply (Ag p k c0 Hp H0).
  - intros k c Hc. destruct (reset_keeps _ _ _ _ Hc) as [c0 [H0 [E1 [E2 _]]]]. rewrite E1, E2. exact (Nd k c0 H0).
Qed.
Print Assumptions C86_boot_again.

(** If the device does not answer any more, the later set-up ends with an
    exception after the earlier PDOs were destroyed. The objects are still
    connected to their buffers, and the next access to them is undefined. *)
Definition conf_params : dict := [
  (key_sub 0x1800 0, ro (h8 2) no_value); (key_sub 0x1800 1, rw (h32 0x181) no_value);
  (key_sub 0x1800 2, rw (h8 1) no_value);
  (key_sub 0x1A00 0, rw (h8 2) (h8 2)); (key_sub 0x1A00 1, rw (h32 0x60410010) (h32 0x60410010));
  (key_sub 0x1A00 2, rw (h32 0x60610008) (h32 0x60610008))].
Definition silent : device := mkDevice (fun _ _ data => (data, false)) (fun _ _ _ => false).
Theorem C68_again_refuted : exists w1 m1 w2 m2,
  let d := conf_params ++ objects in
  mapper_init dev d 1 junk8 4 4 (mkMapper [] []) fresh = Ok (w1, m1, None) /\
  obj dev d k_sw (SGet false) w1 <> Undef /\
  mapper_init silent d 1 junk8 4 4 m1 w1 = Ok (w2, m2, Some (PStorage DeviceError)) /\
  obj dev d k_sw (SGet false) w2 = Undef.
Proof.
  do 4 eexists. cbv zeta. split; [vm_compute; reflexivity|]. split; [vm_compute; discriminate|].
  split; [vm_compute; reflexivity|]. vm_compute. reflexivity.
Qed.
Print Assumptions C68_again_refuted.

(** The same happens in the first set-up if the device does not answer while the
    second object of a PDO is mapped: the first one is connected already. *)
Definition half : device := mkDevice (fun _ k data => (data, negb (k =? k_disp))) (fun _ _ _ => true).
Theorem C68_failed_refuted : exists w1 m1,
  mapper_init half ex_dict 1 junk8 4 4 (mkMapper [] []) fresh = Ok (w1, m1, Some (PStorage DeviceError)) /\
  obj dev ex_dict k_sw (SGet false) w1 = Undef.
Proof. do 2 eexists. split; vm_compute; reflexivity. Qed.
Print Assumptions C68_failed_refuted.

(** ** Example: the node of C86 is set up for a second time *)

Lemma world_cells : forall (P : Z -> cell -> Prop) (st : storage), Forall (fun x => P (fst x) (snd x)) st -> forall k c, lookup k st = Some c -> P k c.
Proof.
  intros P st F k c. induction F as [|[k' c'] st H F IH]; [discriminate|]. cbn [lookup].
  destruct (Z.eqb_spec k' k) as [->|N]; [intros E; injection E as <-; exact H|exact IH].
Qed.
Example C68_again_ready : node_ready ex_T dev ex_dict [rx_desc] [tx_desc] ex_world.
Proof.
  assert (K : all_keys [rx_desc] ++ all_keys [tx_desc] = [k_sw; k_disp; k_cw; k_mode]) by reflexivity.
  destruct C86_ex_ready as [_ _ _ _ A5 A6 _ A8 A9 A10].
  constructor; auto; try rewrite K.
  - cbn. lia.
  - intros k c H. revert k c H. refine (world_cells (fun _ c => (c_rd c < w_next ex_world /\ c_wr c < w_next ex_world)%nat) _ _).
    unfold ex_world. cbn [w_store w_next]. repeat constructor; cbn; lia.
  - intros k Hk c H. assert (G : ~ In k [k_sw; k_disp; k_cw; k_mode]) by (intros X; apply (A6 k); [rewrite K; exact X|exact Hk]).
    revert G. revert k c H Hk. refine (fun k c H _ => world_cells (fun k c => ~ In k [k_sw; k_disp; k_cw; k_mode] -> c_wr c = 0%nat /\ c_rd c = 0%nat) _ _ k c H).
    unfold ex_world. cbn [w_store].
    repeat (constructor; [cbn [fst snd c_rd c_wr]; first [intros _; split; reflexivity | intros N; exfalso; apply N; vm_compute; tauto]|]). constructor.
  - intros index s c e b Hi Hs Hc He Hg _. remember (key_sub index s) as k. clear Heqk.
    revert e b He Hg. refine (world_cells (fun k c => forall e b, lookup k ex_dict = Some e -> given e (TInt (mkIty false 4)) b -> c_valid c = true /\ c_buf c = b) _ _ k c Hc).
    unfold ex_world. cbn [w_store].
    repeat (constructor; [cbn [fst snd]; intros e b He Hg; vm_compute in He; injection He as <-; cbn in Hg; 
      destruct Hg as [[Hg _]|[_ [Hg Ht]]]; [discriminate|]; try discriminate; injection Hg as <-; split; reflexivity|]). constructor.
  - intros k c Hk Hc. destruct Hk as [<-|[<-|[<-|[<-|[]]]]]; vm_compute in Hc; injection Hc as <-;
      (split; [reflexivity|]; split; [reflexivity|]); intros e He Hd; vm_compute in He; injection He as <-; try reflexivity; exfalso; apply Hd; reflexivity.
Qed.

Example C68_again_ex : exists w2 m2,
  mapper_init dev ex_dict 1 junk8 4 4 (mkMapper [ex_rpdo] [ex_tpdo]) ex_world = Ok (w2, m2, None) /\ no_dangling w2 /\
  Forall2 (receives ex_T ex_dict w2) [rx_desc] (rpdos m2) /\ Forall2 (transmits ex_T ex_dict w2) [tx_desc] (tpdos m2) /\
  (forall i, In i (p_bufs ex_rpdo) -> w_bufs w2 i = None).
Proof.
  assert (E : exists w2 m2, mapper_init dev ex_dict 1 junk8 4 4 (mkMapper [ex_rpdo] [ex_tpdo]) ex_world = Ok (w2, m2, None)) by (do 2 eexists; vm_compute; reflexivity).
  destruct E as [w2 [m2 E]]. exists w2, m2. split; [exact E|].
  assert (Cr : forall p i, In p (rpdos (mkMapper [ex_rpdo] [ex_tpdo]) ++ tpdos (mkMapper [ex_rpdo] [ex_tpdo])) -> In i (p_bufs p) -> (i < w_next ex_world)%nat).
  { intros p i [<-|[<-|[]]] Hi; vm_compute in Hi; cbn; intuition lia. }
  split; [|split; [|split]].
  - refine (C68_again_partial ex_T dev ex_dict 1 junk8 4%nat 4%nat [rx_desc] [tx_desc] _ ex_world w2 m2 eq_refl ex_subs C86_ex_rx C86_ex_tx C68_again_ready Cr _ _ E).
    + intros p k c Hp Hc. change (all_keys (firstn 4 [rx_desc]) ++ all_keys (firstn 4 [tx_desc])) with [k_sw; k_disp; k_cw; k_mode].
      revert k c Hc. refine (world_cells (fun k c => In (c_rd c) (p_bufs p) \/ In (c_wr c) (p_bufs p) -> In k [k_sw; k_disp; k_cw; k_mode]) _ _).
      unfold ex_world. cbn [w_store]. destruct Hp as [<-|[<-|[]]];
      (repeat (constructor; [cbn [fst snd c_rd c_wr]; first [intros _; vm_compute; tauto | intros N; exfalso; vm_compute in N; intuition discriminate]|]); constructor).
    + intros k c. revert k c. refine (world_cells (fun _ c => live ex_world (c_rd c) = true /\ live ex_world (c_wr c) = true) _ _).
      unfold ex_world at 3. cbn [w_store]. repeat (constructor; [split; vm_compute; reflexivity|]). constructor.
  - exact (proj1 (C86_again ex_T dev ex_dict 1 junk8 4%nat 4%nat [rx_desc] [tx_desc] _ ex_world w2 m2 eq_refl ex_subs C86_ex_rx C86_ex_tx C68_again_ready Cr E)).
  - exact (proj2 (C86_again ex_T dev ex_dict 1 junk8 4%nat 4%nat [rx_desc] [tx_desc] _ ex_world w2 m2 eq_refl ex_subs C86_ex_rx C86_ex_tx C68_again_ready Cr E)).
  - intros i Hi. exact (proj1 (C68_freed ex_T dev ex_dict 1 junk8 4%nat 4%nat [rx_desc] [tx_desc] _ ex_world w2 m2 eq_refl ex_subs C86_ex_rx C86_ex_tx C68_again_ready Cr E
      ex_rpdo i (or_introl eq_refl) Hi)).
Qed.

(** The node of [ex_world] is running; booted again its PDOs are the described ones. *)
Example C86_boot_again_running : node_running ex_T ex_dict (all_keys [rx_desc] ++ all_keys [tx_desc]) ex_world.
Proof.
  destruct C68_again_ready as [A1 A2 A3 _ _ _ A7 _ _ _]. constructor; auto.
  - intros index s c e _ _ Hc He Ht _. remember (key_sub index s) as k. clear Heqk.
    revert e He Ht. refine (world_cells (fun k c => forall e, lookup k ex_dict = Some e -> h_type (e_def e) = Some (TInt (mkIty false 4)) -> c_type c = TInt (mkIty false 4)) _ _ k c Hc).
    unfold ex_world. cbn [w_store].
    repeat (constructor; [cbn [fst snd]; intros e He Ht; vm_compute in He; injection He as <-; cbn in Ht; try discriminate; reflexivity|]). constructor.
  - intros k c Hk Hc. destruct (A7 k c Hk Hc) as [X [Y _]]. auto.
Qed.
Example C86_boot_again_ex : exists w2 m2,
  mapper_init dev ex_dict 1 junk8 4 4 (mkMapper [ex_rpdo] [ex_tpdo]) (reset_world ex_dict ex_world) = Ok (w2, m2, None) /\
  Forall2 (receives ex_T ex_dict w2) [rx_desc] (rpdos m2) /\ Forall2 (transmits ex_T ex_dict w2) [tx_desc] (tpdos m2).
Proof.
  assert (E : exists w2 m2, mapper_init dev ex_dict 1 junk8 4 4 (mkMapper [ex_rpdo] [ex_tpdo]) (reset_world ex_dict ex_world) = Ok (w2, m2, None)) by (do 2 eexists; vm_compute; reflexivity).
  destruct E as [w2 [m2 E]]. exists w2, m2. split; [exact E|].
  assert (Cr : forall p i, In p (rpdos (mkMapper [ex_rpdo] [ex_tpdo]) ++ tpdos (mkMapper [ex_rpdo] [ex_tpdo])) -> In i (p_bufs p) -> (i < w_next ex_world)%nat).
  { intros p i [<-|[<-|[]]] Hi; vm_compute in Hi; cbn; intuition lia. }
  destruct C68_again_ready as [_ _ _ _ A5 A6 _ A8 A9 A10].
  destruct (C86_boot_again ex_T dev ex_dict 1 junk8 4%nat 4%nat [rx_desc] [tx_desc] _ ex_world w2 m2 eq_refl ex_subs C86_ex_rx C86_ex_tx A5 A6 A8 A9 A10 C86_boot_again_running Cr E) as [F1 [F2 _]].
  split; [exact F1|exact F2].
Qed.
