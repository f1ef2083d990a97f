(** Properties C86 and C68, continued: a node that is used and booted any number of
    times (Node::handleInit, canopen_master/src/node.cpp 44-54, 176-191;
    PDOMapper::init, canopen_master/src/pdo.cpp 175-209). *)
From Verif Require Import Base CanModel CanSpec KeyModel KeySpec KeyProofs StorageModel StorageSpec StorageProofs PdoModel PdoSpec PdoConfProofs PdoLiveProofs PdoTxProofs SdoChanSpec PdoSetupSpec PdoBootSpec PdoSetupProofs PdoNodeProofs PdoBootProofs PdoUsedProofs PdoPlainProofs PdoSetupProps PdoAgainProps PdoProps.

(** What holds throughout the life of a node. *)
Record alive (T : Z -> ty) (d : dict) (nt nx : nat) (rxs txs : list pdo_desc) (w : pw) (m : mapper) : Prop := {
  al_run : W w;
  al_typed : PdoBootProofs.typed T d (all_keys rxs ++ all_keys txs) w;
  al_bufs : forall p i, In p (rpdos m ++ tpdos m) -> In i (p_bufs p) -> (0 < i < w_next w)%nat;
  al_keys : forall k c, lookup k (w_store w) = Some c -> ~ (c_rd c = 0%nat /\ c_wr c = 0%nat) ->
    In k (all_keys (firstn nt rxs) ++ all_keys (firstn nx txs));
  al_live : no_dangling w
}.

Lemma alive_running : forall T d nt nx rxs txs w m, alive T d nt nx rxs txs w m -> node_running T d (all_keys rxs ++ all_keys txs) w.
Proof.
  intros T d nt nx rxs txs w m [[W1 [W2 W3]] Ty _ _ _]. constructor; auto.
  - intros index s c e _ _ Hc. apply (Ty _ c Hc).
  - intros k c Hk Hc. apply (Ty k c Hc), Hk.
Qed.

Lemma typed_mapped : forall T d nid rxs txs, node_described T d nid rxs txs -> forall k, In k (all_keys rxs ++ all_keys txs) ->
  numeric (T k) /\ exists e, lookup k d = Some e /\ h_type (e_def e) = Some (T k) /\ entry_plain (T k) e.
Proof.
  intros T d nid rxs txs D k Hk.
  assert (G : forall use qs, (forall q, In q qs -> mappable T d use (q_layout q)) -> In k (all_keys qs) ->
    numeric (T k) /\ exists e, lookup k d = Some e /\ h_type (e_def e) = Some (T k) /\ entry_plain (T k) e).
  { intros use qs M X. unfold all_keys in X. apply in_flat_map in X as [q [Hq X]]. destruct (M q Hq) as [_ M'].
    destruct (M' k X) as [N [e [E1 [E2 [E3 _]]]]]. eauto 10. }
  apply in_app_or in Hk as [Hk|Hk]; [exact (G _ _ (nd_sent _ _ _ _ _ D) Hk)|exact (G _ _ (nd_received _ _ _ _ _ D) Hk)].
Qed.

Lemma alive_agree : forall T d nt nx rxs txs w m, alive T d nt nx rxs txs w m ->
  forall p k c, In p (rpdos m ++ tpdos m) -> lookup k (w_store w) = Some c -> In (c_rd c) (p_bufs p) \/ In (c_wr c) (p_bufs p) ->
  In k (all_keys (firstn nt rxs) ++ all_keys (firstn nx txs)).
Proof.
  intros T d nt nx rxs txs w m A p k c Hp Hc X. apply (al_keys _ _ _ _ _ _ _ _ A k c Hc). intros [E1 E2].
  destruct X as [X|X]; apply (al_bufs _ _ _ _ _ _ _ _ A p _ Hp) in X; lia.
Qed.

(** The heartbeat interval is written between the reset and the set-up of the PDOs. *)
Lemma heart_apart : ~ pdo_parameter heartbeat.
Proof.
  intros [i [s [Hi [Hs E]]]]. assert (X : KIndex 0x1017 = KSub i s) by (apply mk_key_inj; [cbn; lia|cbn; lia|exact E]). discriminate.
Qed.
Lemma com_reset_cells : forall d ks w w0, com_reset d ks w w0 -> w_next w0 = w_next w /\ (forall i, live w i = true -> live w0 i = true) /\
  forall k c, lookup k (w_store w0) = Some c -> exists c0, lookup k (w_store (reset_world d w)) = Some c0 /\
    c_type c = c_type c0 /\ c_rd c = c_rd c0 /\ c_wr c = c_wr c0 /\ (c = c0 \/ k = heartbeat /\ ~ In k ks).
Proof.
  intros d ks w w0 [|dv v w1 r N H].
  - split; [reflexivity|]. split; [auto|]. intros k c Hc. exists c. auto 6.
  - destruct (obj_inv _ _ _ _ _ _ _ H) as [[-> _]|(c & e & rd & wr & c1 & ev & res & Ec & Ee & Es & El & -> & _)].
    { split; [reflexivity|]. split; [auto|]. intros k c Hc. exists c. auto 6. }
    destruct (step_uses _ (to_op (SSet v) rd wr) _ _ _ _ Logic.I Es) as [[K0 [K1 K2]] _].
    split; [reflexivity|]. split; [intros i Hi; unfold live in *; cbn [w_bufs]; apply live_apply, Hi|]. intros k c' Hc. cbn [w_store] in Hc. destruct (Z.eq_dec k heartbeat) as [->|Nk].
    + rewrite lookup_store_eq in Hc. injection Hc as <-. exists c. auto 8.
    + rewrite lookup_store_neq in Hc by congruence. exists c'. auto 6.
Qed.
Lemma com_reset_ready : forall T dv d rxs txs w w0, com_reset d (all_keys rxs ++ all_keys txs) w w0 ->
  node_ready T dv d rxs txs (reset_world d w) -> node_ready T dv d rxs txs w0.
Proof.
  intros T dv d rxs txs w w0 C [R1 R2 R3 R4 R5 R6 R7 R8 R9 R10]. destruct (com_reset_cells _ _ _ _ C) as [E [_ K]]. constructor; auto.
  - rewrite E. exact R1.
  - intros k c Hc. destruct (K k c Hc) as (c0 & H0 & _ & -> & -> & _). rewrite E. exact (R2 k c0 H0).
  - intros k P c Hc. destruct (K k c Hc) as (c0 & H0 & _ & -> & -> & _). exact (R3 k P c0 H0).
  - intros i s c e b Hi Hs Hc He Hg Hn. destruct (K _ c Hc) as (c0 & H0 & _ & _ & _ & [->|[X _]]); [exact (R4 i s c0 e b Hi Hs H0 He Hg Hn)|].
    exfalso. apply heart_apart. rewrite <- X. exists i, s. repeat split; lia.
  - intros k c Hk Hc. destruct (K k c Hc) as (c0 & H0 & _ & _ & _ & [->|[_ X]]); [exact (R7 k c0 Hk H0)|contradiction].
Qed.

Lemma alive_boot : forall T dv d nid junk nt nx rxs txs m w w0 w1 m1, node_described T d nid rxs txs -> List.length junk = 8%nat ->
  (forall log k b, In k (all_keys rxs ++ all_keys txs) -> List.length (fst (dv_read dv log k b)) = List.length b) ->
  alive T d nt nx rxs txs w m -> com_reset d (all_keys rxs ++ all_keys txs) w w0 -> mapper_init dv d nid junk nt nx m w0 = Ok (w1, m1, None) ->
  alive T d nt nx rxs txs w1 m1.
Proof.
  intros T dv d nid junk nt nx rxs txs m w w0 w1 m1 D Hj Sz A C H. pose proof D as [D1 D2 D3 D4 D5 D6 D7].
  pose proof (alive_running _ _ _ _ _ _ _ _ A) as U.
  pose proof (com_reset_ready _ _ _ _ _ _ _ C (reset_ready T dv d rxs txs w U D4 D5 Sz D6 D7)) as R. destruct (com_reset_cells _ _ _ _ C) as [En [El Kc]].
  assert (Cr : created (rpdos m ++ tpdos m) w0).
  { intros p i Hp Hi. rewrite En. apply (al_bufs _ _ _ _ _ _ _ _ A p i Hp Hi). }
  destruct (mapper_setup_any _ _ _ _ _ _ _ _ _ _ _ _ _ Hj D1 D2 D3 R Cr H) as [F1 [F2 [W1 [Sm [Kp _]]]]].
  constructor.
  - exact W1.
  - refine (typed_mapper T dv d nid _ D5 Sz (typed_mapped _ _ _ _ _ D) junk nt nx m _ w1 m1 None _ H).
    intros k c Hc. destruct (Kc _ c Hc) as (c' & Hc' & E' & _). destruct (reset_keeps _ _ _ _ Hc') as [c0 [H0 [_ [_ [E _]]]]]. split.
    + intros e He Ht Hn. rewrite E', E. exact (proj1 (al_typed _ _ _ _ _ _ _ _ A k c0 H0) e He Ht Hn).
    + intros Hk. destruct (nr_object _ _ _ _ _ _ R k c Hk Hc) as [X [Y _]]. auto.
  - assert (G : forall rx qs ps p i, Forall2 (is_pdo T d rx (w_next w0) w1) qs ps -> In p ps -> In i (p_bufs p) -> (0 < i < w_next w1)%nat).
    { intros rx qs ps p i F. induction F as [|q p' qs ps [_ [B _]] F IH]; intros Hp Hi; [contradiction|]. destruct Hp as [->|Hp]; [|apply IH; assumption].
      pose proof (B i Hi). pose proof (nr_next _ _ _ _ _ _ R). lia. }
    intros p i Hp Hi. apply in_app_or in Hp as [Hp|Hp]; [exact (G _ _ _ p i F1 Hp Hi)|exact (G _ _ _ p i F2 Hp Hi)].
  - intros k c Hc Nz. destruct (in_dec Z.eq_dec k (all_keys (firstn nt rxs) ++ all_keys (firstn nx txs))) as [X|X]; [exact X|].
    exfalso. apply Nz.
    destruct (Nat.eq_dec (c_rd c) 0) as [E1|E1]; [destruct (Nat.eq_dec (c_wr c) 0) as [E2|E2]; [auto|]|]; exfalso.
    all: assert (Np : ~ pdo_parameter k) by (intros P; destruct W1 as [_ [_ W3]]; destruct (W3 k P c Hc); lia).
    all: rewrite (Sm k X Np) in Hc; destruct (Kc _ c Hc) as (c' & Hc' & _ & Y3 & Y4 & _); destruct (reset_keeps _ _ _ _ Hc') as [c0 [H0 [Y1 [Y2 _]]]];
      apply X, (al_keys _ _ _ _ _ _ _ _ A k c0 H0); intros [Q1 Q2]; lia.
  - refine (C68_again_partial _ _ _ _ _ _ _ _ _ _ _ _ _ Hj D1 D2 D3 R Cr _ _ H).
    + intros p k c Hp Hc. destruct (Kc _ c Hc) as (c' & Hc' & _ & Y3 & Y4 & _). destruct (reset_keeps _ _ _ _ Hc') as [c0 [H0 [Y1 [Y2 _]]]].
      rewrite Y3, Y4, Y1, Y2. exact (alive_agree _ _ _ _ _ _ _ _ A p k c0 Hp H0).
    + intros k c Hc. destruct (Kc _ c Hc) as (c' & Hc' & _ & Y3 & Y4 & _). destruct (reset_keeps _ _ _ _ Hc') as [c0 [H0 [Y1 [Y2 _]]]].
      rewrite Y3, Y4, Y1, Y2. destruct (al_live _ _ _ _ _ _ _ _ A k c0 H0). auto.
Qed.

Lemma same_in : forall m m2 p, same_pdos m m2 -> In p (rpdos m2 ++ tpdos m2) -> exists q, In q (rpdos m ++ tpdos m) /\ p_bufs q = p_bufs p.
Proof.
  intros m m2 p [R T] Hp. assert (X : In (p_bufs p) (List.map p_bufs (rpdos m ++ tpdos m))).
  { rewrite map_app, <- R, <- T, <- map_app. apply in_map, Hp. }
  apply in_map_iff in X as [q [E Hq]]. eauto.
Qed.
Lemma lives_alive : forall T d nid nt nx rxs txs w m, node_described T d nid rxs txs ->
  lives T d nid nt nx (all_keys rxs ++ all_keys txs) w m -> alive T d nt nx rxs txs w m.
Proof.
  intros T d nid nt nx rxs txs w m D L. induction L as [w W0 C|w w2 m m2 L IH O Sp|dv junk w w0 w1 m m1 L IH Hj Sz C H].
  - constructor.
    + split; [exact W0|]. split; [intros k c Hc|intros k _ c Hc]; destruct (C k c Hc) as [_ [E1 E2]]; rewrite E1, E2; auto.
    + intros k c Hc. apply (C k c Hc).
    + intros p i [].
    + intros k c Hc N. destruct (C k c Hc) as [_ X]. contradiction.
    + intros k c Hc. destruct (C k c Hc) as [_ [E1 E2]]. rewrite E1, E2. auto.
  - destruct IH as [[W1 [W2 W3]] Ty B K N]. destruct O as [O1 [O2 O3]]. constructor.
    + split; [lia|]. split; [intros k c Hc|intros k P c Hc]; destruct (O3 k c Hc) as [_ O]; destruct (lookup k (w_store w)) as [c0|] eqn:E; destruct O as [-> ->].
      * rewrite O1. exact (W2 k c0 E).
      * lia.
      * exact (W3 k P c0 E).
      * auto.
    + intros k c Hc. apply (O3 k c Hc).
    + intros p i Hp Hi. rewrite O1. destruct (same_in _ _ _ Sp Hp) as [q [Hq E]]. rewrite <- E in Hi. exact (B q i Hq Hi).
    + intros k c Hc Nz. destruct (O3 k c Hc) as [_ O]. destruct (lookup k (w_store w)) as [c0|] eqn:E; destruct O as [E1 E2]; rewrite E1, E2 in Nz; [exact (K k c0 E Nz)|].
      exfalso. auto.
    + assert (L2 : forall i, live w i = true -> live w2 i = true).
      { intros i. unfold live. destruct i; [auto|]. pose proof (O2 (S i)) as [X _]. destruct (w_bufs w (S i)), (w_bufs w2 (S i)); auto.
        intros _. specialize (X eq_refl). discriminate. }
      intros k c Hc. destruct (O3 k c Hc) as [_ O]. destruct (lookup k (w_store w)) as [c0|] eqn:E; destruct O as [-> ->]; [|auto].
      destruct (N k c0 E). auto.
  - exact (alive_boot _ _ _ _ _ _ _ _ _ _ _ _ _ _ D Hj Sz IH C H).
Qed.

(** However long a node has been in use and however often it was booted, every
    further boot that succeeds leaves the described PDOs. *)
Theorem C86_every_boot : forall T dv d nid junk nr_tx nr_rx rxs txs w w0 m w1 m1, node_described T d nid rxs txs ->
  lives T d nid nr_tx nr_rx (all_keys rxs ++ all_keys txs) w m -> List.length junk = 8%nat ->
  (forall log k b, In k (all_keys rxs ++ all_keys txs) -> List.length (fst (dv_read dv log k b)) = List.length b) ->
  com_reset d (all_keys rxs ++ all_keys txs) w w0 -> mapper_init dv d nid junk nr_tx nr_rx m w0 = Ok (w1, m1, None) ->
  Forall2 (receives T d w1) (firstn nr_tx rxs) (rpdos m1) /\ Forall2 (transmits T d w1) (firstn nr_rx txs) (tpdos m1).
Proof.
  intros T dv d nid junk nt nx rxs txs w w0 m w1 m1 D L Hj Sz C H. pose proof (lives_alive _ _ _ _ _ _ _ _ _ D L) as A.
  destruct D as [D1 D2 D3 D4 D5 D6 D7].
  refine (C86_again _ _ _ _ _ _ _ _ _ _ _ _ _ Hj D1 D2 D3 (com_reset_ready _ _ _ _ _ _ _ C (reset_ready T dv d rxs txs w (alive_running _ _ _ _ _ _ _ _ A) D4 D5 Sz D6 D7)) _ H).
  intros p i Hp Hi. rewrite (proj1 (com_reset_cells _ _ _ _ C)). exact (proj2 (al_bufs _ _ _ _ _ _ _ _ A p i Hp Hi)).
Qed.
Print Assumptions C86_every_boot.

(** The same if boots fail in between, however they fail. *)
Lemma endures_running : forall T d nid nt nx rxs txs w m, node_described T d nid rxs txs ->
  endures T d nid nt nx (all_keys rxs ++ all_keys txs) w m ->
  W w /\ PdoBootProofs.typed T d (all_keys rxs ++ all_keys txs) w /\ created (rpdos m ++ tpdos m) w.
Proof.
  intros T d nid nt nx rxs txs w m D L. induction L as [w W0 C|w w2 m m2 L IH O Sp|dv junk w w0 w1 m m1 x L IH Hj Sz C H].
  - split; [|split].
    + split; [exact W0|]. split; [intros k c Hc|intros k _ c Hc]; destruct (C k c Hc) as [_ [E1 E2]]; rewrite E1, E2; auto.
    + intros k c Hc. apply (C k c Hc).
    + intros p i [].
  - destruct IH as [[W1 [W2 W3]] [Ty B]]. destruct O as [O1 [O2 O3]]. split; [|split].
    + split; [lia|]. split; [intros k c Hc|intros k P c Hc]; destruct (O3 k c Hc) as [_ O]; destruct (lookup k (w_store w)) as [c0|] eqn:E; destruct O as [-> ->].
      * rewrite O1. exact (W2 k c0 E).
      * lia.
      * exact (W3 k P c0 E).
      * auto.
    + intros k c Hc. apply (O3 k c Hc).
    + intros p i Hp Hi. rewrite O1. destruct (same_in _ _ _ Sp Hp) as [q [Hq E]]. rewrite <- E in Hi. exact (B q i Hq Hi).
  - destruct IH as [[W1 [W2 W3]] [Ty B]]. pose proof D as [D1 D2 D3 D4 D5 D6 D7].
    assert (U : node_running T d (all_keys rxs ++ all_keys txs) w).
    { constructor; auto; [intros index s c e _ _ Hc; apply (Ty _ c Hc)|intros k c Hk Hc; apply (Ty k c Hc), Hk]. }
    pose proof (com_reset_ready _ _ _ _ _ _ _ C (reset_ready T dv d rxs txs w U D4 D5 Sz D6 D7)) as R. destruct (com_reset_cells _ _ _ _ C) as [En [_ Kc]].
    assert (Us : used w0) by (split; [rewrite En; exact W1|exact (nr_used _ _ _ _ _ _ R)]).
    assert (B0 : created (rpdos m ++ tpdos m) w0) by (intros p i Hp Hi; rewrite En; exact (B p i Hp Hi)).
    destruct (used_mapper dv d nid junk nt nx m _ w1 m1 x Us B0 H) as [[V1 V2] V3].
    split; [|split; [|exact V3]].
    + split; [exact V1|]. split; [exact V2|]. refine (proj1 (J_mapper dv d nid rxs txs junk nt nx m _ w1 m1 x D2 D3 D5 _ H)). split; [exact (nr_plain _ _ _ _ _ _ R)|].
      intros k c e b (i & s & Hi & Hs & ->) Hc He Hg Hn. assert (Hr : 0x1400 <= i < 0x1C00) by (unfold mapping_index in Hi; lia).
      split; [|exact (nr_entry _ _ _ _ _ _ R i s c e b Hr Hs Hc He Hg Hn)].
      destruct (Kc _ c Hc) as (c' & Hc' & E' & _). destruct (reset_keeps _ _ _ _ Hc') as [c0 [H0 [_ [_ [E _]]]]]. rewrite E', E. destruct Hg as [[Hg _]|[_ [_ Hg]]]; [congruence|]. exact (ru_entry _ _ _ _ U i s c0 e Hr Hs H0 He Hg Hn).
    + refine (typed_mapper T dv d nid _ D5 Sz (typed_mapped _ _ _ _ _ D) junk nt nx m _ w1 m1 x _ H).
      intros k c Hc. destruct (Kc _ c Hc) as (c' & Hc' & E' & _). destruct (reset_keeps _ _ _ _ Hc') as [c0 [H0 [_ [_ [E _]]]]]. split.
      * intros e He Ht Hn. rewrite E', E. exact (proj1 (Ty k c0 H0) e He Ht Hn).
      * intros Hk. destruct (nr_object _ _ _ _ _ _ R k c Hk Hc) as [X [Y _]]. auto.
Qed.
Theorem C86_after_failure : forall T dv d nid junk nr_tx nr_rx rxs txs w w0 m w1 m1, node_described T d nid rxs txs ->
  endures T d nid nr_tx nr_rx (all_keys rxs ++ all_keys txs) w m -> List.length junk = 8%nat ->
  (forall log k b, In k (all_keys rxs ++ all_keys txs) -> List.length (fst (dv_read dv log k b)) = List.length b) ->
  com_reset d (all_keys rxs ++ all_keys txs) w w0 -> mapper_init dv d nid junk nr_tx nr_rx m w0 = Ok (w1, m1, None) ->
  Forall2 (receives T d w1) (firstn nr_tx rxs) (rpdos m1) /\ Forall2 (transmits T d w1) (firstn nr_rx txs) (tpdos m1).
Proof.
  intros T dv d nid junk nt nx rxs txs w w0 m w1 m1 D L Hj Sz C H. destruct (endures_running _ _ _ _ _ _ _ _ _ D L) as [[W1 [W2 W3]] [Ty B]].
  destruct D as [D1 D2 D3 D4 D5 D6 D7].
  assert (U : node_running T d (all_keys rxs ++ all_keys txs) w).
  { constructor; auto; [intros index s c e _ _ Hc; apply (Ty _ c Hc)|intros k c Hk Hc; apply (Ty k c Hc), Hk]. }
  refine (C86_again _ _ _ _ _ _ _ _ _ _ _ _ _ Hj D1 D2 D3 (com_reset_ready _ _ _ _ _ _ _ C (reset_ready T dv d rxs txs w U D4 D5 Sz D6 D7)) _ H).
  intros p i Hp Hi. rewrite (proj1 (com_reset_cells _ _ _ _ C)). exact (B p i Hp Hi).
Qed.
Print Assumptions C86_after_failure.

(** No object of such a node is connected to a buffer that was destroyed.
    [partial]: boots that fail are not among the histories; see
    [C68_failed_refuted]. *)
Theorem C68_every_boot_partial : forall T d nid nr_tx nr_rx rxs txs w m, node_described T d nid rxs txs ->
  lives T d nid nr_tx nr_rx (all_keys rxs ++ all_keys txs) w m -> no_dangling w.
Proof. intros T d nid nt nx rxs txs w m D L. apply (al_live _ _ _ _ _ _ _ _ (lives_alive _ _ _ _ _ _ _ _ _ D L)). Qed.
Print Assumptions C68_every_boot_partial.

(** A new node is booted, the value of an object changes, and it is booted again. *)
Example C86_every_boot_described : node_described ex_T ex_dict 1 [rx_desc] [tx_desc].
Proof.
  destruct C86_ex_ready as [_ _ _ _ A5 A6 _ _ A9 A10].
  constructor; [exact ex_subs|exact C86_ex_rx|exact C86_ex_tx|exact A5|exact A6|exact A9|exact A10].
Qed.
Definition changed (w : pw) : pw :=
  mkPW (store k_sw (match lookup k_sw (w_store w) with Some c => set_buf c [9; 9] | None => data_typed (TInt (mkIty false 2)) end) (w_store w)) (w_log w) (w_bufs w) (w_next w).
Example C86_every_boot_lives :
  lives ex_T ex_dict 1 4 4 (all_keys [rx_desc] ++ all_keys [tx_desc]) (changed ex_world) (mkMapper [ex_rpdo] [ex_tpdo]).
Proof.
  assert (L : lives ex_T ex_dict 1 4 4 (all_keys [rx_desc] ++ all_keys [tx_desc]) ex_world (mkMapper [ex_rpdo] [ex_tpdo])).
  { apply (Lboot ex_T ex_dict 1 4 4 _ dev junk8 fresh (reset_world ex_dict fresh) ex_world (mkMapper [] [])).
    - apply Lnew; [cbn; lia|]. intros k c H. discriminate.
    - reflexivity.
    - intros log k b _. reflexivity.
    - apply Rquiet.
    - exact ex_init_run. }
  apply (Lused _ _ _ _ _ _ ex_world _ (mkMapper [ex_rpdo] [ex_tpdo])); [exact L| |split; reflexivity].
  pose proof (al_typed _ _ _ _ _ _ _ _ (lives_alive _ _ _ _ _ _ _ _ _ C86_every_boot_described L)) as Ty.
  split; [reflexivity|]. split; [intros i; reflexivity|]. intros k c2 Hc. unfold changed in Hc. cbn [w_store] in Hc.
  destruct (lookup k_sw (w_store ex_world)) as [c|] eqn:E; [|vm_compute in E; discriminate].
  destruct (Z.eq_dec k k_sw) as [->|N].
  - rewrite lookup_store_eq in Hc. injection Hc as <-. rewrite E. destruct (Ty _ _ E) as [T1 T2]. split; [|split; reflexivity].
    split; [exact T1|]. intros Hk. destruct (T2 Hk) as [X Y]. split; [exact X|reflexivity].
  - rewrite lookup_store_neq in Hc by congruence. rewrite Hc. split; [exact (Ty k c2 Hc)|]. auto.
Qed.
Example C86_every_boot_ex : exists w2 m2,
  mapper_init dev ex_dict 1 junk8 4 4 (mkMapper [ex_rpdo] [ex_tpdo]) (reset_world ex_dict (changed ex_world)) = Ok (w2, m2, None) /\
  Forall2 (receives ex_T ex_dict w2) [rx_desc] (rpdos m2) /\ Forall2 (transmits ex_T ex_dict w2) [tx_desc] (tpdos m2) /\ no_dangling w2.
Proof.
  assert (E : exists w2 m2, mapper_init dev ex_dict 1 junk8 4 4 (mkMapper [ex_rpdo] [ex_tpdo]) (reset_world ex_dict (changed ex_world)) = Ok (w2, m2, None)) by (do 2 eexists; vm_compute; reflexivity).
  destruct E as [w2 [m2 E]]. exists w2, m2. split; [exact E|].
  assert (Sz : forall log k b, In k (all_keys [rx_desc] ++ all_keys [tx_desc]) -> List.length (fst (dv_read dev log k b)) = List.length b) by reflexivity.
  destruct (C86_every_boot ex_T dev ex_dict 1 junk8 4%nat 4%nat [rx_desc] [tx_desc] _ _ _ w2 m2 C86_every_boot_described C86_every_boot_lives eq_refl Sz (Rquiet _ _ _) E) as [F1 F2].
  split; [exact F1|]. split; [exact F2|].
  exact (C68_every_boot_partial ex_T ex_dict 1 4%nat 4%nat [rx_desc] [tx_desc] w2 m2 C86_every_boot_described
    (Lboot _ _ _ _ _ _ dev junk8 _ _ _ _ _ C86_every_boot_lives eq_refl Sz (Rquiet _ _ _) E)).
Qed.

(** The first boot of a node fails, as in [C68_failed_refuted]; the second succeeds. *)
Example C86_after_failure_ex : exists w1 m1 x w2 m2,
  mapper_init half ex_dict 1 junk8 4 4 (mkMapper [] []) fresh = Ok (w1, m1, Some x) /\
  mapper_init dev ex_dict 1 junk8 4 4 m1 (reset_world ex_dict w1) = Ok (w2, m2, None) /\
  Forall2 (receives ex_T ex_dict w2) [rx_desc] (rpdos m2) /\ Forall2 (transmits ex_T ex_dict w2) [tx_desc] (tpdos m2).
Proof.
  assert (E : exists w1 m1 x w2 m2, mapper_init half ex_dict 1 junk8 4 4 (mkMapper [] []) fresh = Ok (w1, m1, Some x) /\
    mapper_init dev ex_dict 1 junk8 4 4 m1 (reset_world ex_dict w1) = Ok (w2, m2, None)).
  { do 5 eexists. split; [vm_compute; reflexivity|]. vm_compute; reflexivity. }
  destruct E as (w1 & m1 & x & w2 & m2 & E1 & E2). exists w1, m1, x, w2, m2. split; [exact E1|]. split; [exact E2|].
  refine (C86_after_failure ex_T dev ex_dict 1 junk8 4%nat 4%nat [rx_desc] [tx_desc] w1 _ m1 w2 m2 C86_every_boot_described _ eq_refl _ (Rquiet _ _ _) E2).
  - refine (Eboot _ _ _ _ _ _ half junk8 fresh _ w1 (mkMapper [] []) m1 (Some x) _ eq_refl _ (Rquiet _ _ _) E1).
    + apply Enew; [cbn; lia|]. intros k c H. discriminate.
    + intros log k b _. unfold half. cbn. repeat match goal with |- context [if ?c then _ else _] => destruct c end; reflexivity.
  - intros log k b _. reflexivity.
Qed.

(** A node with a heartbeat interval, whose object is in the storage from its
    construction (node.cpp:33): it is written in the second boot. *)
Definition hb_dict : dict := ex_dict ++ [(heartbeat, rw (h16 100) no_value)].
Lemma hb_subs : sub_counts hb_dict.
Proof.
  assert (X : forallb (fun x => small (e_init (snd x)) && small (e_def (snd x))) hb_dict = true) by (vm_compute; reflexivity).
  intros index e b _ H G. apply lookup_In in H. rewrite forallb_forall in X. specialize (X _ H). cbn [snd] in X. apply andb_prop in X as [X1 X2].
  unfold small in *. apply bytes_dec. destruct G as [[G _]|[_ [G _]]]; rewrite G in *; assumption.
Qed.

Example C86_heartbeat_described : node_described ex_T hb_dict 1 [rx_desc] [tx_desc].
Proof.
  destruct C86_ex_ready as [_ _ _ _ A5 A6 _ _ _ _].
  constructor; [exact hb_subs| | |exact A5|exact A6| |].
  { rewrite range_cons. apply Dused; [reflexivity| | | |].
    - split; [vm_compute; intuition discriminate|]. split.
      + eexists. split; [vm_compute; reflexivity|]. right. vm_compute. auto.
      + intros [|[|i]] x H; [injection H as <-|injection H as <-|destruct i; discriminate].
        * exists (rw (h32 0x60410010) no_value), 0x10, 0, 0x41, 0x60. split; [vm_compute; reflexivity|].
          split; [right; vm_compute; auto|]. split; [apply bytes_dec; reflexivity|]. split; [reflexivity|].
          split; [lia|]. left. split; [reflexivity|]. vm_compute. discriminate.
        * exists (rw (h32 0x60610008) no_value), 0x08, 0, 0x61, 0x60. split; [vm_compute; reflexivity|].
          split; [right; vm_compute; auto|]. split; [apply bytes_dec; reflexivity|]. split; [reflexivity|].
          split; [lia|]. left. split; [reflexivity|]. vm_compute. discriminate.
    - split; [vm_compute; intuition discriminate|]. eexists. split; [vm_compute; reflexivity|].
      eexists _, _. split; [right; split; reflexivity|]. split; [vm_compute; reflexivity|]. left. split; vm_compute; reflexivity.
    - eexists. split; [vm_compute; reflexivity|]. right. vm_compute. auto.
    - apply all_absent. vm_compute. reflexivity. }
  { rewrite range_cons. apply Dused; [reflexivity| | | |].
    - split; [vm_compute; intuition discriminate|]. split.
      + eexists. split; [vm_compute; reflexivity|]. right. vm_compute. auto.
      + intros [|[|[|i]]] x H; [injection H as <-|injection H as <-|injection H as <-|destruct i; discriminate].
        * exists (rw (h32 0x60400010) no_value), 0x10, 0, 0x40, 0x60. split; [vm_compute; reflexivity|].
          split; [right; vm_compute; auto|]. split; [apply bytes_dec; reflexivity|]. split; [reflexivity|].
          split; [lia|]. left. split; [reflexivity|]. vm_compute. discriminate.
        * exists (rw (h32 0x00050008) no_value), 0x08, 0, 0x05, 0x00. split; [vm_compute; reflexivity|].
          split; [right; vm_compute; auto|]. split; [apply bytes_dec; reflexivity|]. split; [reflexivity|]. cbn; lia.
        * exists (rw (h32 0x60600008) no_value), 0x08, 0, 0x60, 0x60. split; [vm_compute; reflexivity|].
          split; [right; vm_compute; auto|]. split; [apply bytes_dec; reflexivity|]. split; [reflexivity|].
          split; [lia|]. left. split; [reflexivity|]. vm_compute. discriminate.
    - split; [vm_compute; intuition discriminate|]. eexists. split; [vm_compute; reflexivity|].
      eexists _, _. split; [right; split; reflexivity|]. split; [vm_compute; reflexivity|]. left. split; vm_compute; reflexivity.
    - eexists. split; [vm_compute; reflexivity|]. right. vm_compute. auto.
    - apply all_absent. vm_compute. reflexivity. }
  - intros q [<-|[]]. split; [repeat constructor; vm_compute; intuition discriminate|].
    intros k [<-|[<-|[]]]; (split; [vm_compute; reflexivity|]); eexists; (split; [vm_compute; reflexivity|]); repeat split.
  - intros q [<-|[]]. split; [repeat constructor; vm_compute; intuition discriminate|].
    intros k [<-|[<-|[]]]; (split; [vm_compute; reflexivity|]); eexists; (split; [vm_compute; reflexivity|]); repeat split.
Qed.
Definition hb_world : pw := mkPW [(heartbeat, data_typed (TInt (mkIty false 2)))] [] (w_bufs fresh) (w_next fresh).
Lemma hb_cells : forall k c, lookup k (w_store hb_world) = Some c ->
  cell_typed ex_T hb_dict (all_keys [rx_desc] ++ all_keys [tx_desc]) k c /\ c_rd c = 0%nat /\ c_wr c = 0%nat.
Proof.
  intros k c H. apply lookup_In in H. destruct H as [H|[]]. injection H as <- <-. split; [|split; reflexivity]. split.
  - intros e He Ht. vm_compute in He. injection He as <-. discriminate.
  - intros Hk. vm_compute in Hk. intuition discriminate.
Qed.
Example C86_heartbeat_ex : exists w1 m1 wh r w2 m2,
  mapper_init dev hb_dict 1 junk8 4 4 (mkMapper [] []) (reset_world hb_dict hb_world) = Ok (w1, m1, None) /\
  obj dev hb_dict heartbeat (SSet [100; 0]) (reset_world hb_dict w1) = Ok (wh, inl r) /\
  mapper_init dev hb_dict 1 junk8 4 4 m1 wh = Ok (w2, m2, None) /\
  existsb (fun x => (fst x =? heartbeat) && match snd x with EvWrite 0 [100; 0] true => true | _ => false end) (w_log wh) = true /\
  Forall2 (receives ex_T hb_dict w2) [rx_desc] (rpdos m2) /\ Forall2 (transmits ex_T hb_dict w2) [tx_desc] (tpdos m2).
Proof.
  assert (E : exists w1 m1 wh r w2 m2,
    mapper_init dev hb_dict 1 junk8 4 4 (mkMapper [] []) (reset_world hb_dict hb_world) = Ok (w1, m1, None) /\
    obj dev hb_dict heartbeat (SSet [100; 0]) (reset_world hb_dict w1) = Ok (wh, inl r) /\
    mapper_init dev hb_dict 1 junk8 4 4 m1 wh = Ok (w2, m2, None) /\
    existsb (fun x => (fst x =? heartbeat) && match snd x with EvWrite 0 [100; 0] true => true | _ => false end) (w_log wh) = true).
  { do 6 eexists. split; [vm_compute; reflexivity|]. split; [vm_compute; reflexivity|]. split; [vm_compute; reflexivity|]. vm_compute; reflexivity. }
  destruct E as (w1 & m1 & wh & r & w2 & m2 & E1 & E2 & E3 & E4). exists w1, m1, wh, r, w2, m2. repeat (split; [assumption|]).
  refine (C86_after_failure ex_T dev hb_dict 1 junk8 4%nat 4%nat [rx_desc] [tx_desc] w1 wh m1 w2 m2 C86_heartbeat_described _ eq_refl (fun _ _ _ _ => eq_refl) (Rheart _ _ _ dev _ wh r _ E2) E3).
  - refine (Eboot _ _ _ _ _ _ dev junk8 hb_world _ w1 (mkMapper [] []) m1 None _ eq_refl (fun _ _ _ _ => eq_refl) (Rquiet _ _ _) E1).
    apply Enew; [cbn; lia|exact hb_cells].
  - vm_compute. intuition discriminate.
Qed.
