(** Property C86: the set-up of PDOs from the dictionary of the device. *)
From Verif Require Import Base CanModel KeyModel KeySpec StorageModel StorageSpec PdoModel PdoSpec PdoConfProofs PdoTxProofs SdoSpec SdoChanSpec PdoSetupSpec PdoSetupProofs PdoNodeProofs PdoProps.

(** A PDO the device sends. If its set-up ends normally the master listens for
    the configured identifier, and the objects are connected in the order, and
    with the sizes, of the mapping; PDOs marked invalid are not kept. *)
Theorem C86_receive : forall T dv d nid junk com map inv nortr ext id tt l w w1 r,
  0 <= com < 2^16 -> 0 <= map < 2^16 -> com <> map ->
  (forall e b, lookup (key_sub com 0) d = Some e -> given e (TInt (mkIty false 1)) b -> bytes_ok b) ->
  pdo_mapping d map l -> pdo_id d nid com inv nortr ext id -> pdo_transmission d com tt ->
  mappable T d sendable l -> ready T dv d com map l w ->
  rpdo_init dv d nid junk com map w = Ok (w1, inl r) ->
  untouched com map l w w1 /\
  if inv then r = None
  else exists p, r = Some p /\ rx_mapped T d l (held_of w1) p w1 /\ (total l <= 8)%nat /\
    p_listen p = Some (mkHeader id ext false false) /\
    p_frame p = mkFrame (mkHeader id ext (negb nortr) false) 0 junk /\ p_type p = tt /\ p_timeout p = -1.
Proof.
  intros T dv d nid junk com map inv nortr ext id tt l w w1 r Hc Hm Hne Hs M I Tr Mp R H.
  destruct (rx_setup com map T dv d nid Hc Hm Hne junk _ _ _ _ _ _ _ _ _ Hs M I Tr Mp R H) as [[_ [_ [U _]]] X].
  split; [exact U|]. destruct inv; [exact X|]. destruct X as [p [X1 [X2 [X3 [X4 [X5 [X6 [X7 _]]]]]]]].
  exists p. auto 10.
Qed.
Print Assumptions C86_receive.

(** A PDO the device receives *)
Theorem C86_transmit : forall T dv d nid junk com map inv nortr ext id tt l w w1 r,
  0 <= com < 2^16 -> 0 <= map < 2^16 -> com <> map -> List.length junk = 8%nat ->
  (forall e b, lookup (key_sub com 0) d = Some e -> given e (TInt (mkIty false 1)) b -> bytes_ok b) ->
  pdo_mapping d map l -> pdo_id d nid com inv nortr ext id -> pdo_transmission d com tt ->
  mappable T d receivable l -> ready T dv d com map l w ->
  tpdo_init dv d nid junk com map w = Ok (w1, inl r) ->
  untouched com map l w w1 /\
  if inv then r = None
  else exists p, r = Some p /\ tx_mapped T d l p w1 /\
    p_frame p = mkFrame (mkHeader id ext false false) (Z.of_nat (total l)) junk /\ p_listen p = None /\ p_type p = tt.
Proof.
  intros T dv d nid junk com map inv nortr ext id tt l w w1 r Hc Hm Hne Hj Hs M I Tr Mp R H.
  destruct (tx_setup com map T dv d nid Hc Hm Hne junk _ _ _ _ _ _ _ _ _ Hj Hs M I Tr Mp R H) as [[_ [_ [U _]]] X].
  split; [exact U|]. destruct inv; [exact X|]. destruct X as [p [X1 [X2 [X3 [X4 [X5 X6]]]]]].
  exists p. auto 10.
Qed.
Print Assumptions C86_transmit.

(** The PDOs of a node: the ones the dictionary describes, in order and up to the
    given numbers, all set up at the same time. *)
Theorem C86_node : forall T dv d nid junk nr_tx nr_rx rxs txs w w1 m, List.length junk = 8%nat -> sub_counts d ->
  described d nid 0x1800 0x1A00 (range 512) rxs -> described d nid 0x1400 0x1600 (range 512) txs ->
  node_ready T dv d rxs txs w ->
  mapper_init dv d nid junk nr_tx nr_rx (mkMapper [] []) w = Ok (w1, m, None) ->
  Forall2 (receives T d w1) (firstn nr_tx rxs) (rpdos m) /\ Forall2 (transmits T d w1) (firstn nr_rx txs) (tpdos m).
Proof. exact mapper_setup. Qed.
Print Assumptions C86_node.

(** Consequence: after the set-up every history of receptions, cycles and reads
    shows what was received last (with C34). *)
Theorem C86_reads : forall T dv d nid junk nr_tx nr_rx rxs txs w w1 m, List.length junk = 8%nat -> sub_counts d ->
  described d nid 0x1800 0x1A00 (range 512) rxs -> described d nid 0x1400 0x1600 (range 512) txs ->
  node_ready T dv d rxs txs w ->
  mapper_init dv d nid junk nr_tx nr_rx (mkMapper [] []) w = Ok (w1, m, None) ->
  forall n q, (n < nr_tx)%nat -> nth_error rxs n = Some q ->
  exists p, nth_error (rpdos m) n = Some p /\
    forall ops s rs, Forall (rx_allowed (q_layout q)) ops -> rx_runs dv d ops (p, w1) = Ok (s, rs) ->
      rx_conforms (q_layout q) (held_of w1) ops rs.
Proof.
  intros T dv d nid junk nt nx rxs txs w w1 m Hj Hs Dr Dt R H n q Hn Hq.
  destruct (mapper_setup _ _ _ _ _ _ _ _ _ _ _ _ Hj Hs Dr Dt R H) as [F _].
  assert (Hq' : nth_error (firstn nt rxs) n = Some q).
  { clear - Hn Hq. revert n rxs Hn Hq. induction nt as [|nt IH]; intros n rxs Hn Hq; [lia|]. destruct rxs as [|x rxs]; [destruct n; discriminate|].
    destruct n as [|n]; [exact Hq|]. cbn [firstn nth_error] in *. apply IH; [lia|exact Hq]. }
  assert (G : forall qs ps n q, Forall2 (receives T d w1) qs ps -> nth_error qs n = Some q -> exists p, nth_error ps n = Some p /\ receives T d w1 q p).
  { clear. intros qs ps n q F. revert n. induction F as [|x y qs ps H F IH]; intros [|n] E; try discriminate.
    - injection E as <-. exists y. auto.
    - apply IH, E. }
  destruct (G _ _ _ _ F Hq') as [p [Hp [M _]]]. exists p. split; [exact Hp|].
  intros ops s rs Ha Hr. eapply C34_last_received_partial; eassumption.
Qed.
Print Assumptions C86_reads.

(** ** Example *)

Definition rx_desc : pdo_desc := mkDesc 0 false false 0x181 1 rx_layout.
Definition tx_desc : pdo_desc := mkDesc 0 false false 0x201 255 tx_layout.

Definition absent (d : dict) (com map : Z) (i : Z) : bool :=
  match lookup (key_sub (com + i) 0) d, lookup (key_sub (map + i) 0) d with None, None => true | _, _ => false end.
Lemma all_absent : forall d nid com map is, forallb (absent d com map) is = true -> described d nid com map is [].
Proof.
  intros d nid com map. induction is as [|i is IH]; intros H; [constructor|]. cbn in H. apply andb_prop in H as [H1 H2].
  unfold absent in H1. destruct (lookup (key_sub (com + i) 0) d) eqn:E1; [discriminate|].
  destruct (lookup (key_sub (map + i) 0) d) eqn:E2; [discriminate|]. apply Dabsent; auto.
Qed.
Definition range1 : list Z := Eval vm_compute in tl (range 512).
Lemma range_cons : range 512 = 0 :: range1.
Proof. vm_compute. reflexivity. Qed.

Lemma bytes_dec : forall b, forallb (fun x => (0 <=? x) && (x <? 256)) b = true -> Forall byte_ok b.
Proof. intros b H. apply Forall_forall. rewrite forallb_forall in H. intros x Hx. specialize (H x Hx). unfold byte_ok. lia. Qed.

Example C86_ex_rx : described ex_dict 1 0x1800 0x1A00 (range 512) [rx_desc].
Proof.
  rewrite range_cons. apply Dused; [reflexivity| | | |].
  - split; [vm_compute; intuition discriminate|]. split.
    + eexists. split; [vm_compute; reflexivity|]. right. vm_compute. auto.
    + intros [|[|i]] x H; [injection H as <-|injection H as <-|destruct i; discriminate].
      * exists (rw (h32 0x60410010) no_value), 0x10, 0, 0x41, 0x60. split; [vm_compute; reflexivity|].
        split; [right; vm_compute; auto|]. split; [apply bytes_dec; reflexivity|]. split; [reflexivity|].
        split; [lia|]. left. split; [reflexivity|]. vm_compute. discriminate.
      * exists (rw (h32 0x60610008) no_value), 0x08, 0, 0x61, 0x60. split; [vm_compute; reflexivity|].
        split; [right; vm_compute; auto|]. split; [apply bytes_dec; reflexivity|]. split; [reflexivity|].
        split; [lia|]. left. split; [reflexivity|]. vm_compute. discriminate.
  - split; [vm_compute; intuition discriminate|]. eexists. split; [vm_compute; reflexivity|].
    eexists _, _. split; [right; split; reflexivity|]. split; [vm_compute; reflexivity|]. left. split; vm_compute; reflexivity.
  - eexists. split; [vm_compute; reflexivity|]. right. vm_compute. auto.
  - apply all_absent. vm_compute. reflexivity.
Qed.

Example C86_ex_tx : described ex_dict 1 0x1400 0x1600 (range 512) [tx_desc].
Proof.
  rewrite range_cons. apply Dused; [reflexivity| | | |].
  - split; [vm_compute; intuition discriminate|]. split.
    + eexists. split; [vm_compute; reflexivity|]. right. vm_compute. auto.
    + intros [|[|[|i]]] x H; [injection H as <-|injection H as <-|injection H as <-|destruct i; discriminate].
      * exists (rw (h32 0x60400010) no_value), 0x10, 0, 0x40, 0x60. split; [vm_compute; reflexivity|].
        split; [right; vm_compute; auto|]. split; [apply bytes_dec; reflexivity|]. split; [reflexivity|].
        split; [lia|]. left. split; [reflexivity|]. vm_compute. discriminate.
      * exists (rw (h32 0x00050008) no_value), 0x08, 0, 0x05, 0x00. split; [vm_compute; reflexivity|].
        split; [right; vm_compute; auto|]. split; [apply bytes_dec; reflexivity|]. split; [reflexivity|]. cbn; lia.
      * exists (rw (h32 0x60600008) no_value), 0x08, 0, 0x60, 0x60. split; [vm_compute; reflexivity|].
        split; [right; vm_compute; auto|]. split; [apply bytes_dec; reflexivity|]. split; [reflexivity|].
        split; [lia|]. left. split; [reflexivity|]. vm_compute. discriminate.
  - split; [vm_compute; intuition discriminate|]. eexists. split; [vm_compute; reflexivity|].
    eexists _, _. split; [right; split; reflexivity|]. split; [vm_compute; reflexivity|]. left. split; vm_compute; reflexivity.
  - eexists. split; [vm_compute; reflexivity|]. right. vm_compute. auto.
  - apply all_absent. vm_compute. reflexivity.
Qed.

Lemma not_pdo_parameter : forall index s, 0x1C00 <= index < 2^16 -> 0 <= s < 256 -> ~ pdo_parameter (key_sub index s).
Proof. intros index s Hi Hs [j [t [Hj [Ht E]]]]. apply sub_inj in E; lia. Qed.

Example C86_ex_ready : node_ready ex_T dev ex_dict [rx_desc] [tx_desc] fresh.
Proof.
  assert (K : all_keys [rx_desc] ++ all_keys [tx_desc] = [k_sw; k_disp; k_cw; k_mode]) by reflexivity.
  constructor; try rewrite K.
  - cbn. lia.
  - intros k c H. discriminate.
  - intros k _ c H. discriminate.
  - intros. discriminate.
  - repeat constructor; vm_compute; intuition discriminate.
  - intros k [<-|[<-|[<-|[<-|[]]]]]; apply not_pdo_parameter; lia.
  - intros. discriminate.
  - reflexivity.
  - intros q [<-|[]]. split; [repeat constructor; vm_compute; intuition discriminate|].
    intros k [<-|[<-|[]]]; (split; [vm_compute; reflexivity|]); eexists; (split; [vm_compute; reflexivity|]); repeat split.
  - intros q [<-|[]]. split; [repeat constructor; vm_compute; intuition discriminate|].
    intros k [<-|[<-|[]]]; (split; [vm_compute; reflexivity|]); eexists; (split; [vm_compute; reflexivity|]); repeat split.
Qed.


Definition small (h : hold) : bool := match h_data h with Some b => forallb (fun x => (0 <=? x) && (x <? 256)) b | None => true end.
Lemma ex_subs : sub_counts ex_dict.
Proof.
  assert (X : forallb (fun x => small (e_init (snd x)) && small (e_def (snd x))) ex_dict = true) by (vm_compute; reflexivity).
  intros index e b _ H G. apply lookup_In in H. rewrite forallb_forall in X. specialize (X _ H). cbn [snd] in X. apply andb_prop in X as [X1 X2].
  unfold small in *. apply bytes_dec. destruct G as [[G _]|[_ [G _]]]; rewrite G in *; assumption.
Qed.

Lemma ex_init_run : mapper_init dev ex_dict 1 junk8 4 4 (mkMapper [] []) fresh = Ok (ex_world, mkMapper [ex_rpdo] [ex_tpdo], None).
Proof. vm_compute. reflexivity. Qed.

(** the mapper set up the two PDOs the dictionary describes *)
Example C86_ex : exists w1 m, ex_init = Ok (w1, m, None) /\
  Forall2 (receives ex_T ex_dict w1) [rx_desc] (rpdos m) /\ Forall2 (transmits ex_T ex_dict w1) [tx_desc] (tpdos m).
Proof.
  exists ex_world, (mkMapper [ex_rpdo] [ex_tpdo]). split; [exact ex_init_ok|].
  exact (C86_node ex_T dev ex_dict 1 junk8 4%nat 4%nat [rx_desc] [tx_desc] fresh ex_world (mkMapper [ex_rpdo] [ex_tpdo]) eq_refl ex_subs C86_ex_rx C86_ex_tx C86_ex_ready ex_init_run).
Qed.

(** and what it hears from then on is what the objects show *)
Example C86_ex_reads : exists p, nth_error [ex_rpdo] 0 = Some p /\
  forall ops s rs, Forall (rx_allowed rx_layout) ops -> rx_runs dev ex_dict ops (p, ex_world) = Ok (s, rs) ->
    rx_conforms rx_layout (held_of ex_world) ops rs.
Proof.
  exact (C86_reads ex_T dev ex_dict 1 junk8 4%nat 4%nat [rx_desc] [tx_desc] fresh ex_world (mkMapper [ex_rpdo] [ex_tpdo]) eq_refl ex_subs C86_ex_rx C86_ex_tx C86_ex_ready ex_init_run
    0%nat rx_desc ltac:(lia) eq_refl).
Qed.
