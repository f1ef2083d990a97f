From Coq Require Import FinFun.
From Verif Require Import Base CanModel KeyModel KeySpec KeyProofs StorageModel StorageSpec StorageProofs PdoModel PdoSpec PdoProofs PdoTxProofs PdoConfProofs PdoLiveProofs
  SdoSpec SdoChanSpec SdoChanProofs PdoSetupSpec PdoSetupProofs.

(** ** Effects on the node *)

Definition zero_or (n : nat) (c : cell) : Prop :=
  (c_rd c = 0 \/ n <= c_rd c)%nat /\ (c_wr c = 0 \/ n <= c_wr c)%nat.
Definition moves (P : Z -> Prop) (w w1 : pw) : Prop :=
  (w_next w <= w_next w1)%nat /\
  (forall i, (i < w_next w)%nat -> w_bufs w1 i = w_bufs w i) /\
  (forall k, ~ P k -> lookup k (w_store w1) = lookup k (w_store w)) /\
  (forall k c, lookup k (w_store w1) = Some c ->
     zero_or (w_next w) c \/ exists c0, lookup k (w_store w) = Some c0 /\ c_rd c = c_rd c0 /\ c_wr c = c_wr c0).

Lemma moves_refl : forall P w, moves P w w.
Proof. intros P w. split; [lia|]. repeat split; auto. intros k c H. right. eauto. Qed.
Lemma moves_trans : forall P a b c, moves P a b -> moves P b c -> moves P a c.
Proof.
  intros P a b c [A1 [A2 [A3 A4]]] [B1 [B2 [B3 B4]]]. split; [lia|]. split; [|split].
  - intros i Hi. rewrite B2 by lia. apply A2, Hi.
  - intros k Hk. rewrite B3 by exact Hk. apply A3, Hk.
  - intros k x Hx. destruct (B4 k x Hx) as [[Z1 Z2]|[x0 [H0 [E1 E2]]]].
    + left. unfold zero_or. lia.
    + destruct (A4 k x0 H0) as [[Z1 Z2]|[x1 [H1 [E3 E4]]]].
      * left. unfold zero_or. rewrite E1, E2. auto.
      * right. exists x1. split; [exact H1|]. split; congruence.
Qed.
Lemma moves_weaken : forall (P R : Z -> Prop) a b, (forall k, P k -> R k) -> moves P a b -> moves R a b.
Proof. intros P R a b H [A1 [A2 [A3 A4]]]. split; [exact A1|]. split; [exact A2|]. split; [|exact A4]. intros k Hk. apply A3. auto. Qed.

(** A well-formed world *)
Definition W (w : pw) : Prop :=
  (0 < w_next w)%nat /\
  (forall k c, lookup k (w_store w) = Some c -> (c_rd c < w_next w /\ c_wr c < w_next w)%nat) /\
  (forall k, pdo_parameter k -> plain_access w k).

Lemma W_moves : forall com map (P : Z -> Prop) w w1, W w -> Inv com map w1 -> moves P w w1 ->
  (forall k, P k -> pdo_parameter k -> parameter com map k) -> W w1.
Proof.
  intros com map P w w1 [W1 [W2 W3]] [I1 [I2 I3]] [A1 [A2 [A3 A4]]] H. split; [exact I1|]. split; [exact I2|].
  intros k Hk c Hc. destruct (A4 k c Hc) as [Z|[c0 [H0 [E1 E2]]]].
  - destruct (classic_param com map k) as [Hq|Hq]; [apply (I3 k Hq c Hc)|].
    assert (N : ~ P k) by (intros X; apply Hq, H; assumption).
    rewrite A3 in Hc by exact N. apply (W3 k Hk c Hc).
  - rewrite E1, E2. apply (W3 k Hk c0 H0).
Qed.

Lemma all_keys_firstn : forall n ps k, In k (all_keys (firstn n ps)) -> In k (all_keys ps).
Proof.
  intros n ps k. unfold all_keys. intros H. apply in_flat_map in H as [q [H1 H2]]. apply in_flat_map. exists q. split; [|exact H2].
  revert n H1. induction ps as [|y l IH]; intros [|n] H; cbn in *; try contradiction. destruct H; eauto.
Qed.

Section Dir.
Variable T : Z -> ty.
Variable dv : device.
Variable d : dict.
Variable nid : Z.
Variable rx : bool.
Variable base : Z.
Let cb := base.
Let mb := base + 0x200.

(** [p] is the PDO [q]; its buffers are new since [n0], and the other direction
    of its objects is SDO access. *)
Definition is_pdo (n0 : nat) (w : pw) (q : pdo_desc) (p : pdo) : Prop :=
  (if rx then receives T d w q p else transmits T d w q p) /\ (forall i, In i (p_bufs p) -> (n0 <= i < w_next w)%nat) /\
  (forall k c, In k (keys (q_layout q)) -> lookup k (w_store w) = Some c -> (if rx then c_wr c else c_rd c) = 0%nat).

(** Effect of one set-up *)
Lemma post_moves : forall com map l w w1 r, ready T dv d com map l w -> setup_post com map T d r l w w1 ->
  moves (fun k => In k (keys l) \/ parameter com map k) w w1.
Proof.
  intros com map l w w1 r R [I1 [N1 [[U1 [U2 U3]] [S1 O1]]]].
  split; [exact U1|]. split; [exact U2|]. split; [intros k H; apply U3; tauto|].
  intros k c Hc. destruct (in_dec Z.eq_dec k (keys l)) as [Hk|Hk].
  - left. pose proof (O1 k c Hk Hc) as O. unfold keys in Hk. apply in_flat_map in Hk as [[[k'|] n] [Hin X]]; [|contradiction].
    destruct X as [->|[]]. destruct (combine_left _ _ _ (seq (w_next w) (List.length l)) _ (eq_sym (seq_length _ _)) Hin) as [i Hi].
    pose proof (S1 _ _ Hi) as Sl. apply in_combine_r in Hi. apply in_seq in Hi.
    unfold slot_ok in Sl. destruct r; destruct Sl as (b & _ & _ & _ & c' & e & Hc' & _ & _ & _ & _ & Hd & _); rewrite Hc in Hc'; injection Hc' as <-;
      unfold zero_or; lia.
  - destruct (classic_param com map k) as [Hq|Hq].
    + left. destruct I1 as [_ [_ I1]]. destruct (I1 k Hq c Hc) as [Z1 Z2]. unfold zero_or. lia.
    + right. rewrite U3 in Hc by assumption. eauto.
Qed.
Lemma ready_moves : forall com map l P w w1, Z.of_nat (List.length l) <= 64 -> ready T dv d com map l w -> moves P w w1 -> W w1 ->
  (forall k, parameter com map k -> pdo_parameter k) ->
  (forall k, P k -> ~ In k (keys l) /\ ~ parameter com map k) -> ready T dv d com map l w1.
Proof.
  intros com map l P w w1 Hl R [A1 [A2 [A3 A4]]] [W1 [W2 W3]] Hp Hd. constructor; auto.
  - intros s c e b Hs Hc He Hg Hn. rewrite A3 in Hc.
    + eapply (rd_entry _ _ _ _ _ _ _ R s); eassumption.
    + intros X. destruct (Hd _ X) as [_ Y]. apply Y. exists s. split; [lia|auto].
  - apply R.
  - intros k c Hk Hc. rewrite A3 in Hc by (intros X; destruct (Hd _ X); contradiction). apply (rd_object _ _ _ _ _ _ _ R k c Hk Hc).
  - apply R.
Qed.

Lemma is_pdo_moves : forall P n0 w w1 q p, is_pdo n0 w q p -> moves P w w1 -> (forall k, P k -> ~ In k (keys (q_layout q))) -> is_pdo n0 w1 q p.
Proof.
  intros P n0 w w1 q p [H [Hi Ho]] [A1 [A2 [A3 A4]]] Hd. split; [|split; [intros i X; specialize (Hi i X); lia|]].
  2:{ intros k c Hk Hc. rewrite A3 in Hc by (intros X; apply (Hd k X Hk)). apply (Ho k c Hk Hc). }
  assert (Sl : forall x i, In (x, i) (combine (q_layout q) (p_bufs p)) -> slot_ok T d rx w x i -> slot_ok T d rx w1 x i).
  { intros x i Hin. apply slot_same.
    - apply A2, Hi. apply in_combine_r in Hin. exact Hin.
    - intros k E. apply A3. intros X. apply (Hd k X). unfold keys. apply in_flat_map. exists x. split; [apply in_combine_l in Hin; exact Hin|].
      rewrite E. cbn; auto. }
  assert (Ow : forall f : cell -> nat, f = c_rd \/ f = c_wr -> forall k c, lookup k (w_store w1) = Some c -> ~ In 0%nat (p_bufs p) -> In (f c) (p_bufs p) ->
     exists c0, lookup k (w_store w) = Some c0 /\ c_rd c = c_rd c0 /\ c_wr c = c_wr c0).
  { intros f Hf k c Hc H0 X. destruct (A4 k c Hc) as [[Z1 Z2]|E]; [|exact E]. exfalso.
    pose proof (Hi _ X) as L. destruct Hf as [->| ->].
    - destruct Z1 as [E|E]; [rewrite E in X; contradiction|lia].
    - destruct Z2 as [E|E]; [rewrite E in X; contradiction|lia]. }
  unfold slot_ok in Sl. destruct rx.
  - destruct H as [M H]. split; [|exact H]. destruct M as [M1 M2 M3 M4 M5 M6]. constructor; auto.
    intros k c Hc. split; intros X.
    + destruct (Ow c_wr (or_intror eq_refl) k c Hc M2 X) as [c0 [H0 [E1 E2]]]. destruct (M6 k c0 H0) as [Y _]. rewrite <- E2 in Y. contradiction.
    + destruct (Ow c_rd (or_introl eq_refl) k c Hc M2 X) as [c0 [H0 [E1 E2]]]. destruct (M6 k c0 H0) as [_ Y]. rewrite <- E1 in Y. auto.
  - destruct H as [M H]. split; [|exact H]. destruct M as [M1 M2 M3 M4 M5 M6 M7 M8 M9]. constructor; auto.
    intros k c Hc. split; intros X.
    + destruct (Ow c_rd (or_introl eq_refl) k c Hc M2 X) as [c0 [H0 [E1 E2]]]. destruct (M9 k c0 H0) as [Y _]. rewrite <- E1 in Y. contradiction.
    + destruct (Ow c_wr (or_intror eq_refl) k c Hc M2 X) as [c0 [H0 [E1 E2]]]. destruct (M9 k c0 H0) as [_ Y]. rewrite <- E2 in Y. auto.
Qed.

Lemma par_moves : forall com map w w1, Inv com map w1 -> par (parameter com map) w w1 -> moves (parameter com map) w w1.
Proof.
  intros com map w w1 [I1 [I2 I3]] [P1 [P2 P3]]. split; [lia|]. split; [intros; apply P2|]. split; [exact P3|].
  intros k c Hc. destruct (classic_param com map k) as [Hq|Hq].
  - left. destruct (I3 k Hq c Hc). unfold zero_or. lia.
  - right. rewrite P3 in Hc by exact Hq. eauto.
Qed.

Lemma described_index : forall is ps q, described d nid cb mb is ps -> In q ps -> In (q_index q) is /\ 
  Z.of_nat (List.length (q_layout q)) <= 64.
Proof.
  intros is ps q D. induction D as [|i is ps H1 H2 D IH|i is ps e n H1 H2 H3 D IH|i is ps q' H1 H2 H3 H4 D IH]; intros Hq.
  - contradiction.
  - destruct (IH Hq). cbn; auto.
  - destruct (IH Hq). cbn; auto.
  - destruct Hq as [->|Hq].
    + split; [cbn; auto|]. destruct H2 as [H2 _]. lia.
    + destruct (IH Hq). cbn; auto.
Qed.

Hypothesis Hbase : base = 0x1800 \/ base = 0x1400.

Lemma param_pdo : forall i k, 0 <= i < 512 -> parameter (cb + i) (mb + i) k -> pdo_parameter k.
Proof. intros i k Hi [s [Hs [->| ->]]]; [exists (cb + i), s|exists (mb + i), s]; subst cb mb; (split; [lia|]; split; [lia|reflexivity]). Qed.
Lemma param_same : forall i j k, 0 <= i < 512 -> 0 <= j < 512 ->
  parameter (cb + i) (mb + i) k -> parameter (cb + j) (mb + j) k -> i = j.
Proof.
  intros i j k Hi Hj [s [Hs Hk]] [t [Ht Hk']].
  destruct Hk as [->| ->]; destruct Hk' as [E|E]; apply sub_inj in E; subst cb mb; lia.
Qed.

Variable junk : bytes.
Hypothesis Hjunk : List.length junk = 8%nat.
Hypothesis Hsubs : sub_counts d.

Definition pinit : Z -> Z -> M (option pdo) := if rx then rpdo_init dv d nid junk else tpdo_init dv d nid junk.

Lemma W_inv : forall i w, 0 <= i < 512 -> W w -> Inv (cb + i) (mb + i) w.
Proof. intros i w Hi [W1 [W2 W3]]. split; [exact W1|]. split; [exact W2|]. intros k Hk. apply W3. eapply param_pdo; eassumption. Qed.

(** A PDO without mapped objects *)
Lemma parse_none : forall i r1 r2 dlc e n w w1 res, 0 <= i < 512 -> W w ->
  lookup (key_sub (mb + i) 0) d = Some e -> given e (TInt (mkIty false 1)) [n] -> n = 0 \/ 64 < n ->
  parse_and_set_mapping dv d nid (cb + i) (mb + i) r1 r2 dlc w = Ok (w1, inl res) ->
  fst res = [] /\ Inv (cb + i) (mb + i) w1 /\ par (parameter (cb + i) (mb + i)) w w1.
Proof.
  intros i r1 r2 dlc e n w w1 res Hi Hw He Hg Hn H. pose proof (W_inv i w Hi Hw) as I0.
  set (com := cb + i) in *. set (map := mb + i) in *.
  assert (Qn : parameter com map (key_sub map 0)) by (exists 0; split; [lia|auto]).
  assert (Qc : parameter com map (key_sub com 1)) by (exists 1; split; [lia|auto]).
  assert (Wk : forall A k (m : M A), parameter com map k -> Par com map (eq k) m -> Par com map (parameter com map) m).
  { intros A k m Hk. apply Par_weaken. intros k' <-. exact Hk. }
  unfold parse_and_set_mapping in H. cbv zeta in H.
  apply bind_inl in H as [w2 [[] [H1 H]]]. destruct (Wk _ _ _ Qn (Par_entry_of com map d nid 1 _ Qn) _ _ _ I0 H1) as [I1 P1].
  apply bind_inl in H as [w2' [e' [H2 H]]]. unfold desc in H2. rewrite He in H2. injection H2 as <- <-.
  pose proof (given_get _ _ _ Hg) as G1. change (TInt (mkIty false 1)) with U8 in G1. rewrite G1 in H. clear G1.
  change (ty_size U8) with 1%nat in H. cbn [firstn of_le] in H. replace (n + 256 * 0) with n in H by lia.
  replace ((0 <? n) && (n <=? 64)) with false in H by lia.
  assert (X : forall m, m w2 = Ok (w1, inl res) -> Par com map (parameter com map) m -> Inv com map w1 /\ par (parameter com map) w w1).
  { intros m E Pm. destruct (Pm _ _ _ I1 E) as [J1 J2]. split; [exact J1|]. eapply par_trans; eassumption. }
  split.
  - do 3 (apply bind_inl in H as [? [? [_ H]]]). apply bind_inl in H as [? [r [E H]]]. injection E as _ <-.
    do 3 (apply bind_inl in H as [? [? [_ H]]]). injection H as _ <-. reflexivity.
  - revert H. match goal with |- ?m w2 = _ -> _ => intros H; apply (X m H) end.
    apply Par_bind; [eapply Wk; [exact Qc|apply Par_entry_of, Qc]|]. intros _.
    apply Par_bind; [apply Par_desc|]. intros ce.
    apply Par_bind. { apply Par_when. eapply Wk; [exact Qc|]. apply Par_bind; [apply Par_get_val, Qc|]. intros. apply Par_set_val, Qc. } intros _.
    apply Par_bind; [apply Par_retm|]. intros r.
    apply Par_bind.
    { apply Par_when. intros wa wb rr Ia. unfold bind at 1, desc. destruct (lookup (key_sub com 0) d) as [n'|] eqn:En; [|intros E; injection E as <- _; split; [exact Ia|apply par_refl]].
      destruct (hold_get U8 (e_value n')) as [sb|] eqn:E; [|apply Par_throw; exact Ia].
      apply Par_bind; [apply Par_assert| |exact Ia]. intros _. apply Par_init_com.
      destruct (get_given _ _ _ E) as [b [Gb Sb]].
      assert (Hb : bytes_ok b) by (apply (Hsubs com n' b); [subst com cb; lia|exact En|exact Gb]).
      apply Forall_forall. intros s Hs. apply in_map_iff in Hs as [j [<- Hj]]. apply range_in in Hj.
      assert (sb < 256); [|lia]. rewrite Sb. change (ty_size U8) with 1%nat. destruct b as [|x b]; [reflexivity|]. cbn [firstn of_le].
      inversion Hb; subst. unfold byte_ok in *. lia. }
    intros _. apply Par_bind; [apply Par_when; eapply Wk; [exact Qn|apply Par_set_val, Qn]|]. intros _.
    apply Par_bind; [|intros; apply Par_retm]. apply Par_when. eapply Wk; [exact Qc|].
    apply Par_bind; [apply Par_init_key, Qc|]. intros _. destruct (apply_u32 nid (e_value ce)); [apply Par_set_val, Qc|apply Par_throw].
Qed.

Definition touches (i : Z) (l : layout) (k : Z) : Prop := In k (keys l) \/ parameter (cb + i) (mb + i) k.

Lemma step_used : forall i q w w1 r, 0 <= i < 512 -> W w ->
  pdo_mapping d (mb + i) (q_layout q) -> pdo_id d nid (cb + i) false (q_no_rtr q) (q_ext q) (q_id q) ->
  pdo_transmission d (cb + i) (q_type q) -> mappable T d (use rx) (q_layout q) -> ready T dv d (cb + i) (mb + i) (q_layout q) w ->
  (forall k, In k (keys (q_layout q)) -> ~ pdo_parameter k) ->
  create (pinit (cb + i) (mb + i)) w = Ok (w1, inl r) ->
  exists p, r = Some p /\ is_pdo (w_next w) w1 q p /\ moves (touches i (q_layout q)) w w1 /\ W w1.
Proof.
  intros i q w w1 r Hi Hw Hm Hid Ht Mp R Na H.
  assert (Hc : 0 <= cb + i < 2^16) by (subst cb; lia). assert (Hmm : 0 <= mb + i < 2^16) by (subst mb; lia).
  assert (Hne : cb + i <> mb + i) by (subst cb mb; lia).
  assert (Hs : forall e b, lookup (key_sub (cb + i) 0) d = Some e -> given e (TInt (mkIty false 1)) b -> bytes_ok b).
  { intros e b. apply Hsubs. subst cb; lia. }
  assert (G : forall w2 r2, pinit (cb + i) (mb + i) w = Ok (w2, inl r2) ->
    setup_post (cb + i) (mb + i) T d rx (q_layout q) w w2 /\
    exists p, r2 = Some p /\ p_bufs p = seq (w_next w) (List.length (q_layout q)) /\
              (if rx then receives T d w2 q p else transmits T d w2 q p)).
  { intros w2 r2 E. unfold pinit in E. unfold use in Mp. destruct rx.
    - destruct (rx_setup (cb + i) (mb + i) T dv d nid Hc Hmm Hne junk _ _ _ _ _ _ _ _ _ Hs Hm Hid Ht Mp R E) as [P [p [E1 [E2 [E3 [E4 [E5 [E6 [E7 E8]]]]]]]]].
      split; [exact P|]. exists p. split; [exact E1|]. split; [exact E8|]. unfold receives. rewrite E3. cbn. auto 10.
    - destruct (tx_setup (cb + i) (mb + i) T dv d nid Hc Hmm Hne junk _ _ _ _ _ _ _ _ _ Hjunk Hs Hm Hid Ht Mp R E) as [P [p [E1 [E2 [E3 [E4 [E5 E6]]]]]]].
      split; [exact P|]. exists p. split; [exact E1|]. split; [exact E6|]. unfold transmits. rewrite E3. cbn. auto 10. }
  unfold create in H. destruct (pinit (cb + i) (mb + i) w) as [[w2 [[p|]|x]]|] eqn:E; try discriminate.
  - destruct (G _ _ eq_refl) as [P [p' [E1 [E2 E3]]]]. injection E1 as <-. injection H as <- <-.
    pose proof (post_moves _ _ _ _ _ _ R P) as Mv.
    exists p. split; [reflexivity|]. split; [|split; [exact Mv|]].
    + split; [exact E3|]. split; [|apply P]. intros j Hj. rewrite E2 in Hj. apply in_seq in Hj. destruct P as [_ [P _]]. lia.
    + eapply W_moves; [exact Hw|apply P|exact Mv|]. intros k [X|X] Y; [exfalso; eapply Na; eassumption|exact X].
  - destruct (G _ _ eq_refl) as [_ [p' [E1 _]]]. discriminate.
Qed.

Lemma step_unused : forall i e n w w1 r, 0 <= i < 512 -> W w ->
  lookup (key_sub (mb + i) 0) d = Some e -> given e (TInt (mkIty false 1)) [n] -> n = 0 \/ 64 < n ->
  create (pinit (cb + i) (mb + i)) w = Ok (w1, inl r) ->
  r = None /\ moves (parameter (cb + i) (mb + i)) w w1 /\ W w1.
Proof.
  intros i e n w w1 r Hi Hw He Hg Hn H.
  assert (G : forall w2 r2, pinit (cb + i) (mb + i) w = Ok (w2, inl r2) ->
    r2 = None /\ Inv (cb + i) (mb + i) w2 /\ par (parameter (cb + i) (mb + i)) w w2).
  { intros w2 r2 E. unfold pinit in E. destruct rx.
    - unfold rpdo_init in E. apply bind_inl in E as [w3 [res [E1 E]]].
      destruct (parse_none i true false 0 e n w w3 res Hi Hw He Hg Hn E1) as [F1 [F2 F3]].
      apply bind_inl in E as [w4 [v [E2 E]]]. destruct (value_of_inv _ _ _ _ _ _ E2) as [-> _]. rewrite F1 in E. injection E as <- <-. auto.
    - unfold tpdo_init in E. apply bind_inl in E as [w4 [v [E2 E]]]. destruct (value_of_inv _ _ _ _ _ _ E2) as [-> _].
      apply bind_inl in E as [w3 [res [E1 E]]].
      destruct (parse_none i false true 0 e n w w3 res Hi Hw He Hg Hn E1) as [F1 [F2 F3]]. rewrite F1 in E. injection E as <- <-. auto. }
  unfold create in H. destruct (pinit (cb + i) (mb + i) w) as [[w2 [[p|]|x]]|] eqn:E; try discriminate.
  - destruct (G _ _ eq_refl) as [X _]. discriminate.
  - destruct (G _ _ eq_refl) as [_ [I2 P2]]. injection H as <- <-. split; [reflexivity|].
    assert (Mv : moves (parameter (cb + i) (mb + i)) w (mkPW (w_store w2) (w_log w2) (free_range (w_bufs w2) (w_next w) (w_next w2)) (w_next w2))).
    { destruct (par_moves _ _ _ _ I2 P2) as [A1 [A2 [A3 A4]]]. split; [exact A1|]. split; [|split; assumption].
      intros j Hj. cbn [w_bufs]. unfold free_range. replace ((w_next w <=? j)%nat && (j <? w_next w2)%nat) with false; [apply A2, Hj|].
      symmetry. apply andb_false_iff. left. apply Nat.leb_gt. exact Hj. }
    split; [exact Mv|]. eapply (W_moves (cb + i) (mb + i)); [exact Hw|exact I2|exact Mv|]. intros k X _. exact X.
Qed.

Definition all_touched (is : list Z) (ps : list pdo_desc) (k : Z) : Prop :=
  In k (all_keys ps) \/ exists i, In i is /\ parameter (cb + i) (mb + i) k.

Lemma is_pdo_later : forall n0 n1 w q p, (n0 <= n1)%nat -> is_pdo n1 w q p -> is_pdo n0 w q p.
Proof. intros n0 n1 w q p H [A [B C]]. split; [exact A|]. split; [|exact C]. intros i Hi. specialize (B i Hi). lia. Qed.

Lemma create_all_setup : forall n0 is ps limit acc w w1 acc1, described d nid cb mb is ps -> (n0 <= w_next w)%nat ->
  NoDup is -> Forall (fun i => 0 <= i < 512) is -> W w ->
  (forall q, In q ps -> mappable T d (use rx) (q_layout q) /\ ready T dv d (cb + q_index q) (mb + q_index q) (q_layout q) w) ->
  NoDup (all_keys ps) -> (forall k, In k (all_keys ps) -> ~ pdo_parameter k) ->
  create_all d pinit cb mb is limit acc w = Ok (w1, acc1, None) ->
  W w1 /\ moves (all_touched is (firstn (limit - List.length acc) ps)) w w1 /\
  exists new, acc1 = acc ++ new /\ Forall2 (is_pdo n0 w1) (firstn (limit - List.length acc) ps) new.
Proof.
  intros n0 is ps limit acc w w1 acc1 D. revert acc w. induction D as [|i is ps H1 H2 D IH|i is ps e n H1 H2 H3 D IH|i is ps q H1 H2 H3 H4 D IH];
    intros acc w Hn0 Nd Hi Hw Hr Nk Na H; cbn [create_all] in H.
  - injection H as <- <-. split; [exact Hw|]. split; [apply moves_refl|]. exists []. rewrite app_nil_r, firstn_nil. auto.
  - inversion Nd; inversion Hi; subst. destruct (negb (List.length acc <? limit)%nat) eqn:El.
    + injection H as <- <-. split; [exact Hw|]. split; [apply moves_refl|]. exists []. rewrite app_nil_r.
      replace (limit - List.length acc)%nat with 0%nat; [split; [reflexivity|constructor]|]. apply negb_true_iff, Nat.ltb_ge in El. lia.
    + unfold has_key in H. rewrite H1, H2 in H. cbn [negb andb] in H.
      destruct (IH acc w) as [J1 [J2 J3]]; auto. split; [exact J1|]. split; [|exact J3].
      eapply moves_weaken; [|exact J2]. intros k [X|[j [X Y]]]; [left; exact X|right; exists j; cbn; auto].
  - inversion Nd as [|? ? Ni Nd']; inversion Hi as [|? ? Hi1 Hi2]; subst. destruct (negb (List.length acc <? limit)%nat) eqn:El.
    + injection H as <- <-. split; [exact Hw|]. split; [apply moves_refl|]. exists []. rewrite app_nil_r.
      replace (limit - List.length acc)%nat with 0%nat; [split; [reflexivity|constructor]|]. apply negb_true_iff, Nat.ltb_ge in El. lia.
    + assert (Hk : has_key d (key_sub (mb + i) 0) = true) by (unfold has_key; rewrite H1; reflexivity). rewrite Hk in H.
      rewrite andb_false_r in H. destruct (create (pinit (cb + i) (mb + i)) w) as [[w2 [r|x]]|] eqn:E; try discriminate.
      destruct (step_unused i e n w w2 r Hi1 Hw H1 H2 H3 E) as [-> [Mv W2]].
      destruct (IH acc w2) as [J1 [J2 J3]]; auto; [destruct Mv; lia| |].
      * intros q Hq. destruct (Hr q Hq) as [R1 R2]. split; [exact R1|].
        destruct (described_index _ _ _ D Hq) as [Iq Lq]. rewrite Forall_forall in Hi2.
        eapply ready_moves; [exact Lq|exact R2|exact Mv|exact W2|intros k; apply param_pdo; auto|].
        intros k Hp. split.
        -- intros X. apply (Na k); [|eapply param_pdo; [exact Hi1|exact Hp]]. unfold all_keys. apply in_flat_map. eauto.
        -- intros X. assert (i = q_index q) by (eapply param_same; [exact Hi1|apply Hi2, Iq|exact Hp|exact X]). congruence.
      * split; [exact J1|]. split; [|exact J3]. eapply moves_trans.
        -- eapply moves_weaken; [|exact Mv]. intros k X. right. exists i. cbn; auto.
        -- eapply moves_weaken; [|exact J2]. intros k [X|[j [X Y]]]; [left; exact X|right; exists j; cbn; auto].
  - inversion Nd as [|? ? Ni Nd']; inversion Hi as [|? ? Hi1 Hi2]; subst. destruct (negb (List.length acc <? limit)%nat) eqn:El.
    + injection H as <- <-. split; [exact Hw|]. split; [apply moves_refl|]. exists []. rewrite app_nil_r.
      replace (limit - List.length acc)%nat with 0%nat; [split; [reflexivity|constructor]|]. apply negb_true_iff, Nat.ltb_ge in El. lia.
    + assert (Hk : has_key d (key_sub (mb + q_index q) 0) = true) by (destruct H2 as [_ [[e [H2 _]] _]]; unfold has_key; rewrite H2; reflexivity). rewrite Hk in H.
      rewrite andb_false_r in H. destruct (create (pinit (cb + q_index q) (mb + q_index q)) w) as [[w2 [r|x]]|] eqn:E; try discriminate.
      destruct (Hr q (or_introl eq_refl)) as [R1 R2].
      assert (Ak : all_keys (q :: ps) = keys (q_layout q) ++ all_keys ps) by reflexivity.
      rewrite Ak in Nk, Na.
      assert (Nap : forall a b, NoDup (a ++ b) -> NoDup b /\ (forall x : Z, In x a -> ~ In x b)).
      { clear. induction a as [|y a IH]; intros b H; [split; [exact H|intros x []]|]. cbn in H. inversion H; subst.
        destruct (IH b H3) as [X Y]. split; [exact X|]. intros x [->|Hx]; [intros Z; apply H2, in_or_app; auto|auto]. }
      destruct (Nap _ _ Nk) as [Nk1 Nk2].
      assert (Naq : forall k, In k (keys (q_layout q)) -> ~ pdo_parameter k) by (intros k Hin; apply Na, in_or_app; auto).
      destruct (step_used (q_index q) q w w2 r Hi1 Hw H2 H3 H4 R1 R2 Naq E) as [p [-> [Pp [Mv W2]]]].
      assert (Hl : (List.length acc < limit)%nat) by (apply negb_false_iff, Nat.ltb_lt in El; exact El).
      destruct (IH (acc ++ [p]) w2) as [J1 [J2 [new [J3 J4]]]]; auto; [destruct Mv; lia| | |].
      * intros q' Hq. destruct (Hr q' (or_intror Hq)) as [S1 S2]. split; [exact S1|].
        destruct (described_index _ _ _ D Hq) as [Iq Lq]. rewrite Forall_forall in Hi2.
        eapply ready_moves; [exact Lq|exact S2|exact Mv|exact W2|intros k; apply param_pdo; auto|].
        assert (Kq : forall k, In k (keys (q_layout q')) -> In k (all_keys ps)) by (intros k X; unfold all_keys; apply in_flat_map; eauto).
        intros k [Hp|Hp]; split.
        -- intros X. apply (Nk2 k Hp), Kq, X.
        -- intros X. apply (Naq k Hp). eapply param_pdo; [apply Hi2, Iq|exact X].
        -- intros X. apply (Na k); [apply in_or_app; right; apply Kq, X|]. eapply param_pdo; [exact Hi1|exact Hp].
        -- intros X. assert (q_index q = q_index q') by (eapply param_same; [exact Hi1|apply Hi2, Iq|exact Hp|exact X]). congruence.
      * intros k Hin. apply Na, in_or_app. auto.
      * split; [exact J1|]. split.
        -- replace (limit - List.length acc)%nat with (S (limit - (List.length acc + 1)))%nat by lia. cbn [firstn].
           rewrite app_length in J2. cbn [List.length] in J2.
           eapply moves_trans.
           ++ eapply moves_weaken; [|exact Mv]. intros k [X|X]; [left; unfold all_keys; cbn [flat_map]; apply in_or_app; auto|right; exists (q_index q); cbn; auto].
           ++ eapply moves_weaken; [|exact J2]. intros k [X|[j [X Y]]]; [left; unfold all_keys; cbn [flat_map]; apply in_or_app; auto|right; exists j; cbn; auto].
        -- exists (p :: new). split; [rewrite J3, <- app_assoc; reflexivity|].
           rewrite app_length in J4. cbn [List.length] in J4.
           replace (limit - List.length acc)%nat with (S (limit - (List.length acc + 1)))%nat by lia. cbn [firstn].
           constructor; [|exact J4]. eapply is_pdo_moves; [eapply is_pdo_later; [exact Hn0|exact Pp]|exact J2|].
           intros k [X|[j [X Y]]] Z.
           ++ apply (Nk2 k Z), (all_keys_firstn _ _ _ X).
           ++ apply (Naq k Z). eapply param_pdo; [|exact Y]. rewrite Forall_forall in Hi2. apply Hi2, X.
Qed.

End Dir.

(** ** Both directions *)

Lemma range_512 : NoDup (range 512) /\ Forall (fun i => 0 <= i < 512) (range 512).
Proof.
  split.
  - unfold range. apply Injective_map_NoDup; [intros a b E; lia|apply seq_NoDup].
  - apply Forall_forall. intros i. apply range_in.
Qed.

(** PDOs of an earlier set-up, and what destroying them does *)
Definition created (ps : list pdo) (w : pw) : Prop := forall p i, In p ps -> In i (p_bufs p) -> (i < w_next w)%nat.
Definition buffer_of (ps : list pdo) (i : nat) : Prop := exists p, In p ps /\ In i (p_bufs p).

Lemma freed_buffer : forall ps w i, buffer_of ps i -> w_bufs (free_pdos ps w) i = None.
Proof.
  intros ps w i [p [H1 H2]]. unfold free_pdos. cbn [w_bufs].
  replace (existsb (fun p => existsb (Nat.eqb i) (p_bufs p)) ps) with true; [reflexivity|].
  symmetry. apply existsb_exists. exists p. split; [exact H1|]. apply existsb_exists. exists i. split; [exact H2|]. apply Nat.eqb_refl.
Qed.
Lemma kept_buffer : forall ps w i, ~ buffer_of ps i -> w_bufs (free_pdos ps w) i = w_bufs w i.
Proof.
  intros ps w i H. unfold free_pdos. cbn [w_bufs].
  destruct (existsb (fun p => existsb (Nat.eqb i) (p_bufs p)) ps) eqn:E; [|reflexivity].
  exfalso. apply H. apply existsb_exists in E as [p [H1 E]]. apply existsb_exists in E as [j [H2 E]]. apply Nat.eqb_eq in E. subst j. exists p. auto.
Qed.

Lemma is_pdo_free : forall T d rx n0 w q p ps, is_pdo T d rx n0 w q p -> (forall i, buffer_of ps i -> (i < n0)%nat) -> is_pdo T d rx n0 (free_pdos ps w) q p.
Proof.
  intros T d rx n0 w q p ps [H [Hi Ho]] Hf. split; [|split; [exact Hi|exact Ho]].
  assert (Sl : forall x i, In (x, i) (combine (q_layout q) (p_bufs p)) -> slot_ok T d rx w x i -> slot_ok T d rx (free_pdos ps w) x i).
  { intros x i Hin. apply slot_same; [|reflexivity]. apply kept_buffer. intros X. apply in_combine_r in Hin. specialize (Hi i Hin). specialize (Hf i X). lia. }
  unfold slot_ok in Sl. destruct rx.
  - destruct H as [M H]. split; [|exact H]. destruct M as [M1 M2 M3 M4 M5 M6]. constructor; auto.
  - destruct H as [M H]. split; [|exact H]. destruct M as [M1 M2 M3 M4 M5 M6 M7 M8 M9]. constructor; auto.
Qed.

Lemma touched_param : forall base is ps k, (base = 0x1800 \/ base = 0x1400) -> Forall (fun i => 0 <= i < 512) is ->
  all_touched base is ps k -> In k (all_keys ps) \/ pdo_parameter k.
Proof.
  intros base is ps k Hb Hi [H|[i [Hin H]]]; [auto|]. right. eapply (param_pdo (fun _ => U8) base Hb); [|exact H]. rewrite Forall_forall in Hi. apply Hi, Hin.
Qed.

Lemma both_setup : forall is T dv d nid junk nr_tx nr_rx rxs txs rs0 ts0 w w1 m, NoDup is -> Forall (fun i => 0 <= i < 512) is -> List.length junk = 8%nat -> sub_counts d ->
  described d nid 0x1800 0x1A00 is rxs -> described d nid 0x1400 0x1600 is txs ->
  node_ready T dv d rxs txs w -> created (rs0 ++ ts0) w ->
  match create_all d (rpdo_init dv d nid junk) 0x1800 0x1A00 is nr_tx [] (free_pdos rs0 w) with
  | Undef => Undef
  | Ok (w1, rs, Some x) => Ok (w1, mkMapper rs ts0, Some x)
  | Ok (w1, rs, None) =>
    match create_all d (tpdo_init dv d nid junk) 0x1400 0x1600 is nr_rx [] (free_pdos ts0 w1) with
    | Undef => Undef
    | Ok (w2, ts, x) => Ok (w2, mkMapper rs ts, x)
    end
  end = Ok (w1, m, None) ->
  Forall2 (is_pdo T d true (w_next w) w1) (firstn nr_tx rxs) (rpdos m) /\
  Forall2 (is_pdo T d false (w_next w) w1) (firstn nr_rx txs) (tpdos m) /\ W w1 /\
  (forall k, ~ In k (all_keys (firstn nr_tx rxs) ++ all_keys (firstn nr_rx txs)) -> ~ pdo_parameter k -> lookup k (w_store w1) = lookup k (w_store w)) /\
  (forall i, (i < w_next w)%nat -> ~ buffer_of (rs0 ++ ts0) i -> w_bufs w1 i = w_bufs w i) /\
  (forall i, buffer_of (rs0 ++ ts0) i -> w_bufs w1 i = None).
Proof.
  intros is T dv d nid junk nt nx rxs txs rs0 ts0 w w1 m Nd Hi Hj Hs Dr Dt R Cr H. pose proof Hi as Hi0.
  set (w0 := free_pdos rs0 w) in H.
  assert (W0 : W w0) by (split; [apply R|]; split; apply R).
  assert (Hb1 : 0x1800 = 0x1800 \/ 0x1800 = 0x1400) by auto. assert (Hb2 : 0x1400 = 0x1800 \/ 0x1400 = 0x1400) by auto.
  destruct (create_all d (rpdo_init dv d nid junk) 6144 6656 is nt [] w0) as [[[w2 rs] [x|]]|] eqn:E1; try discriminate.
  assert (Nap : forall a b : list Z, NoDup (a ++ b) -> NoDup a /\ NoDup b /\ (forall x : Z, In x a -> ~ In x b)).
  { clear. induction a as [|y a IH]; intros b H; [repeat split; [constructor|exact H|intros x []]|]. cbn in H. inversion H; subst.
    destruct (IH b H3) as [X [Y Z]]. repeat split; [constructor; [intros V; apply H2, in_or_app; auto|exact X]|exact Y|].
    intros x [->|Hx]; [intros V; apply H2, in_or_app; auto|auto]. }
  destruct (Nap _ _ (nr_keys _ _ _ _ _ _ R)) as [Nk1 [Nk2 Nk3]].
  assert (Rd : forall base ps q, (base = 0x1800 \/ base = 0x1400) -> described d nid base (base + 0x200) is ps ->
     (forall k, In k (all_keys ps) -> In k (all_keys rxs ++ all_keys txs)) -> In q ps -> 
     ready T dv d (base + q_index q) (base + 0x200 + q_index q) (q_layout q) w0).
  { intros base ps q Hb D Sub Hq. destruct (described_index T _ _ _ _ _ _ D Hq) as [Iq Lq].
    rewrite Forall_forall in Hi. specialize (Hi _ Iq).
    assert (Kq : forall k, In k (keys (q_layout q)) -> In k (all_keys rxs ++ all_keys txs)) by (intros k X; apply Sub; unfold all_keys; apply in_flat_map; eauto).
    constructor.
    - apply R.
    - apply R.
    - intros k Hk. apply R. eapply (param_pdo T); [exact Hb|exact Hi|exact Hk].
    - intros s c e b Hs' Hc He Hg Hn. eapply (nr_entry _ _ _ _ _ _ R (base + 0x200 + q_index q) s); try eassumption; lia.
    - intros k Hk Hp. eapply (nr_apart _ _ _ _ _ _ R k (Kq k Hk)). eapply (param_pdo T); [exact Hb|exact Hi|exact Hp].
    - intros k c Hk. apply R, Kq, Hk.
    - intros log k b Hk. apply R, Kq, Hk. }
  destruct (create_all_setup T dv d nid true 0x1800 Hb1 junk Hj Hs (w_next w) is rxs nt [] w0 w2 rs Dr (le_n _) Nd Hi W0) as [W2 [Mv [new [En F]]]]; auto.
  { intros q Hq. split; [apply (nr_rx _ _ _ _ _ _ R q Hq)|]. eapply (Rd 0x1800); eauto. intros k X. apply in_or_app; auto. }
  { intros k Hk. apply (nr_apart _ _ _ _ _ _ R), in_or_app; auto. }
  cbn [app List.length] in En, Mv, F. subst new. rewrite Nat.sub_0_r in F, Mv.
  set (w3 := free_pdos ts0 w2) in H.
  destruct (create_all d (tpdo_init dv d nid junk) 5120 5632 is nx [] w3) as [[[w4 ts] x]|] eqn:E2; try discriminate.
  injection H as <- <- ->. cbn [rpdos tpdos].
  assert (Nx : (w_next w <= w_next w2)%nat) by (destruct Mv as [X _]; exact X).
  assert (W3 : W w3) by exact W2.
  assert (Sep : forall i j k, 0 <= i < 512 -> 0 <= j < 512 -> parameter (0x1800 + i) (0x1A00 + i) k -> parameter (0x1400 + j) (0x1600 + j) k -> False).
  { intros i j k Hi' Hj' [s [Hs' [->| ->]]] [t [Ht [X|X]]]; apply sub_inj in X; lia. }
  rewrite Forall_forall in Hi.
  destruct (create_all_setup T dv d nid false 0x1400 Hb2 junk Hj Hs (w_next w) is txs nx [] w3 w4 ts Dt Nx Nd Hi0 W3) as [W4 [Mv2 [new2 [En2 F2]]]]; auto.
  { intros q Hq. split; [apply (nr_tx _ _ _ _ _ _ R q Hq)|].
    destruct (described_index T _ _ 0x1400 _ _ _ Dt Hq) as [Iq Lq].
    assert (R0 : ready T dv d (5120 + q_index q) (5120 + 512 + q_index q) (q_layout q) w0)
      by (eapply (Rd 0x1400); eauto; intros k X; apply in_or_app; auto).
    assert (Kq : forall k, In k (keys (q_layout q)) -> In k (all_keys txs)) by (intros k X; unfold all_keys; apply in_flat_map; eauto).
    assert (R2 : ready T dv d (5120 + q_index q) (5120 + 512 + q_index q) (q_layout q) w2).
    { eapply (ready_moves T dv d 0); [exact Lq|exact R0|exact Mv|exact W2|intros k X; eapply (param_pdo T 0x1400 Hb2); [apply Hi, Iq|exact X]|].
      intros k [Hp|[i [Hii Hp]]]; split; intros X.
      - eapply Nk3; [eapply all_keys_firstn; exact Hp|apply Kq, X].
      - apply (nr_apart _ _ _ _ _ _ R k); [apply in_or_app; left; eapply all_keys_firstn; exact Hp|]. eapply (param_pdo T 0x1400 Hb2); [apply Hi, Iq|exact X].
      - apply (nr_apart _ _ _ _ _ _ R k); [apply in_or_app; right; apply Kq, X|]. eapply (param_pdo T 0x1800 Hb1); [apply Hi, Hii|exact Hp].
      - eapply Sep; [apply Hi, Hii|apply Hi, Iq|exact Hp|exact X]. }
    destruct R2 as [Q1 Q2 Q3 Q4 Q5 Q6 Q7]. constructor; assumption. }
  { intros k Hk. apply (nr_apart _ _ _ _ _ _ R), in_or_app; auto. }
  cbn [app List.length] in En2, Mv2, F2. subst new2. rewrite Nat.sub_0_r in F2, Mv2.
  assert (Old : forall ps, (forall p, In p ps -> In p (rs0 ++ ts0)) -> forall i, buffer_of ps i -> (i < w_next w)%nat).
  { intros ps Hp i [p [X Y]]. eapply Cr; [apply Hp, X|exact Y]. }
  split; [|split; [|split; [exact W4|split; [|split]]]].
  - assert (Sub : forall q, In q (firstn nt rxs) -> In q rxs).
    { clear. revert nt. induction rxs as [|y l IH]; intros [|n] q H; cbn in *; try contradiction. destruct H; eauto. }
    assert (G : forall qs ps, Forall2 (is_pdo T d true (w_next w) w2) qs ps -> (forall q, In q qs -> In q rxs) -> Forall2 (is_pdo T d true (w_next w) w4) qs ps).
    { intros qs ps X. induction X as [|q p qs ps X1 X2 IH]; intros Hq; constructor; [|apply IH; intros; apply Hq; cbn; auto].
      assert (X3 : is_pdo T d true (w_next w) w3 q p) by (apply is_pdo_free; [exact X1|]; apply Old; intros y Y; apply in_or_app; auto).
      apply (is_pdo_moves T d true 0 _ _ _ w4 _ _ X3 Mv2).
      assert (Kq : forall k, In k (keys (q_layout q)) -> In k (all_keys rxs)) by (intros k Z; unfold all_keys; apply in_flat_map; exists q; split; [apply Hq; cbn; auto|exact Z]).
      intros k [Hp|[i [Hii Hp]]] Z.
      - eapply Nk3; [apply Kq, Z|eapply all_keys_firstn; exact Hp].
      - apply (nr_apart _ _ _ _ _ _ R k); [apply in_or_app; left; apply Kq, Z|]. eapply (param_pdo T 0x1400 Hb2); [apply Hi, Hii|exact Hp]. }
    apply G; auto.
  - exact F2.
  - intros k Hk Hp. destruct Mv as [_ [_ [A3 _]]]. destruct Mv2 as [_ [_ [B3 _]]]. rewrite B3.
    + change (w_store w3) with (w_store w2). rewrite A3; [reflexivity|]. intros X. destruct (touched_param _ _ _ _ Hb1 Hi0 X) as [Y|Y]; [apply Hk, in_or_app; auto|auto].
    + intros X. destruct (touched_param _ _ _ _ Hb2 Hi0 X) as [Y|Y]; [apply Hk, in_or_app; auto|auto].
  - intros i Li Ni. destruct Mv as [_ [A2 _]]. destruct Mv2 as [_ [B2 _]]. rewrite B2 by (change (w_next w3) with (w_next w2); lia).
    unfold w3. rewrite kept_buffer by (intros [p [X Y]]; apply Ni; exists p; split; [apply in_or_app; auto|exact Y]).
    rewrite A2 by exact Li. unfold w0. apply kept_buffer. intros [p [X Y]]. apply Ni. exists p. split; [apply in_or_app; auto|exact Y].
  - intros i Bi. pose proof (Old _ (fun p X => X) i Bi) as Li. destruct Mv as [_ [A2 _]]. destruct Mv2 as [_ [B2 _]].
    rewrite B2 by (change (w_next w3) with (w_next w2); lia). unfold w3.
    destruct Bi as [p [X Y]]. apply in_app_or in X as [X|X].
    + assert (N : w_bufs w2 i = None) by (rewrite A2 by exact Li; apply freed_buffer; exists p; auto).
      unfold free_pdos. cbn [w_bufs]. rewrite N. destruct existsb; reflexivity.
    + apply freed_buffer. exists p. auto.
Qed.

Lemma mapper_setup_any : forall T dv d nid junk nr_tx nr_rx rxs txs m0 w w1 m, List.length junk = 8%nat -> sub_counts d ->
  described d nid 0x1800 0x1A00 (range 512) rxs -> described d nid 0x1400 0x1600 (range 512) txs ->
  node_ready T dv d rxs txs w -> created (rpdos m0 ++ tpdos m0) w ->
  mapper_init dv d nid junk nr_tx nr_rx m0 w = Ok (w1, m, None) ->
  Forall2 (is_pdo T d true (w_next w) w1) (firstn nr_tx rxs) (rpdos m) /\
  Forall2 (is_pdo T d false (w_next w) w1) (firstn nr_rx txs) (tpdos m) /\ W w1 /\
  (forall k, ~ In k (all_keys (firstn nr_tx rxs) ++ all_keys (firstn nr_rx txs)) -> ~ pdo_parameter k -> lookup k (w_store w1) = lookup k (w_store w)) /\
  (forall i, (i < w_next w)%nat -> ~ buffer_of (rpdos m0 ++ tpdos m0) i -> w_bufs w1 i = w_bufs w i) /\
  (forall i, buffer_of (rpdos m0 ++ tpdos m0) i -> w_bufs w1 i = None).
Proof.
  intros T dv d nid junk nr_tx nr_rx rxs txs m0 w w1 m Hj Hs. unfold mapper_init.
  destruct range_512 as [Nd Hi]. revert Nd Hi. generalize (range 512). intros is Nd Hi Dr Dt R Cr H.
  exact (both_setup is T dv d nid junk nr_tx nr_rx rxs txs (rpdos m0) (tpdos m0) w w1 m Nd Hi Hj Hs Dr Dt R Cr H).
Qed.
Lemma mapper_setup_again : forall T dv d nid junk nr_tx nr_rx rxs txs m0 w w1 m, List.length junk = 8%nat -> sub_counts d ->
  described d nid 0x1800 0x1A00 (range 512) rxs -> described d nid 0x1400 0x1600 (range 512) txs ->
  node_ready T dv d rxs txs w -> created (rpdos m0 ++ tpdos m0) w ->
  mapper_init dv d nid junk nr_tx nr_rx m0 w = Ok (w1, m, None) ->
  Forall2 (receives T d w1) (firstn nr_tx rxs) (rpdos m) /\ Forall2 (transmits T d w1) (firstn nr_rx txs) (tpdos m).
Proof.
  intros T dv d nid junk nr_tx nr_rx rxs txs m0 w w1 m Hj Hs Dr Dt R Cr H.
  destruct (mapper_setup_any _ _ _ _ _ _ _ _ _ _ _ _ _ Hj Hs Dr Dt R Cr H) as [F1 [F2 _]]. clear - F1 F2. split.
  - induction F1 as [|q p qs ps [X _] F IH]; constructor; [exact X|exact IH].
  - induction F2 as [|q p qs ps [X _] F IH]; constructor; [exact X|exact IH].
Qed.
Lemma mapper_setup : forall T dv d nid junk nr_tx nr_rx rxs txs w w1 m, List.length junk = 8%nat -> sub_counts d ->
  described d nid 0x1800 0x1A00 (range 512) rxs -> described d nid 0x1400 0x1600 (range 512) txs ->
  node_ready T dv d rxs txs w ->
  mapper_init dv d nid junk nr_tx nr_rx (mkMapper [] []) w = Ok (w1, m, None) ->
  Forall2 (receives T d w1) (firstn nr_tx rxs) (rpdos m) /\ Forall2 (transmits T d w1) (firstn nr_rx txs) (tpdos m).
Proof.
  intros T dv d nid junk nr_tx nr_rx rxs txs w w1 m Hj Hs Dr Dt R H.
  eapply mapper_setup_again; try eassumption. intros p i [].
Qed.
