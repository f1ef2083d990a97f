(** Setting up PDOs keeps the types of the objects and the sizes of the mapped ones,
    whatever the device does and whether or not it ends with an exception. *)
From Verif Require Import Base CanModel KeyModel KeySpec KeyProofs StorageModel StorageSpec StorageProofs PdoModel PdoSpec PdoProofs PdoTxProofs PdoConfProofs PdoLiveProofs
  PdoSetupSpec PdoBootSpec PdoSetupProofs PdoNodeProofs.

Lemma force_type : forall e c rd wr c1 ev r, data_force e c rd wr = Ok (c1, ev, r) -> c_type c1 = c_type c /\
  (List.length (fst (rd (c_buf c))) = List.length (c_buf c) -> List.length (c_buf c1) = List.length (c_buf c)).
Proof.
  intros e c rd wr c1 ev r. unfold data_force. destruct (negb (c_valid c) && e_readable e).
  - destruct (rd (c_buf c)) as [b [|]] eqn:E; intros H; injection H as <- _ _; cbn; auto.
  - destruct (c_valid c); intros H; injection H as <- _ _; auto.
Qed.
Lemma map_type : forall e c r w rd wr c1 ev x, data_map e c r w rd wr = Ok (c1, ev, x) -> c_type c1 = c_type c /\
  (List.length (fst (rd (c_buf c))) = List.length (c_buf c) -> List.length (c_buf c1) = List.length (c_buf c)).
Proof.
  intros e c r w rd wr c1 ev x. unfold data_map. destruct r as [r|], w as [n|].
  - destruct (data_force e (set_delegates c 0 n) rd wr) as [[[c2 ev2] r2]|] eqn:E; [|discriminate].
    destruct (force_type _ _ _ _ _ _ _ E) as [A B]. cbn in A, B.
    destruct r2; intros H; injection H as <- _ _; cbn; auto.
  - intros H. injection H as <- _ _. cbn. auto.
  - intros H. destruct (force_type _ _ _ _ _ _ _ H) as [A B]. auto.
  - intros H. injection H as <- _ _. auto.
Qed.

Section Typed.
Variable T : Z -> ty.
Variable dv : device.
Variable d : dict.
Variable nid : Z.
Variable ks : list Z.
Hypothesis apart : forall k, In k ks -> ~ pdo_parameter k.
Hypothesis sizes : forall log k b, In k ks -> List.length (fst (dv_read dv log k b)) = List.length b.
Hypothesis plain : forall k, In k ks -> numeric (T k) /\ exists e, lookup k d = Some e /\ h_type (e_def e) = Some (T k) /\ entry_plain (T k) e.

Local Notation cell_typed := (PdoBootSpec.cell_typed T d ks).
Definition typed (w : pw) : Prop := forall k c, lookup k (w_store w) = Some c -> cell_typed k c.
Definition Typed {A} (m : M A) : Prop := forall w w1 r, typed w -> m w = Ok (w1, r) -> typed w1.

Lemma typed_store : forall k c w log bufs n, typed w -> cell_typed k c -> typed (mkPW (store k c (w_store w)) log bufs n).
Proof.
  intros k c w log bufs n H Hc k' c'. cbn [w_store]. destruct (Z.eq_dec k' k) as [->|N].
  - rewrite lookup_store_eq. intros X. injection X as <-. exact Hc.
  - rewrite lookup_store_neq by congruence. apply H.
Qed.
Lemma Typed_bind : forall A B (m : M A) (f : A -> M B), Typed m -> (forall a, Typed (f a)) -> Typed (bind m f).
Proof.
  intros A B m f Hm Hf w w1 r H. unfold bind. destruct (m w) as [[w2 [a|x]]|] eqn:E; [| |discriminate].
  - apply (Hf a w2 w1 r (Hm w w2 _ H E)).
  - intros X. injection X as <- _. exact (Hm w w2 _ H E).
Qed.
Lemma Typed_retm : forall A (a : A), Typed (retm a).
Proof. intros A a w w1 r H X. injection X as <- _. exact H. Qed.
Lemma Typed_throw : forall A x, Typed (@throw A x).
Proof. intros A x w w1 r H X. injection X as <- _. exact H. Qed.
Lemma Typed_desc : forall k, Typed (desc d k).
Proof. intros k w w1 r H. unfold desc. destruct (lookup k d); intros X; injection X as <- _; exact H. Qed.
Lemma Typed_assert : forall b, Typed (assert_m b).
Proof. intros [|] w w1 r H X; [injection X as <- _; exact H|discriminate]. Qed.
Lemma Typed_when : forall b m, Typed m -> Typed (when b m).
Proof. intros [|] m H; [exact H|apply Typed_retm]. Qed.
Lemma Typed_value_of : forall k g, Typed (value_of d k g).
Proof. intros k g. unfold value_of. apply Typed_bind; [apply Typed_desc|]. intros e. destruct (g _); [apply Typed_retm|apply Typed_throw]. Qed.

Lemma Typed_entry_of : forall n k, ~ In k ks -> Typed (entry_of d nid n k).
Proof.
  intros n k Hk w w1 r H. unfold entry_of. destruct (lookup k (w_store w)) as [c|].
  - destruct (ty_eqb _ _); intros X; injection X as <- _; exact H.
  - destruct (lookup k d) as [e|] eqn:Ee; [|intros X; injection X as <- _; exact H]. cbv zeta.
    destruct (entry_cell _ e _) as [c|] eqn:Ec; intros X; injection X as <- _; [|exact H].
    apply typed_store; [exact H|]. split; [|intros X; contradiction].
    intros e' He' Ht _. assert (e' = e) by congruence. subst e'. unfold entry_cell in Ec. rewrite Ht in Ec.
    change (TInt (mkIty false 4)) with U32t in Ec.
    destruct (ty_eqb U32t (TInt (mkIty false n))) eqn:Eq.
    + assert (n = 4). { change (ty_eqb U32t (TInt (mkIty false n))) with (4 =? n) in Eq. apply Z.eqb_eq in Eq. congruence. }
      subst n. destruct (h_data (e_def e)); injection Ec as <-; reflexivity.
    + destruct (h_data (e_def e)); discriminate.
Qed.

Lemma Typed_obj : forall k o, ~ In k ks -> not_smap o -> Typed (obj dv d k o).
Proof.
  intros k o Hk N w w1 r H E.
  destruct (obj_inv _ _ _ _ _ _ _ E) as [[-> _]|(c & e & rd & wr & c1 & ev & res & Ec & Ee & Es & El & -> & _)]; [exact H|].
  assert (NM : not_map (to_op o rd wr)) by (destruct o; try exact Logic.I; contradiction).
  destruct (step_uses _ _ _ _ _ _ NM Es) as [[K _] _].
  apply typed_store; [exact H|]. split; [|contradiction]. rewrite K. apply (H k c Ec).
Qed.
Lemma Typed_get_val : forall k c, ~ In k ks -> Typed (get_val dv d k c).
Proof. intros. unfold get_val. apply Typed_bind; [apply Typed_obj; [assumption|exact Logic.I]|]. intros [b| |x]; apply Typed_retm. Qed.
Lemma Typed_set_val : forall n k v, ~ In k ks -> Typed (set_val dv d n k v).
Proof. intros. unfold set_val. apply Typed_bind; [apply Typed_obj; [assumption|exact Logic.I]|]. intros. apply Typed_retm. Qed.

Lemma Typed_init_obj : forall k, Typed (obj dv d k SInit).
Proof.
  intros k w w1 r H E.
  destruct (obj_inv _ _ _ _ _ _ _ E) as [[-> _]|(c & e & rd & wr & c1 & ev & res & Ec & Ee & Es & El & -> & _)]; [exact H|].
  destruct (H k c Ec) as [H1 H2].
  assert (G : c1 = c \/ exists iv, h_data (e_init e) = Some iv /\ c1 = set_buf c iv).
  { cbn [to_op step] in Es. unfold data_init in Es. destruct (h_data (e_init e)) as [iv|]; [|injection Es as <- _ _; auto].
    cbv zeta in Es. destruct (match h_data (e_def e) with Some dv0 => c_valid c && negb (bytes_eqb (c_buf c) dv0) | None => false end); [injection Es as <- _ _; auto|].
    destruct (negb (c_valid c) || negb (bytes_eqb (c_buf c) iv)); [|injection Es as <- _ _; auto].
    right. exists iv. split; [reflexivity|]. destruct (e_writable e && _); injection Es as <- _ _; reflexivity. }
  apply typed_store; [exact H|]. destruct G as [->|[iv [Ei ->]]]; [split; assumption|].
  split; [cbn; intros e' He' _ Hn; congruence|]. intros Hk. destruct (H2 Hk) as [A B]. split; [exact A|]. cbn [set_buf c_buf].
  destruct (plain k Hk) as [Nm [e' [P1 [P2 [_ P3]]]]]. assert (e' = e) by congruence. subst e'.
  unfold hold_ok in P3. rewrite Ei in P3. apply (numeric_size _ _ Nm), P3.
Qed.
Lemma Typed_init_key : forall k, Typed (init_key dv d k).
Proof.
  intros k w w1 r H. unfold init_key. destruct (lookup k d) as [e|] eqn:Ee; [|intros X; injection X as <- _; exact H].
  destruct (h_data (e_init e)) as [iv|] eqn:Ei; [|intros X; injection X as <- _; exact H]. cbv zeta. intros X.
  refine (Typed_bind _ _ (obj dv d k SInit) (fun _ => retm tt) (Typed_init_obj k) (fun _ => Typed_retm _ tt) _ _ _ _ X).
  destruct (lookup k (w_store w)) as [c|] eqn:Ec; [exact H|].
  apply (typed_store k _ w); [exact H|]. split; [intros e' He' _ Hn; congruence|].
  intros Hk. destruct (plain k Hk) as [Nm [e' [P1 [P2 [_ P3]]]]]. assert (e' = e) by congruence. subst e'.
  unfold hold_ok in P3. rewrite Ei in P3. destruct P3 as [-> _]. split; [reflexivity|apply repeat_length].
Qed.

Lemma Typed_smap : forall k r b, Typed (obj dv d k (SMap r b)).
Proof.
  intros k r b w w1 res H. unfold obj.
  destruct (lookup k (w_store w)) as [c|] eqn:Ec; [|intros X; injection X as <- _; exact H].
  destruct (lookup k d) as [e|] eqn:Ee; [|intros X; injection X as <- _; exact H].
  unfold cell_op. cbv zeta. cbn [delegate_read].
  destruct (step e (to_op (SMap r b) (dv_read dv (w_log w) k) true) c) as [[[c0 ev0] r0]|] eqn:E0; [|discriminate].
  destruct (step e (to_op (SMap r b) (dv_read dv (w_log w) k) (writes_ok dv w k ev0)) c) as [[[c1 ev1] r1]|] eqn:E1; [|discriminate].
  destruct (live_events w ev1) eqn:El; [|intros X; discriminate X]. cbn [to_op step] in E1. destruct (map_type _ _ _ _ _ _ _ _ _ E1) as [A B].
  assert (G : typed (mkPW (store k c1 (w_store w)) (w_log w ++ keyed k ev1) (fold_left apply_event ev1 (w_bufs w)) (w_next w))).
  { apply typed_store; [exact H|]. destruct (H k c Ec) as [H1 H2]. split; [rewrite A; exact H1|].
    intros Hk. destruct (H2 Hk) as [K1 K2]. rewrite A, B by (apply sizes, Hk). auto. }
  destruct r1; intros X; injection X as <- _; exact G.
Qed.
Lemma Typed_map_key : forall k e r b, lookup k d = Some e -> Typed (map_key dv d k e r b).
Proof.
  intros k e r b Ee w w1 res H. unfold map_key.
  assert (G : Typed (obj dv d k (SMap r b) ;;; (fun w => match lookup k (w_store w) with
               | Some c => Ok (w, inl (List.length (c_buf c))) | None => Ok (w, inl 0%nat) end))).
  { apply Typed_bind; [apply Typed_smap|]. intros _ u u1 ru Hu. destruct (lookup k (w_store u)); intros X; injection X as <- _; exact Hu. }
  destruct (lookup k (w_store w)) as [c|] eqn:Ec; [intros X; refine (G _ _ _ _ X); exact H|].
  destruct (h_type (e_def e)) as [t|] eqn:Et; [|intros X; injection X as <- _; exact H].
  intros X. refine (G _ _ _ _ X). apply (typed_store k _ w); [exact H|].
  assert (Q1 : c_type (data_reset e (data_typed t)) = t).
  { unfold data_reset. rewrite Et. destruct (h_data (e_def e)); [destruct (ty_eqb t _)|]; reflexivity. }
  split; [intros e' He' Ht _; rewrite Q1; congruence|].
  intros Hk. destruct (plain k Hk) as [Nm [e' [P1 [P2 [P3 _]]]]]. assert (e' = e) by congruence. subst e'. assert (t = T k) by congruence. subst t.
  split; [exact Q1|]. unfold data_reset. rewrite Et. unfold hold_ok in P3. destruct (h_data (e_def e)) as [v|]; [|cbn; apply repeat_length].
  cbn [data_typed c_type]. rewrite ty_eqb_same. cbn [set_buf c_buf]. apply (numeric_size _ _ Nm), P3.
Qed.
Lemma Typed_map_object : forall index s r b, Typed (map_object dv d index s r b).
Proof.
  intros index s r b w w1 res H. unfold map_object.
  destruct (lookup (key_sub index s) d) as [e|] eqn:E; [apply (Typed_map_key _ _ _ _ E _ _ _ H)|].
  destruct (negb (s =? 0)); [intros X; injection X as <- _; exact H|].
  destruct (lookup (key_index index) d) as [e|] eqn:E2; [apply (Typed_map_key _ _ _ _ E2 _ _ _ H)|]. intros X; injection X as <- _; exact H.
Qed.

Lemma not_mapped : forall index s, 0x1400 <= index < 0x1C00 -> 0 <= s <= 255 -> ~ In (key_sub index s) ks.
Proof. intros index s Hi Hs X. apply (apart _ X). exists index, s. auto. Qed.

Lemma Typed_sub : forall mi s rd wr dlc, 0x1400 <= mi < 0x1C00 -> 0 <= s <= 255 -> Typed (map_sub_entry dv d nid mi s rd wr dlc).
Proof.
  intros mi s rd wr dlc Hi Hs. pose proof (not_mapped mi s Hi Hs) as N. unfold map_sub_entry. cbv zeta.
  apply Typed_bind; [apply Typed_entry_of, N|]. intros _. apply Typed_bind; [apply Typed_desc|]. intros e.
  apply Typed_bind. { destruct (h_data (e_init e)); [|apply Typed_retm]. destruct (hold_get U32 (e_init e)); [apply Typed_set_val, N|apply Typed_throw]. }
  intros _. apply Typed_bind; [apply Typed_get_val, N|]. intros p.
  apply Typed_bind. { intros w w1 r H X. injection X as <- _. exact H. }
  intros b. apply Typed_bind.
  { destruct (_ || _); [apply Typed_retm|]. apply Typed_bind; [apply Typed_map_object|]. intros l. apply Typed_assert. }
  intros _. apply Typed_bind; [apply Typed_assert|]. intros _. apply Typed_bind; [|intros _; apply Typed_retm].
  intros w w1 r H X. injection X as <- _. exact H.
Qed.
Lemma Typed_loop : forall mi rd wr subs dlc bufs, 0x1400 <= mi < 0x1C00 -> Forall (fun s => 0 <= s <= 255) subs -> Typed (map_loop dv d nid mi subs rd wr dlc bufs).
Proof.
  intros mi rd wr. induction subs as [|s subs IH]; intros dlc bufs Hi H; [apply Typed_retm|]. inversion H; subst. cbn [map_loop].
  apply Typed_bind; [apply Typed_sub; assumption|]. intros x. apply IH; assumption.
Qed.
Lemma Typed_init_com : forall ci subs, Typed (init_com dv d ci subs).
Proof.
  intros ci. induction subs as [|s subs IH]; [apply Typed_retm|]. cbn [init_com]. apply Typed_bind; [|intros _; exact IH].
  destruct (_ || _); [apply Typed_retm|]. intros w w1 r H.
  destruct (init_key dv d (key_sub ci s) w) as [[x [y|y]]|] eqn:Ei; [|destruct y|discriminate]; intros X; injection X as <- _; exact (Typed_init_key _ _ _ _ H Ei).
Qed.
Lemma Typed_parse : forall ci mi rd wr dlc, 0x1400 <= ci < 0x1C00 -> 0x1400 <= mi < 0x1C00 -> Typed (parse_and_set_mapping dv d nid ci mi rd wr dlc).
Proof.
  intros ci mi rd wr dlc Hc Hm. unfold parse_and_set_mapping. cbv zeta.
  pose proof (not_mapped mi 0 Hm ltac:(lia)) as N0. pose proof (not_mapped ci 1 Hc ltac:(lia)) as N1.
  apply Typed_bind; [apply Typed_entry_of, N0|]. intros _. apply Typed_bind; [apply Typed_desc|]. intros e.
  set (n := match hold_get U8 (e_value e) with Some v => v | None => 0 end).
  apply Typed_bind; [apply Typed_entry_of, N1|]. intros _. apply Typed_bind; [apply Typed_desc|]. intros ce.
  apply Typed_bind. { apply Typed_when. apply Typed_bind; [apply Typed_get_val, N1|]. intros v. apply Typed_set_val, N1. }
  intros _. apply Typed_bind.
  { destruct ((0 <? n) && (n <=? 64)) eqn:En; [|apply Typed_retm].
    apply Typed_bind; [apply Typed_when, Typed_set_val, N0|]. intros _. apply Typed_loop; [exact Hm|].
    apply Forall_forall. intros s Hs. apply in_map_iff in Hs as [i [<- Hi]]. unfold range in Hi. apply in_map_iff in Hi as [j [<- Hj]]. apply in_seq in Hj. lia. }
  intros res. apply Typed_bind.
  { apply Typed_when. apply Typed_bind; [apply Typed_desc|]. intros x. destruct (hold_get U8 (e_value x)); [|apply Typed_throw].
    apply Typed_bind; [apply Typed_assert|]. intros _. apply Typed_init_com. }
  intros _. apply Typed_bind; [apply Typed_when, Typed_set_val, N0|]. intros _. apply Typed_bind; [|intros _; apply Typed_retm].
  apply Typed_when. apply Typed_bind; [apply Typed_init_key|]. intros _. destruct (apply_u32 _ _); [apply Typed_set_val, N1|apply Typed_throw].
Qed.
Lemma Typed_rpdo : forall junk ci mi, 0x1400 <= ci < 0x1C00 -> 0x1400 <= mi < 0x1C00 -> Typed (rpdo_init dv d nid junk ci mi).
Proof.
  intros junk ci mi Hc Hm. unfold rpdo_init. apply Typed_bind; [apply Typed_parse; assumption|]. intros r.
  apply Typed_bind; [apply Typed_value_of|]. intros id. destruct (_ || _); [apply Typed_retm|].
  apply Typed_bind; [apply Typed_value_of|]. intros t. apply Typed_retm.
Qed.
Lemma Typed_tpdo : forall junk ci mi, 0x1400 <= ci < 0x1C00 -> 0x1400 <= mi < 0x1C00 -> Typed (tpdo_init dv d nid junk ci mi).
Proof.
  intros junk ci mi Hc Hm. unfold tpdo_init. pose proof (not_mapped ci 2 Hc ltac:(lia)) as N2.
  apply Typed_bind; [apply Typed_value_of|]. intros id. apply Typed_bind; [apply Typed_parse; assumption|]. intros r.
  destruct (_ || _); [apply Typed_retm|]. cbv zeta. apply Typed_bind; [apply Typed_entry_of, N2|]. intros _.
  apply Typed_bind; [apply Typed_value_of|]. intros t. apply Typed_bind; [apply Typed_when, Typed_set_val, N2|]. intros _. apply Typed_retm.
Qed.
Lemma typed_create_all : forall init cb mb is limit acc w w1 ps x, (forall i, In i is -> Typed (init (cb + i) (mb + i))) ->
  typed w -> create_all d init cb mb is limit acc w = Ok (w1, ps, x) -> typed w1.
Proof.
  intros init cb mb. induction is as [|i is IH]; intros limit acc w w1 ps x Hi H; [intros X; injection X as <- _ _; exact H|]. cbn [create_all].
  destruct (negb _); [intros X; injection X as <- _ _; exact H|].
  destruct (_ && _); [apply IH; [intros j Hj; apply Hi; right; exact Hj|exact H]|].
  unfold create. destruct (init (cb + i) (mb + i) w) as [[w2 [p|y]]|] eqn:E; [| |discriminate].
  - pose proof (Hi i (or_introl eq_refl) _ _ _ H E) as G. destruct p as [p|]; apply IH; try (intros j Hj; apply Hi; right; exact Hj); exact G.
  - intros X. injection X as <- _ _. exact (Hi i (or_introl eq_refl) _ _ _ H E).
Qed.
Lemma typed_mapper : forall junk nt nx m0 w w1 m x, typed w -> mapper_init dv d nid junk nt nx m0 w = Ok (w1, m, x) -> typed w1.
Proof.
  intros junk nt nx m0 w w1 m x H. unfold mapper_init. destruct range_512 as [_ Hi]. revert Hi. generalize (range 512). intros is Hi.
  rewrite Forall_forall in Hi.
  destruct (create_all _ _ _ _ is nt [] (free_pdos (rpdos m0) w)) as [[[w2 rs] x2]|] eqn:E; [|discriminate].
  assert (G : typed w2).
  { refine (typed_create_all _ _ _ _ _ _ _ _ _ _ _ _ E); [|exact H]. intros i Hj. specialize (Hi i Hj). apply Typed_rpdo; lia. }
  destruct x2; [intros X; injection X as <- _ _; exact G|].
  destruct (create_all _ _ _ _ is nx [] (free_pdos (tpdos m0) w2)) as [[[w3 ts] x3]|] eqn:E3; [|discriminate].
  intros X. injection X as <- _ _. refine (typed_create_all _ _ _ _ _ _ _ _ _ _ _ _ E3); [|exact G]. intros i Hj. specialize (Hi i Hj). apply Typed_tpdo; lia.
Qed.
End Typed.
