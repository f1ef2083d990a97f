From Verif Require Import Base CanModel KeyModel StorageModel StorageSpec StorageProofs PdoModel PdoSpec PdoProofs PdoTxProofs PdoConfProofs.

(** ** Buffers stay alive *)

Definition more_live (w w1 : pw) : Prop := forall i, live w i = true -> live w1 i = true.

Definition Safe {A} (N : Prop) (m : M A) : Prop :=
  forall w w1 r, no_dangling w -> m w = Ok (w1, r) ->
    no_dangling w1 /\ more_live w w1 /\ (N -> w_next w1 = w_next w).

Lemma Safe_bind : forall A B N (m : M A) (f : A -> M B), Safe N m -> (forall a, Safe N (f a)) -> Safe N (bind m f).
Proof.
  intros A B N m f Hm Hf w w1 r ND. unfold bind.
  destruct (m w) as [[w2 [a|x]]|] eqn:E; [|intros H; injection H as <- _; eapply Hm; eassumption|discriminate].
  intros H. destruct (Hm _ _ _ ND E) as [A1 [A2 A3]]. destruct (Hf a _ _ _ A1 H) as [B1 [B2 B3]].
  split; [exact B1|]. split; [intros i Hi; auto|]. intros HN. rewrite B3, A3; auto.
Qed.
Lemma Safe_weaken : forall A (N N' : Prop) (m : M A), (N' -> N) -> Safe N m -> Safe N' m.
Proof. intros A N N' m H S w w1 r ND E. destruct (S _ _ _ ND E) as [A1 [A2 A3]]. auto. Qed.

Lemma safe_refl : forall (N : Prop) w, no_dangling w -> no_dangling w /\ more_live w w /\ (N -> w_next w = w_next w).
Proof. intros N w H. split; [exact H|]. split; [intros i Hi; exact Hi|reflexivity]. Qed.

Lemma Safe_retm : forall A N (a : A), Safe N (retm a).
Proof. intros A N a w w1 r ND H. injection H as <- _. apply safe_refl, ND. Qed.
Lemma Safe_throw : forall A N x, Safe N (@throw A x).
Proof. intros A N a w w1 r ND H. injection H as <- _. apply safe_refl, ND. Qed.
Lemma Safe_desc : forall N d k, Safe N (desc d k).
Proof. intros N d k w w1 r ND. unfold desc. destruct (lookup k d); intros H; injection H as <- _; apply safe_refl, ND. Qed.
Lemma Safe_assert : forall N b, Safe N (assert_m b).
Proof. intros N b w w1 r ND. unfold assert_m. destruct b; [|discriminate]. intros H; injection H as <- _; apply safe_refl, ND. Qed.
Lemma Safe_when : forall N b m, Safe N m -> Safe N (when b m).
Proof. intros N [|] m H; [exact H|apply Safe_retm]. Qed.

Lemma safe_store : forall (N : Prop) k c w, no_dangling w -> live w (c_rd c) = true -> live w (c_wr c) = true ->
  let w1 := mkPW (store k c (w_store w)) (w_log w) (w_bufs w) (w_next w) in
  no_dangling w1 /\ more_live w w1 /\ (N -> w_next w1 = w_next w).
Proof.
  intros N k c w ND H1 H2 w1. split; [|split; [intros i Hi; exact Hi|reflexivity]].
  intros k' c' H. subst w1. cbn [w_store] in H. destruct (Z.eq_dec k' k) as [->|Hn].
  - rewrite lookup_store_eq in H. injection H as <-. split; [exact H1|exact H2].
  - rewrite lookup_store_neq in H by congruence. exact (ND k' c' H).
Qed.

Lemma entry_cell_delegates : forall t e nv c, entry_cell t e nv = Some c -> c_rd c = 0%nat /\ c_wr c = 0%nat.
Proof.
  intros t e nv c. unfold entry_cell.
  destruct (h_data (e_def e)), (h_type (e_def e)) as [t'|]; try discriminate.
  - destruct (ty_eqb t' t); [intros H; injection H as <-; auto|]. destruct t, t'; try discriminate.
    destruct (ity_eqb _ _); [|discriminate]. intros H; injection H as <-; auto.
  - destruct (ty_eqb t' t); [|discriminate]. intros H; injection H as <-; auto.
  - intros H; injection H as <-; auto.
Qed.

Lemma Safe_entry_of : forall N d nid n k, Safe N (entry_of d nid n k).
Proof.
  intros N d nid n k w w1 r ND. unfold entry_of.
  destruct (lookup k (w_store w)) as [c|].
  - destruct (ty_eqb _ _); intros H; injection H as <- _; apply safe_refl, ND.
  - destruct (lookup k d) as [e|]; [|intros H; injection H as <- _; apply safe_refl, ND].
    cbv zeta. destruct (entry_cell _ _ _) as [c|] eqn:E; intros H; injection H as <- _; [|apply safe_refl, ND].
    destruct (entry_cell_delegates _ _ _ _ E) as [E1 E2]. apply safe_store; [exact ND|rewrite E1; reflexivity|rewrite E2; reflexivity].
Qed.

Lemma live_apply : forall ev bufs i, (match i with O => true | _ => match bufs i with Some _ => true | None => false end end) = true ->
  (match i with O => true | _ => match fold_left apply_event ev bufs i with Some _ => true | None => false end end) = true.
Proof.
  induction ev as [|x ev IH]; intros bufs [|i] H; try reflexivity; [exact H|].
  cbn [fold_left]. apply (IH (apply_event bufs x) (S i)).
  destruct x as [[|n] b [|]|[|n] b [|]]; cbn [apply_event]; try exact H.
  - destruct (bufs (S n)) as [b'|] eqn:E; [|exact H]. destruct (Nat.eq_dec i n) as [->|Hn];
      [rewrite upd_eq; reflexivity|rewrite upd_neq by congruence; exact H].
  - destruct (bufs (S n)) as [b'|] eqn:E; [|exact H]. destruct (buf_set b' b); [|exact H].
    destruct (Nat.eq_dec i n) as [->|Hn]; [rewrite upd_eq; reflexivity|rewrite upd_neq by congruence; exact H].
Qed.

Lemma Safe_obj_gen : forall (N : Prop) dv d k o w w1 r,
  (forall c e rd wr c1 ev res, lookup k (w_store w) = Some c -> step e (to_op o rd wr) c = Ok (c1, ev, res) ->
     live w (c_rd c1) = true /\ live w (c_wr c1) = true) ->
  no_dangling w -> obj dv d k o w = Ok (w1, r) ->
  no_dangling w1 /\ more_live w w1 /\ (N -> w_next w1 = w_next w).
Proof.
  intros N dv d k o w w1 r G ND H.
  destruct (obj_inv _ _ _ _ _ _ _ H) as [[-> _]|(c & e & rd & wr & c1 & ev & res & Ec & Ee & Es & El & -> & _)]; [apply safe_refl, ND|].
  assert (L : more_live w (mkPW (store k c1 (w_store w)) (w_log w ++ keyed k ev) (fold_left apply_event ev (w_bufs w)) (w_next w))).
  { intros i Hi. unfold live in *. cbn [w_bufs]. apply live_apply, Hi. }
  split; [|split; [exact L|reflexivity]].
  intros k' c' H'. cbn [w_store] in H'. destruct (Z.eq_dec k' k) as [->|Hn].
  - rewrite lookup_store_eq in H'. injection H' as <-.
    destruct (G _ _ _ _ _ _ _ Ec Es) as [G1 G2]. split; apply L; assumption.
  - rewrite lookup_store_neq in H' by congruence. destruct (ND k' c' H') as [D1 D2]. split; apply L; assumption.
Qed.

Lemma Safe_obj : forall N dv d k o, not_smap o -> Safe N (obj dv d k o).
Proof.
  intros N dv d k o Hs w w1 r ND H. eapply Safe_obj_gen; [|exact ND|exact H].
  intros c e rd wr c1 ev res Ec Es.
  assert (NM : not_map (to_op o rd wr)) by (destruct o; try exact I; contradiction).
  destruct (step_uses _ _ _ _ _ _ NM Es) as [[_ [K2 K3]] _]. rewrite K2, K3. apply (ND k c Ec).
Qed.

Lemma Safe_get_val : forall N dv d k c, Safe N (get_val dv d k c).
Proof. intros. apply Safe_bind; [apply Safe_obj; exact I|]. intros [b| |x]; apply Safe_retm. Qed.
Lemma Safe_set_val : forall N dv d n k v, Safe N (set_val dv d n k v).
Proof. intros. apply Safe_bind; [apply Safe_obj; exact I|]. intros. apply Safe_retm. Qed.

Lemma Safe_init_key : forall N dv d k, Safe N (init_key dv d k).
Proof.
  intros N dv d k w w1 r ND. unfold init_key.
  destruct (lookup k d) as [e|]; [|intros H; injection H as <- _; apply safe_refl, ND].
  destruct (h_data (e_init e)); [|intros H; injection H as <- _; apply safe_refl, ND].
  assert (G : Safe N (obj dv d k SInit;;; retm tt)).
  { apply Safe_bind; [apply Safe_obj; exact I|]. intros. apply Safe_retm. }
  cbv zeta. destruct (lookup k (w_store w)) as [c|] eqn:Ec; intros H.
  - destruct w. eapply G; eassumption.
  - set (c := data_typed (match h_type (e_init e) with Some t => t | None => TStr end)) in *.
    destruct (safe_store N k c w ND eq_refl eq_refl) as [A1 [A2 A3]].
    destruct (G _ _ _ A1 H) as [B1 [B2 B3]]. split; [exact B1|]. split; [intros i Hi; auto|].
    intros HN. rewrite B3, A3 by exact HN. reflexivity.
Qed.

Lemma Safe_map_object : forall dv d i s r b w w1 res,
  (r = None \/ r = Some b) -> live w b = true -> no_dangling w ->
  map_object dv d i s r (Some b) w = Ok (w1, res) -> no_dangling w1 /\ more_live w w1.
Proof.
  intros dv d i s r b w w1 res Hr Lb ND.
  assert (G0 : forall k w w1 res, live w b = true -> no_dangling w ->
    (obj dv d k (SMap r (Some b));;;
     (fun w => match lookup k (w_store w) with
               | Some c => Ok (w, inl (List.length (c_buf c)))
               | None => Ok (w, inl 0%nat) end)) w = Ok (w1, res) -> no_dangling w1 /\ more_live w w1).
  { clear - Hr. intros k w w1 res Lb ND. unfold bind.
    destruct (obj dv d k (SMap r (Some b)) w) as [[w2 r2]|] eqn:E; [|discriminate].
    assert (G : no_dangling w2 /\ more_live w w2 /\ (True -> w_next w2 = w_next w)).
    { eapply Safe_obj_gen; [|exact ND|exact E]. intros c e rd wr c1 ev res' Ec Es. cbn [to_op step] in Es.
      destruct (map_uses _ _ _ _ _ _ _ _ _ Es) as [_ [_ [U1 U2]]]. rewrite U1, U2.
      destruct Hr as [->| ->]; [split; [reflexivity|exact Lb]|]. destruct res'; auto. }
    destruct G as [G1 [G2 _]].
    destruct r2 as [a|x]; [destruct (lookup k (w_store w2))|]; intros H; injection H as <- _; auto. }
  assert (G1 : forall k e w w1 res, live w b = true -> no_dangling w -> map_key dv d k e r (Some b) w = Ok (w1, res) ->
    no_dangling w1 /\ more_live w w1).
  { clear w w1 res Lb ND. intros k e w w1 res Lb ND. unfold map_key.
    destruct (lookup k (w_store w)) as [c|] eqn:Ec.
    - intros H. destruct w. eapply G0; eassumption.
    - destruct (h_type (e_def e)) as [t|]; [|intros H; injection H as <- _; split; [exact ND|intros j Hj; exact Hj]].
      intros H. set (c := data_reset e (data_typed t)) in *.
      assert (Hc : c_rd c = 0%nat /\ c_wr c = 0%nat).
      { unfold c, data_reset. destruct (h_data (e_def e)), (h_type (e_def e)); try (destruct (ty_eqb _ _)); auto. }
      destruct (safe_store True k c w ND) as [A1 [A2 A3]]; [rewrite (proj1 Hc); reflexivity|rewrite (proj2 Hc); reflexivity|].
      destruct (G0 _ _ _ _ (A2 _ Lb) A1 H) as [B1 B2]. split; [exact B1|intros j Hj; auto]. }
  unfold map_object. destruct (lookup (key_sub i s) d); [apply G1; assumption|].
  destruct (negb (s =? 0)); [intros H; injection H as <- _; split; [exact ND|intros j Hj; exact Hj]|].
  destruct (lookup (key_index i) d); [apply G1; assumption|intros H; injection H as <- _; split; [exact ND|intros j Hj; exact Hj]].
Qed.

Lemma live_upd : forall w s l n i b, live w i = true -> live (mkPW s l (upd (w_bufs w) n (Some b)) (w_next w)) i = true.
Proof.
  intros w s l n [|i] b H; [reflexivity|]. cbn [live w_bufs] in *. unfold upd. destruct (Nat.eqb (S i) n); [reflexivity|exact H].
Qed.

Lemma Safe_map_sub : forall dv d nid mi s rd wr dlc, Safe False (map_sub_entry dv d nid mi s rd wr dlc).
Proof.
  intros dv d nid mi s rd wr dlc. unfold map_sub_entry. cbv zeta.
  apply Safe_bind; [apply Safe_entry_of|]. intros _.
  apply Safe_bind; [apply Safe_desc|]. intros e.
  apply Safe_bind.
  { destruct (h_data (e_init e)); [|apply Safe_retm]. destruct (hold_get U32 (e_init e)); [apply Safe_set_val|apply Safe_throw]. }
  intros _. apply Safe_bind; [apply Safe_get_val|]. intros p.
  intros w w1 r ND. unfold bind at 1. unfold new_buffer.
  set (n := Z.to_nat (map_length p / 8)). set (b := w_next w).
  set (w0 := mkPW (w_store w) (w_log w) (upd (w_bufs w) b (Some (buf_new n))) (S b)).
  assert (L0 : more_live w w0).
  { intros [|i] Hi; [reflexivity|]. cbn [live w_bufs w0] in *. unfold upd. destruct (Nat.eqb (S i) b); [reflexivity|exact Hi]. }
  assert (N0 : no_dangling w0) by (intros k c Hc; destruct (ND k c Hc) as [D1 D2]; split; apply L0; assumption).
  assert (Lb : live w0 b = true) by (destruct b eqn:Eb; [reflexivity|cbn [live w_bufs w0]; rewrite upd_eq; reflexivity]).
  unfold bind at 1. intros H.
  assert (T : forall w2, no_dangling w2 -> more_live w0 w2 -> forall w1 r,
    (assert_m (u8 (dlc + Z.of_nat n) <=? 8);;; clean_buffer b;;; retm (b, u8 (dlc + Z.of_nat n))) w2 = Ok (w1, r) ->
    no_dangling w1 /\ more_live w w1 /\ (False -> w_next w1 = w_next w)).
  { clear H w1 r. intros w2 N2 L2 w1 r. unfold bind, assert_m. destruct (_ <=? 8); [|discriminate].
    unfold clean_buffer, retm. intros H. injection H as <- _.
    assert (L3 : more_live w2 (mkPW (w_store w2) (w_log w2)
           (match w_bufs w2 b with Some b0 => upd (w_bufs w2) b (Some (buf_clean b0)) | None => w_bufs w2 end) (w_next w2))).
    { intros i Hi. destruct (w_bufs w2 b); [apply live_upd, Hi|destruct i; exact Hi]. }
    split; [intros k c Hc; destruct (N2 k c Hc) as [D1 D2]; split; apply L3; assumption|].
    split; [intros i Hi; auto|contradiction]. }
  assert (Hrd : (if rd then Some b else None) = None \/ (if rd then Some b else None) = Some b) by (destruct rd; auto).
  destruct ((map_idx p <? 4096) || negb (rd || wr)).
  - cbn [retm] in H. unfold retm in H at 1. eapply T; [exact N0|intros i Hi; exact Hi|exact H].
  - unfold bind at 1 in H.
    destruct (map_object dv d (map_idx p) (map_sub p) (if rd then Some b else None) (Some b) w0) as [[w2 [l|x]]|] eqn:E; [| |discriminate].
    + destruct (Safe_map_object _ _ _ _ _ _ _ _ _ Hrd Lb N0 E) as [M1 M2].
      unfold assert_m in H at 1. destruct (l =? n)%nat; [|discriminate]. eapply T; [exact M1|exact M2|exact H].
    + destruct (Safe_map_object _ _ _ _ _ _ _ _ _ Hrd Lb N0 E) as [M1 M2].
      injection H as <- _. split; [exact M1|]. split; [intros i Hi; auto|contradiction].
Qed.

Lemma Safe_map_loop : forall dv d nid mi rd wr subs dlc bufs, Safe False (map_loop dv d nid mi subs rd wr dlc bufs).
Proof.
  intros dv d nid mi rd wr subs. induction subs as [|s subs IH]; intros dlc bufs; cbn [map_loop]; [apply Safe_retm|].
  apply Safe_bind; [apply Safe_map_sub|]. intros x. apply IH.
Qed.
Lemma map_loop_length : forall dv d nid mi rd wr subs dlc bufs w w1 x, map_loop dv d nid mi subs rd wr dlc bufs w = Ok (w1, inl x) ->
  List.length (fst x) = (List.length bufs + List.length subs)%nat.
Proof.
  intros dv d nid mi rd wr subs. induction subs as [|s subs IH]; intros dlc bufs w w1 x; cbn [map_loop].
  - intros H. injection H as _ <-. cbn. lia.
  - unfold bind. destruct (map_sub_entry dv d nid mi s rd wr dlc w) as [[w2 [y|e]]|]; [|discriminate|discriminate].
    intros H. apply IH in H. rewrite app_length in H. cbn in *. lia.
Qed.

Lemma Safe_init_com : forall N dv d ci subs, Safe N (init_com dv d ci subs).
Proof.
  intros N dv d ci subs. induction subs as [|s subs IH]; cbn [init_com]; [apply Safe_retm|].
  apply Safe_bind; [|intros _; exact IH].
  destruct (_ || _); [apply Safe_retm|].
  intros w w1 r ND H.
  destruct (init_key dv d (key_sub ci s) w) as [[w2 r2]|] eqn:E; [|discriminate].
  assert (w1 = w2) by (destruct r2 as [|[]]; injection H as <- _; reflexivity). subst w2.
  eapply Safe_init_key; eassumption.
Qed.

Lemma Safe_parse : forall dv d nid com map rd wr dlc,
  Safe (~ 1 <= pdo_count d map <= 64) (parse_and_set_mapping dv d nid com map rd wr dlc).
Proof.
  intros dv d nid com map rd wr dlc. unfold parse_and_set_mapping. cbv zeta.
  apply Safe_bind; [apply Safe_entry_of|]. intros _.
  intros w w1 r ND H. unfold bind at 1 in H. unfold desc at 1 in H.
  destruct (lookup (key_sub map 0) d) as [e|] eqn:Ee; [|injection H as <- _; apply safe_refl, ND].
  set (n := match hold_get U8 (e_value e) with Some v => v | None => 0 end) in *.
  assert (En : pdo_count d map = n) by (unfold pdo_count; rewrite Ee; reflexivity).
  revert H. revert w w1 r ND.
  match goal with |- forall w w1 r, _ -> ?m w = _ -> _ => change (Safe (~ 1 <= pdo_count d map <= 64) m) end.
  rewrite En.
  apply Safe_bind; [apply Safe_entry_of|]. intros _.
  apply Safe_bind; [apply Safe_desc|]. intros ce.
  apply Safe_bind; [apply Safe_when, Safe_bind; [apply Safe_get_val|intros; apply Safe_set_val]|]. intros _.
  apply Safe_bind.
  { destruct ((0 <? n) && (n <=? 64)) eqn:E; [|apply Safe_retm].
    apply (Safe_weaken _ False); [lia|]. apply Safe_bind; [apply Safe_when, Safe_set_val|]. intros _. apply Safe_map_loop. }
  intros res. apply Safe_bind.
  { apply Safe_when, Safe_bind; [apply Safe_desc|]. intros x. destruct (hold_get U8 (e_value x)); [|apply Safe_throw].
    apply Safe_bind; [apply Safe_assert|]. intros _. apply Safe_init_com. }
  intros _. apply Safe_bind; [apply Safe_when, Safe_set_val|]. intros _.
  apply Safe_bind; [|intros; apply Safe_retm].
  apply Safe_when, Safe_bind; [apply Safe_init_key|]. intros _.
  destruct (apply_u32 nid (e_value ce)); [apply Safe_set_val|apply Safe_throw].
Qed.

(** Elimination of a bind that ended without exception *)
Lemma bind_inl : forall A B (m : M A) (f : A -> M B) w w1 b, bind m f w = Ok (w1, inl b) ->
  exists w2 a, m w = Ok (w2, inl a) /\ f a w2 = Ok (w1, inl b).
Proof.
  intros A B m f w w1 b. unfold bind. destruct (m w) as [[w2 [a|x]]|]; [eauto|discriminate|discriminate].
Qed.

Lemma parse_nonempty : forall dv d nid com map rd wr dlc w w1 r, 
  parse_and_set_mapping dv d nid com map rd wr dlc w = Ok (w1, inl r) ->
  1 <= pdo_count d map <= 64 -> fst r <> [].
Proof.
  intros dv d nid com map rd wr dlc w w1 r H Hn. unfold parse_and_set_mapping in H. cbv zeta in H.
  apply bind_inl in H as [w2 [[] [_ H]]].
  apply bind_inl in H as [w3 [e [He H]]]. unfold desc in He.
  destruct (lookup (key_sub map 0) d) as [e'|] eqn:Ee; [|discriminate]. injection He as <- <-.
  unfold pdo_count in Hn. rewrite Ee in Hn.
  set (n := match hold_get U8 (e_value e') with Some v => v | None => 0 end) in *.
  apply bind_inl in H as [w4 [[] [_ H]]]. apply bind_inl in H as [w5 [ce [_ H]]].
  apply bind_inl in H as [w6 [[] [_ H]]]. apply bind_inl in H as [w7 [res [Hr H]]].
  apply bind_inl in H as [w8 [[] [_ H]]]. apply bind_inl in H as [w9 [[] [_ H]]]. apply bind_inl in H as [w10 [[] [_ H]]].
  injection H as _ <-.
  replace ((0 <? n) && (n <=? 64)) with true in Hr by lia.
  apply bind_inl in Hr as [w11 [[] [_ Hr]]]. apply map_loop_length in Hr.
  rewrite List.map_length in Hr. unfold range in Hr. rewrite List.map_length, seq_length in Hr. cbn [List.length] in Hr.
  intros E. rewrite E in Hr. cbn in Hr. lia.
Qed.

Lemma Safe_value_of : forall N d k g, Safe N (value_of d k g).
Proof. intros. apply Safe_bind; [apply Safe_desc|]. intros e. destruct (g (e_value e)); [apply Safe_retm|apply Safe_throw]. Qed.

Lemma invalid_bit : forall v, pdoid_invalid v = Z.testbit v 31.
Proof. intros v. unfold pdoid_invalid. apply pow2_testbit_has. lia. Qed.

Lemma apply_given : forall nid e v, apply_u32 nid (e_value e) = Some v <-> given_u32 nid e v.
Proof.
  assert (L : forall b, of_le (firstn 4 b) = nth 0 b 0 + 2^8 * nth 1 b 0 + 2^16 * nth 2 b 0 + 2^24 * nth 3 b 0).
  { intros b. destruct b as [|x [|y [|z [|w b]]]]; cbn [firstn of_le nth]; lia. }
  intros nid e v. split.
  - intros H. unfold apply_u32, hold_get in H.
    assert (G : e_value e = e_init e \/ (h_data (e_init e) = None /\ e_value e = e_def e)).
    { unfold e_value. destruct (h_data (e_init e)) eqn:D; [left; reflexivity|right; auto]. }
    destruct (h_type (e_value e)) as [t|] eqn:T; [|discriminate].
    destruct (h_data (e_value e)) as [b|] eqn:D.
    2: { destruct t; discriminate. }
    destruct (ty_eqb t U32) eqn:X.
    + injection H as <-. apply ty_eqb_spec in X. subst t. exists (e_value e), b.
      split; [exact G|]. split; [exact D|]. left. split; [exact T|]. rewrite <- L. reflexivity.
    + destruct t as [| | |T0]; try discriminate H. destruct (ity_eqb T0 (mkIty false 4)) eqn:Y; [|discriminate H].
      injection H as <-. assert (T0 = mkIty false 4).
      { destruct T0 as [s n]. unfold ity_eqb in Y. cbn in Y. apply andb_true_iff in Y. destruct Y as [Y1 Y2].
        apply eqb_prop in Y1. apply Z.eqb_eq in Y2. subst. reflexivity. }
      subst T0. exists (e_value e), b. split; [exact G|]. split; [exact D|]. right. split; [exact T|].
      rewrite <- L. reflexivity.
  - intros (h & b & G & D & V).
    assert (E : e_value e = h).
    { unfold e_value. destruct G as [->|[N ->]]; [rewrite D|rewrite N]; reflexivity. }
    rewrite E. unfold apply_u32, hold_get. rewrite D. cbv zeta in V. rewrite <- L in V. destruct V as [[T ->]|[T ->]]; rewrite T.
    + reflexivity.
    + reflexivity.
Qed.

Lemma value_enabled : forall d nid com w w1 v, value_of d (key_sub com 1) (apply_u32 nid) w = Ok (w1, inl v) ->
  pdo_enabled d nid com -> pdoid_invalid v = false.
Proof.
  intros d nid com w w1 v H [e [v' [E1 [E2 E3]]]]. apply apply_given in E2. unfold value_of, bind, desc in H. rewrite E1, E2 in H.
  injection H as _ <-. rewrite invalid_bit. exact E3.
Qed.

Definition Good (dv : device) (d : dict) (nid : Z) (init : Z -> Z -> M (option pdo)) : Prop :=
  forall com map, Safe (~ 1 <= pdo_count d map <= 64) (init com map) /\
    forall w w1, init com map w = Ok (w1, inl None) -> 1 <= pdo_count d map <= 64 -> ~ pdo_enabled d nid com.

Lemma rpdo_good : forall dv d nid junk, Good dv d nid (rpdo_init dv d nid junk).
Proof.
  intros dv d nid junk com map. split.
  - unfold rpdo_init. apply Safe_bind; [apply Safe_parse|]. intros r. apply Safe_bind; [apply Safe_value_of|]. intros id.
    destruct (_ || _); [apply Safe_retm|]. apply Safe_bind; [apply Safe_value_of|]. intros. apply Safe_retm.
  - intros w w1 H Hn He. unfold rpdo_init in H.
    apply bind_inl in H as [w2 [r [Hp H]]]. pose proof (parse_nonempty _ _ _ _ _ _ _ _ _ _ _ Hp Hn) as Hne.
    apply bind_inl in H as [w3 [id [Hid H]]]. pose proof (value_enabled _ _ _ _ _ _ Hid He) as Hv. rewrite Hv in H.
    destruct (fst r) eqn:Er; [contradiction|]. cbn [orb] in H.
    apply bind_inl in H as [w4 [t [_ H]]]. discriminate.
Qed.

Lemma tpdo_good : forall dv d nid junk, Good dv d nid (tpdo_init dv d nid junk).
Proof.
  intros dv d nid junk com map. split.
  - unfold tpdo_init. apply Safe_bind; [apply Safe_value_of|]. intros id. apply Safe_bind; [apply Safe_parse|]. intros r.
    destruct (_ || _); [apply Safe_retm|]. cbv zeta. apply Safe_bind; [apply Safe_entry_of|]. intros _.
    apply Safe_bind; [apply Safe_value_of|]. intros t. apply Safe_bind; [apply Safe_when, Safe_set_val|]. intros. apply Safe_retm.
  - intros w w1 H Hn He. unfold tpdo_init in H.
    apply bind_inl in H as [w3 [id [Hid H]]]. pose proof (value_enabled _ _ _ _ _ _ Hid He) as Hv.
    apply bind_inl in H as [w2 [r [Hp H]]]. pose proof (parse_nonempty _ _ _ _ _ _ _ _ _ _ _ Hp Hn) as Hne.
    rewrite Hv in H. destruct (fst r) eqn:Er; [contradiction|]. cbn [orb] in H. cbv zeta in H.
    apply bind_inl in H as [w4 [[] [_ H]]]. apply bind_inl in H as [w5 [t [_ H]]]. apply bind_inl in H as [w6 [[] [_ H]]]. discriminate.
Qed.

Lemma create_live : forall dv d nid init com map w w1 p,
  Good dv d nid init -> (1 <= pdo_count d map <= 64 -> pdo_enabled d nid com) ->
  no_dangling w -> create (init com map) w = Ok (w1, inl p) -> no_dangling w1.
Proof.
  intros dv d nid init com map w w1 p G He ND. destruct (G com map) as [G1 G2]. unfold create.
  destruct (init com map w) as [[w2 [[q|]|x]]|] eqn:E; [| |discriminate|discriminate].
  - intros H. injection H as <- _. destruct (G1 _ _ _ ND E) as [A1 _]. exact A1.
  - intros H. injection H as <- _. destruct (G1 _ _ _ ND E) as [A1 [A2 A3]].
    assert (X : w_next w2 = w_next w).
    { apply A3. intros Hn. exact (G2 _ _ E Hn (He Hn)). }
    intros k c Hc. cbn [w_store] in Hc. destruct (A1 k c Hc) as [D1 D2].
    assert (L : forall i, live w2 i = true -> live (mkPW (w_store w2) (w_log w2) (free_range (w_bufs w2) (w_next w) (w_next w2)) (w_next w2)) i = true).
    { intros [|i] Hi; [reflexivity|]. cbn [live w_bufs] in *. unfold free_range. rewrite X.
      destruct ((w_next w <=? S i)%nat && (S i <? w_next w)%nat) eqn:Er; [|exact Hi].
      apply andb_true_iff in Er as [Er1 Er2]. apply Nat.leb_le in Er1. apply Nat.ltb_lt in Er2. lia. }
    split; apply L; assumption.
Qed.

Lemma create_all_live : forall dv d nid init cb mb limit is acc w w1 ps,
  Good dv d nid init -> (forall i, In i is -> 1 <= pdo_count d (mb + i) <= 64 -> pdo_enabled d nid (cb + i)) ->
  no_dangling w -> create_all d init cb mb is limit acc w = Ok (w1, ps, None) -> no_dangling w1.
Proof.
  intros dv d nid init cb mb limit is. induction is as [|i is IH]; intros acc w w1 ps G He ND; cbn [create_all].
  - intros H. injection H as <- _. exact ND.
  - destruct (negb _); [intros H; injection H as <- _; exact ND|].
    destruct (negb _ && negb _); [apply IH; auto; intros; apply He; [right|]; assumption|].
    destruct (create (init (cb + i) (mb + i)) w) as [[w2 [p|x]]|] eqn:E; [|discriminate|discriminate].
    apply IH; auto; [intros; apply He; [right|]; assumption|].
    eapply create_live; [exact G| |exact ND|exact E]. apply He. left. reflexivity.
Qed.

Theorem mapper_live : forall dv d nid junk nr_tx nr_rx w w1 m,
  pdos_enabled d nid 0x1800 0x1A00 -> pdos_enabled d nid 0x1400 0x1600 ->
  no_dangling w -> mapper_init dv d nid junk nr_tx nr_rx (mkMapper [] []) w = Ok (w1, m, None) -> no_dangling w1.
Proof.
  intros dv d nid junk nr_tx nr_rx w w1 m H1 H2 ND. unfold mapper_init. cbn [rpdos tpdos].
  assert (F : forall w, no_dangling w -> no_dangling (free_pdos [] w)).
  { clear. intros w ND k c Hc. exact (ND k c Hc). }
  destruct (create_all d (rpdo_init dv d nid junk) 6144 6656 (range 512) nr_tx [] (free_pdos [] w)) as [[[w2 rs] [x|]]|] eqn:E; [discriminate| |discriminate].
  assert (N2 : no_dangling w2).
  { eapply create_all_live; [apply rpdo_good| |apply F, ND|exact E]. intros i Hi. apply H1. apply range_in, Hi. }
  destruct (create_all d (tpdo_init dv d nid junk) 5120 5632 (range 512) nr_rx [] (free_pdos [] w2)) as [[[w3 ts] x]|] eqn:E2; [|discriminate].
  intros H. injection H as <- _ ->.
  eapply create_all_live; [apply tpdo_good| |apply F, N2|exact E2]. intros i Hi. apply H2. apply range_in, Hi.
Qed.
