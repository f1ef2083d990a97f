From Verif Require Import Base CanModel KeyModel KeySpec KeyProofs StorageModel StorageSpec StorageProofs PdoModel PdoSpec PdoProofs PdoTxProofs.

(** ** Effects of computations *)

Definition only (K : Z -> Prop) (x : Z * event) : Prop :=
  match snd x with EvWrite O _ _ => K (fst x) | _ => True end.

(** Writes only objects in [K] through SDO, keeps the types of the cells, and
    with [D] their delegates. *)
Definition eff (K : Z -> Prop) (D : Prop) (w w1 : pw) : Prop :=
  (w_next w <= w_next w1)%nat /\
  (exists log, w_log w1 = w_log w ++ log /\ Forall (only K) log) /\
  (forall k c, lookup k (w_store w) = Some c ->
     exists c1, lookup k (w_store w1) = Some c1 /\ c_type c1 = c_type c /\ (D -> keeps c c1)).

Lemma eff_refl : forall K D w, eff K D w w.
Proof.
  intros. split; [lia|]. split; [exists []; rewrite app_nil_r; auto|].
  intros k c H. exists c. split; [exact H|]. split; [reflexivity|]. intros _. apply keeps_refl.
Qed.

Lemma eff_trans : forall K D a b c, eff K D a b -> eff K D b c -> eff K D a c.
Proof.
  intros K D a b c [A1 [[l1 [A2 A3]] A4]] [B1 [[l2 [B2 B3]] B4]].
  split; [lia|]. split.
  - exists (l1 ++ l2). rewrite B2, A2, app_assoc. split; [reflexivity|]. apply Forall_app. auto.
  - intros k x H. destruct (A4 k x H) as [x1 [H1 [T1 K1]]]. destruct (B4 k x1 H1) as [x2 [H2 [T2 K2]]].
    exists x2. split; [exact H2|]. split; [congruence|]. intros HD. eapply keeps_trans; auto.
Qed.

Lemma eff_weaken : forall (K K' : Z -> Prop) (D D' : Prop) w w1, (forall k, K k -> K' k) -> (D' -> D) ->
  eff K D w w1 -> eff K' D' w w1.
Proof.
  intros K K' D D' w w1 HK HD [A1 [[l [A2 A3]] A4]]. split; [exact A1|]. split.
  - exists l. split; [exact A2|]. eapply Forall_impl; [|exact A3]. intros [k [n b ok|[|n] b ok]]; cbn; auto.
  - intros k c H. destruct (A4 k c H) as [c1 [H1 [T1 K1]]]. exists c1. auto.
Qed.

Definition Eff {A} (K : Z -> Prop) (D : Prop) (m : M A) : Prop :=
  forall w w1 r, (0 < w_next w)%nat -> m w = Ok (w1, r) -> eff K D w w1.

Lemma Eff_weaken : forall A (K K' : Z -> Prop) (D D' : Prop) (m : M A), (forall k, K k -> K' k) -> (D' -> D) ->
  Eff K D m -> Eff K' D' m.
Proof. intros A K K' D D' m HK HD H w w1 r P E. eapply eff_weaken; [exact HK|exact HD|eapply H; eassumption]. Qed.

Lemma Eff_bind : forall A B K D (m : M A) (f : A -> M B), Eff K D m -> (forall a, Eff K D (f a)) -> Eff K D (bind m f).
Proof.
  intros A B K D m f Hm Hf w w1 r P. unfold bind.
  destruct (m w) as [[w2 [a|x]]|] eqn:E; [|intros H; injection H as <- _; eapply Hm; eassumption|discriminate].
  intros H. pose proof (Hm _ _ _ P E) as E1. eapply eff_trans; [exact E1|].
  eapply Hf; [|exact H]. destruct E1 as [E1 _]. lia.
Qed.

Lemma Eff_retm : forall A K D (a : A), Eff K D (retm a).
Proof. intros A K D a w w1 r P H. injection H as <- _. apply eff_refl. Qed.
Lemma Eff_throw : forall A K D x, Eff K D (@throw A x).
Proof. intros A K D x w w1 r P H. injection H as <- _. apply eff_refl. Qed.
Lemma Eff_desc : forall K D d k, Eff K D (desc d k).
Proof. intros K D d k w w1 r P. unfold desc. destruct (lookup k d); intros H; injection H as <- _; apply eff_refl. Qed.
Lemma Eff_assert : forall K D b, Eff K D (assert_m b).
Proof. intros K D b w w1 r P. unfold assert_m. destruct b; [|discriminate]. intros H; injection H as <- _; apply eff_refl. Qed.
Lemma Eff_when : forall K D b m, (b = true -> Eff K D m) -> Eff K D (when b m).
Proof. intros K D [|] m H; [apply H; reflexivity|apply Eff_retm]. Qed.

Definition never : Z -> Prop := fun _ => False.

Lemma eff_new_cell : forall K D k c w, lookup k (w_store w) = None ->
  eff K D w (mkPW (store k c (w_store w)) (w_log w) (w_bufs w) (w_next w)).
Proof.
  intros K D k c w H. split; [cbn; lia|]. split; [exists []; rewrite app_nil_r; auto|].
  intros k' c' H'. cbn [w_store]. exists c'. rewrite lookup_store_neq by congruence.
  split; [exact H'|]. split; [reflexivity|]. intros _. apply keeps_refl.
Qed.

Lemma Eff_entry_of : forall D d nid n k, Eff never D (entry_of d nid n k).
Proof.
  intros D d nid n k w w1 r P. unfold entry_of.
  destruct (lookup k (w_store w)) as [c|] eqn:Ec.
  - destruct (ty_eqb _ _); intros H; injection H as <- _; apply eff_refl.
  - destruct (lookup k d) as [e|]; [|intros H; injection H as <- _; apply eff_refl].
    cbv zeta. destruct (entry_cell _ _ _) as [c|]; intros H; injection H as <- _; [apply eff_new_cell, Ec|apply eff_refl].
Qed.

(** What the events of a mapping look like. *)
Lemma map_uses : forall e c r b rd wr c1 ev res, data_map e c r (Some b) rd wr = Ok (c1, ev, res) ->
  c_type c1 = c_type c /\
  Forall (fun x => match x with EvRead n _ _ => n = 0%nat | EvWrite n _ _ => n = b end) ev /\
  c_rd c1 = (match r, res with Some r, RThrow _ => 0%nat | Some r, _ => r | None, _ => 0%nat end) /\
  c_wr c1 = (match r, res with Some r, RThrow _ => b | Some _, _ => 0%nat | None, _ => b end).
Proof.
  intros e c r b rd wr c1 ev res. unfold data_map.
  assert (G : forall c2 ev2 res2, data_force e (set_delegates c 0 b) rd wr = Ok (c2, ev2, res2) ->
    c_type c2 = c_type c /\ c_rd c2 = 0%nat /\ c_wr c2 = b /\
    Forall (fun x => match x with EvRead n _ _ => n = 0%nat | EvWrite n _ _ => n = b end) ev2).
  { intros c2 ev2 res2. unfold data_force. cbn [c_valid set_delegates c_buf c_rd c_wr c_type].
    destruct (negb (c_valid c) && e_readable e).
    - destruct (rd (c_buf c)) as [bb ok]. destruct ok; intros H; injection H as <- <- _; cbn; repeat split; auto.
    - destruct (c_valid c); intros H; injection H as <- <- _; cbn; repeat split; auto. }
  destruct r as [r|].
  - destruct (data_force e (set_delegates c 0 b) rd wr) as [[[c2 ev2] res2]|] eqn:E; [|discriminate].
    destruct (G _ _ _ eq_refl) as [G1 [G2 [G3 G4]]].
    destruct res2; intros H; injection H as <- <- <-; cbn [set_delegates c_type c_rd c_wr]; auto.
  - intros H. destruct (G _ _ _ H) as [G1 [G2 [G3 G4]]]. auto.
Qed.

(** What a successful evaluation of an operation does. *)
Lemma obj_inv : forall dv d k o w w1 r, obj dv d k o w = Ok (w1, r) ->
  (w1 = w /\ r = inr PRange /\ (lookup k (w_store w) = None \/ lookup k d = None)) \/
  exists c e rd wr c1 ev res, lookup k (w_store w) = Some c /\ lookup k d = Some e /\
    step e (to_op o rd wr) c = Ok (c1, ev, res) /\ live_events w ev = true /\
    w1 = mkPW (store k c1 (w_store w)) (w_log w ++ keyed k ev) (fold_left apply_event ev (w_bufs w)) (w_next w) /\
    r = match res with RThrow x => inr (PStorage x) | _ => inl res end /\
    (exists ev0 c0 r0, step e (to_op o rd true) c = Ok (c0, ev0, r0) /\ wr = writes_ok dv w k ev0).
Proof.
  intros dv d k o w w1 r. unfold obj.
  destruct (lookup k (w_store w)) as [c|] eqn:Ec.
  2:{ intros H. injection H as <- <-. left. auto. }
  destruct (lookup k d) as [e|] eqn:Ee.
  2:{ intros H. injection H as <- <-. left. auto. }
  unfold cell_op. cbv zeta.
  set (rd := delegate_read dv w k (match o with SMap _ _ => 0%nat | _ => c_rd c end)).
  destruct (step e (to_op o rd true) c) as [[[c0 ev0] r0]|] eqn:E0; [|discriminate].
  destruct (step e (to_op o rd (writes_ok dv w k ev0)) c) as [[[c1 ev1] r1]|] eqn:E1; [|discriminate].
  destruct (live_events w ev1) eqn:El; [|discriminate].
  intros H. right. exists c, e, rd, (writes_ok dv w k ev0), c1, ev1, r1.
  repeat split; auto.
  - destruct r1; injection H as <- _; reflexivity.
  - destruct r1; injection H as _ <-; reflexivity.
  - eauto.
Qed.

Lemma keyed_only : forall (K : Z -> Prop) k ev,
  Forall (fun x => match x with EvWrite O _ _ => K k | _ => True end) ev -> Forall (only K) (keyed k ev).
Proof. intros K k ev H. unfold keyed. induction H; cbn [map]; constructor; auto. Qed.

Lemma eff_store : forall (K : Z -> Prop) (D : Prop) k c c1 ev bufs w,
  lookup k (w_store w) = Some c -> c_type c1 = c_type c -> (D -> keeps c c1) ->
  Forall (fun x => match x with EvWrite O _ _ => K k | _ => True end) ev ->
  eff K D w (mkPW (store k c1 (w_store w)) (w_log w ++ keyed k ev) bufs (w_next w)).
Proof.
  intros K D k c c1 ev bufs w Ec Ht Hk Hev. split; [cbn; lia|]. split.
  - eexists. split; [reflexivity|]. apply keyed_only, Hev.
  - intros k' c' H. cbn [w_store]. destruct (Z.eq_dec k' k) as [->|N].
    + rewrite lookup_store_eq. rewrite Ec in H. injection H as <-. eauto.
    + rewrite lookup_store_neq by congruence. exists c'. split; [exact H|]. split; [reflexivity|]. intros _. apply keeps_refl.
Qed.

Lemma Eff_obj : forall dv d k o, not_smap o -> Eff (fun k' => k' = k) True (obj dv d k o).
Proof.
  intros dv d k o N w w1 r P H.
  destruct (obj_inv _ _ _ _ _ _ _ H) as [[-> _]|(c & e & rd & wr & c1 & ev & res & Ec & Ee & Es & El & -> & _)]; [apply eff_refl|].
  assert (NM : not_map (to_op o rd wr)) by (destruct o; try exact I; contradiction).
  destruct (step_uses _ _ _ _ _ _ NM Es) as [K _].
  eapply eff_store; [exact Ec|apply K|auto|].
  apply Forall_forall. intros [n b ok|[|n] b ok] _; auto.
Qed.

Lemma Eff_get : forall dv d k c, Eff never True (obj dv d k (SGet c)).
Proof.
  intros dv d k cached w w1 r P H.
  destruct (obj_inv _ _ _ _ _ _ _ H) as [[-> _]|(c & e & rd & wr & c1 & ev & res & Ec & Ee & Es & El & -> & _)]; [apply eff_refl|].
  destruct (step_uses e (to_op (SGet cached) rd wr) _ _ _ _ I Es) as [K _].
  eapply eff_store; [exact Ec|apply K|auto|].
  cbn [to_op step] in Es. clear - Es. unfold data_get in Es.
  destruct (negb (e_readable e)); [injection Es as _ <- _; constructor|].
  cbv zeta in Es. destruct (_ || _).
  - destruct (rd _) as [b [|]]; [destruct (access _); [|discriminate]|]; injection Es as _ <- _; repeat constructor.
  - destruct (access c); [|discriminate]. injection Es as _ <- _. constructor.
Qed.

Lemma Eff_smap : forall dv d k r b, Eff never False (obj dv d k (SMap r (Some (S b)))).
Proof.
  intros dv d k r b w w1 res P H.
  destruct (obj_inv _ _ _ _ _ _ _ H) as [[-> _]|(c & e & rd & wr & c1 & ev & res' & Ec & Ee & Es & El & -> & _)]; [apply eff_refl|].
  cbn [to_op step] in Es. destruct (map_uses _ _ _ _ _ _ _ _ _ Es) as [T [U _]].
  eapply eff_store; [exact Ec|exact T|contradiction|].
  eapply Forall_impl; [|exact U]. intros [n x ok|[|n] x ok]; cbn; auto. discriminate.
Qed.

Lemma Eff_get_val : forall D dv d k c, Eff never D (get_val dv d k c).
Proof.
  intros. apply (Eff_weaken _ never never True D); auto.
  apply Eff_bind; [apply Eff_get|]. intros [b| |x]; apply Eff_retm.
Qed.
Lemma Eff_set_val : forall D dv d n k v, Eff (fun k' => k' = k) D (set_val dv d n k v).
Proof.
  intros. apply (Eff_weaken _ (fun k' => k' = k) (fun k' => k' = k) True D); auto.
  apply Eff_bind; [apply Eff_obj; exact I|]. intros. apply Eff_retm.
Qed.
Lemma Eff_init_key : forall D dv d k, Eff (fun k' => k' = k) D (init_key dv d k).
Proof.
  intros D dv d k. apply (Eff_weaken _ (fun k' => k' = k) (fun k' => k' = k) True D); auto.
  intros w w1 r P. unfold init_key.
  destruct (lookup k d) as [e|]; [|intros H; injection H as <- _; apply eff_refl].
  destruct (h_data (e_init e)); [|intros H; injection H as <- _; apply eff_refl].
  assert (G : Eff (fun k' => k' = k) True (obj dv d k SInit;;; retm tt)).
  { apply Eff_bind; [apply Eff_obj; exact I|]. intros. apply Eff_retm. }
  destruct (lookup k (w_store w)) as [c|] eqn:Ec; intros H.
  - destruct w. eapply G; eassumption.
  - eapply eff_trans; [apply eff_new_cell, Ec|]. eapply G; [|exact H]. exact P.
Qed.

Lemma Eff_map_key : forall dv d k e r b, Eff never False (map_key dv d k e r (Some (S b))).
Proof.
  intros dv d k e r b w w1 res P. unfold map_key.
  assert (G : Eff never False (obj dv d k (SMap r (Some (S b)));;;
     (fun w => match lookup k (w_store w) with
               | Some c => Ok (w, inl (List.length (c_buf c)))
               | None => Ok (w, inl 0%nat) end))).
  { apply Eff_bind; [apply Eff_smap|]. intros _ w2 w3 r3 P2 H. 
    destruct (lookup k (w_store w2)); injection H as <- _; apply eff_refl. }
  destruct (lookup k (w_store w)) as [c|] eqn:Ec.
  - intros H. destruct w. eapply G; eassumption.
  - destruct (h_type (e_def e)) as [t|]; [|intros H; injection H as <- _; apply eff_refl].
    intros H. eapply eff_trans; [apply eff_new_cell, Ec|]. eapply G; [|exact H]. exact P.
Qed.

Lemma Eff_map_object : forall dv d i s r b, Eff never False (map_object dv d i s r (Some (S b))).
Proof.
  intros dv d i s r b w w1 res P. unfold map_object.
  destruct (lookup (key_sub i s) d); [apply Eff_map_key, P|].
  destruct (negb (s =? 0)); [intros H; injection H as <- _; apply eff_refl|].
  destruct (lookup (key_index i) d); [apply Eff_map_key, P|intros H; injection H as <- _; apply eff_refl].
Qed.

Lemma Eff_clean : forall K D b, Eff K D (clean_buffer b).
Proof.
  intros K D b w w1 r P H. injection H as <- _. split; [cbn; lia|]. split; [exists []; rewrite app_nil_r; auto|].
  intros k c H. exists c. split; [exact H|]. split; [reflexivity|]. intros _. apply keeps_refl.
Qed.

(** One turn of the loop: only the mapping entry is written, and that only if a
    value is configured. *)
Lemma Eff_map_sub : forall dv d nid mi s rd wr dlc,
  Eff (fun k => k = key_sub mi s /\ has_init d k = true) False (map_sub_entry dv d nid mi s rd wr dlc).
Proof.
  intros dv d nid mi s rd wr dlc. unfold map_sub_entry. cbv zeta.
  assert (W : forall A (m : M A), Eff never False m -> Eff (fun k => k = key_sub mi s /\ has_init d k = true) False m).
  { intros A m. apply Eff_weaken; [intros k []|auto]. }
  apply Eff_bind; [apply W, Eff_entry_of|]. intros _.
  intros w w1 r P H. unfold bind at 1 in H. unfold desc in H.
  destruct (lookup (key_sub mi s) d) as [e|] eqn:Ee; [|injection H as <- _; apply eff_refl].
  revert H. revert w w1 r P.
  match goal with |- forall w w1 r, _ -> ?m w = _ -> _ => change (Eff (fun k => k = key_sub mi s /\ has_init d k = true) False m) end.
  apply Eff_bind.
  { unfold has_init. destruct (h_data (e_init e)) as [iv|] eqn:Ei; [|apply Eff_retm].
    destruct (hold_get U32 (e_init e)); [|apply Eff_throw].
    eapply Eff_weaken; [|intros HD; exact HD|apply Eff_set_val].
    intros k ->. rewrite Ee, Ei. auto. }
  intros _. apply Eff_bind; [apply W, Eff_get_val|]. intros p. apply W.
  intros w w1 r P. unfold bind at 1. unfold new_buffer.
  assert (N : w_next w = S (pred (w_next w))) by lia. rewrite N.
  intros H. eapply eff_trans.
  2:{ revert H. match goal with |- ?m ?w0 = _ -> _ => 
        assert (G : Eff never False m); [|intros H; eapply G; [|exact H]; cbn; lia] end.
      apply Eff_bind.
      { destruct (_ || _); [apply Eff_retm|].
        apply Eff_bind; [apply Eff_map_object|]. intros. apply Eff_assert. }
      intros _. apply Eff_bind; [apply Eff_assert|]. intros _. apply Eff_bind; [apply Eff_clean|]. intros _. apply Eff_retm. }
  split; [cbn; lia|]. split; [exists []; rewrite app_nil_r; auto|].
  intros k c Hc. exists c. split; [exact Hc|]. split; [reflexivity|contradiction].
Qed.

Lemma Eff_map_loop : forall dv d nid mi rd wr subs dlc bufs,
  Eff (fun k => exists s, In s subs /\ k = key_sub mi s /\ has_init d k = true) False (map_loop dv d nid mi subs rd wr dlc bufs).
Proof.
  intros dv d nid mi rd wr subs. induction subs as [|s subs IH]; intros dlc bufs; cbn [map_loop]; [apply Eff_retm|].
  apply Eff_bind.
  - eapply Eff_weaken; [|intros HD; exact HD|apply Eff_map_sub]. intros k [H1 H2]. exists s. split; [left; reflexivity|auto].
  - intros x. eapply Eff_weaken; [|intros HD; exact HD|apply IH].
    intros k [s' [H1 H2]]. exists s'. split; [right; exact H1|exact H2].
Qed.

Lemma Eff_init_com : forall D dv d ci subs,
  Eff (fun k => exists s, In s subs /\ s <> 1 /\ k = key_sub ci s) D (init_com dv d ci subs).
Proof.
  intros D dv d ci subs. induction subs as [|s subs IH]; cbn [init_com]; [apply Eff_retm|].
  apply Eff_bind.
  - destruct (s =? 1) eqn:E1; [apply Eff_retm|]. cbn [orb]. destruct (s =? 4); [apply Eff_retm|].
    intros w w1 r P H.
    destruct (init_key dv d (key_sub ci s) w) as [[w2 r2]|] eqn:E; [|discriminate].
    assert (w1 = w2) by (destruct r2 as [|[]]; injection H as <- _; reflexivity). subst w2.
    eapply eff_weaken; [|intros HD; exact HD|eapply Eff_init_key; [exact P|exact E]].
    intros k ->. exists s. split; [left; reflexivity|]. split; [lia|reflexivity].
  - intros _. eapply Eff_weaken; [|intros HD; exact HD|apply IH].
    intros k [s' [H1 H2]]. exists s'. split; [right; exact H1|exact H2].
Qed.

(** ** A device that checks the protocol *)

Lemma reconf_app : forall com map l1 l2 s,
  reconf_ok com map s (l1 ++ l2) <-> reconf_ok com map s l1 /\ reconf_ok com map (reconf_end com map s l1) l2.
Proof.
  intros com map. induction l1 as [|x l1 IH]; intros l2 s; cbn [reconf_ok app]; [tauto|].
  rewrite IH. tauto.
Qed.
Lemma reconf_end_app : forall com map l1 l2 s,
  reconf_end com map s (l1 ++ l2) = reconf_end com map (reconf_end com map s l1) l2.
Proof. intros. apply fold_left_app. Qed.

(** Triples *)
Definition trip {A} (com map : Z) (P : pw -> dpdo -> Prop) (m : M A) (Q : A -> pw -> dpdo -> Prop) : Prop :=
  forall w s w1 r, (0 < w_next w)%nat -> P w s -> m w = Ok (w1, r) ->
    (0 < w_next w1)%nat /\
    exists log, w_log w1 = w_log w ++ log /\ reconf_ok com map s log /\
      match r with inl a => Q a w1 (reconf_end com map s log) | inr _ => True end.

Lemma trip_bind : forall A B com map (m : M A) (f : A -> M B) P Q R,
  trip com map P m Q -> (forall a, trip com map (Q a) (f a) R) -> trip com map P (bind m f) R.
Proof.
  intros A B com map m f P Q R Hm Hf w s w1 r Pos HP. unfold bind.
  destruct (m w) as [[w2 [a|x]]|] eqn:E; [| |discriminate].
  - destruct (Hm _ _ _ _ Pos HP E) as [P2 [l1 [L1 [O1 Q1]]]]. intros H.
    destruct (Hf a _ _ _ _ P2 Q1 H) as [P3 [l2 [L2 [O2 Q2]]]].
    split; [exact P3|]. exists (l1 ++ l2). rewrite L2, L1, app_assoc. split; [reflexivity|].
    rewrite reconf_app. split; [split; assumption|]. rewrite reconf_end_app. exact Q2.
  - intros H. injection H as <- <-. destruct (Hm _ _ _ _ Pos HP E) as [P2 [l1 [L1 [O1 Q1]]]].
    split; [exact P2|]. exists l1. auto.
Qed.

Lemma trip_pre : forall A com map (P P' : pw -> dpdo -> Prop) (m : M A) Q,
  (forall w s, P w s -> P' w s) -> trip com map P' m Q -> trip com map P m Q.
Proof. intros A com map P P' m Q H T w s w1 r Pos HP. apply T; auto. Qed.

Lemma trip_post : forall A com map P (m : M A) (Q Q' : A -> pw -> dpdo -> Prop),
  (forall a w s, Q' a w s -> Q a w s) -> trip com map P m Q' -> trip com map P m Q.
Proof.
  intros A com map P m Q Q' H T w s w1 r Pos HP E. destruct (T _ _ _ _ Pos HP E) as [P2 [l [L [O X]]]].
  split; [exact P2|]. exists l. split; [exact L|]. split; [exact O|]. destruct r; auto.
Qed.

Lemma trip_case : forall A com map (P : pw -> dpdo -> Prop) (m : M A) Q, (forall w s, P w s -> trip com map (fun w' s' => w' = w /\ s' = s) m Q) -> trip com map P m Q.
Proof. intros A com map P m Q H w s w1 r Pos HP. apply (H w s HP); auto. Qed.

(** Writing other objects, or parameters while it is allowed. *)
Lemma only_ok : forall com map (K : Z -> Prop) s log,
  (forall k, K k -> k <> key_sub com 1 /\ k <> key_sub map 0 /\
     ((exists i, 1 <= i <= 64 /\ k = key_sub map i) -> dp_enabled s = false /\ dp_count s = 0) /\
     ((exists i, 2 <= i <= 255 /\ k = key_sub com i) -> dp_enabled s = false)) ->
  Forall (only K) log -> reconf_ok com map s log /\ reconf_end com map s log = s.
Proof.
  intros com map K s log HK H. induction H as [|[k ev] log Hx H IH]; [split; [exact I|reflexivity]|].
  assert (S : reconf_step com map s (k, ev) = s).
  { unfold reconf_step. cbn [fst snd]. destruct ev as [n b ok|[|n] b [|]]; auto.
    cbn in Hx. destruct (HK k Hx) as [H1 [H2 _]].
    rewrite (proj2 (Z.eqb_neq _ _) H1), (proj2 (Z.eqb_neq _ _) H2). reflexivity. }
  cbn [reconf_ok]. unfold reconf_end. cbn [fold_left]. rewrite S. fold (reconf_end com map s log).
  destruct IH as [I1 I2]. repeat split; auto.
  unfold reconf_legal. cbn [fst snd]. destruct ev as [n b ok|[|n] b ok]; auto.
  cbn in Hx. destruct (HK k Hx) as [H1 [H2 [H3 H4]]].
  split; [intros; contradiction|]. split; intros i Hi E; [apply H3; eauto|apply H4; eauto].
Qed.

Lemma trip_eff : forall A com map (K : Z -> Prop) (D : Prop) (m : M A) (P : pw -> dpdo -> Prop),
  (forall w s, P w s -> forall k, K k -> k <> key_sub com 1 /\ k <> key_sub map 0 /\
     ((exists i, 1 <= i <= 64 /\ k = key_sub map i) -> dp_enabled s = false /\ dp_count s = 0) /\
     ((exists i, 2 <= i <= 255 /\ k = key_sub com i) -> dp_enabled s = false)) ->
  (forall w s w1, P w s -> eff K D w w1 -> P w1 s) ->
  Eff K D m -> trip com map P m (fun _ => P).
Proof.
  intros A com map K D m P HK HP H w s w1 r Pos Hw E.
  pose proof (H _ _ _ Pos E) as F. pose proof F as [F1 [[log [F2 F3]] F4]].
  split; [lia|]. exists log. destruct (only_ok com map K s log (HK w s Hw) F3) as [O1 O2].
  split; [exact F2|]. split; [exact O1|]. rewrite O2. destruct r; [|exact I]. eapply HP; eassumption.
Qed.

(** A successful [set] of a number *)
Lemma set_val_inv : forall dv d n k v w w1 r c e,
  lookup k (w_store w) = Some c -> lookup k d = Some e -> e_writable e = true ->
  c_type c = TInt (mkIty false (Z.of_nat n)) ->
  set_val dv d n k v w = Ok (w1, r) ->
  exists b ok, w_log w1 = w_log w ++ [(k, EvWrite (c_wr c) b ok)] /\
    firstn n b = le_bytes n v /\ w_next w1 = w_next w /\ (r = inl tt -> c_wr c = 0%nat -> ok = true) .
Proof.
  intros dv d n k v w w1 r c e Ec Ee Hw Ht. unfold set_val, bind.
  destruct (obj dv d k (SSet (le_bytes n v)) w) as [[w2 r2]|] eqn:E; [|discriminate].
  destruct (obj_inv _ _ _ _ _ _ _ E) as [[_ [_ [H|H]]]|(c' & e' & rd & wr & c1 & ev & res & Ec' & Ee' & Es & El & -> & Er & X)]; [congruence|congruence|].
  rewrite Ec in Ec'. injection Ec' as <-. rewrite Ee in Ee'. injection Ee' as <-.
  cbn [to_op step] in Es. unfold data_set in Es. rewrite Hw in Es. cbn [negb] in Es. unfold data_write in Es.
  destruct (assign c (le_bytes n v)) as [c2|] eqn:Ea; [|discriminate]. unfold ret in Es. injection Es as <- <- <-.
  assert (Lv : List.length (le_bytes n v) = n).
  { clear. revert v. induction n; intros v; cbn; auto. }
  assert (Hb : firstn n (c_buf c2) = le_bytes n v).
  { unfold assign in Ea. rewrite Ht in Ea. destruct (_ <? _)%nat; [discriminate|]. injection Ea as <-.
    cbn [c_buf set_buf]. rewrite firstn_app, Lv, Nat.sub_diag. cbn [firstn]. rewrite app_nil_r. apply firstn_all2. lia. }
  destruct wr; cbn in Er; subst r2.
  - intros H. injection H as <- <-. exists (c_buf c2), true. cbn. auto.
  - intros H. injection H as <- <-. exists (c_buf c2), false. cbn. split; [reflexivity|]. split; [exact Hb|].
    split; [reflexivity|discriminate].
Qed.

Lemma ty_eqb_spec : forall a b, ty_eqb a b = true -> a = b.
Proof.
  intros [[sa na]|na| |[sa na]] [[sb nb]|nb| |[sb nb]]; cbn; try discriminate; try reflexivity;
    intros H; try (apply andb_true_iff in H as [H1 H2]; apply Bool.eqb_prop in H1; apply Z.eqb_eq in H2; cbn in *; subst; reflexivity).
  apply Nat.eqb_eq in H. subst. reflexivity.
Qed.

Lemma range_in : forall n x, In x (range n) -> 0 <= x < n.
Proof. intros n x H. unfold range in H. apply in_map_iff in H as [y [<- H]]. apply in_seq in H. lia. Qed.

Section Protocol.
Variables com map : Z.
Hypothesis Hcom : 0 <= com < 2^16.
Hypothesis Hmap : 0 <= map < 2^16.
Hypothesis Hne : com <> map.

Let num := key_sub map 0.
Let cob := key_sub com 1.

Lemma sub_inj : forall i j s t, 0 <= i < 2^16 -> 0 <= j < 2^16 -> 0 <= s < 2^8 -> 0 <= t < 2^8 ->
  key_sub i s = key_sub j t -> i = j /\ s = t.
Proof.
  intros i j s t Hi Hj Hs Ht E.
  assert (KSub i s = KSub j t) as X; [|injection X; auto].
  apply mk_key_inj; [split; assumption|split; assumption|exact E].
Qed.

Lemma num_not_cob : num <> cob.
Proof. intros E. apply sub_inj in E; lia. Qed.

Lemma trip_set_cob : forall dv d v (P : pw -> dpdo -> Prop) e,
  lookup cob d = Some e -> e_writable e = true ->
  (forall w s, P w s -> exists c, lookup cob (w_store w) = Some c /\ c_type c = U32) ->
  (forall w w1 s s1, P w s -> eff (fun k => k = cob) True w w1 -> dp_count s1 = dp_count s -> P w1 s1) ->
  trip com map P (set_val dv d 4 cob v)
    (fun _ w s => P w s /\ ((exists c, lookup cob (w_store w) = Some c /\ c_wr c = 0%nat) -> dp_enabled s = negb (Z.testbit v 31))).
Proof.
  intros dv d v P e Ee Hw HP HS w s w1 r Pos Hp E.
  destruct (HP w s Hp) as [c [Ec Ht]].
  pose proof (Eff_set_val True dv d 4 cob v w w1 r Pos E) as F.
  destruct (set_val_inv dv d 4 cob v w w1 r c e Ec Ee Hw Ht E) as [b [ok [L [B [N R]]]]].
  split; [lia|]. eexists. split; [exact L|]. split.
  - cbn [reconf_ok]. split; [|exact I]. unfold reconf_legal. cbn [fst snd]. destruct (c_wr c); [|exact I].
    split; [intros X; symmetry in X; apply num_not_cob in X; contradiction|].
    split; intros i Hi X; apply sub_inj in X; lia.
  - destruct r as [[]|]; [|exact I].
    assert (C : dp_count (reconf_end com map s [(cob, EvWrite (c_wr c) b ok)]) = dp_count s).
    { unfold reconf_end. cbn [fold_left]. unfold reconf_step. cbn [snd fst]. destruct (c_wr c); [|reflexivity].
      destruct ok; [|reflexivity]. fold cob. rewrite Z.eqb_refl. reflexivity. }
    split; [eapply HS; eassumption|].
    intros [c1 [Ec1 Hc1]].
    destruct F as [_ [_ F3]]. destruct (F3 _ _ Ec) as [c2 [Ec2 [_ K]]]. rewrite Ec1 in Ec2. injection Ec2 as <-.
    destruct (K Logic.I) as [_ [_ K3]]. rewrite Hc1 in K3.
    rewrite <- K3 in *. rewrite (R eq_refl eq_refl). unfold reconf_end. cbn [fold_left].
    unfold reconf_step. cbn [snd fst]. fold cob. rewrite Z.eqb_refl. cbn [dp_enabled]. f_equal.
    assert (X : nth 3 b 0 = (v / 256 / 256 / 256) mod 256).
    { destruct b as [|b0 [|b1 [|b2 [|b3 b]]]]; cbn [firstn le_bytes] in B; try discriminate.
      cbn [nth]. injection B as _ _ _ B3. exact B3. }
    rewrite X. change 256 with (2^8) at 4. rewrite Z.mod_pow2_bits_low by lia.
    replace (v / 256 / 256 / 256) with (v / 2^24) by (rewrite !Z.div_div by lia; reflexivity). rewrite <- Z.shiftr_div_pow2 by lia.
    rewrite Z.shiftr_spec by lia. reflexivity.
Qed.

Lemma trip_set_num : forall dv d v (P : pw -> dpdo -> Prop) e,
  lookup num d = Some e -> e_writable e = true ->
  (forall w s, P w s -> dp_enabled s = false /\ exists c, lookup num (w_store w) = Some c /\ c_type c = U8) ->
  (forall w w1 s s1, P w s -> eff (fun k => k = num) True w w1 -> dp_enabled s1 = dp_enabled s -> P w1 s1) ->
  trip com map P (set_val dv d 1 num v)
    (fun _ w s => P w s /\ ((exists c, lookup num (w_store w) = Some c /\ c_wr c = 0%nat) -> dp_count s = v mod 256)).
Proof.
  intros dv d v P e Ee Hw HP HS w s w1 r Pos Hp E.
  destruct (HP w s Hp) as [Hen [c [Ec Ht]]].
  pose proof (Eff_set_val True dv d 1 num v w w1 r Pos E) as F.
  destruct (set_val_inv dv d 1 num v w w1 r c e Ec Ee Hw Ht E) as [b [ok [L [B [N R]]]]].
  split; [lia|]. eexists. split; [exact L|]. split.
  - cbn [reconf_ok]. split; [|exact I]. unfold reconf_legal. cbn [fst snd]. destruct (c_wr c); [|exact I].
    split; [intros _; exact Hen|].
    split; intros i Hi X; apply sub_inj in X; lia.
  - destruct r as [[]|]; [|exact I].
    assert (NC : (num =? cob) = false) by (apply Z.eqb_neq, num_not_cob).
    assert (C : dp_enabled (reconf_end com map s [(num, EvWrite (c_wr c) b ok)]) = dp_enabled s).
    { unfold reconf_end. cbn [fold_left]. unfold reconf_step. cbn [snd fst]. destruct (c_wr c); [|reflexivity].
      destruct ok; [|reflexivity]. fold cob num. rewrite NC, Z.eqb_refl. reflexivity. }
    split; [eapply HS; eassumption|].
    intros [c1 [Ec1 Hc1]].
    destruct F as [_ [_ F3]]. destruct (F3 _ _ Ec) as [c2 [Ec2 [_ K]]]. rewrite Ec1 in Ec2. injection Ec2 as <-.
    destruct (K Logic.I) as [_ [_ K3]]. rewrite Hc1 in K3.
    rewrite <- K3 in *. rewrite (R eq_refl eq_refl). unfold reconf_end. cbn [fold_left].
    unfold reconf_step. cbn [snd fst]. fold cob num. rewrite NC, Z.eqb_refl. cbn [dp_count].
    destruct b as [|b0 b]; cbn [firstn le_bytes] in B; [discriminate|]. injection B as B. exact B.
Qed.


Lemma trip_pure : forall A (phi : Prop) (P : pw -> dpdo -> Prop) (m : M A) Q,
  (forall w s, P w s -> phi) -> (phi -> trip com map P m Q) -> trip com map P m Q.
Proof. intros A phi P m Q H1 H2 w s w1 r Pos HP. apply (H2 (H1 w s HP)); auto. Qed.

Lemma trip_retm : forall A (a : A) (P : A -> pw -> dpdo -> Prop), trip com map (P a) (retm a) P.
Proof. intros A a P w s w1 r Pos HP H. injection H as <- <-. split; [exact Pos|]. exists []. rewrite app_nil_r. repeat split. exact HP. Qed.

Lemma trip_throw : forall A x (P : pw -> dpdo -> Prop) Q, trip com map P (@throw A x) Q.
Proof. intros A x P Q w s w1 r Pos HP H. injection H as <- <-. split; [exact Pos|]. exists []. rewrite app_nil_r. repeat split. Qed.

Lemma trip_desc : forall d k (P : pw -> dpdo -> Prop),
  trip com map P (desc d k) (fun e w s => lookup k d = Some e /\ P w s).
Proof.
  intros d k P w s w1 r Pos HP. unfold desc. destruct (lookup k d) as [e|]; intros H; injection H as <- <-;
    (split; [exact Pos|]; exists []; rewrite app_nil_r; repeat split; assumption).
Qed.

Lemma trip_when : forall b (P P' : pw -> dpdo -> Prop) m,
  (b = true -> trip com map P m (fun _ => P')) -> (b = false -> forall w s, P w s -> P' w s) ->
  trip com map P (when b m) (fun _ => P').
Proof.
  intros [|] P P' m H1 H2; [apply H1; reflexivity|]. cbn [when].
  eapply trip_pre; [apply H2; reflexivity|]. apply (trip_retm unit tt (fun _ => P')).
Qed.

(** Only reads *)
Lemma trip_never : forall A D (P : pw -> dpdo -> Prop) (m : M A),
  (forall w s w1, P w s -> eff never D w w1 -> P w1 s) -> Eff never D m -> trip com map P m (fun _ => P).
Proof. intros A D P m HP H. eapply trip_eff; [|exact HP|exact H]. intros w s _ k []. Qed.

Lemma cob_only : forall s log, Forall (only (fun k => k = cob)) log ->
  reconf_ok com map s log /\ dp_count (reconf_end com map s log) = dp_count s.
Proof.
  intros s log H. revert s. induction H as [|[k ev] log Hx H IH]; intros s; [split; [exact I|reflexivity]|].
  cbn [reconf_ok]. unfold reconf_end. cbn [fold_left]. fold (reconf_end com map (reconf_step com map s (k, ev)) log).
  destruct (IH (reconf_step com map s (k, ev))) as [I1 I2]. rewrite I2.
  unfold reconf_step in *. cbn [fst snd] in *. destruct ev as [n b ok|[|n] b ok]; cbn in Hx.
  - repeat split; auto.
  - subst k. split.
    + split; [|exact I1]. unfold reconf_legal. cbn [fst snd].
      split; [intros X; symmetry in X; apply num_not_cob in X; contradiction|].
      split; intros i Hi X; apply sub_inj in X; lia.
    + destruct ok; [|reflexivity]. fold cob. rewrite Z.eqb_refl. reflexivity.
  - repeat split; auto.
Qed.

Lemma entry_of_inv : forall d nid n k w w1, entry_of d nid n k w = Ok (w1, inl tt) ->
  (exists c, lookup k (w_store w1) = Some c /\ c_type c = TInt (mkIty false n) /\
     (plain_access w k -> c_wr c = 0%nat)) /\
  (forall k', k' <> k -> lookup k' (w_store w1) = lookup k' (w_store w)).
Proof.
  intros d nid n k w w1. unfold entry_of.
  destruct (lookup k (w_store w)) as [c|] eqn:Ec.
  - destruct (ty_eqb (c_type c) (TInt (mkIty false n))) eqn:Et; [|discriminate].
    intros H. injection H as <-. split; [|auto]. exists c. split; [exact Ec|]. apply ty_eqb_spec in Et. split; [exact Et|].
    intros Hp. apply (Hp c Ec).
  - destruct (lookup k d) as [e|]; [|discriminate]. cbv zeta.
    set (nv := match h_data (e_def e) with Some _ => _ | None => _ end).
    destruct (entry_cell (TInt (mkIty false n)) e nv) as [c|] eqn:E; [|discriminate].
    intros H. injection H as <-. cbn [w_store]. split; [|intros; apply lookup_store_neq; congruence].
    exists c. rewrite lookup_store_eq. split; [reflexivity|].
    assert (G : c_type c = TInt (mkIty false n) /\ c_wr c = 0%nat).
    { clear - E. unfold entry_cell in E.
      destruct (h_data (e_def e)), (h_type (e_def e)) as [t|]; try discriminate.
      - destruct (ty_eqb t _); [injection E as <-; auto|]. destruct t; try discriminate.
        destruct (ity_eqb _ _); [|discriminate]. injection E as <-; auto.
      - destruct (ty_eqb t _); [|discriminate]. injection E as <-; auto.
      - injection E as <-; auto. }
    destruct G. auto.
Qed.

Definition cells (w : pw) : Prop :=
  (exists c, lookup num (w_store w) = Some c /\ c_type c = U8) /\
  (exists c, lookup cob (w_store w) = Some c /\ c_type c = U32).
Definition direct (w : pw) (k : Z) : Prop := exists c, lookup k (w_store w) = Some c /\ c_wr c = 0%nat.

Lemma cells_eff : forall K D w w1, cells w -> eff K D w w1 -> cells w1.
Proof.
  intros K D w w1 [[c [C1 C2]] [c' [C3 C4]]] [_ [_ F]].
  destruct (F _ _ C1) as [x [X1 [X2 _]]]. destruct (F _ _ C3) as [y [Y1 [Y2 _]]].
  split; [exists x|exists y]; split; congruence.
Qed.
Lemma direct_eff : forall K w w1 k, direct w k -> eff K True w w1 -> direct w1 k.
Proof.
  intros K w w1 k [c [C1 C2]] [_ [_ F]]. destruct (F _ _ C1) as [x [X1 [_ X2]]].
  exists x. split; [exact X1|]. destruct (X2 I) as [_ [_ X3]]. congruence.
Qed.
(** Backwards: delegates do not become direct again. *)
Lemma direct_back : forall K w w1 k c, lookup k (w_store w) = Some c -> direct w1 k -> eff K True w w1 -> direct w k.
Proof.
  intros K w w1 k c Hc [c1 [C1 C2]] [_ [_ F]]. destruct (F _ _ Hc) as [x [X1 [_ X2]]].
  destruct (X2 I) as [_ [_ X3]]. exists c. split; [exact Hc|]. congruence.
Qed.

Lemma in_subs : forall n s, In s (List.map (fun i => i + 1) (range n)) -> 1 <= s <= n.
Proof. intros n s H. apply in_map_iff in H as [x [<- H]]. apply range_in in H. lia. Qed.
Lemma subs_in : forall n s, 1 <= s <= n -> In s (List.map (fun i => i + 1) (range n)).
Proof. intros n s H. apply in_map_iff. exists (s - 1). split; [lia|]. apply in_range. lia. Qed.

Theorem parse_legal : forall dv d nid rdf wrf dlc en ec,
  lookup num d = Some en -> e_writable en = true ->
  lookup cob d = Some ec -> e_writable ec = true ->
  (forall x n, lookup (key_sub com 0) d = Some x -> hold_get U8 (e_value x) = Some n -> n <= 255) ->
  let n := match hold_get U8 (e_value en) with Some v => v | None => 0 end in
  let mapch := check_map_changed d n map in
  let comch := check_com_changed d map in
  trip com map (fun w s => plain_access w num /\ plain_access w cob)
    (parse_and_set_mapping dv d nid com map rdf wrf dlc)
    (fun _ w s =>
       (mapch = true -> direct w num -> dp_count s = n mod 256) /\
       (mapch || comch = true -> direct w cob ->
          exists v, apply_u32 nid (e_value ec) = Some v /\ dp_enabled s = negb (Z.testbit v 31))).
Proof.
  intros dv d nid rdf wrf dlc en ec En Wn Ec Wc Hsubs n mapch comch.
  unfold parse_and_set_mapping. cbv zeta. fold num cob.
  (* entries *)
  apply (trip_bind _ _ _ _ _ _ _ (fun _ w s => (exists c, lookup num (w_store w) = Some c /\ c_type c = U8 /\ c_wr c = 0%nat) /\ plain_access w cob)).
  { intros w s w1 r Pos [H1 H2] E. pose proof (Eff_entry_of True d nid 1 num w w1 r Pos E) as [F1 [[log [F2 F3]] _]].
    split; [lia|]. exists log. split; [exact F2|].
    destruct (only_ok com map never s log) as [O1 O2]; [intros k []|exact F3|]. split; [exact O1|]. 
    destruct r as [[]|]; [|exact I]. destruct (entry_of_inv _ _ _ _ _ _ E) as [[c [G1 [G2 G3]]] G4].
    split; [exists c; auto|]. intros c' Hc'. apply H2. rewrite <- G4; [exact Hc'|]. intros X. symmetry in X. apply num_not_cob in X. contradiction. }
  intros _. eapply trip_bind; [apply trip_desc|]. intros en'. 
  eapply trip_pure; [intros w s [H _]; exact H|]. intros En'. rewrite En in En'. injection En' as <-. fold n. fold mapch.
  apply (trip_bind _ _ _ _ _ _ _ (fun _ w s => cells w /\ direct w num /\ direct w cob)).
  { intros w s w1 r Pos [_ [[c0 [A1 [A2 A3]]] H2]] E. pose proof (Eff_entry_of True d nid 4 cob w w1 r Pos E) as [F1 [[log [F2 F3]] _]].
    split; [lia|]. exists log. split; [exact F2|].
    destruct (only_ok com map never s log) as [O1 O2]; [intros k []|exact F3|]. split; [exact O1|].
    destruct r as [[]|]; [|exact I]. destruct (entry_of_inv _ _ _ _ _ _ E) as [[c [G1 [G2 G3]]] G4].
    assert (L : lookup num (w_store w1) = Some c0) by (rewrite G4; [exact A1|apply num_not_cob]).
    split; [split; [exists c0; auto|exists c; auto]|]. split; [exists c0; auto|exists c; auto]. }
  intros _. fold comch.
  eapply trip_bind; [apply trip_desc|]. intros ec'.
  eapply trip_pure; [intros w s [H _]; exact H|]. intros Ec'. rewrite Ec in Ec'. injection Ec' as <-.
  rewrite Wc, andb_true_r.
  (* disable *)
  apply (trip_bind _ _ _ _ _ _ _ (fun _ w s => cells w /\ direct w num /\ direct w cob /\ (mapch || comch = true -> dp_enabled s = false))).
  { apply (trip_pre _ _ _ _ (fun w s => cells w /\ direct w num /\ direct w cob)); [intros w s [_ H]; exact H|].
    apply trip_when; [|intros E w s [H1 [H2 H3]]; repeat split; try apply H1; auto; congruence].
    intros _. apply (trip_bind _ _ _ _ _ _ _ (fun _ w s => cells w /\ direct w num /\ direct w cob)).
    { apply (trip_never _ True); [|apply Eff_get_val]. intros w s w1 [H1 [H2 H3]] F.
      split; [eapply cells_eff; eassumption|]. split; eapply direct_eff; eassumption. }
    intros v. eapply trip_post; [|apply (trip_set_cob dv d (Z.lor v (2^31)) _ ec Ec Wc)].
    - cbn beta. intros _ w s [[H1 [H2 H3]] H4]. repeat split; auto; try apply H1. intros _. rewrite H4 by exact H3.
      rewrite Z.lor_spec, Z.pow2_bits_true by lia. rewrite orb_true_r. reflexivity.
    - intros w s [[_ H1] _]. exact H1.
    - intros w w1 s s1 [H1 [H2 H3]] F _. split; [eapply cells_eff; eassumption|]. split; eapply direct_eff; eassumption. }
  intros _.
  (* mapping *)
  set (B := fun w s => cells w /\ (mapch || comch = true -> dp_enabled s = false)).
  apply (trip_bind _ _ _ _ _ _ _ (fun _ => B)).
  { destruct ((0 <? n) && (n <=? 64)) eqn:En64.
    2:{ eapply trip_pre; [|apply (trip_retm _ _ (fun _ => B))]. intros w s [H1 [_ [_ H4]]]. split; auto. }
    apply andb_true_iff in En64 as [Hn1 Hn2].
    apply (trip_bind _ _ _ _ _ _ _ (fun _ w s => cells w /\ (mapch = true -> dp_enabled s = false /\ dp_count s = 0) /\ (mapch || comch = true -> dp_enabled s = false))).
    { apply trip_when; [|intros E w s [H1 [H2 [H3 H4]]]; repeat split; try apply H1; auto; congruence].
      intros Em. rewrite Em in *. cbn [orb] in *.
      eapply trip_post; [|eapply (trip_pre _ _ _ _ (fun w s => cells w /\ direct w num /\ dp_enabled s = false)); [|apply (trip_set_num dv d 0 _ en En Wn)]].
      - cbn beta. intros _ w s [[H1 [H2 H3]] H4]. repeat split; try apply H1; auto.
      - intros w s [H1 [H2 [H3 H4]]]. repeat split; try apply H1; auto.
      - intros w s [[H1 _] [_ H3]]. auto.
      - intros w w1 s s1 [H1 [H2 H3]] F E. split; [eapply cells_eff; eassumption|]. split; [eapply direct_eff; eassumption|congruence]. }
    intros _. eapply trip_post; [|eapply trip_eff; [| |apply Eff_map_loop]].
    - cbn beta. intros _ w s [H1 [H2 H3]]. split; assumption.
    - intros w s [H1 [H2 H3]] k [i [Hi [-> Hin]]]. apply in_subs in Hi.
      assert (Em : mapch = true).
      { unfold mapch, check_map_changed. rewrite Hn2. apply existsb_exists. exists (i - 1).
        split; [apply in_range; lia|]. replace (i - 1 + 1) with i by lia. exact Hin. }
      split; [intros X; apply sub_inj in X; lia|]. split; [intros X; apply sub_inj in X; lia|].
      split; intros _; apply H2, Em.
    - intros w s w1 [H1 H2] F. split; [eapply cells_eff; eassumption|exact H2]. }
  intros res.
  (* communication parameters *)
  apply (trip_bind _ _ _ _ _ _ _ (fun _ => B)).
  { apply trip_when; [|auto]. intros Hc.
    eapply trip_bind; [apply trip_desc|]. intros x.
    eapply trip_pure; [intros w s [H _]; exact H|]. intros Ex.
    destruct (hold_get U8 (e_value x)) as [subs|] eqn:Es; [|apply trip_throw].
    apply (trip_pre _ _ _ _ B); [intros w s [_ H]; exact H|].
    apply (trip_bind _ _ _ _ _ _ _ (fun _ => B)).
    { apply (trip_never _ True); [|apply Eff_assert]. intros w s w1 [H1 H2] F. split; [eapply cells_eff; eassumption|exact H2]. }
    intros _. eapply trip_eff; [| |apply (Eff_init_com True)].
    - intros w s [H1 H2] k [i [Hi [Hi1 ->]]]. apply in_subs in Hi. specialize (Hsubs x subs Ex Es).
      split; [intros X; apply sub_inj in X; lia|]. split; [intros X; apply sub_inj in X; lia|].
      split; [intros [j [Hj X]]; apply sub_inj in X; lia|]. intros _. apply H2. rewrite Hc. apply orb_true_r.
    - intros w s w1 [H1 H2] F. split; [eapply cells_eff; eassumption|exact H2]. }
  intros _.
  (* count *)
  set (C := fun w s => cells w /\ (mapch || comch = true -> dp_enabled s = false) /\ (mapch = true -> direct w num -> dp_count s = n mod 256)).
  apply (trip_bind _ _ _ _ _ _ _ (fun _ => C)).
  { apply trip_when; [|intros Em w s [H1 H2]; repeat split; try apply H1; auto; congruence].
    intros Em. eapply trip_post; [|eapply (trip_pre _ _ _ _ (fun w s => cells w /\ dp_enabled s = false)); [|apply (trip_set_num dv d n _ en En Wn)]].
    - cbn beta. intros _ w s [[H1 H2] H3]. repeat split; try apply H1; auto.
    - intros w s [H1 H2]. split; [exact H1|]. apply H2. rewrite Em. reflexivity.
    - intros w s [[H1 _] H3]. auto.
    - intros w w1 s s1 [H1 H2] F E. split; [eapply cells_eff; eassumption|congruence]. }
  intros _.
  (* enable *)
  set (G := fun w s => cells w /\ (mapch = true -> direct w num -> dp_count s = n mod 256)).
  apply (trip_bind _ _ _ _ _ _ _ (fun _ w s => G w s /\ (mapch || comch = true -> direct w cob ->
          exists v, apply_u32 nid (e_value ec) = Some v /\ dp_enabled s = negb (Z.testbit v 31)))).
  { apply trip_when; [|intros Em w s [H1 [H2 H3]]; split; [split; assumption|congruence]].
    intros Em.
    assert (Gs : forall w w1 s s1, G w s -> eff (fun k => k = cob) True w w1 -> dp_count s1 = dp_count s -> G w1 s1).
    { intros w w1 s s1 [H1 H2] F E. split; [eapply cells_eff; eassumption|]. intros X Y. rewrite E. apply H2; [exact X|].
      destruct H1 as [[c [H1 _]] _]. eapply direct_back; eassumption. }
    apply (trip_bind _ _ _ _ _ _ _ (fun _ => G)).
    { intros w s w1 r Pos [H1 [H2 H3]] E. pose proof (Eff_init_key True dv d cob w w1 r Pos E) as F.
      pose proof F as [F1 [[log [F2 F3]] _]]. destruct (cob_only s log F3) as [O1 O2].
      split; [lia|]. exists log. split; [exact F2|]. split; [exact O1|]. destruct r; [|exact I].
      eapply Gs; [split; eassumption|exact F|exact O2]. }
    intros _. destruct (apply_u32 nid (e_value ec)) as [v|]; [|apply trip_throw].
    eapply trip_post; [|apply (trip_set_cob dv d v G ec Ec Wc)].
    - cbn beta. intros _ w s [H1 H2]. split; [exact H1|]. intros _ H3. exists v. split; [reflexivity|]. apply H2, H3.
    - intros w s [[_ H1] _]. exact H1.
    - exact Gs. }
  intros _. eapply trip_pre; [|apply (trip_retm _ _ (fun _ w s => (mapch = true -> direct w num -> dp_count s = n mod 256) /\
       (mapch || comch = true -> direct w cob ->
          exists v, apply_u32 nid (e_value ec) = Some v /\ dp_enabled s = negb (Z.testbit v 31))))].
  intros w s [[H1 H2] H3]. split; assumption.
Qed.

End Protocol.
