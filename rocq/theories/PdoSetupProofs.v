From Coq Require Import FinFun.
From Verif Require Import Base CanModel KeyModel KeySpec KeyProofs StorageModel StorageSpec StorageProofs PdoModel PdoSpec PdoProofs PdoTxProofs PdoConfProofs PdoLiveProofs
  SdoSpec SdoChanSpec SdoChanProofs PdoSetupSpec.

(** ** Accesses to parameters *)

Section Setup.
Variables com map : Z.
Let Q := parameter com map.

Definition Inv (w : pw) : Prop :=
  (0 < w_next w)%nat /\
  (forall k c, lookup k (w_store w) = Some c -> (c_rd c < w_next w /\ c_wr c < w_next w)%nat) /\
  (forall k, Q k -> plain_access w k).
Definition par (K : Z -> Prop) (w w1 : pw) : Prop :=
  w_next w1 = w_next w /\ (forall i, w_bufs w1 i = w_bufs w i) /\
  (forall k, ~ K k -> lookup k (w_store w1) = lookup k (w_store w)).
Definition Par {A} (K : Z -> Prop) (m : M A) : Prop :=
  forall w w1 r, Inv w -> m w = Ok (w1, r) -> Inv w1 /\ par K w w1.

Lemma par_refl : forall K w, par K w w.
Proof. intros K w. repeat split. Qed.
Lemma par_trans : forall K a b c, par K a b -> par K b c -> par K a c.
Proof.
  intros K a b c [A1 [A2 A3]] [B1 [B2 B3]]. split; [congruence|]. split.
  - intros i. rewrite B2. apply A2.
  - intros k H. rewrite B3 by exact H. apply A3, H.
Qed.
Lemma par_weaken : forall (K K' : Z -> Prop) w w1, (forall k, K k -> K' k) -> par K w w1 -> par K' w w1.
Proof. intros K K' w w1 H [A1 [A2 A3]]. split; [exact A1|]. split; [exact A2|]. intros k N. apply A3. auto. Qed.
Lemma Par_weaken : forall A (K K' : Z -> Prop) (m : M A), (forall k, K k -> K' k) -> Par K m -> Par K' m.
Proof. intros A K K' m H P w w1 r I E. destruct (P w w1 r I E) as [I1 P1]. split; [exact I1|]. eapply par_weaken; eassumption. Qed.

Lemma Par_bind : forall A B K (m : M A) (f : A -> M B), Par K m -> (forall a, Par K (f a)) -> Par K (bind m f).
Proof.
  intros A B K m f Hm Hf w w1 r I. unfold bind.
  destruct (m w) as [[w2 [a|x]]|] eqn:E; [|intros H; injection H as <- _; eapply Hm; eassumption|discriminate].
  intros H. destruct (Hm _ _ _ I E) as [I2 P2]. destruct (Hf a _ _ _ I2 H) as [I1 P1].
  split; [exact I1|]. eapply par_trans; eassumption.
Qed.
Lemma Par_retm : forall A K (a : A), Par K (retm a).
Proof. intros A K a w w1 r I H. injection H as <- _. split; [exact I|apply par_refl]. Qed.
Lemma Par_throw : forall A K x, Par K (@throw A x).
Proof. intros A K a w w1 r I H. injection H as <- _. split; [exact I|apply par_refl]. Qed.
Lemma Par_desc : forall K d k, Par K (desc d k).
Proof. intros K d k w w1 r I. unfold desc. destruct (lookup k d); intros H; injection H as <- _; (split; [exact I|apply par_refl]). Qed.
Lemma Par_assert : forall K b, Par K (assert_m b).
Proof. intros K b w w1 r I. unfold assert_m. destruct b; [|discriminate]. intros H; injection H as <- _. split; [exact I|apply par_refl]. Qed.
Lemma Par_when : forall K b m, Par K m -> Par K (when b m).
Proof. intros K [|] m H; [exact H|apply Par_retm]. Qed.

Lemma apply_sdo : forall ev bufs, Forall (fun x => event_delegate x = 0%nat) ev -> forall i, fold_left apply_event ev bufs i = bufs i.
Proof.
  induction ev as [|x ev IH]; intros bufs H i; [reflexivity|]. inversion H; subst. cbn [fold_left].
  rewrite IH by assumption. destruct x as [[|n] b [|]|[|n] b [|]]; cbn in *; try discriminate; reflexivity.
Qed.

(** A new or changed cell of a parameter *)
Lemma Inv_cell : forall k c w log bufs, Inv w -> Q k -> c_rd c = 0%nat -> c_wr c = 0%nat -> (forall i, bufs i = w_bufs w i) ->
  Inv (mkPW (store k c (w_store w)) log bufs (w_next w)) /\ par (eq k) w (mkPW (store k c (w_store w)) log bufs (w_next w)).
Proof.
  intros k c w log bufs [I1 [I2 I3]] Hk Hr Hw Hb. split.
  - split; [exact I1|]. split.
    + intros k' c' H. cbn [w_store w_next] in *. destruct (Z.eq_dec k' k) as [->|N].
      * rewrite lookup_store_eq in H. injection H as <-. lia.
      * rewrite lookup_store_neq in H by congruence. apply (I2 _ _ H).
    + intros k' Hk' c' H. cbn [w_store] in H. destruct (Z.eq_dec k' k) as [->|N].
      * rewrite lookup_store_eq in H. injection H as <-. auto.
      * rewrite lookup_store_neq in H by congruence. apply (I3 _ Hk' _ H).
  - split; [reflexivity|]. split; [exact Hb|]. intros k' N. cbn [w_store]. apply lookup_store_neq. auto.
Qed.

Lemma Par_obj : forall dv d k o, Q k -> not_smap o -> Par (eq k) (obj dv d k o).
Proof.
  intros dv d k o Hk Ho w w1 r I H.
  destruct (obj_inv _ _ _ _ _ _ _ H) as [[-> _]|(c & e & rd & wr & c1 & ev & res & Ec & Ee & Es & El & -> & _)];
    [split; [exact I|apply par_refl]|].
  assert (NM : not_map (to_op o rd wr)) by (destruct o; try exact Logic.I; contradiction).
  destruct (step_uses _ _ _ _ _ _ NM Es) as [[K1 [K2 K3]] U].
  destruct I as [I1 [I2 I3]]. destruct (I3 k Hk c Ec) as [Pw Pr].
  apply Inv_cell; [split; auto|exact Hk|congruence|congruence|].
  apply apply_sdo. eapply Forall_impl; [|exact U]. intros [n b ok|n b ok]; cbn; congruence.
Qed.

Lemma Par_get_val : forall dv d k c, Q k -> Par (eq k) (get_val dv d k c).
Proof. intros. apply Par_bind; [apply Par_obj; [assumption|exact Logic.I]|]. intros [b| |x]; apply Par_retm. Qed.
Lemma Par_set_val : forall dv d n k v, Q k -> Par (eq k) (set_val dv d n k v).
Proof. intros. apply Par_bind; [apply Par_obj; [assumption|exact Logic.I]|]. intros. apply Par_retm. Qed.

Lemma Par_entry_of : forall d nid n k, Q k -> Par (eq k) (entry_of d nid n k).
Proof.
  intros d nid n k Hk w w1 r I. unfold entry_of. destruct (lookup k (w_store w)) as [c|].
  - destruct (ty_eqb _ _); intros H; injection H as <- _; (split; [exact I|apply par_refl]).
  - destruct (lookup k d) as [e|]; [|intros H; injection H as <- _; split; [exact I|apply par_refl]].
    cbv zeta. destruct (entry_cell _ _ _) as [c|] eqn:E; intros H; injection H as <- _; [|split; [exact I|apply par_refl]].
    destruct (entry_cell_delegates _ _ _ _ E) as [E1 E2]. apply Inv_cell; auto.
Qed.

Lemma Par_init_key : forall dv d k, Q k -> Par (eq k) (init_key dv d k).
Proof.
  intros dv d k Hk w w1 r I. unfold init_key.
  destruct (lookup k d) as [e|]; [|intros H; injection H as <- _; split; [exact I|apply par_refl]].
  destruct (h_data (e_init e)); [|intros H; injection H as <- _; split; [exact I|apply par_refl]].
  assert (G : Par (eq k) (obj dv d k SInit;;; retm tt)).
  { apply Par_bind; [apply Par_obj; [exact Hk|exact Logic.I]|]. intros. apply Par_retm. }
  cbv zeta. destruct (lookup k (w_store w)) as [c|] eqn:Ec; intros H.
  - destruct w. eapply G; eassumption.
  - set (c := data_typed (match h_type (e_init e) with Some t => t | None => TStr end)) in *.
    destruct (Inv_cell k c w (w_log w) (w_bufs w) I Hk eq_refl eq_refl (fun _ => eq_refl)) as [A1 A2].
    destruct (G _ _ _ A1 H) as [B1 B2]. split; [exact B1|]. eapply par_trans; eassumption.
Qed.

Lemma Par_init_com : forall dv d subs, Forall (fun s => 0 <= s <= 255) subs -> Par Q (init_com dv d com subs).
Proof.
  intros dv d. induction subs as [|s subs IH]; intros H; [apply Par_retm|]. inversion H; subst. cbn [init_com].
  apply Par_bind; [|intros _; auto].
  destruct (_ || _); [apply Par_retm|]. intros w w1 r I E.
  assert (Hk : Q (key_sub com s)) by (exists s; auto).
  assert (G : Inv (match init_key dv d (key_sub com s) w with Ok (x, _) => x | Undef => w end) /\
              par Q w (match init_key dv d (key_sub com s) w with Ok (x, _) => x | Undef => w end)).
  { destruct (init_key dv d (key_sub com s) w) as [[x y]|] eqn:Ei; [|split; [exact I|apply par_refl]].
    destruct (Par_init_key _ _ _ Hk _ _ _ I Ei) as [G1 G2]. split; [exact G1|]. eapply par_weaken; [|exact G2]. intros k <-. exact Hk. }
  destruct (init_key dv d (key_sub com s) w) as [[x [y|y]]|]; [|destruct y|]; try discriminate; injection E as <- _; exact G.
Qed.

Lemma classic_param : forall k, Q k \/ ~ Q k.
Proof.
  intros k. destruct (existsb (fun s => (k =? key_sub com s) || (k =? key_sub map s)) (range 256)) eqn:E.
  - left. apply existsb_exists in E as [s [Hs E]]. apply range_in in Hs. exists s. split; [lia|]. apply orb_prop in E as [E|E]; apply Z.eqb_eq in E; auto.
  - right. intros [s [Hs Hk]]. assert (X : existsb (fun s => (k =? key_sub com s) || (k =? key_sub map s)) (range 256) = true); [|congruence].
    apply existsb_exists. exists s. split; [apply in_range; lia|]. destruct Hk as [->| ->]; rewrite Z.eqb_refl; [reflexivity|apply orb_true_r].
Qed.

(** ** The value of a mapping entry *)

Lemma le_of_le : forall b, bytes_ok b -> le_bytes (List.length b) (of_le b) = b.
Proof.
  induction b as [|x b IH]; intros H; [reflexivity|]. inversion H as [|? ? Hx Hb]; subst. cbn [List.length le_bytes of_le].
  unfold byte_ok in Hx. replace ((x + 256 * of_le b) mod 256) with x by lia. replace ((x + 256 * of_le b) / 256) with (of_le b) by lia.
  rewrite IH by exact Hb. reflexivity.
Qed.

Definition U32t := TInt (mkIty false 4).

Lemma val_u32 : forall a b, val_eqb U32t a b = true -> a = b.
Proof. intros a b H. apply bytes_eqb_spec. exact H. Qed.

Lemma access_inv : forall c v, c_type c = U32t -> access c = Ok v -> v = firstn 4 (c_buf c).
Proof. intros c v Ht. unfold access. rewrite Ht. cbn [U32t]. destruct (_ <? _)%nat; [discriminate|]. intros H. injection H as <-. reflexivity. Qed.

(** After a successful write an object has the value. *)
Lemma set_u32 : forall dv d k v w w1 c, List.length v = 4%nat -> lookup k (w_store w) = Some c -> c_type c = U32t ->
  obj dv d k (SSet v) w = Ok (w1, inl RDone) ->
  exists c1, lookup k (w_store w1) = Some c1 /\ c_type c1 = U32t /\ c_valid c1 = true /\ firstn 4 (c_buf c1) = v.
Proof.
  intros dv d k v w w1 c Hv Hc Ht H.
  destruct (obj_inv _ _ _ _ _ _ _ H) as [[_ [X _]]|(c' & e & rd & wr & c1 & ev & res & Ec & Ee & Es & El & -> & Er & _)]; [discriminate|].
  rewrite Hc in Ec. injection Ec as <-. cbn [w_store]. exists c1. rewrite lookup_store_eq. split; [reflexivity|].
  assert (res = RDone) by (destruct res; try discriminate; reflexivity). subst res. clear - Es Hv Ht.
  cbn [to_op step] in Es. unfold data_set in Es. destruct (negb (e_writable e)).
  - destruct (negb (c_valid c)) eqn:V; [discriminate|]. destruct (access c) as [h|] eqn:Ea; [|discriminate].
    apply access_inv in Ea; [|exact Ht]. injection Es as <- _ E. rewrite Ht in E.
    destruct (val_eqb U32t h v) eqn:Ev; [|discriminate]. apply val_u32 in Ev. subst h.
    apply negb_false_iff in V. auto.
  - unfold data_write in Es. destruct (assign c v) as [c2|] eqn:Ea; [|discriminate]. injection Es as <- _ _.
    unfold assign in Ea. rewrite Ht in Ea. cbn [U32t] in Ea. cbv zeta in Ea. destruct (_ <? _)%nat; [discriminate|]. injection Ea as <-.
    unfold set_buf. cbn [c_type c_valid c_buf]. split.
    + unfold allocate. rewrite Ht. cbn [U32t]. destruct (c_valid c); [exact Ht|exact Ht].
    + split; [reflexivity|]. rewrite <- Hv at 1. rewrite firstn_app, firstn_all, Nat.sub_diag. cbn. apply app_nil_r.
Qed.

Lemma get_u32 : forall dv d k w w1 c v, lookup k (w_store w) = Some c -> c_type c = U32t -> c_valid c = true ->
  get_val dv d k true w = Ok (w1, inl v) -> v = of_le (firstn 4 (c_buf c)).
Proof.
  intros dv d k w w1 c v Hc Ht Hv H. unfold get_val in H. apply bind_inl in H as [w2 [a [H E]]].
  destruct (obj_inv _ _ _ _ _ _ _ H) as [[_ [X _]]|(c' & e & rd & wr & c1 & ev & res & Ec & Ee & Es & El & -> & Er & _)]; [discriminate|].
  rewrite Hc in Ec. injection Ec as <-. cbn [to_op step] in Es. unfold data_get in Es.
  destruct (negb (e_readable e)); [injection Es as <- <- <-; discriminate|].
  rewrite Hv in Es. cbn in Es. destruct (access c) as [x|] eqn:Ea; [|discriminate]. apply access_inv in Ea; [|exact Ht].
  injection Es as <- <- <-. injection Er as ->. injection E as _ <-. congruence.
Qed.

Definition entry_known (d : dict) (w : pw) (k : Z) (b : bytes) : Prop :=
  exists e, lookup k d = Some e /\ given e U32t b /\ bytes_ok b /\ List.length b = 4%nat /\
  forall c, lookup k (w_store w) = Some c -> h_data (e_init e) = None -> c_valid c = true /\ c_buf c = b.

Lemma entry_value : forall dv d nid k b w w1 p, entry_known d w k b ->
  (entry_of d nid 4 k ;;;
   e <- desc d k ;;
   match h_data (e_init e) with
   | None => retm tt
   | Some _ => match hold_get U32 (e_init e) with
               | Some v => set_val dv d 4 k v
               | None => throw PCast
               end
   end ;;;
   get_val dv d k true) w = Ok (w1, inl p) -> p = of_le b.
Proof.
  intros dv d nid k b w w1 p [e [He [Hg [Hb [Hl Hw]]]]] H.
  apply bind_inl in H as [w2 [[] [H1 H]]]. apply bind_inl in H as [w3 [e' [H2 H]]].
  unfold desc in H2. rewrite He in H2. injection H2 as <- <-.
  assert (C : exists c, lookup k (w_store w2) = Some c /\ c_type c = U32t /\
                        (h_data (e_init e) = None -> c_valid c = true /\ c_buf c = b)).
  { unfold entry_of in H1. destruct (lookup k (w_store w)) as [c|] eqn:Ec.
    - destruct (ty_eqb (c_type c) (TInt (mkIty false 4))) eqn:Et; [|discriminate]. injection H1 as <-.
      apply ty_eqb_spec in Et. exists c. auto.
    - rewrite He in H1. cbv zeta in H1.
      match type of H1 with context [entry_cell _ _ ?x] => set (nv := x) in H1 end. clearbody nv.
      destruct (entry_cell (TInt (mkIty false 4)) e nv) as [c|] eqn:E; [|discriminate].
      injection H1 as <-. cbn [w_store]. exists c. rewrite lookup_store_eq. split; [reflexivity|].
      unfold entry_cell in E. destruct Hg as [[G1 G2]|[G1 [G2 G3]]].
      + split; [|congruence]. destruct (h_data (e_def e)), (h_type (e_def e)) as [t|]; try discriminate.
        * destruct (ty_eqb t _); [injection E as <-; reflexivity|]. destruct t; try discriminate.
          destruct (ity_eqb _ _); [|discriminate]. injection E as <-; reflexivity.
        * destruct (ty_eqb t _); [|discriminate]. injection E as <-; reflexivity.
        * injection E as <-; reflexivity.
      + rewrite G2, G3 in E. cbn in E. injection E as <-. auto. }
  destruct C as [c [Hc [Ht Hn]]]. apply bind_inl in H as [w4 [[] [H3 H4]]].
  destruct Hg as [[G1 G2]|[G1 _]].
  - rewrite G1 in H3. unfold hold_get in H3. rewrite G1, G2 in H3. change (ty_eqb U32t U32) with true in H3. cbn iota in H3.
    change (ty_size U32) with 4%nat in H3. rewrite <- Hl, firstn_all, Hl in H3.
    unfold set_val in H3. apply bind_inl in H3 as [w5 [a [H3 H5]]]. injection H5 as <-.
    rewrite <- Hl in H3 at 1. rewrite le_of_le in H3 by exact Hb.
    assert (a = RDone) as ->.
    { destruct (obj_inv _ _ _ _ _ _ _ H3) as [[_ [X _]]|(c' & e' & rd & wr & c1 & ev & res & Ec & Ee & Es & El & _ & Er & _)]; [discriminate|].
      cbn [to_op step] in Es. clear - Es Er. unfold data_set, data_write, ret in Es.
      destruct (negb (e_writable e')).
      - destruct (negb (c_valid c')); [injection Es as _ _ <-; discriminate|]. destruct (access c'); [|discriminate].
        injection Es as _ _ <-. destruct (val_eqb _ _ _); [injection Er as ->; reflexivity|discriminate].
      - destruct (assign c' b); [|discriminate]. injection Es as _ _ <-. destruct wr; [injection Er as ->; reflexivity|discriminate]. }
    destruct (set_u32 _ _ _ _ _ _ _ Hl Hc Ht H3) as [c1 [C1 [C2 [C3 C4]]]].
    rewrite (get_u32 _ _ _ _ _ _ _ C1 C2 C3 H4), C4. reflexivity.
  - rewrite G1 in H3. injection H3 as <-. destruct (Hn G1) as [V B].
    rewrite (get_u32 _ _ _ _ _ _ _ Hc Ht V H4), B, <- Hl, firstn_all. reflexivity.
Qed.

Lemma Par_entry_value : forall dv d nid k, Q k -> Par (eq k)
  (entry_of d nid 4 k ;;;
   e <- desc d k ;;
   match h_data (e_init e) with
   | None => retm tt
   | Some _ => match hold_get U32 (e_init e) with
               | Some v => set_val dv d 4 k v
               | None => throw PCast
               end
   end ;;;
   get_val dv d k true).
Proof.
  intros dv d nid k Hk. apply Par_bind; [apply Par_entry_of, Hk|]. intros _. apply Par_bind; [apply Par_desc|]. intros e.
  apply Par_bind.
  - destruct (h_data (e_init e)); [|apply Par_retm]. destruct (hold_get U32 (e_init e)); [apply Par_set_val, Hk|apply Par_throw].
  - intros _. apply Par_get_val, Hk.
Qed.

(** ** Connecting an object to a buffer *)

Lemma ty_eqb_same : forall t, ty_eqb t t = true.
Proof.
  assert (Hi : forall i, ity_eqb i i = true).
  { intros [s n]. unfold ity_eqb. cbn. rewrite Z.eqb_refl. destruct s; reflexivity. }
  intros [i|n| |i]; cbn; auto. apply Nat.eqb_refl.
Qed.

Lemma numeric_size : forall t v, numeric t -> value_ok t v -> List.length v = ty_size t.
Proof. intros [i|n| |i] v N H; try exact H; contradiction. Qed.

Lemma map_cell : forall dv d k e t r b n c w w1,
  lookup k d = Some e -> lookup k (w_store w) = Some c -> c_type c = t -> List.length (c_buf c) = ty_size t ->
  (forall log x, List.length (fst (dv_read dv log k x)) = List.length x) ->
  w_bufs w b = Some (buf_new n) -> b <> 0%nat -> (r = None \/ r = Some b) ->
  forall res, obj dv d k (SMap r (Some b)) w = Ok (w1, inl res) ->
  w_next w1 = w_next w /\ (forall i, i <> b -> w_bufs w1 i = w_bufs w i) /\
  (forall k', k' <> k -> lookup k' (w_store w1) = lookup k' (w_store w)) /\
  exists c1, lookup k (w_store w1) = Some c1 /\ c_type c1 = t /\ List.length (c_buf c1) = ty_size t /\
    c_rd c1 = (match r with Some _ => b | None => 0%nat end) /\ c_wr c1 = (match r with Some _ => 0%nat | None => b end) /\
    w_bufs w1 b = Some (if c_valid c1 then mkBuf n true false (c_buf c1) else buf_new n) /\
    (c_valid c1 = true -> n = ty_size t) /\ (c_valid c1 = c_valid c || e_readable e) /\
    (c_valid c = true -> c_buf c1 = c_buf c).
Proof.
  intros dv d k e t r b n c w w1 He Hc Ht Hl Hd Hb Hb0 Hr res H. unfold obj in H. rewrite Hc, He in H. unfold cell_op in H. cbv zeta in H.
  set (rd := delegate_read dv w k 0) in H.
  assert (Hrd : forall x, List.length (fst (rd x)) = List.length x) by (intros x; apply Hd). clearbody rd.
  cbn [to_op step] in H.
  assert (Fin : forall c1 ev res1 (z : bool), step e (OMap r (Some b) rd z) c = Ok (c1, ev, res1) ->
    (z = writes_ok dv w k ev \/ Forall (fun x => match x with EvWrite _ _ _ => False | _ => True end) ev) ->
    (forall x, res1 <> RThrow x) ->
    exists c2, c1 = c2 /\ c_type c2 = t /\ List.length (c_buf c2) = ty_size t /\
      c_rd c2 = (match r with Some _ => b | None => 0%nat end) /\ c_wr c2 = (match r with Some _ => 0%nat | None => b end) /\
      fold_left apply_event ev (w_bufs w) b = Some (if c_valid c2 then mkBuf n true false (c_buf c2) else buf_new n) /\
      (forall i, i <> b -> fold_left apply_event ev (w_bufs w) i = w_bufs w i) /\
      (c_valid c2 = true -> n = ty_size t) /\ (c_valid c2 = c_valid c || e_readable e) /\
      (c_valid c = true -> c_buf c2 = c_buf c)).
  { intros c1 ev res1 z Es Hz Hres.
    assert (Gw : forall x, delegate_write dv w k b x = true -> List.length x = n /\
       apply_event (w_bufs w) (EvWrite b x true) = upd (w_bufs w) b (Some (mkBuf n true false x))).
    { intros x. unfold delegate_write. destruct b as [|b']; [contradiction|]. rewrite Hb. cbn [apply_event]. rewrite Hb.
      unfold buf_set, buf_new. cbn [b_size]. destruct (Nat.eqb_spec n (List.length x)) as [->|]; cbn [negb]; [auto|discriminate]. }
    assert (Gf : forall c3 ev3 res3, data_force e (set_delegates c 0 b) rd z = Ok (c3, ev3, res3) ->
       (z = writes_ok dv w k ev3 \/ Forall (fun x => match x with EvWrite _ _ _ => False | _ => True end) ev3) ->
       (forall x, res3 <> RThrow x) ->
       c_type c3 = t /\ List.length (c_buf c3) = ty_size t /\ c_rd c3 = 0%nat /\ c_wr c3 = b /\
       fold_left apply_event ev3 (w_bufs w) b = Some (if c_valid c3 then mkBuf n true false (c_buf c3) else buf_new n) /\
       (forall i, i <> b -> fold_left apply_event ev3 (w_bufs w) i = w_bufs w i) /\
       (c_valid c3 = true -> n = ty_size t) /\ (c_valid c3 = c_valid c || e_readable e) /\
       (c_valid c = true -> c_buf c3 = c_buf c)).
    { intros c3 ev3 res3 E Hz3 Hr3. unfold data_force in E. cbn [set_delegates c_valid c_buf c_rd c_wr c_type] in E.
      destruct (negb (c_valid c) && e_readable e) eqn:Eb.
      - apply andb_prop in Eb as [V R]. apply negb_true_iff in V. rewrite V, R.
        pose proof (Hrd (c_buf c)) as Lx. destruct (rd (c_buf c)) as [x ok]. cbn [fst] in Lx.
        destruct ok; injection E as <- <- <-; [|exfalso; eapply Hr3; reflexivity].
        destruct z; [|exfalso; eapply Hr3; reflexivity].
        destruct Hz3 as [Hz3|Hz3]; [|cbn in Hz3; inversion Hz3 as [|? ? ? Hz4]; inversion Hz4; contradiction].
        cbn in Hz3. rewrite andb_true_r in Hz3. symmetry in Hz3. destruct (Gw x Hz3) as [G1 G2].
        unfold set_buf. cbn [c_type c_buf c_rd c_wr c_valid].
        cbn [app fold_left]. change (apply_event (w_bufs w) (EvRead 0 x true)) with (w_bufs w). rewrite G2.
        repeat split; auto; try congruence; [apply upd_eq|intros i Hi; apply upd_neq, Hi].
      - destruct (c_valid c) eqn:V; injection E as <- <- <-.
        + destruct z; [|exfalso; eapply Hr3; reflexivity].
          destruct Hz3 as [Hz3|Hz3]; [|inversion Hz3; contradiction].
          cbn in Hz3. rewrite andb_true_r in Hz3. symmetry in Hz3. destruct (Gw (c_buf c) Hz3) as [G1 G2].
          cbn [set_delegates c_type c_buf c_rd c_wr c_valid]. rewrite V. cbn [fold_left]. rewrite G2.
          repeat split; auto; try congruence; [apply upd_eq|intros i Hi; apply upd_neq, Hi].
        + cbn [set_delegates c_type c_buf c_rd c_wr c_valid]. rewrite V. cbn [fold_left]. cbn in Eb. rewrite Eb.
          repeat split; auto; discriminate. }
    exists c1. split; [reflexivity|]. cbn [step] in Es. unfold data_map in Es.
    destruct r as [r|].
    - destruct Hr as [Hr|Hr]; [discriminate|]. injection Hr as ->.
      destruct (data_force e (set_delegates c 0 b) rd z) as [[[c3 ev3] res3]|] eqn:Ef; [|discriminate].
      assert (X : c1 = set_delegates c3 b 0 /\ ev = ev3 /\ res1 = res3 /\ (forall x, res3 <> RThrow x)).
      { destruct res3 as [v| |x]; injection Es as <- <- <-; [repeat split; discriminate|repeat split; discriminate|].
        exfalso. eapply Hres. reflexivity. }
      destruct X as [-> [-> [-> Hres3]]]. destruct (Gf _ _ _ eq_refl Hz Hres3) as [F1 [F2 [F3 [F4 F5]]]].
      cbn [set_delegates c_type c_buf c_rd c_wr c_valid]. auto.
    - destruct (Gf _ _ _ Es Hz Hres) as [F1 [F2 [F3 [F4 F5]]]]. auto. }
  destruct (data_map e c r (Some b) rd true) as [[[c0 ev0] r0]|] eqn:E0; [|discriminate].
  destruct (data_map e c r (Some b) rd (writes_ok dv w k ev0)) as [[[c1 ev1] r1]|] eqn:E1; [|discriminate].
  destruct (live_events w ev1); [|discriminate].
  assert (Hr1 : forall x, r1 <> RThrow x) by (intros x ->; discriminate).
  assert (W : w1 = mkPW (store k c1 (w_store w)) (w_log w ++ keyed k ev1) (fold_left apply_event ev1 (w_bufs w)) (w_next w))
    by (destruct r1; try discriminate; injection H as <- _; reflexivity).
  destruct (Fin c1 ev1 r1 (writes_ok dv w k ev0) E1) as [c2 [<- [F1 [F2 [F3 [F4 [F5 [F6 [F7 [F8 F9]]]]]]]]]]; [|exact Hr1|].
  { left. assert (X : writes_ok dv w k ev0 = writes_ok dv w k ev1); [|exact X]. clear - E0 E1. revert E0 E1.
    generalize (writes_ok dv w k ev0) at 1 as z. intros z E0 E1.
    assert (Y : forall z c3 ev3 res3, data_force e (set_delegates c 0 b) rd z = Ok (c3, ev3, res3) ->
      exists ev4, (forall z', exists c4 res4, data_force e (set_delegates c 0 b) rd z' = Ok (c4, ev4 z', res4)) /\
                  (forall z1 z2, writes_ok dv w k (ev4 z1) = writes_ok dv w k (ev4 z2)) /\ ev3 = ev4 z).
    { clear. intros z c3 ev3 res3 E. unfold data_force in *. cbn [set_delegates c_valid c_buf c_rd c_wr c_type] in *.
      destruct (negb (c_valid c) && e_readable e).
      - destruct (rd (c_buf c)) as [x ok]. destruct ok; injection E as <- <- <-.
        + exists (fun z => [EvRead 0 x true; EvWrite b x z]). repeat split; intros; unfold ret; eauto.
        + exists (fun z => [EvRead 0 x false]). repeat split; intros; unfold ret; eauto.
      - destruct (c_valid c); injection E as <- <- <-.
        + exists (fun z => [EvWrite b (c_buf c) z]). repeat split; intros; unfold ret; eauto.
        + exists (fun z => []). repeat split; intros; unfold ret; eauto. }
    assert (Z1 : exists c3 res3, data_force e (set_delegates c 0 b) rd true = Ok (c3, ev0, res3)).
    { unfold data_map in E0. destruct r; [|eauto]. destruct (data_force _ _ rd true) as [[[c3 ev3] res3]|]; [|discriminate].
      destruct res3; injection E0 as _ <- _; eauto. }
    assert (Z2 : exists c3 res3, data_force e (set_delegates c 0 b) rd z = Ok (c3, ev1, res3)).
    { unfold data_map in E1. destruct r; [|eauto]. destruct (data_force _ _ rd z) as [[[c3 ev3] res3]|]; [|discriminate].
      destruct res3; injection E1 as _ <- _; eauto. }
    destruct Z1 as [c3 [res3 Z1]]. destruct Z2 as [c4 [res4 Z2]].
    destruct (Y _ _ _ _ Z1) as [ev4 [Y1 [Y2 ->]]]. destruct (Y1 z) as [c5 [res5 Y3]]. rewrite Z2 in Y3. injection Y3 as _ -> _. apply Y2. }
  rewrite W. cbn [w_next w_bufs w_store].
  split; [reflexivity|]. split; [exact F6|]. split; [intros k' N; apply lookup_store_neq; congruence|].
  exists c1. rewrite lookup_store_eq. repeat (split; [assumption||reflexivity|]). exact F9.
Qed.

Definition cell_ready (t : ty) (e : entry) (k : Z) (w : pw) : Prop :=
  forall c, lookup k (w_store w) = Some c ->
    c_type c = t /\ List.length (c_buf c) = ty_size t /\ (h_data (e_def e) <> None -> c_valid c = true).

Lemma map_object_ok : forall dv d index sub k e t r b n w w1 l,
  object_key d index sub k -> lookup k d = Some e -> h_type (e_def e) = Some t -> entry_plain t e -> numeric t ->
  cell_ready t e k w -> (forall log x, List.length (fst (dv_read dv log k x)) = List.length x) ->
  w_bufs w b = Some (buf_new n) -> b <> 0%nat -> (r = None \/ r = Some b) ->
  map_object dv d index sub r (Some b) w = Ok (w1, inl l) ->
  w_next w1 = w_next w /\ (forall i, i <> b -> w_bufs w1 i = w_bufs w i) /\
  (forall k', k' <> k -> lookup k' (w_store w1) = lookup k' (w_store w)) /\
  exists c1, lookup k (w_store w1) = Some c1 /\ c_type c1 = t /\ List.length (c_buf c1) = ty_size t /\ l = ty_size t /\
    c_rd c1 = (match r with Some _ => b | None => 0%nat end) /\ c_wr c1 = (match r with Some _ => 0%nat | None => b end) /\
    w_bufs w1 b = Some (if c_valid c1 then mkBuf n true false (c_buf c1) else buf_new n) /\
    (e_readable e = true \/ h_data (e_def e) <> None -> c_valid c1 = true) /\
    (lookup k (w_store w) = None -> forall v, h_data (e_def e) = Some v -> c_buf c1 = v).
Proof.
  intros dv d index sub k e t r b n w w1 l Hk He Ht Hp Hn Hc Hd Hb Hb0 Hr H.
  assert (G : map_key dv d k e r (Some b) w = Ok (w1, inl l)).
  { unfold map_object in H. destruct Hk as [[-> _]|[K1 [-> [-> _]]]].
    - rewrite He in H. exact H.
    - rewrite K1 in H. cbn in H. rewrite He in H. exact H. }
  clear H Hk. unfold map_key in G. rewrite Ht in G.
  set (c0 := match lookup k (w_store w) with Some c => c | None => data_reset e (data_typed t) end).
  set (s := match lookup k (w_store w) with Some _ => w_store w | None => store k c0 (w_store w) end).
  assert (G' : (obj dv d k (SMap r (Some b)) ;;;
     (fun w => match lookup k (w_store w) with
               | Some c => Ok (w, inl (List.length (c_buf c)))
               | None => Ok (w, inl 0%nat) end)) (mkPW s (w_log w) (w_bufs w) (w_next w)) = Ok (w1, inl l)).
  { subst s c0. destruct (lookup k (w_store w)); exact G. }
  clear G. apply bind_inl in G' as [w2 [res [H1 H2]]].
  assert (C : lookup k s = Some c0 /\ c_type c0 = t /\ List.length (c_buf c0) = ty_size t /\ (h_data (e_def e) <> None -> c_valid c0 = true)).
  { subst s c0. destruct (lookup k (w_store w)) as [c|] eqn:Ec.
    - destruct (Hc c Ec) as [C1 [C2 C3]]. auto.
    - rewrite lookup_store_eq. split; [reflexivity|]. unfold data_reset. rewrite Ht. cbn [data_typed c_type].
      rewrite ty_eqb_same. destruct Hp as [Hp _]. unfold hold_ok in Hp. destruct (h_data (e_def e)) as [v|].
      + cbn. destruct Hp as [_ Hp]. split; [reflexivity|]. split; [apply numeric_size; assumption|]. auto.
      + cbn. split; [reflexivity|]. split; [apply repeat_length|]. intros X. contradiction. }
  assert (N0 : lookup k (w_store w) = None -> forall v, h_data (e_def e) = Some v -> c_buf c0 = v).
  { intros E v Hv. subst c0. rewrite E. unfold data_reset. rewrite Hv, Ht. cbn [data_typed c_type]. rewrite ty_eqb_same. reflexivity. }
  assert (S' : forall k', k' <> k -> lookup k' s = lookup k' (w_store w)).
  { intros k' N. subst s. destruct (lookup k (w_store w)); [reflexivity|]. apply lookup_store_neq. congruence. }
  destruct C as [C1 [C2 [C3 C4]]]. clearbody s c0.
  destruct (map_cell dv d k e t r b n c0 (mkPW s (w_log w) (w_bufs w) (w_next w)) w2 He C1 C2 C3 Hd Hb Hb0 Hr res H1) as [M1 [M2 [M3 [c1 [M4 [M5 [M6 [M7 [M8 [M9 [M10 [M11 M12]]]]]]]]]]]].
  cbn [w_next w_bufs w_store] in *. rewrite M4 in H2. injection H2 as <- <-.
  split; [exact M1|]. split; [exact M2|]. split; [intros k' N; rewrite M3 by exact N; apply S', N|].
  exists c1. repeat (split; [assumption|]). split; [|].
  - intros [R|D]; rewrite M11; [rewrite R; apply orb_true_r|rewrite C4 by exact D; reflexivity].
  - intros E v Hv. rewrite <- (N0 E v Hv). apply M12. apply C4. congruence.
Qed.

(** ** One entry of the mapping *)

Variable T : Z -> ty.
Variable dv : device.
Variable d : dict.
Variable nid : Z.

Definition slot_ok (rx : bool) (w : pw) (x : option Z * nat) (i : nat) : Prop :=
  if rx then rx_slot T d (held_of w) w x i else tx_slot T d w x i.
Definition use (rx : bool) (e : entry) : Prop := if rx then sendable e else receivable e.

Definition object_ready (rx : bool) (w : pw) (k : Z) : Prop :=
  ~ Q k /\ numeric (T k) /\ (forall log x, List.length (fst (dv_read dv log k x)) = List.length x) /\
  exists e, lookup k d = Some e /\ h_type (e_def e) = Some (T k) /\ entry_plain (T k) e /\ use rx e /\ cell_ready (T k) e k w.
Definition entry_ready (w : pw) (s : Z) : Prop :=
  forall c e b, lookup (key_sub map s) (w_store w) = Some c -> lookup (key_sub map s) d = Some e ->
    given e U32t b -> h_data (e_init e) = None -> c_valid c = true /\ c_buf c = b.

Lemma slot_same : forall rx w w1 x i, w_bufs w1 i = w_bufs w i ->
  (forall k, fst x = Some k -> lookup k (w_store w1) = lookup k (w_store w)) -> slot_ok rx w x i -> slot_ok rx w1 x i.
Proof.
  intros rx w w1 [[k|] n] i Hb Hk; unfold slot_ok, rx_slot, tx_slot, held_of, held; rewrite Hb; cbn [fst].
  - rewrite (Hk k eq_refl). auto.
  - auto.
Qed.

Lemma sub_entry : forall rx s x dlc w w1 res, 1 <= s <= 255 -> Inv w -> slot_of d map s x -> entry_ready w s ->
  (forall k, fst x = Some k -> object_ready rx w k) -> 0 <= dlc <= 8 ->
  map_sub_entry dv d nid map s rx (negb rx) dlc w = Ok (w1, inl res) ->
  Inv w1 /\ fst res = w_next w /\ w_next w1 = S (w_next w) /\ snd res = dlc + Z.of_nat (snd x) /\ snd res <= 8 /\
  (forall i, (i < w_next w)%nat -> w_bufs w1 i = w_bufs w i) /\
  (forall k, k <> key_sub map s -> fst x <> Some k -> lookup k (w_store w1) = lookup k (w_store w)) /\
  slot_ok rx w1 x (w_next w) /\
  (forall k c, fst x = Some k -> lookup k (w_store w1) = Some c -> (if rx then c_wr c else c_rd c) = 0%nat).
Proof.
  intros rx s x dlc w w1 res Hs I Hx Hr Ho Hd H.
  destruct Hx as (e & len & sub & lo & hi & He & Hg & Hb & Hn & Hx).
  assert (Hk : Q (key_sub map s)) by (exists s; split; [lia|auto]).
  set (k0 := key_sub map s) in *.
  assert (Bs : byte_ok len /\ byte_ok sub /\ byte_ok lo /\ byte_ok hi).
  { repeat match goal with H : Forall _ (_ :: _) |- _ => inversion H; clear H; subst end. auto. }
  unfold byte_ok in Bs.
  assert (H' : exists w2 p, (entry_of d nid 4 k0 ;;;
   e <- desc d k0 ;;
   match h_data (e_init e) with
   | None => retm tt
   | Some _ => match hold_get U32 (e_init e) with
               | Some v => set_val dv d 4 k0 v
               | None => throw PCast
               end
   end ;;;
   get_val dv d k0 true) w = Ok (w2, inl p) /\
   (let n := Z.to_nat (map_length p / 8) in
    b <- new_buffer n ;;
    (if (map_idx p <? 0x1000) || negb (rx || negb rx) then retm tt
     else l <- map_object dv d (map_idx p) (map_sub p) (if rx then Some b else None) (Some b) ;;
          assert_m (l =? n)%nat) ;;;
    let dlc := u8 (dlc + Z.of_nat n) in
    assert_m (dlc <=? 8) ;;;
    clean_buffer b ;;;
    retm (b, dlc)) w2 = Ok (w1, inl res)).
  { unfold map_sub_entry in H. fold k0 in H. cbv zeta in H |- *.
    apply bind_inl in H as [wa [[] [Ha H]]]. apply bind_inl in H as [wb [ee [Hb' H]]].
    apply bind_inl in H as [wc [[] [Hc H]]]. apply bind_inl in H as [wd [p [Hp H]]].
    exists wd, p. split; [|exact H]. unfold bind at 1. rewrite Ha. unfold bind at 1. rewrite Hb'. unfold bind at 1. rewrite Hc. exact Hp. }
  clear H. destruct H' as [w2 [p [H1 H]]]. cbv zeta in H.
  assert (Hp : p = of_le [len; sub; lo; hi]).
  { eapply entry_value; [|exact H1]. exists e. split; [exact He|]. split; [exact Hg|]. split; [exact Hb|]. split; [reflexivity|].
    intros c Hc. exact (Hr c e _ Hc He Hg). }
  destruct (Par_entry_value dv d nid k0 Hk w w2 _ I H1) as [I2 [P1 [P2 P3]]]. clear H1.
  assert (Hm : map_idx p = lo + 256 * hi /\ map_sub p = sub /\ map_length p = len).
  { destruct (map_decoded (lo + 256 * hi) sub len) as [D1 [D2 D3]]; [lia|lia|lia|].
    replace p with (map_layout (lo + 256 * hi) sub len) by (rewrite Hp; unfold map_layout; cbn [of_le]; lia). auto. }
  destruct Hm as [M1 [M2 M3]]. rewrite M1, M2, M3 in H. clear Hp.
  assert (Hnn : Z.to_nat (len / 8) = snd x) by lia. rewrite Hnn in H.
  set (n := snd x) in *. set (b := w_next w2) in *.
  apply bind_inl in H as [w3 [b' [Hb3 H]]]. unfold new_buffer in Hb3. injection Hb3 as <- <-. fold b in H.
  apply bind_inl in H as [w4 [[] [H4 H]]]. apply bind_inl in H as [w5 [[] [H5 H]]].
  unfold assert_m in H5. assert (Hu : u8 (dlc + Z.of_nat n) = dlc + Z.of_nat n) by (unfold u8; lia).
  rewrite Hu in *. destruct (dlc + Z.of_nat n <=? 8) eqn:E8; [|discriminate]. injection H5 as <-.
  apply bind_inl in H as [w6 [[] [H6 H]]]. injection H as <- <-. unfold clean_buffer in H6. injection H6 as <-.
  cbn [fst snd w_next w_bufs w_store].
  set (w3 := mkPW (w_store w2) (w_log w2) (upd (w_bufs w2) b (Some (buf_new n))) (S b)) in *.
  assert (Hb0 : b <> 0%nat) by (destruct I2 as [I2 _]; unfold b; lia).
  assert (Bw : b = w_next w) by exact P1.
  assert (W3 : w_bufs w3 b = Some (buf_new n)) by (apply upd_eq).
  assert (Rx : rx || negb rx = true) by (destruct rx; reflexivity). rewrite Rx in H4. cbn [negb orb] in H4. rewrite orb_false_r in H4.
  assert (Base : forall k, k <> k0 -> lookup k (w_store w2) = lookup k (w_store w)) by (intros k N; apply P3; congruence).
  assert (Clean : forall x, (match w_bufs w4 b with Some y => upd (w_bufs w4) b (Some (buf_clean y)) | None => w_bufs w4 end) x =
     if Nat.eqb x b then option_map buf_clean (w_bufs w4 b) else w_bufs w4 x).
  { intros y. destruct (w_bufs w4 b) as [z|] eqn:E; unfold upd; destruct (Nat.eqb_spec y b) as [->|]; cbn; auto. }
  assert (Out : forall Y, (Inv w4 /\ w_next w4 = S b /\ (forall i, i <> b -> w_bufs w4 i = w_bufs w2 i) /\ Y) -> 
     Inv (mkPW (w_store w4) (w_log w4) (match w_bufs w4 b with Some y => upd (w_bufs w4) b (Some (buf_clean y)) | None => w_bufs w4 end) (w_next w4)) /\
     b = w_next w /\ w_next w4 = S (w_next w) /\ dlc + Z.of_nat n = dlc + Z.of_nat n /\ dlc + Z.of_nat n <= 8 /\
     (forall i, (i < w_next w)%nat -> (match w_bufs w4 b with Some y => upd (w_bufs w4) b (Some (buf_clean y)) | None => w_bufs w4 end) i = w_bufs w i) /\ Y).
  { intros Y [I4 [N4 [B4 HY]]]. split; [exact I4|]. split; [exact Bw|]. split; [congruence|]. split; [reflexivity|]. split; [lia|]. split; [|exact HY].
    intros i Hi. rewrite Clean. replace (Nat.eqb i b) with false by (symmetry; apply Nat.eqb_neq; lia).
    rewrite B4 by lia. apply P2. }
  apply Out. clear Out.
  assert (I3 : Inv w3).
  { destruct I2 as [J1 [J2 J3]]. split; [cbn; lia|]. split; [|exact J3].
    intros k c Hc. specialize (J2 k c Hc). cbn [w3 w_next]. unfold b. lia. }
  destruct x as [[k|] n']; cbn [fst snd] in *; subst n.
  - destruct Hx as [Hx1 Hx2]. replace (lo + 256 * hi <? 4096) with false in H4 by lia.
    destruct (Ho k eq_refl) as [O1 [O2 [O3 [ek [O4 [O5 [O6 [O7 O8]]]]]]]].
    assert (Nk : k <> k0) by (intros ->; contradiction).
    apply bind_inl in H4 as [w4' [l [H4 H5]]]. unfold assert_m in H5. destruct (l =? n')%nat eqn:El; [|discriminate]. injection H5 as <-.
    assert (Cr : cell_ready (T k) ek k w3) by (intros c Hc; apply O8; rewrite <- Base by exact Nk; exact Hc).
    assert (Rr : (if rx then Some b else None) = None \/ (if rx then Some b else None) = Some b) by (destruct rx; auto).
    destruct (map_object_ok dv d (lo + 256 * hi) sub k ek (T k) (if rx then Some b else None) b n' w3 w4' l Hx2 O4 O5 O6 O2 Cr O3 W3 Hb0 Rr H4)
      as [A1 [A2 [A3 [c1 [A4 [A5 [A6 [A7 [A8 [A9 [A10 [A11 A12]]]]]]]]]]]].
    assert (En : ty_size (T k) = n') by (apply Nat.eqb_eq in El; congruence).
    split.
    { destruct I3 as [J1 [J2 J3]]. unfold Inv. rewrite A1. split; [exact J1|]. split.
      - intros k' c' Hc'. destruct (Z.eq_dec k' k) as [->|N].
        + rewrite A4 in Hc'. injection Hc' as <-. rewrite A8, A9. cbn [w3 w_next]. destruct rx; lia.
        + rewrite A3 in Hc' by exact N. apply (J2 _ _ Hc').
      - intros k' Hk' c' Hc'. destruct (Z.eq_dec k' k) as [->|N]; [contradiction|].
        rewrite A3 in Hc' by exact N. apply (J3 k' Hk' c' Hc'). }
    split; [rewrite A1; reflexivity|].
    split; [intros i Hi; rewrite A2 by exact Hi; cbn [w3 w_bufs]; apply upd_neq, Hi|].
    split. { intros k' N1 N2. rewrite A3 by congruence. apply Base. exact N1. }
    split.
    + rewrite <- Bw. unfold slot_ok. destruct rx.
      * destruct O7 as [R1 R2]. exists (buf_clean (if c_valid c1 then mkBuf n' true false (c_buf c1) else buf_new n')).
        rewrite A11 in * by (left; exact R1).
        cbn [w_bufs]. rewrite Clean, Nat.eqb_refl, A10. cbn [option_map].
        split; [reflexivity|]. cbn [snd fst buf_clean b_size b_data b_empty b_dirty].
        split; [reflexivity|]. split; [congruence|].
        exists c1, ek. cbn [w_store]. repeat (split; [congruence||assumption|]).
        unfold held_of, held. cbn [w_store]. rewrite A4, A11 by (left; exact R1). auto.
      * exists (buf_clean (if c_valid c1 then mkBuf n' true false (c_buf c1) else buf_new n')).
        cbn [w_bufs]. rewrite Clean, Nat.eqb_refl, A10. cbn [option_map].
        split; [reflexivity|]. cbn [snd fst].
        split; [destruct (c_valid c1); reflexivity|].
        split; [destruct (c_valid c1); cbn; [congruence|apply repeat_length]|].
        exists c1, ek. cbn [w_store]. repeat (split; [congruence||assumption|]).
        split; [destruct (c_valid c1); reflexivity|]. split; [|exact A11].
        intros V. rewrite V. reflexivity.
    + intros k' c' E Hc'. injection E as <-. rewrite A4 in Hc'. injection Hc' as <-. destruct rx; assumption.
  - replace (lo + 256 * hi <? 4096) with true in H4 by lia. injection H4 as <-.
    split; [exact I3|]. split; [reflexivity|].
    split; [intros i Hi; cbn [w3 w_bufs]; apply upd_neq, Hi|].
    split; [intros k' N1 N2; apply Base; exact N1|].
    split; [|intros; discriminate].
    rewrite <- Bw.
    destruct rx; (exists (buf_new n'); cbn [w_bufs]; rewrite Clean, Nat.eqb_refl, W3; split; [reflexivity|];
      split; [reflexivity|]; split; [apply repeat_length|]; cbn [fst]; try exact Logic.I; reflexivity).
Qed.

(** ** All entries *)

Hypothesis Hcom : 0 <= com < 2^16.
Hypothesis Hmap : 0 <= map < 2^16.
Hypothesis Hne : com <> map.

Lemma loop_setup : forall rx l subs dlc bufs w w1 res,
  Forall2 (slot_of d map) subs l -> NoDup subs -> Forall (fun s => 1 <= s <= 255) subs ->
  Inv w -> Forall (entry_ready w) subs -> NoDup (keys l) -> Forall (object_ready rx w) (keys l) -> 0 <= dlc <= 8 ->
  map_loop dv d nid map subs rx (negb rx) dlc bufs w = Ok (w1, inl res) ->
  Inv w1 /\ fst res = bufs ++ seq (w_next w) (List.length l) /\ w_next w1 = (w_next w + List.length l)%nat /\
  snd res = dlc + Z.of_nat (total l) /\ snd res <= 8 /\
  (forall i, (i < w_next w)%nat -> w_bufs w1 i = w_bufs w i) /\
  (forall k, ~ (exists s, In s subs /\ k = key_sub map s) -> ~ In k (keys l) -> lookup k (w_store w1) = lookup k (w_store w)) /\
  (forall x i, In (x, i) (combine l (seq (w_next w) (List.length l))) -> slot_ok rx w1 x i) /\
  (forall k c, In k (keys l) -> lookup k (w_store w1) = Some c -> (if rx then c_wr c else c_rd c) = 0%nat).
Proof.
  intros rx. induction l as [|x l IH]; intros subs dlc bufs w w1 res F2 Nd Hs I He Nk Ho Hd H.
  - inversion F2; subst. injection H as <- <-. cbn [List.length seq combine total fold_right].
    rewrite app_nil_r. split; [exact I|]. cbn. repeat split; auto; try lia; intros; contradiction.
  - inversion F2 as [|s ? subs' ? Hx F2']; subst. inversion Nd as [|? ? Ns Nd']; subst.
    inversion Hs as [|? ? Hs1 Hs2]; subst. inversion He as [|? ? He1 He2]; subst.
    cbn [map_loop] in H. apply bind_inl in H as [w2 [r2 [H1 H2]]].
    assert (Ks : forall k, In k (keys (x :: l)) <-> fst x = Some k \/ In k (keys l)).
    { intros k. unfold keys. cbn [flat_map]. rewrite in_app_iff. destruct (fst x); cbn [In]; split; intros [X|X]; auto; try discriminate.
      - destruct X as [->|[]]; auto.
      - injection X as ->. auto.
      - contradiction. }
    assert (Nk' : NoDup (keys l) /\ (forall k, fst x = Some k -> ~ In k (keys l))).
    { unfold keys in Nk. cbn [flat_map] in Nk. destruct (fst x) as [k|]; cbn [app] in Nk.
      - inversion Nk; subst. split; [assumption|]. intros k' E. injection E as <-. assumption.
      - split; [assumption|]. discriminate. }
    destruct Nk' as [Nk1 Nk2]. rewrite Forall_forall in Ho.
    assert (Ho1 : forall k, fst x = Some k -> object_ready rx w k) by (intros k E; apply Ho, Ks; auto).
    destruct (sub_entry rx s x dlc w w2 r2 Hs1 I Hx He1 Ho1 Hd H1) as [I2 [A1 [A2 [A3 [A4 [A5 [A6 [A7 A8]]]]]]]].
    assert (Qs : forall s', 1 <= s' <= 255 -> Q (key_sub map s')) by (intros s' E; exists s'; split; [lia|auto]).
    destruct (IH subs' (snd r2) (bufs ++ [fst r2]) w2 w1 res) as [I1 [B1 [B2 [B3 [B4 [B5 [B6 [B7 B8]]]]]]]]; auto.
    + apply Forall_forall. intros s' Hin c e b Hc Hl Hg. rewrite Forall_forall in He2, Hs2.
      apply (He2 s' Hin c e b); auto. rewrite <- A6; [exact Hc| |].
      * intros E. apply sub_inj in E; [|exact Hmap|exact Hmap|specialize (Hs2 s' Hin); lia|lia]. destruct E as [_ ->]. contradiction.
      * intros E. destruct (Ho1 _ E) as [X _]. apply X, Qs. specialize (Hs2 s' Hin). lia.
    + apply Forall_forall. intros k Hk. assert (Hin : In k (keys (x :: l))) by (apply Ks; auto).
      destruct (Ho k Hin) as [O1 [O2 [O3 [e [O4 [O5 [O6 [O7 O8]]]]]]]].
      split; [exact O1|]. split; [exact O2|]. split; [exact O3|]. exists e. repeat (split; [assumption|]).
      intros c Hc. apply O8. rewrite <- A6; [exact Hc| |].
      * intros ->. apply O1, Qs. lia.
      * intros E. apply (Nk2 k E Hk).
    + rewrite A3. destruct Hd. split; [lia|]. rewrite <- A3. exact A4.
    + assert (Lk : forall k, fst x = Some k -> lookup k (w_store w1) = lookup k (w_store w2)).
      { intros k E. apply B6; [|apply (Nk2 k E)]. intros [s' [Hs' ->]]. destruct (Ho1 _ E) as [X _]. apply X, Qs.
        rewrite Forall_forall in Hs2. apply (Hs2 s' Hs'). }
      split; [exact I1|]. cbn [List.length seq]. split; [rewrite B1, A1, A2, <- app_assoc; reflexivity|].
      split; [rewrite B2, A2; lia|]. split; [rewrite B3, A3; unfold total; cbn [fold_right]; fold (total l); lia|].
      split; [exact B4|]. split; [intros i Hi; rewrite B5 by (rewrite A2; lia); apply A5, Hi|].
      split; [|split].
      * intros k N1 N2. rewrite B6, A6; [reflexivity| | | |].
        -- intros ->. apply N1. exists s. cbn; auto.
        -- intros E. apply N2, Ks. auto.
        -- intros [s' [X Y]]. apply N1. exists s'. cbn; auto.
        -- intros X. apply N2, Ks. auto.
      * intros y i Hin. cbn [combine] in Hin. destruct Hin as [E|Hin].
        -- injection E as <- <-. eapply slot_same; [|exact Lk|exact A7]. apply B5. rewrite A2. lia.
        -- rewrite <- A2 in Hin. apply B7, Hin.
      * intros k c Hk Hc. apply Ks in Hk as [Hk|Hk]; [|apply (B8 k c Hk Hc)].
        rewrite (Lk k Hk) in Hc. apply (A8 k c Hk Hc).
Qed.

(** ** The whole set-up of a PDO *)

Lemma given_get : forall e t b, given e t b -> hold_get t (e_value e) = Some (of_le (firstn (ty_size t) b)).
Proof.
  intros e t b [[H1 H2]|[H1 [H2 H3]]]; unfold e_value, hold_get.
  - rewrite H1, H2, H1, ty_eqb_same. reflexivity.
  - rewrite H1, H3, H2, ty_eqb_same. reflexivity.
Qed.
Lemma get_given : forall e t n, hold_get t (e_value e) = Some n -> exists b, given e t b /\ n = of_le (firstn (ty_size t) b).
Proof.
  intros e t n. unfold e_value, hold_get. destruct (h_data (e_init e)) as [b|] eqn:E.
  - destruct (h_type (e_init e)) as [t'|] eqn:Et; [|discriminate]. rewrite E. destruct (ty_eqb t' t) eqn:X; [|discriminate].
    intros H. injection H as <-. apply ty_eqb_spec in X. subst t'. exists b. split; [left; auto|reflexivity].
  - destruct (h_type (e_def e)) as [t'|] eqn:Et; [|discriminate]. destruct (h_data (e_def e)) as [b|] eqn:Eb; [|discriminate].
    destruct (ty_eqb t' t) eqn:X; [|discriminate].
    intros H. injection H as <-. apply ty_eqb_spec in X. subst t'. exists b. split; [right; auto|reflexivity].
Qed.

Definition setup_post (rx : bool) (l : layout) (w w1 : pw) : Prop :=
  Inv w1 /\ w_next w1 = (w_next w + List.length l)%nat /\
  untouched com map l w w1 /\
  (forall x i, In (x, i) (combine l (seq (w_next w) (List.length l))) -> slot_ok rx w1 x i) /\
  (forall k c, In k (keys l) -> lookup k (w_store w1) = Some c -> (if rx then c_wr c else c_rd c) = 0%nat).

Lemma post_par : forall rx l w w1 w2, (forall k, In k (keys l) -> ~ Q k) -> setup_post rx l w w1 -> Inv w2 -> par Q w1 w2 -> setup_post rx l w w2.
Proof.
  intros rx l w w1 w2 Ha [I1 [N1 [[U1 [U2 U3]] [S1 O1]]]] I2 [P1 [P2 P3]].
  split; [exact I2|]. split; [congruence|]. split; [|split].
  - split; [lia|]. split; [intros i Hi; rewrite P2; apply U2, Hi|]. intros k Nk Nq. rewrite P3 by exact Nq. apply U3; assumption.
  - intros x i Hin. eapply slot_same; [apply P2| |apply S1, Hin]. intros k E. apply P3, Ha.
    apply in_combine_l in Hin. destruct x as [y n]. cbn [fst] in E. subst y. unfold keys. apply in_flat_map. eexists. split; [exact Hin|]. cbn; auto.
  - intros k c Hk Hc. rewrite P3 in Hc by (apply Ha, Hk). apply (O1 k c Hk Hc).
Qed.

Lemma ready_inv : forall l w, ready T dv d com map l w -> Inv w.
Proof. intros l w R. split; [apply R|]. split; [apply R|apply R]. Qed.

Lemma forall2_nth : forall (P : Z -> option Z * nat -> Prop) l j,
  (forall i x, nth_error l i = Some x -> P (Z.of_nat (j + i) + 1) x) ->
  Forall2 P (List.map (fun i => Z.of_nat i + 1) (seq j (List.length l))) l.
Proof.
  intros P. induction l as [|x l IH]; intros j H; [constructor|]. cbn [List.length seq List.map].
  constructor.
  - specialize (H 0%nat x eq_refl). rewrite Nat.add_0_r in H. exact H.
  - apply IH. intros i y Hy. replace (S j + i)%nat with (j + S i)%nat by lia. apply H. exact Hy.
Qed.

Lemma parse_setup : forall rx dlc l w w1 res, 
  (forall e b, lookup (key_sub com 0) d = Some e -> given e (TInt (mkIty false 1)) b -> bytes_ok b) ->
  pdo_mapping d map l -> mappable T d (use rx) l -> ready T dv d com map l w ->
  parse_and_set_mapping dv d nid com map rx (negb rx) dlc w = Ok (w1, inl res) ->
  setup_post rx l w w1 /\ fst res = seq (w_next w) (List.length l) /\ snd res = Z.of_nat (total l) /\ (total l <= 8)%nat.
Proof.
  intros rx dlc l w w1 res Hsub [Hl [[e0 [E0 G0]] Hm]] [Nk Mp] R H.
  pose proof (ready_inv l w R) as I0.
  assert (Ha : forall k, In k (keys l) -> ~ Q k) by (apply R).
  assert (Qn : Q (key_sub map 0)) by (exists 0; split; [lia|auto]).
  assert (Qc : Q (key_sub com 1)) by (exists 1; split; [lia|auto]).
  unfold parse_and_set_mapping in H. cbv zeta in H.
  apply bind_inl in H as [w2 [[] [H1 H]]]. destruct (Par_entry_of d nid 1 _ Qn _ _ _ I0 H1) as [I1 P1].
  apply bind_inl in H as [w2' [e0' [H2 H]]]. unfold desc in H2. rewrite E0 in H2. injection H2 as <- <-.
  pose proof (given_get _ _ _ G0) as G1. change (TInt (mkIty false 1)) with U8 in G1. rewrite G1 in H. clear G1.
  assert (Hn : of_le (firstn (ty_size U8) [Z.of_nat (List.length l)]) = Z.of_nat (List.length l)) by (change (ty_size U8) with 1%nat; cbn [firstn of_le]; lia).
  rewrite Hn in H. set (mc := check_map_changed d (Z.of_nat (List.length l)) map) in *. set (cc := check_com_changed d map) in *.
  apply bind_inl in H as [w3 [[] [H3 H]]]. destruct (Par_entry_of d nid 4 _ Qc _ _ _ I1 H3) as [I3 P3].
  apply bind_inl in H as [w3' [ce [H4 H]]]. pose proof (Par_desc (eq (key_sub com 1)) d (key_sub com 1) _ _ _ I3 H4) as [I4 P4].
  apply bind_inl in H as [w5 [[] [H5 H]]].
  assert (I5P : Inv w5 /\ par (eq (key_sub com 1)) w3' w5).
  { eapply Par_when; [|exact I4|exact H5]. apply Par_bind; [apply Par_get_val, Qc|]. intros. apply Par_set_val, Qc. }
  destruct I5P as [I5 P5].
  apply bind_inl in H as [w7 [res' [H7 H]]]. replace ((0 <? Z.of_nat (List.length l)) && (Z.of_nat (List.length l) <=? 64)) with true in H7 by lia.
  apply bind_inl in H7 as [w6 [[] [H6 H7]]].
  assert (I6P : Inv w6 /\ par (eq (key_sub map 0)) w5 w6) by (eapply Par_when; [|exact I5|exact H6]; apply Par_set_val, Qn).
  destruct I6P as [I6 P6].
  assert (Pre : par (fun k => k = key_sub map 0 \/ k = key_sub com 1) w w6).
  { eapply par_trans; [eapply par_weaken; [|exact P1]; intros; auto|].
    eapply par_trans; [eapply par_weaken; [|exact P3]; intros; auto|].
    eapply par_trans; [eapply par_weaken; [|exact P4]; intros; auto|].
    eapply par_trans; [eapply par_weaken; [|exact P5]; intros; auto|].
    eapply par_weaken; [|exact P6]; intros; auto. }
  assert (Post : setup_post rx l w w7 /\ fst res' = seq (w_next w) (List.length l) /\ snd res' = Z.of_nat (total l) /\ (total l <= 8)%nat).
  { assert (Sb : List.map (fun i => i + 1) (range (Z.of_nat (List.length l))) = List.map (fun i => Z.of_nat i + 1) (seq 0 (List.length l))).
    { unfold range. rewrite Nat2Z.id, map_map. reflexivity. }
    rewrite Sb in H7. destruct Pre as [Q1 [Q2 Q3]].
    destruct (loop_setup rx l (List.map (fun i => Z.of_nat i + 1) (seq 0 (List.length l))) 0 [] w6 w7 res') as [J1 [J2 [J3 [J4 [J5 [J6 [J7 [J8 J9]]]]]]]]; auto.
    - apply forall2_nth. exact Hm.
    - apply Injective_map_NoDup; [intros a b E; lia|apply seq_NoDup].
    - apply Forall_forall. intros s Hs. apply in_map_iff in Hs as [i [<- Hi]]. apply in_seq in Hi. lia.
    - apply Forall_forall. intros s Hs. apply in_map_iff in Hs as [i [<- Hi]]. apply in_seq in Hi.
      intros c e b Hc He Hg Hn'.
      assert (Ns : key_sub map (Z.of_nat i + 1) <> key_sub map 0) by (intros E; apply sub_inj in E; lia).
      destruct (Z.eq_dec (key_sub map (Z.of_nat i + 1)) (key_sub com 1)) as [Ec|Ec].
      + (* map entry shared with the COB-ID: the indices are equal *)
        exfalso. apply sub_inj in Ec; lia.
      + rewrite Q3 in Hc by tauto. eapply (rd_entry _ _ _ _ _ _ _ R (Z.of_nat i + 1)); try eassumption. lia.
    - apply Forall_forall. intros k Hk. destruct (Mp k Hk) as [M1 [e [M2 [M3 [M4 M5]]]]].
      split; [apply Ha, Hk|]. split; [exact M1|]. split; [intros; apply R, Hk|]. exists e. repeat (split; [assumption|]).
      intros c Hc. rewrite Q3 in Hc by (intros [->| ->]; eapply Ha; eassumption).
      destruct (rd_object _ _ _ _ _ _ _ R k c Hk Hc) as [X1 [X2 X3]]. split; [exact X1|]. split; [exact X2|]. apply X3, M2.
    - lia.
    - rewrite Q1 in *. cbn [app] in J2. split; [|split; [exact J2|lia]].
      split; [exact J1|]. split; [exact J3|]. split; [|split; assumption].
      split; [lia|]. split; [intros i Hi; rewrite J6 by exact Hi; apply Q2|].
      intros k N1 N2. rewrite J7; [|intros [s [X ->]]; apply N2; apply in_map_iff in X as [i [<- Hi]]; apply in_seq in Hi; exists (Z.of_nat i + 1); split; [lia|auto]|exact N1].
      apply Q3. intros [->| ->]; contradiction. }
  destruct Post as [Post [Pb [Pd Pt]]].
  apply bind_inl in H as [w8 [[] [H8 H]]]. apply bind_inl in H as [w9 [[] [H9 H]]]. apply bind_inl in H as [w10 [[] [H10 H]]].
  injection H as <- <-. split; [|auto].
  assert (I7 : Inv w7) by (apply Post).
  assert (S8 : Inv w8 /\ par Q w7 w8).
  { destruct cc; cbn [when] in H8; [|injection H8 as <-; split; [exact I7|apply par_refl]].
    apply bind_inl in H8 as [w7' [n [H8a H8]]]. unfold desc in H8a. destruct (lookup (key_sub com 0) d) as [n'|] eqn:En; [|discriminate].
    injection H8a as <- <-. destruct (hold_get U8 (e_value n')) as [sb|] eqn:E; [|discriminate].
    apply bind_inl in H8 as [w7' [[] [H8a H8]]]. unfold assert_m in H8a. destruct (negb (sb =? 255)) eqn:E255; [|discriminate]. injection H8a as <-.
    eapply Par_init_com; [|exact I7|exact H8].
    destruct (get_given _ _ _ E) as [b [Gb Sb]]. specialize (Hsub _ _ eq_refl Gb).
    apply Forall_forall. intros s Hs. apply in_map_iff in Hs as [i [<- Hi]]. apply range_in in Hi.
    assert (sb < 256); [|lia]. rewrite Sb. change (ty_size U8) with 1%nat. destruct b as [|x b]; [reflexivity|]. cbn [firstn of_le]. inversion Hsub; subst. unfold byte_ok in *. lia. }
  destruct S8 as [I8 P8].
  assert (S9 : Inv w9 /\ par Q w8 w9).
  { eapply Par_when; [|exact I8|exact H9]. eapply Par_weaken; [|apply Par_set_val, Qn]. intros k <-. exact Qn. }
  destruct S9 as [I9 P9].
  assert (S10 : Inv w10 /\ par Q w9 w10).
  { eapply Par_when; [|exact I9|exact H10]. apply (Par_weaken _ (eq (key_sub com 1))); [intros k <-; exact Qc|].
    apply Par_bind; [apply Par_init_key, Qc|]. intros _. destruct (apply_u32 nid (e_value ce)); [apply Par_set_val, Qc|apply Par_throw]. }
  destruct S10 as [I10 P10].
  eapply post_par; [exact Ha|exact Post|exact I10|]. eapply par_trans; [exact P8|]. eapply par_trans; eassumption.
Qed.

Lemma seq_slots : forall rx l w w1, setup_post rx l w w1 -> (0 < w_next w)%nat -> 
  ~ In 0%nat (seq (w_next w) (List.length l)) /\ NoDup (seq (w_next w) (List.length l)).
Proof. intros rx l w w1 _ Hp. split; [intros X; apply in_seq in X; lia|apply seq_NoDup]. Qed.

(** Who uses the buffers *)
Lemma post_owner : forall rx l w w1 k c, ready T dv d com map l w -> setup_post rx l w w1 -> lookup k (w_store w1) = Some c ->
  ~ In (if rx then c_wr c else c_rd c) (seq (w_next w) (List.length l)) /\
  (In (if rx then c_rd c else c_wr c) (seq (w_next w) (List.length l)) -> In k (keys l)).
Proof.
  intros rx l w w1 k c R [I1 [N1 [[U1 [U2 U3]] [S1 O1]]]] Hc.
  pose proof (rd_next _ _ _ _ _ _ _ R) as Hp.
  destruct (in_dec Z.eq_dec k (keys l)) as [Hk|Hk].
  - rewrite (O1 k c Hk Hc). split; [|auto]. intros X. apply in_seq in X. lia.
  - assert (Lt : (c_rd c < w_next w /\ c_wr c < w_next w)%nat).
    { destruct (lookup k (w_store w)) as [c0|] eqn:E.
      - destruct (classic_param k) as [Hq|Hq].
        + destruct I1 as [_ [_ I1]]. destruct (I1 k Hq c Hc). lia.
        + rewrite U3 in Hc by assumption. apply (rd_used _ _ _ _ _ _ _ R k c Hc).
      - destruct (classic_param k) as [Hq|Hq].
        + destruct I1 as [_ [_ I1]]. destruct (I1 k Hq c Hc). lia.
        + rewrite U3 in Hc by assumption. congruence. }
    split; intros X; apply in_seq in X; destruct rx; lia.
Qed.

Lemma value_of_inv : forall k get w w1 r, value_of d k get w = Ok (w1, inl r) ->
  w1 = w /\ exists e, lookup k d = Some e /\ get (e_value e) = Some r.
Proof.
  intros k get w w1 r H. unfold value_of in H. apply bind_inl in H as [w2 [e [H1 H]]]. unfold desc in H1.
  destruct (lookup k d) as [e'|]; [|discriminate]. injection H1 as <- <-.
  destruct (get (e_value e')) eqn:E; [|discriminate]. injection H as <- <-. eauto.
Qed.

Lemma seq_nonempty : forall n (l : layout), 1 <= Z.of_nat (List.length l) ->
  match seq n (List.length l) with [] => true | _ => false end = false.
Proof. intros n [|x l] H; [cbn in H; lia|reflexivity]. Qed.

Lemma transmission_value : forall tt e v, pdo_transmission d com tt -> lookup (key_sub com 2) d = Some e ->
  hold_get U8 (e_value e) = Some v -> v = tt.
Proof.
  intros tt e v [e' [He Hg]] He' Hv. rewrite He in He'. injection He' as <-.
  pose proof (given_get _ _ _ Hg) as G. change (TInt (mkIty false 1)) with U8 in G. rewrite G in Hv. injection Hv as <-.
  change (ty_size U8) with 1%nat. cbn [firstn of_le]. lia.
Qed.

Lemma id_value : forall inv nortr ext id e v, pdo_id d nid com inv nortr ext id -> lookup (key_sub com 1) d = Some e ->
  apply_u32 nid (e_value e) = Some v -> can_id_ok ext id /\ v = cob_layout inv nortr ext id.
Proof.
  intros inv nortr ext id e v [Hi [e' [He Hg]]] He' Hv. rewrite He in He'. injection He' as <-.
  apply apply_configured in Hg. split; congruence.
Qed.

Lemma rx_setup : forall junk inv nortr ext id tt l w w1 r,
  (forall e b, lookup (key_sub com 0) d = Some e -> given e (TInt (mkIty false 1)) b -> bytes_ok b) ->
  pdo_mapping d map l -> pdo_id d nid com inv nortr ext id -> pdo_transmission d com tt ->
  mappable T d sendable l -> ready T dv d com map l w ->
  rpdo_init dv d nid junk com map w = Ok (w1, inl r) ->
  setup_post true l w w1 /\
  if inv then r = None
  else exists p, r = Some p /\ rx_mapped T d l (held_of w1) p w1 /\
    p_frame p = mkFrame (mkHeader id ext (negb nortr) false) 0 junk /\ p_listen p = Some (mkHeader id ext false false) /\
    p_type p = tt /\ p_timeout p = -1 /\ (total l <= 8)%nat /\ p_bufs p = seq (w_next w) (List.length l).
Proof.
  intros junk inv nortr ext id tt l w w1 r Hsub Hm Hi Ht Mp R H. unfold rpdo_init in H.
  apply bind_inl in H as [w2 [res [H1 H]]].
  destruct (parse_setup true 0 l w w2 res Hsub Hm Mp R H1) as [Post [Pb [Pd Pt]]].
  apply bind_inl in H as [w3 [v [H2 H]]]. destruct (value_of_inv _ _ _ _ _ H2) as [-> [e [He Hv]]].
  destruct (id_value _ _ _ _ _ _ Hi He Hv) as [Hid ->]. clear H2.
  destruct Hm as [Hl _]. rewrite Pb, seq_nonempty in H by apply Hl.
  destruct (cob_id_decoded inv nortr ext id true Hid) as [D1 [_ D3]].
  destruct (cob_id_decoded inv nortr ext id false Hid) as [D2 _].
  cbv zeta in D1, D2, D3. rewrite D3, D1, D2 in H. cbn [orb andb] in H.
  destruct inv.
  - injection H as <- <-. split; [exact Post|reflexivity].
  - apply bind_inl in H as [w4 [tt' [H2 H]]]. destruct (value_of_inv _ _ _ _ _ H2) as [-> [e2 [He2 Hv2]]].
    rewrite (transmission_value _ _ _ Ht He2 Hv2) in H. injection H as <- <-.
    split; [exact Post|]. eexists. split; [reflexivity|]. cbn [p_frame p_listen p_type p_timeout p_bufs].
    split; [|repeat split; auto].
    destruct (seq_slots _ _ _ _ Post (rd_next _ _ _ _ _ _ _ R)) as [S1 S2].
    constructor; cbn [p_bufs].
    + rewrite seq_length. reflexivity.
    + exact S1.
    + exact S2.
    + apply Mp.
    + intros x i Hin. destruct Post as [_ [_ [_ [Sl _]]]]. exact (Sl x i Hin).
    + intros k c Hc. exact (post_owner true l w w2 k c R Post Hc).
Qed.

Lemma tx_setup : forall junk inv nortr ext id tt l w w1 r, List.length junk = 8%nat ->
  (forall e b, lookup (key_sub com 0) d = Some e -> given e (TInt (mkIty false 1)) b -> bytes_ok b) ->
  pdo_mapping d map l -> pdo_id d nid com inv nortr ext id -> pdo_transmission d com tt ->
  mappable T d receivable l -> ready T dv d com map l w ->
  tpdo_init dv d nid junk com map w = Ok (w1, inl r) ->
  setup_post false l w w1 /\
  if inv then r = None
  else exists p, r = Some p /\ tx_mapped T d l p w1 /\
    p_frame p = mkFrame (mkHeader id ext false false) (Z.of_nat (total l)) junk /\ p_listen p = None /\
    p_type p = tt /\ p_bufs p = seq (w_next w) (List.length l).
Proof.
  intros junk inv nortr ext id tt l w w1 r Hj Hsub Hm Hi Ht Mp R H. unfold tpdo_init in H.
  apply bind_inl in H as [w0 [v [H2 H]]]. destruct (value_of_inv _ _ _ _ _ H2) as [-> [e [He Hv]]].
  destruct (id_value _ _ _ _ _ _ Hi He Hv) as [Hid ->]. clear H2.
  apply bind_inl in H as [w2 [res [H1 H]]].
  destruct (parse_setup false 0 l w w2 res Hsub Hm Mp R H1) as [Post [Pb [Pd Pt]]].
  destruct Hm as [Hl _]. rewrite Pb, seq_nonempty in H by apply Hl.
  destruct (cob_id_decoded inv nortr ext id false Hid) as [D1 [_ D3]].
  cbv zeta in D1, D3. rewrite D3, D1 in H. cbn [orb andb] in H.
  destruct inv.
  - injection H as <- <-. split; [exact Post|reflexivity].
  - assert (Q2 : Q (key_sub com 2)) by (exists 2; split; [lia|auto]).
    apply bind_inl in H as [w3 [[] [H3 H]]].
    apply bind_inl in H as [w4 [tt' [H2 H]]]. destruct (value_of_inv _ _ _ _ _ H2) as [-> [e2 [He2 Hv2]]].
    rewrite (transmission_value _ _ _ Ht He2 Hv2) in H. apply bind_inl in H as [w5 [[] [H5 H]]]. injection H as <- <-.
    destruct (Par_entry_of d nid 1 _ Q2 _ _ _ (proj1 Post) H3) as [I3 P3].
    assert (S5 : Inv w5 /\ par (eq (key_sub com 2)) w3 w5) by (eapply Par_when; [|exact I3|exact H5]; apply Par_set_val, Q2).
    destruct S5 as [I5 P5].
    assert (Post' : setup_post false l w w5).
    { eapply post_par; [apply R|exact Post|exact I5|]. apply (par_weaken (eq (key_sub com 2))); [intros k <-; exact Q2|].
      eapply par_trans; eassumption. }
    clear Post. rename Post' into Post.
    split; [exact Post|]. eexists. split; [reflexivity|]. cbn [p_frame p_listen p_type p_timeout p_bufs].
    rewrite Pd. split; [|repeat split; auto].
    destruct (seq_slots _ _ _ _ Post (rd_next _ _ _ _ _ _ _ R)) as [S1 S2].
    constructor; cbn [p_bufs p_frame Frame f_dlc f_data].
    + rewrite seq_length. reflexivity.
    + exact S1.
    + exact S2.
    + apply Mp.
    + exact Pt.
    + reflexivity.
    + exact Hj.
    + intros x i Hin. destruct Post as [_ [_ [_ [Sl _]]]]. exact (Sl x i Hin).
    + intros k c Hc. exact (post_owner false l w w5 k c R Post Hc).
Qed.

End Setup.
