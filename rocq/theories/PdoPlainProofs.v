(** Setting up the PDOs a dictionary describes never connects a parameter of a PDO to
    a buffer, also if it ends with an exception. *)
From Verif Require Import Base CanModel KeyModel KeySpec KeyProofs StorageModel StorageSpec StorageProofs PdoModel PdoSpec PdoProofs PdoTxProofs PdoConfProofs PdoLiveProofs
  SdoChanSpec PdoSetupSpec PdoSetupProofs PdoNodeProofs PdoBootSpec PdoBootProofs.

(** Entries of mappings *)
Definition mapping_index (i : Z) : Prop := 0x1600 <= i < 0x1800 \/ 0x1A00 <= i < 0x1C00.
Definition ekey (k : Z) : Prop := exists i s, mapping_index i /\ 1 <= s <= 64 /\ k = key_sub i s.

Lemma bind_assoc : forall A B C (m : M A) (f : A -> M B) (g : B -> M C) w, bind (bind m f) g w = bind m (fun a => bind (f a) g) w.
Proof. intros A B C m f g w. unfold bind. destruct (m w) as [[w1 [a|x]]|]; reflexivity. Qed.
Lemma bind_ext : forall A B (m : M A) (f g : A -> M B) w, (forall a w1, f a w1 = g a w1) -> bind m f w = bind m g w.
Proof. intros A B m f g w H. unfold bind. destruct (m w) as [[w1 [a|x]]|]; [apply H|reflexivity|reflexivity]. Qed.

Lemma object_key_one : forall d index sub k k', object_key d index sub k -> object_key d index sub k' -> k' = k.
Proof. intros d index sub k k' [[-> H]|[H [-> [-> H1]]]] [[-> H']|[H' [E [-> H1']]]]; try reflexivity; contradiction. Qed.

Section Plain.
Variable dv : device.
Variable d : dict.
Variable nid : Z.

Definition J (w : pw) : Prop :=
  (forall k, pdo_parameter k -> plain_access w k) /\
  (forall k c e b, ekey k -> lookup k (w_store w) = Some c -> lookup k d = Some e -> given e U32t b -> h_data (e_init e) = None ->
     c_type c = U32t /\ c_valid c = true /\ c_buf c = b).
Definition Keep {A} (m : M A) : Prop := forall w w1 r, J w -> m w = Ok (w1, r) -> J w1.

Lemma J_store : forall k c w log bufs n, J w -> (pdo_parameter k -> c_wr c = 0%nat /\ c_rd c = 0%nat) ->
  (forall e b, ekey k -> lookup k d = Some e -> given e U32t b -> h_data (e_init e) = None -> c_type c = U32t /\ c_valid c = true /\ c_buf c = b) ->
  J (mkPW (store k c (w_store w)) log bufs n).
Proof.
  intros k c w log bufs n [J1 J2] P E. split.
  - intros k' Hk c'. cbn [w_store]. destruct (Z.eq_dec k' k) as [->|N].
    + rewrite lookup_store_eq. intros X. injection X as <-. apply P, Hk.
    + rewrite lookup_store_neq by congruence. apply (J1 k' Hk).
  - intros k' c' e b Hk. cbn [w_store]. destruct (Z.eq_dec k' k) as [->|N].
    + rewrite lookup_store_eq. intros X. injection X as <-. apply E, Hk.
    + rewrite lookup_store_neq by congruence. apply (J2 k'), Hk.
Qed.
Lemma J_bufs : forall w log bufs n, J w -> J (mkPW (w_store w) log bufs n).
Proof. intros w log bufs n H. exact H. Qed.
Lemma Keep_bind : forall A B (m : M A) (f : A -> M B), Keep m -> (forall a, Keep (f a)) -> Keep (bind m f).
Proof.
  intros A B m f Hm Hf w w1 r H. unfold bind. destruct (m w) as [[w2 [a|x]]|] eqn:E; [| |discriminate].
  - apply (Hf a w2 w1 r (Hm w w2 _ H E)).
  - intros X. injection X as <- _. exact (Hm w w2 _ H E).
Qed.
Lemma Keep_same : forall A (m : M A), (forall w w1 r, m w = Ok (w1, r) -> w1 = w) -> Keep m.
Proof. intros A m Hm w w1 r H X. apply Hm in X. subst w1. exact H. Qed.
Lemma Keep_retm : forall A (a : A), Keep (retm a).
Proof. intros. apply Keep_same. intros w w1 r X. injection X as <- _. reflexivity. Qed.
Lemma Keep_throw : forall A x, Keep (@throw A x).
Proof. intros. apply Keep_same. intros w w1 r X. injection X as <- _. reflexivity. Qed.
Lemma Keep_desc : forall k, Keep (desc d k).
Proof. intros k. apply Keep_same. intros w w1 r. unfold desc. destruct (lookup k d); intros X; injection X as <- _; reflexivity. Qed.
Lemma Keep_assert : forall b, Keep (assert_m b).
Proof. intros [|]; apply Keep_same; intros w w1 r X; [injection X as <- _; reflexivity|discriminate]. Qed.
Lemma Keep_when : forall b m, Keep m -> Keep (when b m).
Proof. intros [|] m H; [exact H|apply Keep_retm]. Qed.
Lemma Keep_value_of : forall k g, Keep (value_of d k g).
Proof. intros k g. unfold value_of. apply Keep_bind; [apply Keep_desc|]. intros e. destruct (g _); [apply Keep_retm|apply Keep_throw]. Qed.

Lemma Keep_entry_of : forall n k, (ekey k -> n = 4) -> Keep (entry_of d nid n k).
Proof.
  intros n k Hn w w1 r H. unfold entry_of. destruct (lookup k (w_store w)) as [c|].
  - destruct (ty_eqb _ _); intros X; injection X as <- _; exact H.
  - destruct (lookup k d) as [e|] eqn:Ee; [|intros X; injection X as <- _; exact H]. cbv zeta.
    destruct (entry_cell _ e _) as [c|] eqn:Ec; intros X; injection X as <- _; [|exact H].
    destruct (entry_cell_delegates _ _ _ _ Ec) as [E1 E2]. apply J_store; [exact H|auto|].
    intros e' b Hk He Hg Hi. rewrite Ee in He. injection He as <-. rewrite (Hn Hk) in Ec. destruct Hg as [[G _]|[_ [G2 G3]]]; [congruence|].
    unfold entry_cell in Ec. rewrite G2, G3 in Ec. cbn in Ec. injection Ec as <-. auto.
Qed.
Lemma Keep_obj : forall k o, not_smap o ->
  (forall e c rd wr c1 ev res, ekey k -> lookup k d = Some e -> h_data (e_init e) = None -> c_valid c = true -> c_type c = U32t -> step e (to_op o rd wr) c = Ok (c1, ev, res) -> c1 = c) ->
  Keep (obj dv d k o).
Proof.
  intros k o N C w w1 r H E.
  destruct (obj_inv _ _ _ _ _ _ _ E) as [[-> _]|(c & e & rd & wr & c1 & ev & res & Ec & Ee & Es & El & -> & _)]; [exact H|].
  assert (NM : not_map (to_op o rd wr)) by (destruct o; try exact Logic.I; contradiction).
  destruct (step_uses _ _ _ _ _ _ NM Es) as [[K0 [K1 K2]] _]. apply J_store; [exact H| |].
  - intros P. rewrite K1, K2. apply (proj1 H k P c Ec).
  - intros e' b Hk He Hg Hi. rewrite Ee in He. injection He as <-. destruct (proj2 H k c e b Hk Ec Ee Hg Hi) as [A [B D]].
    rewrite (C e c rd wr c1 ev res Hk Ee Hi B A Es). auto.
Qed.
Definition free (k : Z) : Prop := ekey k -> forall e, lookup k d = Some e -> h_data (e_init e) <> None.
Lemma Keep_get_val : forall k c, free k -> Keep (get_val dv d k c).
Proof.
  intros k c F. unfold get_val. apply Keep_bind; [|intros [b| |x]; apply Keep_retm]. apply Keep_obj; [exact Logic.I|].
  intros e c0 rd wr c1 ev res Hk He Hi. exfalso. exact (F Hk e He Hi).
Qed.
Lemma Keep_get_cached : forall k, Keep (get_val dv d k true).
Proof.
  intros k. unfold get_val. apply Keep_bind; [|intros [b| |x]; apply Keep_retm]. apply Keep_obj; [exact Logic.I|].
  intros e c rd wr c1 ev res Hk He Hi V _ Es. cbn [to_op step] in Es. unfold data_get in Es.
  destruct (negb (e_readable e)); [injection Es as <- _ _; reflexivity|]. rewrite V in Es. cbn in Es.
  destruct (access c); [|discriminate]. injection Es as <- _ _. reflexivity.
Qed.
Lemma Keep_set_val : forall n k v, free k -> Keep (set_val dv d n k v).
Proof.
  intros n k v F. unfold set_val. apply Keep_bind; [|intros; apply Keep_retm]. apply Keep_obj; [exact Logic.I|].
  intros e c0 rd wr c1 ev res Hk He Hi. exfalso. exact (F Hk e He Hi).
Qed.
Lemma Keep_init_key : forall k, Keep (init_key dv d k).
Proof.
  intros k w w1 r H. unfold init_key. destruct (lookup k d) as [e|] eqn:Ee; [|intros X; injection X as <- _; exact H].
  destruct (h_data (e_init e)) as [iv|] eqn:Ei; [|intros X; injection X as <- _; exact H]. cbv zeta. intros X.
  assert (B : Keep (obj dv d k SInit ;;; retm tt)).
  { apply Keep_bind; [|intros; apply Keep_retm]. apply Keep_obj; [exact Logic.I|]. intros e' c0 rd wr c1 ev res Hk He Hi. congruence. }
  refine (B _ _ _ _ X). destruct (lookup k (w_store w)) as [c|]; [exact H|]. apply (J_store k _ w); [exact H|auto|]. intros e' b Hk He Hg Hi. congruence.
Qed.
Lemma Keep_map_key : forall k e r b, ~ pdo_parameter k -> Keep (map_key dv d k e r b).
Proof.
  intros k e r b Np.
  assert (Ne : ~ ekey k). { intros [i [s [Hi [Hs E]]]]. apply Np. exists i, s. unfold mapping_index in Hi. split; [lia|]. split; [lia|exact E]. }
  assert (G : Keep (obj dv d k (SMap r b) ;;; (fun w => match lookup k (w_store w) with
               | Some c => Ok (w, inl (List.length (c_buf c))) | None => Ok (w, inl 0%nat) end))).
  { apply Keep_bind.
    - intros w w1 res H E.
      destruct (obj_inv _ _ _ _ _ _ _ E) as [[-> _]|(c & e' & rd & wr & c1 & ev & re & Ec & Ee & Es & El & -> & _)]; [exact H|].
      apply J_store; [exact H|contradiction|]. intros e0 b0 Hk. contradiction.
    - intros _. apply Keep_same. intros u u1 ru. destruct (lookup k (w_store u)); intros X; injection X as <- _; reflexivity. }
  intros w w1 res H. unfold map_key.
  destruct (lookup k (w_store w)) as [c|]; [intros X; refine (G _ _ _ _ X); exact H|].
  destruct (h_type (e_def e)) as [t|]; [|intros X; injection X as <- _; exact H].
  intros X. refine (G _ _ _ _ X). apply (J_store k _ w); [exact H|contradiction|]. intros e0 b0 Hk. contradiction.
Qed.
Lemma Keep_map_object : forall index s r b, (forall k, object_key d index s k -> ~ pdo_parameter k) -> Keep (map_object dv d index s r b).
Proof.
  intros index s r b Hk w w1 res H. unfold map_object.
  destruct (lookup (key_sub index s) d) as [e|] eqn:E; [apply Keep_map_key; [apply Hk; left; split; [reflexivity|congruence]|exact H]|].
  destruct (Z.eqb_spec s 0) as [->|Ns]; cbn [negb]; [|exact (Keep_throw _ _ w w1 res H)].
  destruct (lookup (key_index index) d) as [e|] eqn:E2; [|exact (Keep_throw _ _ w w1 res H)].
  apply Keep_map_key; [|exact H]. apply Hk. right. split; [exact E|]. split; [reflexivity|]. split; [reflexivity|congruence].
Qed.

Lemma not_ekey : forall i s, 0 <= i < 2^16 -> 0 <= s <= 255 -> (~ mapping_index i \/ s = 0) -> ~ ekey (key_sub i s).
Proof.
  intros i s Hi Hs C [i' [s' [Hm [Hs' E]]]]. assert (X : i = i' /\ s = s') by (unfold mapping_index in Hm; apply sub_inj; [lia|lia|lia|lia|exact E]).
  destruct X as [<- <-]. destruct C; [contradiction|lia].
Qed.
Lemma not_ekey_free : forall k, ~ ekey k -> free k.
Proof. intros k N X. contradiction. Qed.

Lemma Keep_sub : forall mi s x rd wr dlc, mapping_index mi -> 1 <= s <= 64 -> slot_of d mi s x -> (forall k, fst x = Some k -> ~ pdo_parameter k) ->
  Keep (map_sub_entry dv d nid mi s rd wr dlc).
Proof.
  intros mi s x rd wr dlc Hi Hs (e & len & sub & lo & hi & He & Hg & Hb & Hn & Hx) Np w w1 r H.
  assert (Bs : byte_ok len /\ byte_ok sub /\ byte_ok lo /\ byte_ok hi).
  { repeat match goal with H : Forall _ (_ :: _) |- _ => inversion H; clear H; subst end. auto. }
  unfold byte_ok in Bs. set (k0 := key_sub mi s) in *.
  pose (front := (entry_of d nid 4 k0 ;;;
   e <- desc d k0 ;;
   match h_data (e_init e) with
   | None => retm tt
   | Some _ => match hold_get U32 (e_init e) with
               | Some v => set_val dv d 4 k0 v
               | None => throw PCast
               end
   end ;;;
   get_val dv d k0 true)).
  pose (rest := fun p => (b <- new_buffer (Z.to_nat (map_length p / 8)) ;;
    (if (map_idx p <? 0x1000) || negb (rd || wr) then retm tt
     else l <- map_object dv d (map_idx p) (map_sub p) (if rd then Some b else None) (Some b) ;;
          assert_m (l =? Z.to_nat (map_length p / 8))%nat) ;;;
    assert_m (u8 (dlc + Z.of_nat (Z.to_nat (map_length p / 8))) <=? 8) ;;;
    clean_buffer b ;;;
    retm (b, u8 (dlc + Z.of_nat (Z.to_nat (map_length p / 8)))))).
  assert (Eq : map_sub_entry dv d nid mi s rd wr dlc w = bind front rest w).
  { unfold front. rewrite bind_assoc. apply bind_ext. intros _ wa. rewrite bind_assoc. apply bind_ext. intros ee wb.
    rewrite bind_assoc. apply bind_ext. intros _ wc. reflexivity. }
  rewrite Eq. clear Eq.
  assert (Kf : Keep front).
  { unfold front. apply Keep_bind; [apply Keep_entry_of; auto|]. intros _ wa wa1 ra Ja. unfold bind at 1. unfold desc. rewrite He.
    revert wa wa1 ra Ja. change (Keep (match h_data (e_init e) with None => retm tt | Some _ => match hold_get U32 (e_init e) with Some v => set_val dv d 4 k0 v | None => throw PCast end end ;;; get_val dv d k0 true)).
    apply Keep_bind; [|intros _; apply Keep_get_cached].
    destruct (h_data (e_init e)) eqn:Ei; [|apply Keep_retm]. destruct (hold_get U32 (e_init e)); [|apply Keep_throw].
    apply Keep_set_val. intros _ e' He'. rewrite He in He'. injection He' as <-. congruence. }
  unfold bind at 1. destruct (front w) as [[w2 [p|y]]|] eqn:Ef; [| |discriminate].
  2: { intros X. injection X as <- _. exact (Kf _ _ _ H Ef). }
  pose proof (Kf _ _ _ H Ef) as J2. assert (Hp : p = of_le [len; sub; lo; hi]).
  { refine (entry_value 0 0 dv d nid k0 _ w w2 p _ Ef). exists e. split; [exact He|]. split; [exact Hg|]. split; [exact Hb|]. split; [reflexivity|].
    intros c Hc Hi0. apply (proj2 H k0 c e _); auto. exists mi, s. auto. }
  assert (Hm : map_idx p = lo + 256 * hi /\ map_sub p = sub).
  { destruct (map_decoded (lo + 256 * hi) sub len) as [D1 [D2 D3]]; [lia|lia|lia|].
    replace p with (map_layout (lo + 256 * hi) sub len) by (rewrite Hp; unfold map_layout; cbn [of_le]; lia). auto. }
  destruct Hm as [M1 M2].
  assert (Kr : Keep (rest p)).
  { unfold rest. rewrite M1, M2. apply Keep_bind.
    { intros u u1 ru Ju X. injection X as <- _. exact Ju. }
    intros b. apply Keep_bind.
    { destruct (Z.ltb_spec (lo + 256 * hi) 0x1000) as [Lt|Ge]; cbn [orb]; [apply Keep_retm|]. destruct (negb (rd || wr)); [apply Keep_retm|].
      apply Keep_bind; [|intros l; apply Keep_assert]. apply Keep_map_object. intros k Hk.
      destruct (fst x) as [kx|] eqn:Ex; [|lia]. destruct Hx as [_ Hx]. rewrite (object_key_one _ _ _ _ _ Hx Hk). apply Np. reflexivity. }
    intros _. apply Keep_bind; [apply Keep_assert|]. intros _. apply Keep_bind; [|intros _; apply Keep_retm].
    intros u u1 ru Ju X. injection X as <- _. exact Ju. }
  exact (Kr w2 w1 r J2).
Qed.
Definition entry_fine (mi s : Z) : Prop := 1 <= s <= 64 /\ exists x, slot_of d mi s x /\ forall k, fst x = Some k -> ~ pdo_parameter k.
Lemma Keep_loop : forall mi rd wr, mapping_index mi -> forall subs dlc bufs, Forall (entry_fine mi) subs -> Keep (map_loop dv d nid mi subs rd wr dlc bufs).
Proof.
  intros mi rd wr Hi. induction subs as [|s subs IH]; intros dlc bufs F; cbn [map_loop]; [apply Keep_retm|]. inversion F as [|? ? [Hs [x [Sx Nx]]] F']; subst.
  apply Keep_bind; [exact (Keep_sub mi s x rd wr dlc Hi Hs Sx Nx)|]. intros y. apply IH, F'.
Qed.
Lemma Keep_init_com : forall ci subs, Keep (init_com dv d ci subs).
Proof.
  intros ci. induction subs as [|s subs IH]; [apply Keep_retm|]. cbn [init_com]. apply Keep_bind; [|intros _; exact IH].
  destruct (_ || _); [apply Keep_retm|]. intros w w1 r H.
  destruct (init_key dv d (key_sub ci s) w) as [[x [y|y]]|] eqn:Ei; [|destruct y|discriminate]; intros X; injection X as <- _; exact (Keep_init_key _ _ _ _ H Ei).
Qed.

(** What the dictionary says about the mapping *)
Definition mapping_fine (mi : Z) : Prop := exists e n, lookup (key_sub mi 0) d = Some e /\ given e (TInt (mkIty false 1)) [n] /\
  (n = 0 \/ 64 < n \/ forall s, 1 <= s <= n -> entry_fine mi s).
Definition com_index (ci : Z) : Prop := 0x1400 <= ci < 0x1600 \/ 0x1800 <= ci < 0x1A00.
Lemma Keep_parse : forall ci mi rd wr dlc, com_index ci -> mapping_index mi -> mapping_fine mi -> Keep (parse_and_set_mapping dv d nid ci mi rd wr dlc).
Proof.
  intros ci mi rd wr dlc Hc Hm (e & n & He & Hg & Hf). unfold parse_and_set_mapping. cbv zeta.
  assert (N0 : ~ ekey (key_sub mi 0)) by (apply not_ekey; [unfold mapping_index in Hm; lia|lia|auto]).
  assert (N1 : ~ ekey (key_sub ci 1)) by (apply not_ekey; [unfold com_index in Hc; lia|lia|left; unfold com_index, mapping_index in *; lia]).
  pose proof (not_ekey_free _ N0) as F0. pose proof (not_ekey_free _ N1) as F1.
  apply Keep_bind; [apply Keep_entry_of; contradiction|]. intros _.
  intros w w1 r H. unfold bind at 1. unfold desc at 1. rewrite He. revert w w1 r H.
  pose proof (given_get _ _ _ Hg) as G1. change (TInt (mkIty false 1)) with U8 in G1. rewrite G1. clear G1.
  assert (Hn : of_le (firstn (ty_size U8) [n]) = n) by (change (ty_size U8) with 1%nat; cbn [firstn of_le]; lia). rewrite Hn.
  match goal with |- forall w w1 r, J w -> ?m w = _ -> _ => change (Keep m) end.
  apply Keep_bind; [apply Keep_entry_of; contradiction|]. intros _. apply Keep_bind; [apply Keep_desc|]. intros ce.
  apply Keep_bind. { apply Keep_when. apply Keep_bind; [apply Keep_get_val, F1|]. intros v. apply Keep_set_val, F1. }
  intros _. apply Keep_bind.
  { destruct ((0 <? n) && (n <=? 64)) eqn:En; [|apply Keep_retm].
    apply Keep_bind; [apply Keep_when, Keep_set_val, F0|]. intros _. apply Keep_loop; [exact Hm|].
    apply Forall_forall. intros s Hs. apply in_map_iff in Hs as [i [<- Hi]]. apply range_in in Hi.
    destruct Hf as [Hf|[Hf|Hf]]; [lia|lia|]. apply Hf. lia. }
  intros res. apply Keep_bind.
  { apply Keep_when. apply Keep_bind; [apply Keep_desc|]. intros x. destruct (hold_get U8 (e_value x)); [|apply Keep_throw].
    apply Keep_bind; [apply Keep_assert|]. intros _. apply Keep_init_com. }
  intros _. apply Keep_bind; [apply Keep_when, Keep_set_val, F0|]. intros _. apply Keep_bind; [|intros _; apply Keep_retm].
  apply Keep_when. apply Keep_bind; [apply Keep_init_key|]. intros _. destruct (apply_u32 _ _); [apply Keep_set_val, F1|apply Keep_throw].
Qed.
Lemma Keep_rpdo : forall junk ci mi, com_index ci -> mapping_index mi -> mapping_fine mi -> Keep (rpdo_init dv d nid junk ci mi).
Proof.
  intros junk ci mi Hc Hm Hf. unfold rpdo_init. apply Keep_bind; [apply Keep_parse; assumption|]. intros r.
  apply Keep_bind; [apply Keep_value_of|]. intros id. destruct (_ || _); [apply Keep_retm|].
  apply Keep_bind; [apply Keep_value_of|]. intros t. apply Keep_retm.
Qed.
Lemma Keep_tpdo : forall junk ci mi, com_index ci -> mapping_index mi -> mapping_fine mi -> Keep (tpdo_init dv d nid junk ci mi).
Proof.
  intros junk ci mi Hc Hm Hf. unfold tpdo_init.
  assert (N2 : ~ ekey (key_sub ci 2)) by (apply not_ekey; [unfold com_index in Hc; lia|lia|left; unfold com_index, mapping_index in *; lia]).
  apply Keep_bind; [apply Keep_value_of|]. intros id. apply Keep_bind; [apply Keep_parse; assumption|]. intros r.
  destruct (_ || _); [apply Keep_retm|]. cbv zeta. apply Keep_bind; [apply Keep_entry_of; contradiction|]. intros _.
  apply Keep_bind; [apply Keep_value_of|]. intros t. apply Keep_bind; [apply Keep_when, Keep_set_val, not_ekey_free, N2|]. intros _. apply Keep_retm.
Qed.
Lemma J_create_all : forall init cb mb qs is, described d nid cb mb is qs -> (forall k, In k (all_keys qs) -> ~ pdo_parameter k) ->
  (forall i, In i is -> mapping_fine (mb + i) -> Keep (init (cb + i) (mb + i))) ->
  forall limit acc w w1 ps x, J w -> create_all d init cb mb is limit acc w = Ok (w1, ps, x) -> J w1.
Proof.
  intros init cb mb qs is D. induction D as [|i is qs A1 A2 D IH|i is qs e n A1 A2 A3 D IH|i is qs q A1 A2 A3 A4 D IH]; intros Ap Ki limit acc w w1 ps x H.
  - intros X. injection X as <- _ _. exact H.
  - cbn [create_all]. destruct (negb _); [intros X; injection X as <- _ _; exact H|].
    unfold has_key. rewrite A1, A2. cbn. apply IH; auto. intros j Hj. apply Ki. right. exact Hj.
  - assert (F : mapping_fine (mb + i)) by (exists e, n; split; [exact A1|]; split; [exact A2|]; tauto).
    pose proof (Ki i (or_introl eq_refl) F) as K. cbn [create_all]. destruct (negb _); [intros X; injection X as <- _ _; exact H|].
    destruct (_ && _); [apply IH; auto; intros j Hj; apply Ki; right; exact Hj|].
    unfold create. destruct (init (cb + i) (mb + i) w) as [[w2 [p|y]]|] eqn:E; [| |discriminate]; pose proof (K _ _ _ H E) as J2.
    + destruct p as [p|]; apply IH; auto; intros j Hj; apply Ki; right; exact Hj.
    + intros X. injection X as <- _ _. exact J2.
  - assert (F : mapping_fine (mb + i)).
    { destruct A2 as [L1 [[e [E1 E2]] L3]]. exists e, (Z.of_nat (List.length (q_layout q))). split; [exact E1|]. split; [exact E2|]. right. right.
      intros s Hs. split; [lia|]. destruct (nth_error (q_layout q) (Z.to_nat (s - 1))) as [y|] eqn:En; [|apply nth_error_None in En; lia].
      exists y. split; [replace s with (Z.of_nat (Z.to_nat (s - 1)) + 1) by lia; apply L3, En|].
      intros k Hk. apply Ap. unfold all_keys. cbn [flat_map]. apply in_or_app. left. unfold keys. apply in_flat_map. exists y. split; [exact (nth_error_In _ _ En)|].
      destruct y as [[k'|] n']; cbn in Hk; [injection Hk as ->; left; reflexivity|discriminate]. }
    assert (Ap' : forall k, In k (all_keys qs) -> ~ pdo_parameter k) by (intros k Hk; apply Ap; unfold all_keys in *; cbn [flat_map]; apply in_or_app; auto).
    pose proof (Ki i (or_introl eq_refl) F) as K. cbn [create_all]. destruct (negb _); [intros X; injection X as <- _ _; exact H|].
    destruct (_ && _); [apply IH; auto; intros j Hj; apply Ki; right; exact Hj|].
    unfold create. destruct (init (cb + i) (mb + i) w) as [[w2 [p|y]]|] eqn:E; [| |discriminate]; pose proof (K _ _ _ H E) as J2.
    + destruct p as [p|]; apply IH; auto; intros j Hj; apply Ki; right; exact Hj.
    + intros X. injection X as <- _ _. exact J2.
Qed.
Lemma J_mapper : forall rxs txs junk nt nx m w w1 m1 x,
  described d nid 0x1800 0x1A00 (range 512) rxs -> described d nid 0x1400 0x1600 (range 512) txs ->
  (forall k, In k (all_keys rxs ++ all_keys txs) -> ~ pdo_parameter k) ->
  J w -> mapper_init dv d nid junk nt nx m w = Ok (w1, m1, x) -> J w1.
Proof.
  intros rxs txs junk nt nx m w w1 m1 x D1 D2 Ap H. unfold mapper_init. destruct range_512 as [_ Hi]. revert Hi D1 D2. generalize (range 512). intros is Hi D1 D2.
  rewrite Forall_forall in Hi.
  destruct (create_all _ _ _ _ is nt [] (free_pdos (rpdos m) w)) as [[[w2 rs] x2]|] eqn:E; [|discriminate].
  assert (J2 : J w2).
  { refine (J_create_all _ _ _ rxs is D1 _ _ _ _ _ _ _ _ _ E); [intros k Hk; apply Ap, in_or_app; auto| |exact H].
    intros i Hj F. specialize (Hi i Hj). apply Keep_rpdo; [unfold com_index; lia|unfold mapping_index; lia|exact F]. }
  destruct x2; [intros X; injection X as <- _ _; exact J2|].
  destruct (create_all _ _ _ _ is nx [] (free_pdos (tpdos m) w2)) as [[[w3 ts] x3]|] eqn:E3; [|discriminate].
  intros X. injection X as <- _ _. refine (J_create_all _ _ _ txs is D2 _ _ _ _ _ _ _ _ _ E3); [intros k Hk; apply Ap, in_or_app; auto| |exact J2].
  intros i Hj F. specialize (Hi i Hj). apply Keep_tpdo; [unfold com_index; lia|unfold mapping_index; lia|exact F].
Qed.
End Plain.
