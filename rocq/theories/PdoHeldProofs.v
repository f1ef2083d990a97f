(** The PDOs that exist after a set-up, also after one that ended with an exception,
    have buffers that exist. *)
From Verif Require Import Base CanModel KeyModel KeySpec KeyProofs StorageModel StorageSpec StorageProofs PdoModel PdoSpec PdoProofs PdoTxProofs PdoConfProofs PdoLiveProofs.

(** Nothing that existed was destroyed. *)
Definition ext (w w1 : pw) : Prop := (w_next w <= w_next w1)%nat /\ forall i, (i < w_next w)%nat -> w_bufs w i <> None -> w_bufs w1 i <> None.
Lemma ext_refl : forall w, ext w w.
Proof. intros w. split; auto. Qed.
Lemma ext_trans : forall w w1 w2, ext w w1 -> ext w1 w2 -> ext w w2.
Proof. intros w w1 w2 [A1 A2] [B1 B2]. split; [lia|]. intros i Hi H. apply B2; [lia|]. apply A2; assumption. Qed.
Lemma ext_events : forall ev bufs i, bufs i <> None -> fold_left apply_event ev bufs i <> None.
Proof.
  induction ev as [|x ev IH]; intros bufs i H; [exact H|]. cbn [fold_left]. apply IH.
  assert (U : forall j b, upd bufs j (Some b) i <> None) by (intros j b; unfold upd; destruct (i =? j)%nat; [discriminate|exact H]).
  destruct x as [[|n] b [|]|[|n] b [|]]; cbn [apply_event]; try exact H.
  - destruct (bufs (S n)); [apply U|exact H].
  - destruct (bufs (S n)) as [b0|]; [destruct (buf_set b0 b); [apply U|exact H]|exact H].
Qed.

Definition Ext {A} (m : M A) : Prop := forall w w1 r, m w = Ok (w1, r) -> ext w w1.
Lemma Ext_bind : forall A B (m : M A) (f : A -> M B), Ext m -> (forall a, Ext (f a)) -> Ext (bind m f).
Proof.
  intros A B m f Hm Hf w w1 r. unfold bind. destruct (m w) as [[w2 [a|x]]|] eqn:E; [| |discriminate].
  - intros X. exact (ext_trans _ _ _ (Hm _ _ _ E) (Hf a _ _ _ X)).
  - intros X. injection X as <- _. exact (Hm _ _ _ E).
Qed.
Lemma Ext_same : forall A (m : M A), (forall w w1 r, m w = Ok (w1, r) -> w1 = w) -> Ext m.
Proof. intros A m Hm w w1 r X. apply Hm in X. subst w1. apply ext_refl. Qed.
Lemma Ext_retm : forall A (a : A), Ext (retm a).
Proof. intros. apply Ext_same. intros w w1 r X. injection X as <- _. reflexivity. Qed.
Lemma Ext_throw : forall A x, Ext (@throw A x).
Proof. intros. apply Ext_same. intros w w1 r X. injection X as <- _. reflexivity. Qed.
Lemma Ext_assert : forall b, Ext (assert_m b).
Proof. intros [|]; apply Ext_same; intros w w1 r X; [injection X as <- _; reflexivity|discriminate]. Qed.
Lemma Ext_when : forall b m, Ext m -> Ext (when b m).
Proof. intros [|] m H; [exact H|apply Ext_retm]. Qed.

Section Held.
Variable dv : device.
Variable d : dict.
Variable nid : Z.
Lemma Ext_desc : forall k, Ext (desc d k).
Proof. intros k. apply Ext_same. intros w w1 r. unfold desc. destruct (lookup k d); intros X; injection X as <- _; reflexivity. Qed.
Lemma Ext_value_of : forall k g, Ext (value_of d k g).
Proof. intros k g. unfold value_of. apply Ext_bind; [apply Ext_desc|]. intros e. destruct (g _); [apply Ext_retm|apply Ext_throw]. Qed.
Lemma Ext_entry_of : forall n k, Ext (entry_of d nid n k).
Proof.
  intros n k w w1 r. unfold entry_of. destruct (lookup k (w_store w)) as [c|].
  - destruct (ty_eqb _ _); intros X; injection X as <- _; apply ext_refl.
  - destruct (lookup k d) as [e|]; [|intros X; injection X as <- _; apply ext_refl]. cbv zeta.
    destruct (entry_cell _ e _); intros X; injection X as <- _; [split; auto|apply ext_refl].
Qed.
Lemma Ext_obj : forall k o, Ext (obj dv d k o).
Proof.
  intros k o w w1 r E.
  destruct (obj_inv _ _ _ _ _ _ _ E) as [[-> _]|(c & e & rd & wr & c1 & ev & res & Ec & Ee & Es & El & -> & _)]; [apply ext_refl|].
  split; [cbn; lia|]. intros i _ H. cbn [w_bufs]. apply ext_events, H.
Qed.
Lemma Ext_get_val : forall k c, Ext (get_val dv d k c).
Proof. intros. unfold get_val. apply Ext_bind; [apply Ext_obj|]. intros [b| |x]; apply Ext_retm. Qed.
Lemma Ext_set_val : forall s k v, Ext (set_val dv d s k v).
Proof. intros. unfold set_val. apply Ext_bind; [apply Ext_obj|]. intros. apply Ext_retm. Qed.
Lemma Ext_init_key : forall k, Ext (init_key dv d k).
Proof.
  intros k w w1 r. unfold init_key. destruct (lookup k d) as [e|]; [|intros X; injection X as <- _; apply ext_refl].
  destruct (h_data (e_init e)) as [iv|]; [|intros X; injection X as <- _; apply ext_refl]. cbv zeta. intros X.
  assert (B : Ext (obj dv d k SInit ;;; retm tt)) by (apply Ext_bind; [apply Ext_obj|intros; apply Ext_retm]).
  exact (B _ _ _ X).
Qed.
Lemma Ext_map_key : forall k e r b, Ext (map_key dv d k e r b).
Proof.
  intros k e r b w w1 res. unfold map_key.
  assert (G : Ext (obj dv d k (SMap r b) ;;; (fun w => match lookup k (w_store w) with
               | Some c => Ok (w, inl (List.length (c_buf c))) | None => Ok (w, inl 0%nat) end))).
  { apply Ext_bind; [apply Ext_obj|]. intros _. apply Ext_same. intros u u1 ru. destruct (lookup k (w_store u)); intros X; injection X as <- _; reflexivity. }
  destruct (lookup k (w_store w)) as [c|]; [intros X; exact (G _ _ _ X)|].
  destruct (h_type (e_def e)) as [t|]; [|intros X; injection X as <- _; apply ext_refl]. intros X. exact (G _ _ _ X).
Qed.
Lemma Ext_map_object : forall index s r b, Ext (map_object dv d index s r b).
Proof.
  intros index s r b w w1 res. unfold map_object.
  destruct (lookup (key_sub index s) d) as [e|]; [apply Ext_map_key|].
  destruct (negb (s =? 0)); [apply Ext_throw|]. destruct (lookup (key_index index) d) as [e|]; [apply Ext_map_key|apply Ext_throw].
Qed.
Lemma Ext_init_com : forall ci subs, Ext (init_com dv d ci subs).
Proof.
  intros ci. induction subs as [|s subs IH]; [apply Ext_retm|]. cbn [init_com]. apply Ext_bind; [|intros _; exact IH].
  destruct (_ || _); [apply Ext_retm|]. intros w w1 r.
  destruct (init_key dv d (key_sub ci s) w) as [[x [y|y]]|] eqn:Ei; [|destruct y|discriminate]; intros X; injection X as <- _; exact (Ext_init_key _ _ _ _ Ei).
Qed.

(** Buffers that were created since [n] and exist *)
Definition holds (n : nat) (bufs : list nat) (w : pw) : Prop :=
  (n <= w_next w)%nat /\ forall i, In i bufs -> (n <= i < w_next w)%nat /\ w_bufs w i <> None.
Lemma holds_ext : forall n bufs w w1, holds n bufs w -> ext w w1 -> holds n bufs w1.
Proof. intros n bufs w w1 [H1 H2] [E1 E2]. split; [lia|]. intros i Hi. destruct (H2 i Hi) as [A B]. split; [lia|]. apply E2; [lia|exact B]. Qed.
Definition Held {A} (n : nat) (bufs : list nat) (m : M A) (Q : A -> list nat) : Prop :=
  forall w w1 r, holds n bufs w -> m w = Ok (w1, r) -> ext w w1 /\ forall a, r = inl a -> holds n (Q a) w1.
Lemma Held_bind : forall A B n bufs (m : M A) (f : A -> M B) P Q, Held n bufs m P -> (forall a, Held n (P a) (f a) Q) -> Held n bufs (bind m f) Q.
Proof.
  intros A B n bufs m f P Q Hm Hf w w1 r H. unfold bind. destruct (m w) as [[w2 [a|x]]|] eqn:E; [| |discriminate]; destruct (Hm _ _ _ H E) as [X1 X2].
  - intros X. destruct (Hf a _ _ _ (X2 a eq_refl) X) as [Y1 Y2]. split; [exact (ext_trans _ _ _ X1 Y1)|exact Y2].
  - intros X. injection X as <- <-. split; [exact X1|]. discriminate.
Qed.
Lemma Held_ext : forall A n bufs (m : M A), Ext m -> Held n bufs m (fun _ => bufs).
Proof. intros A n bufs m Hm w w1 r H X. pose proof (Hm _ _ _ X) as E. split; [exact E|]. intros a _. exact (holds_ext _ _ _ _ H E). Qed.
Lemma Held_then : forall A B n bufs (m : M A) (f : A -> M B) Q, Ext m -> (forall a, Held n bufs (f a) Q) -> Held n bufs (bind m f) Q.
Proof. intros A B n bufs m f Q Hm Hf. apply Held_bind with (fun _ => bufs); [apply Held_ext, Hm|exact Hf]. Qed.
Lemma Held_retm : forall A n bufs (a : A) (Q : A -> list nat), (forall i, In i (Q a) -> In i bufs) -> Held n bufs (retm a) Q.
Proof. intros A n bufs a Q HQ w w1 r H X. injection X as <- <-. split; [apply ext_refl|]. intros a' E. injection E as <-. destruct H as [H1 H2]. split; [exact H1|]. auto. Qed.

Lemma Held_sub : forall n bufs mi s rd wr dlc, Held n bufs (map_sub_entry dv d nid mi s rd wr dlc) (fun x => bufs ++ [fst x]).
Proof.
  intros n bufs mi s rd wr dlc. unfold map_sub_entry. cbv zeta.
  apply Held_then; [apply Ext_entry_of|]. intros _. apply Held_then; [apply Ext_desc|]. intros e.
  apply Held_then. { destruct (h_data (e_init e)); [|apply Ext_retm]. destruct (hold_get U32 (e_init e)); [apply Ext_set_val|apply Ext_throw]. }
  intros _. apply Held_then; [apply Ext_get_val|]. intros p.
  apply Held_bind with (fun b => bufs ++ [b]).
  { intros w w1 r H X. injection X as <- <-.
    assert (E : ext w (mkPW (w_store w) (w_log w) (upd (w_bufs w) (w_next w) (Some (buf_new (Z.to_nat (map_length p / 8))))) (S (w_next w)))).
    { split; [cbn; lia|]. intros i Hi Hb. cbn. unfold upd. destruct (i =? w_next w)%nat; [discriminate|exact Hb]. }
    split; [exact E|]. intros a Ea. injection Ea as <-. destruct (holds_ext _ _ _ _ H E) as [K1 K2]. split; [exact K1|].
    intros i Hi. apply in_app_or in Hi as [Hi|[<-|[]]]; [exact (K2 i Hi)|]. cbn. destruct H as [H _]. split; [lia|]. unfold upd. rewrite Nat.eqb_refl. discriminate. }
  intros b. apply Held_then.
  { destruct (_ || _); [apply Ext_retm|]. apply Ext_bind; [apply Ext_map_object|]. intros l. apply Ext_assert. }
  intros _. apply Held_then; [apply Ext_assert|]. intros _. apply Held_then; [|intros _; apply Held_retm; auto].
  intros w w1 r X. injection X as <- _. split; [cbn; lia|]. intros i _ H. cbn. destruct (w_bufs w b); [|exact H]. unfold upd. destruct (i =? b)%nat; [discriminate|exact H].
Qed.
Lemma Held_loop : forall n mi rd wr subs dlc bufs, Held n bufs (map_loop dv d nid mi subs rd wr dlc bufs) fst.
Proof.
  intros n mi rd wr. induction subs as [|s subs IH]; intros dlc bufs; cbn [map_loop]; [apply Held_retm; auto|].
  eapply Held_bind; [apply Held_sub|]. intros x. apply IH.
Qed.
Lemma Held_parse : forall n ci mi rd wr dlc, Held n [] (parse_and_set_mapping dv d nid ci mi rd wr dlc) fst.
Proof.
  intros n ci mi rd wr dlc. unfold parse_and_set_mapping. cbv zeta.
  apply Held_then; [apply Ext_entry_of|]. intros _. apply Held_then; [apply Ext_desc|]. intros e.
  set (num := match hold_get U8 (e_value e) with Some v => v | None => 0 end).
  apply Held_then; [apply Ext_entry_of|]. intros _. apply Held_then; [apply Ext_desc|]. intros ce.
  apply Held_then. { apply Ext_when. apply Ext_bind; [apply Ext_get_val|]. intros v. apply Ext_set_val. }
  intros _. apply Held_bind with fst.
  { destruct ((0 <? num) && (num <=? 64)); [|apply Held_retm; auto].
    apply Held_then; [apply Ext_when, Ext_set_val|]. intros _. apply Held_loop. }
  intros res. apply Held_then.
  { apply Ext_when. apply Ext_bind; [apply Ext_desc|]. intros x. destruct (hold_get U8 (e_value x)); [|apply Ext_throw].
    apply Ext_bind; [apply Ext_assert|]. intros _. apply Ext_init_com. }
  intros _. apply Held_then; [apply Ext_when, Ext_set_val|]. intros _. apply Held_then; [|intros _; apply Held_retm; auto].
  apply Ext_when. apply Ext_bind; [apply Ext_init_key|]. intros _. destruct (apply_u32 _ _); [apply Ext_set_val|apply Ext_throw].
Qed.
Definition bufs_of (o : option pdo) : list nat := match o with Some p => p_bufs p | None => [] end.
Lemma Held_rpdo : forall n junk ci mi, Held n [] (rpdo_init dv d nid junk ci mi) bufs_of.
Proof.
  intros n junk ci mi. unfold rpdo_init. eapply Held_bind; [apply Held_parse|]. intros r.
  apply Held_then; [apply Ext_value_of|]. intros id. destruct (_ || _); [apply Held_retm; intros i []|].
  apply Held_then; [apply Ext_value_of|]. intros t. apply Held_retm. auto.
Qed.
Lemma Held_tpdo : forall n junk ci mi, Held n [] (tpdo_init dv d nid junk ci mi) bufs_of.
Proof.
  intros n junk ci mi. unfold tpdo_init. apply Held_then; [apply Ext_value_of|]. intros id. eapply Held_bind; [apply Held_parse|]. intros r.
  destruct (_ || _); [apply Held_retm; intros i []|]. cbv zeta. apply Held_then; [apply Ext_entry_of|]. intros _.
  apply Held_then; [apply Ext_value_of|]. intros t. apply Held_then; [apply Ext_when, Ext_set_val|]. intros _. apply Held_retm. auto.
Qed.

Definition pdos_hold (n : nat) (ps : list pdo) (w : pw) : Prop := holds n (flat_map p_bufs ps) w.
Lemma hold_create_all : forall n init cb mb, (forall n i j, Held n [] (init i j) bufs_of) -> forall is limit acc w w1 ps x,
  pdos_hold n acc w -> create_all d init cb mb is limit acc w = Ok (w1, ps, x) -> ext w w1 /\ pdos_hold n ps w1.
Proof.
  intros n init cb mb Hi. induction is as [|i is IH]; intros limit acc w w1 ps x H; [intros X; injection X as <- <- _; split; [apply ext_refl|exact H]|]. cbn [create_all].
  destruct (negb _); [intros X; injection X as <- <- _; split; [apply ext_refl|exact H]|].
  destruct (_ && _); [apply IH; assumption|].
  assert (H0 : holds n [] w) by (destruct H as [H _]; split; [exact H|intros j []]).
  assert (Fr : forall w2, ext w w2 -> ext w (mkPW (w_store w2) (w_log w2) (free_range (w_bufs w2) (w_next w) (w_next w2)) (w_next w2))).
  { intros w2 [L1 L2]. split; [exact L1|]. intros j Hj Hb. cbn. unfold free_range. destruct (Nat.leb_spec (w_next w) j); [lia|]. apply L2; assumption. }
  unfold create. destruct (init (cb + i) (mb + i) w) as [[w2 [p|y]]|] eqn:E; [| |discriminate]; destruct (Hi n _ _ _ _ _ H0 E) as [L G].
  - destruct p as [p|]; intros X.
    + destruct (IH limit (acc ++ [p]) w2 w1 ps x) with (2 := X) as [A1 A2]; [|split; [exact (ext_trans _ _ _ L A1)|exact A2]].
      unfold pdos_hold. rewrite flat_map_app. cbn [flat_map]. rewrite app_nil_r. destruct (holds_ext _ _ _ _ H L) as [K1 K2]. destruct (G _ eq_refl) as [_ K3].
      split; [exact K1|]. intros j Hj. apply in_app_or in Hj as [Hj|Hj]; [exact (K2 j Hj)|exact (K3 j Hj)].
    + destruct (IH limit acc _ w1 ps x (holds_ext _ _ _ _ H (Fr w2 L)) X) as [A1 A2]. split; [exact (ext_trans _ _ _ (Fr w2 L) A1)|exact A2].
  - intros X. injection X as <- <- _. split; [exact (Fr w2 L)|exact (holds_ext _ _ _ _ H (Fr w2 L))].
Qed.
End Held.

(** The buffers of the mapper exist, and no buffer belongs to PDOs of both
    directions. *)
Record sound (w : pw) (m : mapper) : Prop := {
  so_next : (0 < w_next w)%nat;
  so_live : forall p i, In p (rpdos m ++ tpdos m) -> In i (p_bufs p) -> (i < w_next w)%nat /\ w_bufs w i <> None;
  so_apart : forall p q i, In p (rpdos m) -> In q (tpdos m) -> In i (p_bufs p) -> ~ In i (p_bufs q)
}.
Lemma free_other : forall ps w i, ~ (exists p, In p ps /\ In i (p_bufs p)) -> w_bufs (free_pdos ps w) i = w_bufs w i.
Proof.
  intros ps w i N. unfold free_pdos. cbn [w_bufs]. destruct (existsb _ ps) eqn:E; [|reflexivity]. exfalso. apply N.
  apply existsb_exists in E as [p [Hp E]]. apply existsb_exists in E as [j [Hj E]]. apply Nat.eqb_eq in E. subst j. eauto.
Qed.
Lemma sound_mapper : forall dv d nid junk nt nx m w w1 m1 x, sound w m -> mapper_init dv d nid junk nt nx m w = Ok (w1, m1, x) -> sound w1 m1.
Proof.
  intros dv d nid junk nt nx m w w1 m1 x [S1 S2 S3]. unfold mapper_init. generalize (range 512). intros is.
  destruct (create_all _ _ _ _ is nt [] (free_pdos (rpdos m) w)) as [[[w2 rs] x2]|] eqn:E; [|discriminate].
  destruct (hold_create_all d (w_next w) _ _ _ (fun n i j => Held_rpdo dv d nid n junk i j) _ _ _ _ _ _ _ (conj (le_n (w_next w)) (fun i (F : In i []) => match F with end) : pdos_hold (w_next w) [] (free_pdos (rpdos m) w)) E) as [[L1 L2] [_ G]].
  cbn [w_next free_pdos] in L1.
  assert (R : forall p i, In p rs -> In i (p_bufs p) -> (w_next w <= i < w_next w2)%nat /\ w_bufs w2 i <> None).
  { intros p i Hp Hi. apply G. apply in_flat_map. eauto. }
  assert (O : forall p i, In p (tpdos m) -> In i (p_bufs p) -> (i < w_next w)%nat /\ w_bufs w2 i <> None).
  { intros p i Hp Hi. destruct (S2 p i ltac:(apply in_or_app; auto) Hi) as [A B]. split; [exact A|]. apply L2; [exact A|].
    rewrite free_other; [exact B|]. intros [q [Hq Hj]]. exact (S3 q p i Hq Hp Hj Hi). }
  destruct x2 as [y|].
  - intros X. injection X as <- <- _. constructor; cbn [rpdos tpdos].
    + lia.
    + intros p i Hp Hi. apply in_app_or in Hp as [Hp|Hp]; [destruct (R p i Hp Hi); split; [lia|assumption]|destruct (O p i Hp Hi); split; [lia|assumption]].
    + intros p q i Hp Hq Hi Hj. destruct (R p i Hp Hi). destruct (O q i Hq Hj). lia.
  - destruct (create_all _ _ _ _ is nx [] (free_pdos (tpdos m) w2)) as [[[w3 ts] x3]|] eqn:E3; [|discriminate].
    destruct (hold_create_all d (w_next w2) _ _ _ (fun n i j => Held_tpdo dv d nid n junk i j) _ _ _ _ _ _ _ (conj (le_n (w_next w2)) (fun i (F : In i []) => match F with end) : pdos_hold (w_next w2) [] (free_pdos (tpdos m) w2)) E3) as [[L3 L4] [_ G3]].
    cbn [w_next free_pdos] in L3.
    assert (R3 : forall p i, In p ts -> In i (p_bufs p) -> (w_next w2 <= i < w_next w3)%nat /\ w_bufs w3 i <> None).
    { intros p i Hp Hi. apply G3. apply in_flat_map. eauto. }
    intros X. injection X as <- <- _. constructor; cbn [rpdos tpdos].
    + lia.
    + intros p i Hp Hi. apply in_app_or in Hp as [Hp|Hp]; [|destruct (R3 p i Hp Hi); split; [lia|assumption]].
      destruct (R p i Hp Hi) as [A B]. split; [lia|]. apply L4; [cbn; lia|]. rewrite free_other; [exact B|].
      intros [q [Hq Hj]]. destruct (S2 q i ltac:(apply in_or_app; auto) Hj). lia.
    + intros p q i Hp Hq Hi Hj. destruct (R p i Hp Hi). destruct (R3 q i Hq Hj). lia.
Qed.
