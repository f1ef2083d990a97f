(** Setting up PDOs, also if it ends with an exception, only ever connects objects
    to buffers it has created, and only keeps PDOs with such buffers. *)
From Verif Require Import Base CanModel KeyModel KeySpec KeyProofs StorageModel StorageSpec StorageProofs PdoModel PdoSpec PdoProofs PdoTxProofs PdoConfProofs PdoLiveProofs
  PdoSetupSpec PdoSetupProofs PdoNodeProofs PdoBootSpec PdoBootProofs.

Definition used (w : pw) : Prop := (0 < w_next w)%nat /\ forall k c, lookup k (w_store w) = Some c -> (c_rd c < w_next w /\ c_wr c < w_next w)%nat.
Definition Used {A} (n : nat) (m : M A) (P : A -> nat -> Prop) : Prop :=
  forall w w1 r, used w -> (n <= w_next w)%nat -> m w = Ok (w1, r) ->
    used w1 /\ (w_next w <= w_next w1)%nat /\ forall a, r = inl a -> P a (w_next w1).
Definition any {A} : A -> nat -> Prop := fun _ _ => True.

Lemma force_delegates : forall e c rd wr c1 ev r, data_force e c rd wr = Ok (c1, ev, r) -> c_rd c1 = c_rd c /\ c_wr c1 = c_wr c.
Proof.
  intros e c rd wr c1 ev r. unfold data_force. destruct (negb (c_valid c) && e_readable e).
  - destruct (rd (c_buf c)) as [b [|]] eqn:E; intros H; injection H as <- _ _; cbn; auto.
  - destruct (c_valid c); intros H; injection H as <- _ _; auto.
Qed.
Lemma map_delegates : forall n e c r w rd wr c1 ev x, (forall i, r = Some i -> (i < n)%nat) -> (forall i, w = Some i -> (i < n)%nat) ->
  (c_rd c < n)%nat -> (c_wr c < n)%nat -> data_map e c r w rd wr = Ok (c1, ev, x) -> (c_rd c1 < n /\ c_wr c1 < n)%nat.
Proof.
  intros n e c r w rd wr c1 ev x Hr Hw C1 C2. unfold data_map. destruct r as [r|], w as [b|].
  - specialize (Hr r eq_refl). specialize (Hw b eq_refl).
    destruct (data_force e (set_delegates c 0 b) rd wr) as [[[c2 ev2] r2]|] eqn:E; [|discriminate].
    destruct (force_delegates _ _ _ _ _ _ _ E) as [A B]. cbn in A, B.
    destruct r2; intros H; injection H as <- _ _; cbn; lia.
  - intros H. injection H as <- _ _. cbn. specialize (Hr r eq_refl). lia.
  - intros H. destruct (force_delegates _ _ _ _ _ _ _ H) as [A B]. cbn in A, B. specialize (Hw b eq_refl). lia.
  - intros H. injection H as <- _ _. auto.
Qed.

Section Used.
Variable dv : device.
Variable d : dict.
Variable nid : Z.

Lemma used_store : forall k c w log bufs, used w -> (c_rd c < w_next w /\ c_wr c < w_next w)%nat -> used (mkPW (store k c (w_store w)) log bufs (w_next w)).
Proof.
  intros k c w log bufs [H0 H] Hc. split; [exact H0|]. intros k' c'. cbn [w_store w_next]. destruct (Z.eq_dec k' k) as [->|N].
  - rewrite lookup_store_eq. intros X. injection X as <-. exact Hc.
  - rewrite lookup_store_neq by congruence. apply H.
Qed.
Lemma Used_here : forall A n (P : A -> nat -> Prop) w r, used w -> (forall a, r = @inl A pexc a -> P a n) -> n = w_next w ->
  used w /\ (w_next w <= w_next w)%nat /\ forall a, r = inl a -> P a (w_next w).
Proof. intros A n P w r H1 H2 ->. auto. Qed.
Lemma Used_bind : forall A B n (m : M A) (f : A -> M B) P Q, Used n m P -> (forall a n', (n <= n')%nat -> P a n' -> Used n' (f a) Q) -> Used n (bind m f) Q.
Proof.
  intros A B n m f P Q Hm Hf w w1 r H Hn. unfold bind. destruct (m w) as [[w2 [a|x]]|] eqn:E; [| |discriminate]; destruct (Hm _ _ _ H Hn E) as [U [L G]].
  - intros X. destruct (Hf a (w_next w2) ltac:(lia) (G a eq_refl) w2 w1 r U (le_n _) X) as [U1 [L1 G1]]. split; [exact U1|]. split; [lia|exact G1].
  - intros X. injection X as <- <-. split; [exact U|]. split; [exact L|]. discriminate.
Qed.
Lemma Used_retm : forall A n (a : A) (P : A -> nat -> Prop), (forall n', (n <= n')%nat -> P a n') -> Used n (retm a) P.
Proof. intros A n a P Ha w w1 r H Hn X. injection X as <- <-. split; [exact H|]. split; [lia|]. intros a' E. injection E as <-. apply Ha, Hn. Qed.
Lemma Used_ret : forall A n (a : A), Used n (retm a) any.
Proof. intros. apply Used_retm. intros. exact Logic.I. Qed.
Lemma Used_throw : forall A n x P, Used n (@throw A x) P.
Proof. intros A n x P w w1 r H Hn X. injection X as <- <-. split; [exact H|]. split; [lia|]. discriminate. Qed.
Lemma Used_same : forall A n (m : M A), (forall w w1 r, m w = Ok (w1, r) -> w1 = w) -> Used n m any.
Proof. intros A n m Hm w w1 r H Hn X. apply Hm in X. subst w1. split; [exact H|]. split; [lia|]. intros. exact Logic.I. Qed.
Lemma Used_desc : forall n k, Used n (desc d k) any.
Proof. intros n k. apply Used_same. intros w w1 r. unfold desc. destruct (lookup k d); intros X; injection X as <- _; reflexivity. Qed.
Lemma Used_assert : forall n b, Used n (assert_m b) any.
Proof. intros n [|]; apply Used_same; intros w w1 r X; [injection X as <- _; reflexivity|discriminate]. Qed.
Lemma Used_when : forall n b m, Used n m any -> Used n (when b m) any.
Proof. intros n [|] m H; [exact H|apply Used_ret]. Qed.
Lemma Used_value_of : forall n k g, Used n (value_of d k g) any.
Proof. intros n k g. unfold value_of. eapply Used_bind; [apply Used_desc|]. intros e n' _ _. destruct (g _); [apply Used_ret|apply Used_throw]. Qed.

Lemma Used_entry_of : forall n s k, Used n (entry_of d nid s k) any.
Proof.
  intros n s k w w1 r H Hn. unfold entry_of.
  assert (G : used w /\ (w_next w <= w_next w)%nat /\ forall a, r = inl a -> @any unit a (w_next w)) by (split; [exact H|split; [lia|intros; exact Logic.I]]).
  destruct (lookup k (w_store w)) as [c|].
  - destruct (ty_eqb _ _); intros X; injection X as <- _; exact G.
  - destruct (lookup k d) as [e|]; [|intros X; injection X as <- _; exact G]. cbv zeta.
    destruct (entry_cell _ e _) as [c|] eqn:Ec; intros X; injection X as <- _; [|exact G].
    destruct (entry_cell_delegates _ _ _ _ Ec) as [E1 E2].
    split; [apply used_store; [exact H|destruct H; lia]|]. split; [cbn; lia|intros; exact Logic.I].
Qed.
Lemma Used_obj : forall n k o, not_smap o -> Used n (obj dv d k o) any.
Proof.
  intros n k o N w w1 r H Hn E.
  destruct (obj_inv _ _ _ _ _ _ _ E) as [[-> _]|(c & e & rd & wr & c1 & ev & res & Ec & Ee & Es & El & -> & _)]; [split; [exact H|split; [lia|intros; exact Logic.I]]|].
  assert (NM : not_map (to_op o rd wr)) by (destruct o; try exact Logic.I; contradiction).
  destruct (step_uses _ _ _ _ _ _ NM Es) as [K _]. destruct K as [_ [K1 K2]].
  split; [|split; [cbn; lia|intros; exact Logic.I]]. apply used_store; [exact H|]. rewrite K1, K2. apply (proj2 H k c Ec).
Qed.
Lemma Used_get_val : forall n k c, Used n (get_val dv d k c) any.
Proof. intros. unfold get_val. eapply Used_bind; [apply Used_obj; exact Logic.I|]. intros [b| |x] n' _ _; apply Used_ret. Qed.
Lemma Used_set_val : forall n s k v, Used n (set_val dv d s k v) any.
Proof. intros. unfold set_val. eapply Used_bind; [apply Used_obj; exact Logic.I|]. intros. apply Used_ret. Qed.
Lemma Used_init_key : forall n k, Used n (init_key dv d k) any.
Proof.
  intros n k w w1 r H Hn. unfold init_key.
  assert (G : used w /\ (w_next w <= w_next w)%nat /\ forall a, r = inl a -> @any unit a (w_next w)) by (split; [exact H|split; [lia|intros; exact Logic.I]]).
  destruct (lookup k d) as [e|]; [|intros X; injection X as <- _; exact G].
  destruct (h_data (e_init e)) as [iv|]; [|intros X; injection X as <- _; exact G]. cbv zeta. intros X.
  assert (B : Used n (obj dv d k SInit ;;; retm tt) any) by (eapply Used_bind; [apply Used_obj; exact Logic.I|intros; apply Used_ret]).
  refine (B _ _ _ _ _ X); [|exact Hn]. destruct (lookup k (w_store w)) as [c|]; [exact H|]. apply (used_store k _ w); [exact H|]. cbn. destruct H. lia.
Qed.

Definition below (n : nat) (o : option nat) : Prop := forall i, o = Some i -> (i < n)%nat.
Lemma Used_smap : forall n k r b, below n r -> below n b -> Used n (obj dv d k (SMap r b)) any.
Proof.
  intros n k r b Hr Hb w w1 res H Hn E.
  destruct (obj_inv _ _ _ _ _ _ _ E) as [[-> _]|(c & e & rd & wr & c1 & ev & re & Ec & Ee & Es & El & -> & _)]; [split; [exact H|split; [lia|intros; exact Logic.I]]|].
  split; [|split; [cbn; lia|intros; exact Logic.I]]. apply used_store; [exact H|]. cbn [to_op step] in Es. destruct (proj2 H k c Ec) as [C1 C2].
  refine (map_delegates (w_next w) _ _ _ _ _ _ _ _ _ _ _ C1 C2 Es); intros i Hi; [specialize (Hr i Hi)|specialize (Hb i Hi)]; lia.
Qed.
Lemma Used_map_key : forall n k e r b, below n r -> below n b -> Used n (map_key dv d k e r b) any.
Proof.
  intros n k e r b Hr Hb w w1 res H Hn. unfold map_key.
  assert (G : Used n (obj dv d k (SMap r b) ;;; (fun w => match lookup k (w_store w) with
               | Some c => Ok (w, inl (List.length (c_buf c))) | None => Ok (w, inl 0%nat) end)) any).
  { eapply Used_bind; [apply Used_smap; assumption|]. intros _ n' _ _. apply Used_same. intros u u1 ru. destruct (lookup k (w_store u)); intros X; injection X as <- _; reflexivity. }
  destruct (lookup k (w_store w)) as [c|]; [intros X; refine (G _ _ _ _ _ X); [exact H|exact Hn]|].
  destruct (h_type (e_def e)) as [t|]; [|intros X; injection X as <- _; split; [exact H|split; [lia|intros; exact Logic.I]]].
  intros X. refine (G _ _ _ _ _ X); [|exact Hn]. apply (used_store k _ w); [exact H|].
  unfold data_reset. destruct H as [H0 _]. destruct (h_data (e_def e)); [destruct (h_type (e_def e)); [destruct (ty_eqb _ _)|]|]; cbn; lia.
Qed.
Lemma Used_map_object : forall n index s r b, below n r -> below n b -> Used n (map_object dv d index s r b) any.
Proof.
  intros n index s r b Hr Hb w w1 res H Hn. unfold map_object.
  destruct (lookup (key_sub index s) d) as [e|]; [exact (Used_map_key _ _ _ _ _ Hr Hb _ _ _ H Hn)|].
  destruct (negb (s =? 0)); [exact (Used_throw _ n _ _ w w1 res H Hn)|].
  destruct (lookup (key_index index) d) as [e|]; [exact (Used_map_key _ _ _ _ _ Hr Hb _ _ _ H Hn)|exact (Used_throw _ n _ _ w w1 res H Hn)].
Qed.

Definition first_below (x : nat * Z) (n : nat) : Prop := (fst x < n)%nat.
Definition all_below (x : list nat * Z) (n : nat) : Prop := forall i, In i (fst x) -> (i < n)%nat.
Lemma Used_sub : forall n mi s rd wr dlc, Used n (map_sub_entry dv d nid mi s rd wr dlc) first_below.
Proof.
  intros n mi s rd wr dlc. unfold map_sub_entry. cbv zeta.
  eapply Used_bind; [apply Used_entry_of|]. intros _ n1 _ _. eapply Used_bind; [apply Used_desc|]. intros e n2 _ _.
  apply Used_bind with any. { destruct (h_data (e_init e)); [|apply Used_ret]. destruct (hold_get U32 (e_init e)); [apply Used_set_val|apply Used_throw]. }
  intros _ n3 _ _. eapply Used_bind; [apply Used_get_val|]. intros p n4 _ _.
  apply Used_bind with (fun b m => (b < m)%nat).
  { intros w w1 r [H0 H] Hn X. injection X as <- <-. split; [|split; [cbn; lia|intros a E; injection E as <-; cbn; lia]].
    split; [cbn; lia|]. intros k c Hc. cbn in *. specialize (H k c Hc). lia. }
  intros b n5 _ Hb. apply Used_bind with any.
  { destruct (_ || _); [apply Used_ret|]. eapply Used_bind; [apply Used_map_object; intros i Hi; [destruct rd; [|discriminate]|]; injection Hi as <-; exact Hb|].
    intros l n6 _ _. apply Used_assert. }
  intros _ n6 L6 _. eapply Used_bind; [apply Used_assert|]. intros _ n7 L7 _. apply Used_bind with any.
  { intros w w1 r [H0 H] Hn X. injection X as <- _. split; [split; assumption|]. split; [cbn; lia|intros; exact Logic.I]. }
  intros _ n8 L8 _. apply Used_retm. intros n9 L9. unfold first_below. cbn. lia.
Qed.
Lemma Used_loop : forall mi rd wr subs n dlc bufs, (forall i, In i bufs -> (i < n)%nat) -> Used n (map_loop dv d nid mi subs rd wr dlc bufs) all_below.
Proof.
  intros mi rd wr. induction subs as [|s subs IH]; intros n dlc bufs H; cbn [map_loop].
  - apply Used_retm. intros n' L i Hi. cbn in Hi. specialize (H i Hi). lia.
  - eapply Used_bind; [apply Used_sub|]. intros x n' L Hx. apply IH. intros i Hi. apply in_app_or in Hi as [Hi|[<-|[]]]; [specialize (H i Hi); lia|exact Hx].
Qed.
Lemma Used_init_com : forall ci subs n, Used n (init_com dv d ci subs) any.
Proof.
  intros ci. induction subs as [|s subs IH]; intros n; [apply Used_ret|]. cbn [init_com]. eapply Used_bind; [|intros _ n' _ _; apply IH].
  instantiate (1 := any). destruct (_ || _); [apply Used_ret|]. intros w w1 r H Hn.
  destruct (init_key dv d (key_sub ci s) w) as [[x [y|y]]|] eqn:Ei; [|destruct y|discriminate]; intros X; injection X as <- _;
    destruct (Used_init_key n _ _ _ _ H Hn Ei) as [U [L _]]; (split; [exact U|split; [exact L|intros; exact Logic.I]]).
Qed.
Lemma Used_parse : forall n ci mi rd wr dlc, Used n (parse_and_set_mapping dv d nid ci mi rd wr dlc) all_below.
Proof.
  intros n ci mi rd wr dlc. unfold parse_and_set_mapping. cbv zeta.
  eapply Used_bind; [apply Used_entry_of|]. intros _ n1 _ _. eapply Used_bind; [apply Used_desc|]. intros e n2 _ _.
  set (num := match hold_get U8 (e_value e) with Some v => v | None => 0 end).
  eapply Used_bind; [apply Used_entry_of|]. intros _ n3 _ _. eapply Used_bind; [apply Used_desc|]. intros ce n4 _ _.
  apply Used_bind with any. { apply Used_when. eapply Used_bind; [apply Used_get_val|]. intros v n5 _ _. apply Used_set_val. }
  intros _ n5 _ _. apply Used_bind with all_below.
  { destruct ((0 <? num) && (num <=? 64)); [|apply Used_retm; intros n' _ i []].
    eapply Used_bind; [apply Used_when, Used_set_val|]. intros _ n6 _ _. apply Used_loop. intros i []. }
  intros res n6 _ Hr. apply Used_bind with any.
  { apply Used_when. eapply Used_bind; [apply Used_desc|]. intros x n7 _ _. destruct (hold_get U8 (e_value x)); [|apply Used_throw].
    eapply Used_bind; [apply Used_assert|]. intros _ n8 _ _. apply Used_init_com. }
  intros _ n7 L7 _. eapply Used_bind; [apply Used_when, Used_set_val|]. intros _ n8 L8 _. apply Used_bind with any.
  { apply Used_when. eapply Used_bind; [apply Used_init_key|]. intros _ n9 _ _. destruct (apply_u32 _ _); [apply Used_set_val|apply Used_throw]. }
  intros _ n9 L9 _. apply Used_retm. intros n10 L10 i Hi. specialize (Hr i Hi). lia.
Qed.
Definition pdo_below (o : option pdo) (n : nat) : Prop := forall p i, o = Some p -> In i (p_bufs p) -> (i < n)%nat.
Lemma Used_rpdo : forall n junk ci mi, Used n (rpdo_init dv d nid junk ci mi) pdo_below.
Proof.
  intros n junk ci mi. unfold rpdo_init. eapply Used_bind; [apply Used_parse|]. intros r n1 _ Hr.
  eapply Used_bind; [apply Used_value_of|]. intros id n2 L2 _. destruct (_ || _); [apply Used_retm; intros n' _ p i X; discriminate|].
  eapply Used_bind; [apply Used_value_of|]. intros t n3 L3 _. apply Used_retm. intros n4 L4 p i X. injection X as <-. intros Hi. specialize (Hr i Hi). lia.
Qed.
Lemma Used_tpdo : forall n junk ci mi, Used n (tpdo_init dv d nid junk ci mi) pdo_below.
Proof.
  intros n junk ci mi. unfold tpdo_init. eapply Used_bind; [apply Used_value_of|]. intros id n0 _ _. eapply Used_bind; [apply Used_parse|]. intros r n1 _ Hr.
  destruct (_ || _); [apply Used_retm; intros n' _ p i X; discriminate|]. cbv zeta. eapply Used_bind; [apply Used_entry_of|]. intros _ n2 L2 _.
  eapply Used_bind; [apply Used_value_of|]. intros t n3 L3 _. eapply Used_bind; [apply Used_when, Used_set_val|]. intros _ n4 L4 _.
  apply Used_retm. intros n5 L5 p i X. injection X as <-. intros Hi. specialize (Hr i Hi). lia.
Qed.

Lemma used_create_all : forall init cb mb, (forall n i j, Used n (init i j) pdo_below) -> forall is limit acc w w1 ps x,
  used w -> created acc w -> create_all d init cb mb is limit acc w = Ok (w1, ps, x) -> used w1 /\ (w_next w <= w_next w1)%nat /\ created ps w1.
Proof.
  intros init cb mb Hi. induction is as [|i is IH]; intros limit acc w w1 ps x H C; [intros X; injection X as <- <- _; auto|]. cbn [create_all].
  destruct (negb _); [intros X; injection X as <- <- _; auto|].
  destruct (_ && _); [apply IH; assumption|].
  unfold create. destruct (init (cb + i) (mb + i) w) as [[w2 [p|y]]|] eqn:E; [| |discriminate]; destruct (Hi (w_next w) _ _ _ _ _ H (le_n _) E) as [U [L G]].
  - assert (C2 : created acc w2) by (intros q j Hq Hj; specialize (C q j Hq Hj); lia).
    destruct p as [p|]; intros X.
    + destruct (IH limit (acc ++ [p]) w2 w1 ps x U) as [A1 [A2 A3]]; [|exact X|split; [exact A1|split; [lia|exact A3]]].
      intros q j Hq Hj. apply in_app_or in Hq as [Hq|[<-|[]]]; [exact (C2 q j Hq Hj)|exact (G _ eq_refl p j eq_refl Hj)].
    + destruct (IH limit acc (mkPW (w_store w2) (w_log w2) (free_range (w_bufs w2) (w_next w) (w_next w2)) (w_next w2)) w1 ps x U C2 X) as [A1 [A2 A3]].
      cbn in A2. split; [exact A1|split; [lia|exact A3]].
  - intros X. injection X as <- <- _. split; [exact U|]. split; [exact L|]. intros q j Hq Hj. cbn. specialize (C q j Hq Hj). lia.
Qed.
Lemma used_mapper : forall junk nt nx m w w1 m1 x, used w -> created (rpdos m ++ tpdos m) w ->
  mapper_init dv d nid junk nt nx m w = Ok (w1, m1, x) -> used w1 /\ created (rpdos m1 ++ tpdos m1) w1.
Proof.
  intros junk nt nx m w w1 m1 x H C. unfold mapper_init. generalize (range 512). intros is.
  destruct (create_all _ _ _ _ is nt [] (free_pdos (rpdos m) w)) as [[[w2 rs] x2]|] eqn:E; [|discriminate].
  destruct (used_create_all _ _ _ (fun n i j => Used_rpdo n junk i j) _ _ _ _ _ _ _ (H : used (free_pdos (rpdos m) w)) (fun p i (F : In p []) => match F with end) E) as [U [L C2]]. cbn in L.
  destruct x2 as [y|].
  - intros X. injection X as <- <- _. split; [exact U|]. cbn. intros p i Hp Hi. apply in_app_or in Hp as [Hp|Hp]; [exact (C2 p i Hp Hi)|].
    specialize (C p i ltac:(apply in_or_app; auto) Hi). lia.
  - destruct (create_all _ _ _ _ is nx [] (free_pdos (tpdos m) w2)) as [[[w3 ts] x3]|] eqn:E3; [|discriminate].
    destruct (used_create_all _ _ _ (fun n i j => Used_tpdo n junk i j) _ _ _ _ _ _ _ (U : used (free_pdos (tpdos m) w2)) (fun p i (F : In p []) => match F with end) E3) as [U3 [L3 C3]]. cbn in L3.
    intros X. injection X as <- <- _. split; [exact U3|]. cbn. intros p i Hp Hi. apply in_app_or in Hp as [Hp|Hp]; [|exact (C3 p i Hp Hi)].
    specialize (C2 p i Hp Hi). lia.
Qed.
End Used.
