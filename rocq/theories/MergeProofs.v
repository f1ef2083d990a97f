(** Proofs about parameters, object names and the sync settings. *)
From Verif Require Import Base LayerModel LayerSpec ChainModel ChainSpec.

Lemma text_eqb_eq : forall a b, text_eqb a b = true <-> a = b.
Proof.
  induction a as [|x a IH]; intros [|y b]; cbn; split; intro H; try reflexivity; try discriminate.
  - apply andb_true_iff in H. destruct H as [H1 H2]. apply Z.eqb_eq in H1. apply IH in H2. congruence.
  - injection H as -> ->. rewrite Z.eqb_refl. apply IH. reflexivity.
Qed.
Lemma text_eqb_refl : forall a, text_eqb a a = true.
Proof. intro a. apply text_eqb_eq. reflexivity. Qed.
Lemma text_eqb_neq : forall a b, text_eqb a b = false <-> a <> b.
Proof. intros a b. rewrite <- text_eqb_eq. destruct (text_eqb a b); split; congruence. Qed.

Definition add_member (k : text) (v : value) (ms : list (text * value)) : list (text * value) :=
  match find k ms with
  | None => ms ++ [(k, v)]
  | Some (Struct x) => match v with Struct _ => replace k (merge_value v (Struct x)) ms | Plain _ => ms end
  | Some (Plain _) => ms
  end.
Fixpoint merge_members (bs ms : list (text * value)) : list (text * value) :=
  match bs with
  | [] => ms
  | (k, v) :: bs => merge_members bs (add_member k v ms)
  end.
Lemma merge_struct : forall bs ms, merge_value (Struct bs) (Struct ms) = Struct (merge_members bs ms).
Proof. reflexivity. Qed.
Lemma find_app : forall k ms k' v, find k (ms ++ [(k', v)]) = match find k ms with Some x => Some x | None => if text_eqb k k' then Some v else None end.
Proof. induction ms as [|[q x] ms IH]; intros; cbn; [reflexivity|]. destruct (text_eqb k q); [reflexivity|apply IH]. Qed.
Lemma find_replace : forall k k' v ms, find k (replace k' v ms) = if text_eqb k k' then match find k ms with Some _ => Some v | None => None end else find k ms.
Proof.
  induction ms as [|[q x] ms IH]; cbn; [destruct (text_eqb k k'); reflexivity|].
  destruct (text_eqb k' q) eqn:E; cbn.
  - apply text_eqb_eq in E. subst q. destruct (text_eqb k k'); reflexivity.
  - rewrite IH. destruct (text_eqb k k') eqn:F; [|reflexivity]. apply text_eqb_eq in F. subst k'. rewrite E. reflexivity.
Qed.
(** What a member of the merged structure is *)
Definition combine (x y : option value) : option value :=
  match x, y with
  | None, y => y
  | Some (Struct a), Some (Struct c) => Some (merge_value (Struct c) (Struct a))
  | x, _ => x
  end.
Lemma find_add : forall k k' v ms, find k (add_member k' v ms) = if text_eqb k k' then combine (find k ms) (Some v) else find k ms.
Proof.
  intros k k' v ms. unfold add_member. destruct (text_eqb k k') eqn:E.
  - apply text_eqb_eq in E. subst k'. destruct (find k ms) as [[z|x]|] eqn:F.
    + exact F.
    + destruct v as [z|y]; [exact F|]. rewrite find_replace, text_eqb_refl, F. reflexivity.
    + rewrite find_app, F, text_eqb_refl. reflexivity.
  - destruct (find k' ms) as [[z|x]|] eqn:F; [reflexivity| |].
    + destruct v as [z|y]; [reflexivity|]. rewrite find_replace, E. reflexivity.
    + rewrite find_app, E. destruct (find k ms); reflexivity.
Qed.
Lemma find_merge : forall k bs ms, names_unique bs -> find k (merge_members bs ms) = combine (find k ms) (find k bs).
Proof.
  induction bs as [|[k' v] bs IH]; intros ms U; cbn [merge_members find].
  - destruct (find k ms) as [[z|x]|]; reflexivity.
  - destruct U as [U1 U2]. rewrite IH by exact U2. rewrite find_add. destruct (text_eqb k k') eqn:E; [|reflexivity].
    apply text_eqb_eq in E. subst k'. rewrite U1. destruct (find k ms) as [[z|x]|]; [reflexivity| |destruct v; reflexivity].
    destruct v; reflexivity.
Qed.
Lemma proper_find : forall k ms v, proper (Struct ms) -> find k ms = Some v -> proper v.
Proof.
  intros k ms v [_ P] F. induction ms as [|[q x] ms IH]; [discriminate|]. cbn in F. destruct P as [P1 P2].
  destruct (text_eqb k q); [congruence|]. apply IH; assumption.
Qed.

Lemma at_path_merge_nil : forall a d, is_struct a -> at_path [] (merge_value d a) = Some (merge_value d a).
Proof. reflexivity. Qed.

(** The whole content by paths *)
Lemma merge_plain_own : forall p a d z, proper d -> plain_at p a = Some z -> plain_at p (merge_value d a) = Some z.
Proof.
  induction p as [|k p IH]; intros a d z P H.
  - destruct a as [y|ms]; [|discriminate]. destruct d; exact H.
  - destruct a as [y|ms]; [discriminate|]. destruct d as [y|bs]; [exact H|]. rewrite merge_struct.
    unfold plain_at in *. cbn [at_path] in *. rewrite find_merge by apply P.
    destruct (find k ms) as [[u|x]|] eqn:F; [exact H| |discriminate].
    destruct (find k bs) as [[w|y]|] eqn:G; try exact H. cbn [combine].
    apply (IH (Struct x) (Struct y) z); [|exact H]. apply (proper_find k bs); assumption.
Qed.
Lemma merge_struct_own : forall p a d, proper d -> struct_at p a -> struct_at p (merge_value d a).
Proof.
  induction p as [|k p IH]; intros a d P [ms0 H].
  - cbn in H. injection H as ->. destruct d as [y|bs]; [exists ms0; reflexivity|]. rewrite merge_struct. eexists. reflexivity.
  - destruct a as [y|ms]; [discriminate|]. destruct d as [y|bs]; [exists ms0; exact H|]. rewrite merge_struct.
    unfold struct_at. cbn [at_path] in *. rewrite find_merge by apply P.
    destruct (find k ms) as [[u|x]|] eqn:F; [exists ms0; exact H| |discriminate].
    destruct (find k bs) as [[w|y]|] eqn:G; try (exists ms0; exact H). cbn [combine].
    apply (IH (Struct x) (Struct y)); [|exists ms0; exact H]. apply (proper_find k bs); assumption.
Qed.
Lemma blocked_cons : forall k p ms v, find k ms = Some v -> blocked p v -> blocked (k :: p) (Struct ms).
Proof. intros k p ms v F [q [r [z [-> H]]]]. exists (k :: q), r, z. split; [reflexivity|]. cbn. rewrite F. exact H. Qed.
Lemma blocked_inv : forall k p ms v, find k ms = Some v -> blocked (k :: p) (Struct ms) -> blocked p v.
Proof.
  intros k p ms v F [q [r [z [E H]]]]. destruct q as [|k' q]; [discriminate H|]. cbn in E. injection E as <- ->.
  cbn in H. rewrite F in H. exists q, r, z. auto.
Qed.
Lemma blocked_none : forall k p ms, find k ms = None -> ~ blocked (k :: p) (Struct ms).
Proof. intros k p ms F [q [r [z [E H]]]]. destruct q as [|k' q]; [discriminate H|]. cbn in E. injection E as <- ->. cbn in H. rewrite F in H. discriminate. Qed.

Lemma merge_default : forall p a d, is_struct a -> proper d -> ~ blocked p a -> ~ struct_at p a -> at_path p (merge_value d a) = at_path p d.
Proof.
  induction p as [|k p IH]; intros a d [ms ->] P B N.
  - destruct N. eexists. reflexivity.
  - destruct d as [y|bs].
    + cbn [merge_value at_path]. destruct (find k ms) as [v|] eqn:F; [|reflexivity].
      assert (G : forall p v, ~ blocked p v -> ~ struct_at p v -> at_path p v = None).
      { clear. intros p. induction p as [|k p IH]; intros v B N.
        - destruct v as [z|ms]; [destruct B; exists [], [], z; auto|destruct N; exists ms; reflexivity].
        - destruct v as [z|ms]; [reflexivity|]. cbn. destruct (find k ms) as [v|] eqn:F; [|reflexivity].
          apply IH; intro X; [apply B; eapply blocked_cons; eassumption|]. destruct X as [x X]. apply N. exists x. cbn. rewrite F. exact X. }
      apply G; intro X; [apply B; eapply blocked_cons; eassumption|]. destruct X as [x X]. apply N. exists x. cbn. rewrite F. exact X.
    + rewrite merge_struct. cbn [at_path]. rewrite find_merge by apply P.
      destruct (find k ms) as [[u|x]|] eqn:F.
      * exfalso. apply B. eapply blocked_cons; [exact F|]. exists [], p, u. auto.
      * assert (Bx : ~ blocked p (Struct x)) by (intro X; apply B; eapply blocked_cons; eassumption).
        assert (Nx : ~ struct_at p (Struct x)) by (intros [y X]; apply N; exists y; cbn; rewrite F; exact X).
        destruct (find k bs) as [[w|y]|] eqn:G; cbn [combine].
        -- specialize (IH (Struct x) (Plain w) (ex_intro _ x eq_refl) I Bx Nx). destruct p; [destruct Nx; exists x; reflexivity|]. exact IH.
        -- apply IH; auto. exists x; reflexivity. eapply proper_find; eassumption.
        -- specialize (IH (Struct x) (Plain 0) (ex_intro _ x eq_refl) I Bx Nx). destruct p; [destruct Nx; exists x; reflexivity|]. exact IH.
      * destruct (find k bs) as [[w|y]|]; reflexivity.
Qed.
Lemma merge_blocked : forall p a d, is_struct a -> proper d -> blocked p a -> at_path p (merge_value d a) = at_path p a.
Proof.
  induction p as [|k p IH]; intros a d [ms ->] P B.
  - destruct B as [q [r [z [E H]]]]. destruct q; [|discriminate]. discriminate.
  - destruct d as [y|bs]; [reflexivity|]. rewrite merge_struct. cbn [at_path]. rewrite find_merge by apply P.
    destruct (find k ms) as [[u|x]|] eqn:F; [reflexivity| |destruct (blocked_none _ _ _ F B)].
    destruct (find k bs) as [[w|y]|] eqn:G; cbn [combine]; try reflexivity.
    apply IH; [exists x; reflexivity|eapply proper_find; eassumption|eapply blocked_inv; eassumption].
Qed.

(** Names are kept unique *)
Lemma names_app : forall ms k v, names_unique ms -> find k ms = None -> names_unique (ms ++ [(k, v)]).
Proof.
  induction ms as [|[q x] ms IH]; intros k v U F; cbn in *; [auto|]. destruct U as [U1 U2]. destruct (text_eqb k q) eqn:E; [discriminate|].
  split; [|apply IH; assumption]. rewrite find_app, U1. destruct (text_eqb q k) eqn:E2; [|reflexivity]. apply text_eqb_eq in E2. subst. rewrite text_eqb_refl in E. discriminate.
Qed.
Lemma names_replace : forall ms k v, names_unique ms -> names_unique (replace k v ms).
Proof.
  induction ms as [|[q x] ms IH]; intros k v U; cbn in *; [auto|]. destruct U as [U1 U2]. destruct (text_eqb k q) eqn:E; cbn; [auto|].
  split; [|apply IH; assumption]. rewrite find_replace, U1. destruct (text_eqb q k); reflexivity.
Qed.
Lemma names_add : forall ms k v, names_unique ms -> names_unique (add_member k v ms).
Proof.
  intros ms k v U. unfold add_member. destruct (find k ms) as [[z|x]|] eqn:F; auto using names_app.
  destruct v; auto using names_replace.
Qed.
Lemma names_merge : forall bs ms, names_unique ms -> names_unique (merge_members bs ms).
Proof. induction bs as [|[k v] bs IH]; intros ms U; cbn; auto using names_add. Qed.

(** ** Object names *)
Lemma parse_object_name_spec : forall s,
  (~ In bang s -> parse_object_name s = (s, false)) /\
  (forall a r, ~ In bang a -> s = a ++ bang :: r -> parse_object_name s = (a, true)).
Proof.
  induction s as [|c s [IH1 IH2]]; split.
  - reflexivity.
  - intros [|x a] r _ E; discriminate.
  - intro N. cbn. destruct (Z.eqb_spec c 33) as [->|Q]; [destruct N; left; reflexivity|].
    rewrite IH1; [reflexivity|]. intro X. apply N. right. exact X.
  - intros [|x a] r N E; cbn in E; injection E as -> E.
    + reflexivity.
    + cbn. destruct (Z.eqb_spec x 33) as [->|Q]; [destruct N; left; reflexivity|].
      rewrite (IH2 a r); [reflexivity| |exact E]. intro X. apply N. right. exact X.
Qed.
