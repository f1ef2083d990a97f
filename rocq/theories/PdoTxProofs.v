From Verif Require Import Base CanModel KeyModel StorageModel StorageSpec StorageProofs PdoModel PdoSpec PdoProofs.

(** ** Lists *)

Lemma combine_fun : forall A (l : list A) (bs : list nat) x y i, NoDup bs ->
  In (x, i) (combine l bs) -> In (y, i) (combine l bs) -> x = y.
Proof.
  induction l as [|a l IH]; intros [|b bs] x y i Hnd H1 H2; cbn [combine In] in *; try contradiction.
  apply NoDup_cons_iff in Hnd as [Hni Hnd].
  destruct H1 as [H1|H1], H2 as [H2|H2].
  - congruence.
  - injection H1 as -> ->. apply in_combine_r in H2. contradiction.
  - injection H2 as -> ->. apply in_combine_r in H1. contradiction.
  - eapply IH; eassumption.
Qed.

Lemma keys_in : forall (l : layout) k n, In (Some k, n) l -> In k (keys l).
Proof.
  intros l k n H. unfold keys. apply in_flat_map. exists (Some k, n). split; [exact H|left; reflexivity].
Qed.

Lemma keys_entry : forall (l : layout) k, In k (keys l) -> exists n, In (Some k, n) l.
Proof.
  intros l k H. unfold keys in H. apply in_flat_map in H as [[[k'|] n] [H1 H2]]; cbn in H2; [|contradiction].
  destruct H2 as [->|[]]. exists n. exact H1.
Qed.

Lemma combine_key : forall (l : layout) (bs : list nat) k n n' i i', NoDup (keys l) ->
  In ((Some k, n), i) (combine l bs) -> In ((Some k, n'), i') (combine l bs) -> i = i' /\ n = n'.
Proof.
  induction l as [|[[a|] m] l IH]; intros [|b bs] k n n' i i' Hnd H1 H2; cbn [combine In] in *; try contradiction.
  - unfold keys in Hnd. cbn [flat_map fst app] in Hnd. apply NoDup_cons_iff in Hnd as [Hni Hnd].
    destruct H1 as [H1|H1], H2 as [H2|H2].
    + split; congruence.
    + injection H1 as -> -> ->. apply in_combine_l in H2. apply keys_in in H2. contradiction.
    + injection H2 as -> -> ->. apply in_combine_l in H1. apply keys_in in H1. contradiction.
    + eapply IH; eassumption.
  - destruct H1 as [H1|H1]; [discriminate|]. destruct H2 as [H2|H2]; [discriminate|].
    eapply IH; eassumption.
Qed.

Lemma combine_left : forall A B (l : list A) (bs : list B) x, List.length l = List.length bs -> In x l ->
  exists i, In (x, i) (combine l bs).
Proof.
  induction l as [|a l IH]; intros [|b bs] x E H; cbn in *; try contradiction; try discriminate.
  destruct H as [->|H]; [exists b; left; reflexivity|].
  destruct (IH bs x) as [i Hi]; [lia|exact H|]. exists i. right. exact Hi.
Qed.
Lemma combine_right : forall A B (l : list A) (bs : list B) i, List.length l = List.length bs -> In i bs ->
  exists x, In (x, i) (combine l bs).
Proof.
  induction l as [|a l IH]; intros [|b bs] i E H; cbn in *; try contradiction; try discriminate.
  destruct H as [->|H]; [exists a; left; reflexivity|].
  destruct (IH bs i) as [x Hx]; [lia|exact H|]. exists x. right. exact Hx.
Qed.

Lemma combine_Forall2 : forall A B (R : A -> B -> Prop) l bs, List.length l = List.length bs ->
  (forall x i, In (x, i) (combine l bs) -> R x i) -> Forall2 R l bs.
Proof.
  induction l as [|a l IH]; intros [|b bs] E H; cbn in *; try discriminate; constructor.
  - apply H. left. reflexivity.
  - apply IH; [lia|]. intros. apply H. right. assumption.
Qed.

Lemma existsb_eqb : forall k l, existsb (Z.eqb k) l = true <-> In k l.
Proof.
  intros. rewrite existsb_exists. split.
  - intros [x [H E]]. apply Z.eqb_eq in E. subst. exact H.
  - intros H. exists k. split; [exact H|apply Z.eqb_refl].
Qed.
Lemma existsb_neqb : forall k l, existsb (Z.eqb k) l = false <-> ~ In k l.
Proof. intros. rewrite <- existsb_eqb. apply iff_sym, not_true_iff_false. Qed.

Lemma total_sum : forall l, total l = sum (map snd l).
Proof. induction l as [|x l IH]; [reflexivity|]. cbn. f_equal. exact IH. Qed.

(** ** Which delegates an operation uses *)

Definition uses (c : cell) (x : event) : Prop :=
  match x with EvRead n _ _ => n = c_rd c | EvWrite n _ _ => n = c_wr c end.
Definition keeps (c c1 : cell) : Prop := c_type c1 = c_type c /\ c_rd c1 = c_rd c /\ c_wr c1 = c_wr c.

Lemma keeps_refl : forall c, keeps c c.
Proof. repeat split. Qed.
Lemma keeps_set_buf : forall c b, keeps c (set_buf c b).
Proof. repeat split. Qed.
Lemma keeps_allocate : forall c, keeps c (allocate c).
Proof. intros [t v b r w]. unfold allocate. cbn. destruct t, v; repeat split. Qed.
Lemma keeps_trans : forall a b c, keeps a b -> keeps b c -> keeps a c.
Proof. intros a b c [A1 [A2 A3]] [B1 [B2 B3]]. repeat split; congruence. Qed.

Lemma assign_keeps : forall c v c1, assign c v = Ok c1 -> keeps c c1.
Proof.
  intros c v c1. unfold assign. pose proof (keeps_allocate c) as K.
  destruct (c_type c);
    try (destruct (_ <? _)%nat; [discriminate|]);
    intros E; injection E as <-; (eapply keeps_trans; [exact K|apply keeps_set_buf]).
Qed.

Lemma write_uses : forall c v wr c1 ev r, data_write c v wr = Ok (c1, ev, r) ->
  keeps c c1 /\ Forall (uses c) ev.
Proof.
  intros c v wr c1 ev r. unfold data_write. destruct (assign c v) as [c2|] eqn:E; [|discriminate].
  intros H. injection H as <- <- _. split; [eapply assign_keeps, E|].
  constructor; [reflexivity|constructor].
Qed.

Definition not_map (o : op) : Prop := match o with OMap _ _ _ _ => False | _ => True end.

Lemma step_uses : forall e o c c1 ev r, not_map o -> step e o c = Ok (c1, ev, r) ->
  keeps c c1 /\ Forall (uses c) ev.
Proof.
  intros e o c c1 ev r N. destruct o as [cached rd|v wr|v wr|wr| |? ? ? ?]; [| | | | |contradiction]; cbn [step].
  - unfold data_get. destruct (negb (e_readable e)).
    + intros H. injection H as <- <- _. split; [apply keeps_refl|constructor].
    + destruct (_ || _).
      * destruct (rd (c_buf (allocate c))) as [b ok].
        assert (K : keeps c (set_buf (allocate c) b)) by (eapply keeps_trans; [apply keeps_allocate|apply keeps_set_buf]).
        destruct ok; [destruct (access _); [|discriminate]|];
          intros H; injection H as <- <- _; (split; [exact K|repeat constructor]).
      * destruct (access c); [|discriminate]. intros H. injection H as <- <- _. split; [apply keeps_refl|constructor].
  - unfold data_set. destruct (negb (e_writable e)).
    + destruct (negb (c_valid c)); [|destruct (access c); [|discriminate]];
        intros H; injection H as <- <- _; (split; [apply keeps_refl|constructor]).
    + apply write_uses.
  - unfold data_set_cached. cbv zeta.
    assert (G : forall X, X = (if negb (e_writable e) then ret c [] (RThrow NoWriteAccess) else data_write c v wr) ->
      X = Ok (c1, ev, r) -> keeps c c1 /\ Forall (uses c) ev).
    { intros X ->. destruct (negb (e_writable e)); [|apply write_uses].
      intros H; injection H as <- <- _; (split; [apply keeps_refl|constructor]). }
    destruct (negb (c_valid c)); [apply G; reflexivity|].
    destruct (access c); [|discriminate]. destruct (val_eqb _ _ _); [|apply G; reflexivity].
    intros H; injection H as <- <- _; (split; [apply keeps_refl|constructor]).
  - unfold data_init. destruct (h_data (e_init e)) as [iv|].
    2:{ intros H; injection H as <- <- _; (split; [apply keeps_refl|constructor]). }
    cbv zeta. destruct (match h_data (e_def e) with Some dv => _ | None => _ end) .
    + intros H; injection H as <- <- _; (split; [apply keeps_refl|constructor]).
    + destruct (_ || _); [destruct (_ && _)|];
        intros H; injection H as <- <- _; (split; [try apply keeps_set_buf; apply keeps_refl|repeat constructor]).
  - intros H; injection H as <- <- _. split; [|constructor]. unfold data_reset.
    destruct (h_data (e_def e)), (h_type (e_def e)); try (destruct (ty_eqb _ _)); repeat split.
Qed.

(** Effect on buffers that are not used *)
Lemma apply_events_other : forall ev bufs i, Forall (fun x => event_delegate x <> i) ev ->
  fold_left apply_event ev bufs i = bufs i.
Proof.
  induction ev as [|x ev IH]; intros bufs i H; [reflexivity|].
  inversion H as [|? ? Hx Ht]; subst. cbn [fold_left]. rewrite IH by exact Ht.
  destruct x as [[|n] b [|]|[|n] b [|]]; cbn [apply_event event_delegate] in *; try reflexivity;
    destruct (bufs (S n)) as [b'|]; try reflexivity; try (destruct (buf_set b' b); try reflexivity);
    apply upd_neq; congruence.
Qed.

Definition not_smap (o : sop) : Prop := match o with SMap _ _ => False | _ => True end.

(** An operation on object [k] changes only its own cell and the buffers its
    delegates belong to. *)
Lemma obj_frame : forall dv d k o w w1 r, not_smap o -> obj dv d k o w = Ok (w1, r) ->
  (forall k', k' <> k -> lookup k' (w_store w1) = lookup k' (w_store w)) /\
  w_next w1 = w_next w /\
  (forall c1, lookup k (w_store w1) = Some c1 -> exists c, lookup k (w_store w) = Some c /\ keeps c c1) /\
  (forall i, (forall c, lookup k (w_store w) = Some c -> c_rd c <> i /\ c_wr c <> i) -> w_bufs w1 i = w_bufs w i).
Proof.
  intros dv d k o w w1 r N. unfold obj.
  destruct (lookup k (w_store w)) as [c|] eqn:Ec.
  2:{ intros H. injection H as <- _. rewrite Ec. repeat split; try discriminate. }
  destruct (lookup k d) as [e|].
  2:{ intros H. injection H as <- _. repeat split; auto.
      intros c1 H. exists c1. rewrite Ec in H. injection H as ->. split; [reflexivity|apply keeps_refl]. }
  unfold cell_op. cbv zeta.
  set (rd := delegate_read dv w k (match o with SMap _ _ => 0%nat | _ => c_rd c end)).
  destruct (step e (to_op o rd true) c) as [[[c0 ev0] r0]|]; [|discriminate].
  assert (NM : not_map (to_op o rd (writes_ok dv w k ev0))) by (destruct o; try exact I; contradiction).
  destruct (step e (to_op o rd (writes_ok dv w k ev0)) c) as [[[c1 ev1] r1]|] eqn:Es; [|discriminate].
  destruct (step_uses _ _ _ _ _ _ NM Es) as [K U].
  destruct (live_events w ev1); [|discriminate].
  assert (G : forall x : pw * (result + pexc), Ok x = Ok (w1, r) ->
    fst x = mkPW (store k c1 (w_store w)) (w_log w ++ keyed k ev1) (fold_left apply_event ev1 (w_bufs w)) (w_next w) ->
    (forall k', k' <> k -> lookup k' (w_store w1) = lookup k' (w_store w)) /\
    w_next w1 = w_next w /\
    (forall c2, lookup k (w_store w1) = Some c2 -> exists c0, Some c = Some c0 /\ keeps c0 c2) /\
    (forall i, (forall c0, Some c = Some c0 -> c_rd c0 <> i /\ c_wr c0 <> i) -> w_bufs w1 i = w_bufs w i)).
  { intros x E F. injection E as E. subst x. cbn [fst] in F. subst w1. cbn [w_store w_next w_bufs].
    split; [intros; apply lookup_store_neq; congruence|]. split; [reflexivity|]. split.
    - intros c2. rewrite lookup_store_eq. intros H. injection H as <-. exists c. split; [reflexivity|exact K].
    - intros i H. apply apply_events_other. destruct (H c eq_refl) as [H1 H2].
      eapply Forall_impl; [|exact U]. intros [n b ok|n b ok] Hu; cbn in *; congruence. }
  destruct r1; intros H; (eapply G; [exact H|reflexivity]).
Qed.

(** ** Writing to a mapped object *)

Lemma numeric_value : forall t v, numeric t -> List.length v = ty_size t -> value_ok t v.
Proof. intros [i|n| |i] v H E; cbn in *; try contradiction; exact E. Qed.

(** An operation that writes [v] through delegate [i]. *)
Lemma obj_write : forall dv d k o w c e i b v,
  not_smap o -> lookup k (w_store w) = Some c -> lookup k d = Some e ->
  c_wr c = S i -> w_bufs w (S i) = Some b -> b_size b = List.length v ->
  (forall rd wr, exists c1, step e (to_op o rd wr) c =
     Ok (c1, [EvWrite (c_wr c) v wr], if wr then RDone else RThrow DeviceError) /\
     view c1 = Some v) ->
  exists c1 lg, obj dv d k o w =
    Ok (mkPW (store k c1 (w_store w)) lg (upd (w_bufs w) (S i) (Some (mkBuf (List.length v) true false v))) (w_next w),
        inl RDone) /\ keeps c c1 /\ view c1 = Some v.
Proof.
  intros dv d k o w c e i b v N Ec Ee Hi Hb Hs H.
  unfold obj. rewrite Ec, Ee. unfold cell_op. cbv zeta.
  set (rd := delegate_read dv w k (match o with SMap _ _ => 0%nat | _ => c_rd c end)).
  destruct (H rd true) as [c0 [E0 _]]. rewrite E0. rewrite Hi.
  assert (W : writes_ok dv w k [EvWrite (S i) v true] = true).
  { cbn [writes_ok forallb delegate_write]. rewrite Hb. unfold buf_set. rewrite Hs, Nat.eqb_refl. reflexivity. }
  rewrite W. destruct (H rd true) as [c1 [E1 V1]]. rewrite E1. rewrite Hi.
  cbn [live_events forallb live event_delegate]. rewrite Hb. cbn [andb fold_left apply_event].
  rewrite Hb. unfold buf_set. rewrite Hs, Nat.eqb_refl. cbn [negb].
  exists c1, (w_log w ++ keyed k [EvWrite (S i) v true]).
  split; [reflexivity|]. split; [|exact V1].
  assert (NM : not_map (to_op o rd true)) by (destruct o; try exact I; contradiction).
  exact (proj1 (step_uses _ _ _ _ _ _ NM E1)).
Qed.

(** An operation without delegate calls that leaves the cell alone. *)
Lemma obj_same : forall dv d k o w c e r,
  not_smap o -> lookup k (w_store w) = Some c -> lookup k d = Some e ->
  (forall rd wr, step e (to_op o rd wr) c = Ok (c, [], r)) ->
  exists r', obj dv d k o w =
    Ok (mkPW (store k c (w_store w)) (w_log w) (w_bufs w) (w_next w), r').
Proof.
  intros dv d k o w c e r N Ec Ee H.
  unfold obj. rewrite Ec, Ee. unfold cell_op. cbv zeta. rewrite H.
  rewrite H. cbn [live_events forallb fold_left keyed map]. rewrite app_nil_r.
  destruct r; eexists; reflexivity.
Qed.

(** ** The invariant *)

Definition tx_inv (T : Z -> ty) (d : dict) (l : layout) (h : header) (p : pdo) (w : pw) (s : txspec) : Prop :=
  tx_mapped T d l p w /\ f_hdr (p_frame p) = h /\
  (forall k, In k (keys l) -> tx_cur s k = held_of w k) /\ tx_changed s = some_dirty p w.

(** The world after an operation that neither changes mapped cells nor buffers. *)
Lemma tx_inv_frame : forall T d l h p w s w1,
  tx_inv T d l h p w s ->
  (forall k, In k (keys l) -> lookup k (w_store w1) = lookup k (w_store w)) ->
  (forall i, In i (p_bufs p) -> w_bufs w1 i = w_bufs w i) ->
  (forall k c1, lookup k (w_store w1) = Some c1 -> exists c, lookup k (w_store w) = Some c /\ keeps c c1) ->
  tx_inv T d l h p w1 s.
Proof.
  intros T d l h p w s w1 [M [Hh [Hc Hd]]] Hl Hb Ho. destruct M as [txm_len0 txm_pos0 txm_nodup0 txm_keys0 txm_total0 txm_dlc0 txm_data0 txm_slots0 txm_owner0].
  split; [constructor; auto|].
  - intros x i Hx. destruct (txm_slots0 x i Hx) as [b [B1 [B2 [B3 B4]]]].
    exists b. rewrite Hb by (eapply in_combine_r, Hx). split; [exact B1|]. split; [exact B2|]. split; [exact B3|].
    destruct x as [[k|] n]; cbn [fst snd] in *; [|exact B4].
    rewrite Hl by (eapply keys_in, in_combine_l, Hx). exact B4.
  - intros k c1 H1. destruct (Ho k c1 H1) as [c [Hc0 [K1 [K2 K3]]]]. rewrite K2, K3. apply txm_owner0, Hc0.
  - split; [exact Hh|]. split.
    + intros k Hk. rewrite (Hc k Hk). unfold held_of, held. rewrite Hl by exact Hk. reflexivity.
    + rewrite Hd. unfold some_dirty. clear - Hb. revert Hb. generalize (p_bufs p). intros ids Hb.
      induction ids as [|i ids IH]; [reflexivity|]. cbn [existsb].
      rewrite Hb by (left; reflexivity). f_equal. apply IH. intros. apply Hb. right. assumption.
Qed.

Lemma tx_inv_write : forall T d l h p w s k n i v c e c1 lg nx,
  tx_inv T d l h p w s -> In ((Some k, n), i) (combine l (p_bufs p)) ->
  lookup k (w_store w) = Some c -> lookup k d = Some e -> 
  keeps c c1 -> view c1 = Some v -> List.length v = n ->
  tx_inv T d l h p (mkPW (store k c1 (w_store w)) lg (upd (w_bufs w) i (Some (mkBuf n true false v))) nx) (tx_write s k v).
Proof.
  intros T d l h p w s k n i v c e c1 lg nx [M [Hh [Hc Hd]]] Hk Ec Ee [K1 [K2 K3]] V1 Hv.
  destruct M as [txm_len0 txm_pos0 txm_nodup0 txm_keys0 txm_total0 txm_dlc0 txm_data0 txm_slots0 txm_owner0]. apply view_some in V1 as [V1 V2].
  split; [constructor; auto|].
  - intros x j Hx. cbn [w_bufs w_store].
    destruct (Nat.eq_dec j i) as [->|Hj].
    + pose proof (combine_fun _ _ _ _ _ _ txm_nodup0 Hk Hx) as E. subst x.
      destruct (txm_slots0 _ _ Hk) as (b & B1 & B2 & B3 & c' & e' & C1 & C2 & C3 & C4 & C5 & C6 & C7 & C8 & C9 & C10 & C11 & C12).
      cbn [fst snd] in *. rewrite Ec in C1. injection C1 as <-. rewrite Ee in C2. injection C2 as <-.
      exists (mkBuf n true false v). cbn [w_bufs w_store fst snd]. rewrite upd_eq.
      split; [reflexivity|]. split; [reflexivity|]. split; [exact Hv|].
      exists c1, e. rewrite lookup_store_eq. cbn [b_empty b_data negb].
      repeat split; auto; try congruence; try apply C8.
    + destruct (txm_slots0 x j Hx) as [b [B1 [B2 [B3 B4]]]].
      exists b. cbn [w_bufs w_store]. rewrite upd_neq by exact Hj. split; [exact B1|]. split; [exact B2|]. split; [exact B3|].
      destruct x as [[k'|] n']; cbn [fst snd] in *; [|exact B4].
      rewrite lookup_store_neq; [exact B4|]. intros <-.
      destruct (combine_key _ _ _ _ _ _ _ txm_keys0 Hk Hx). congruence.
  - intros k' c' H. cbn [w_store] in H. destruct (Z.eq_dec k' k) as [->|Hk'].
    + rewrite lookup_store_eq in H. injection H as <-. rewrite K2, K3. apply txm_owner0, Ec.
    + rewrite lookup_store_neq in H by congruence. apply txm_owner0, H.
  - split; [exact Hh|]. split.
    + intros k' Hk'. unfold held_of, held, tx_write. cbn [tx_cur w_store].
      destruct (Z.eqb_spec k' k) as [->|N].
      * rewrite lookup_store_eq, V1, V2. reflexivity.
      * rewrite lookup_store_neq by congruence. apply Hc, Hk'.
    + cbn [tx_changed tx_write]. unfold some_dirty. symmetry. apply existsb_exists.
      exists i. split; [eapply in_combine_r, Hk|]. cbn [w_bufs]. rewrite upd_eq. reflexivity.
Qed.

(** ** Operations *)

Lemma tx_other : forall T d l h dv p w s k o w1 r,
  tx_inv T d l h p w s -> ~ In k (keys l) -> not_smap o -> obj dv d k o w = Ok (w1, r) ->
  tx_inv T d l h p w1 s.
Proof.
  intros T d l h dv p w s k o w1 r Inv Hk N H.
  destruct (obj_frame _ _ _ _ _ _ _ N H) as [F1 [F2 [F3 F4]]].
  eapply tx_inv_frame; [exact Inv| | |].
  - intros k' Hk'. apply F1. congruence.
  - intros i Hi. apply F4. intros c Hc. destruct Inv as [M _].
    destruct (txm_owner _ _ _ _ _ M k c Hc) as [O1 O2].
    split; intros E; subst i; [apply O1, Hi|apply Hk, O2, Hi].
  - intros k' c1 H1. destruct (Z.eq_dec k' k) as [->|Hn]; [apply F3, H1|].
    rewrite F1 in H1 by exact Hn. exists c1. split; [exact H1|apply keeps_refl].
Qed.

Lemma tx_mapped_op : forall T d l h dv p w s k o,
  tx_inv T d l h p w s -> In k (keys l) -> tx_allowed T l (WObj k o) ->
  exists w1 r, obj dv d k o w = Ok (w1, r) /\ tx_inv T d l h p w1 (tx_spec_step T d l s (WObj k o)).
Proof.
  intros T d l h dv p w s k o Inv Hk Ha.
  pose proof Inv as Inv0. destruct Inv0 as [M [Hh [Hc Hd]]].
  destruct (keys_entry _ _ Hk) as [n Hn].
  destruct (combine_left _ _ _ (p_bufs p) _ (txm_len _ _ _ _ _ M) Hn) as [i Hi].
  destruct (txm_slots _ _ _ _ _ M _ _ Hi) as (b & B1 & B2 & B3 & c & e & C1 & C2 & C3 & C4 & C5 & C6 & C7 & C8 & C9 & C10 & C11 & C12).
  cbn [fst snd] in *.
  destruct i as [|i]; [exfalso; apply (txm_pos _ _ _ _ _ M); eapply in_combine_r, Hi|].
  assert (CK : cell_ok (T k) c) by (split; [exact C3|apply numeric_value; [exact C4|lia]]).
  assert (Same : forall r0, not_smap o -> (forall rd wr, step e (to_op o rd wr) c = Ok (c, [], r0)) ->
    tx_spec_step T d l s (WObj k o) = s ->
    exists w1 r, obj dv d k o w = Ok (w1, r) /\ tx_inv T d l h p w1 (tx_spec_step T d l s (WObj k o))).
  { intros r0 N H E. destruct (obj_same dv d k o w c e r0 N C1 C2 H) as [r' R].
    do 2 eexists. split; [exact R|]. rewrite E. eapply tx_inv_frame; [exact Inv| | |]; cbn [w_store w_bufs].
    - intros k' _. destruct (Z.eq_dec k' k) as [->|Hne]; [rewrite lookup_store_eq; congruence|apply lookup_store_neq; congruence].
    - reflexivity.
    - intros k' c1 H1. destruct (Z.eq_dec k' k) as [->|Hne].
      + rewrite lookup_store_eq in H1. injection H1 as <-. exists c. split; [exact C1|apply keeps_refl].
      + rewrite lookup_store_neq in H1 by congruence. exists c1. split; [exact H1|apply keeps_refl]. }
  assert (Write : forall v, not_smap o -> List.length v = n ->
    (forall rd wr, exists c1, step e (to_op o rd wr) c =
       Ok (c1, [EvWrite (c_wr c) v wr], if wr then RDone else RThrow DeviceError) /\ view c1 = Some v) ->
    tx_spec_step T d l s (WObj k o) = tx_write s k v ->
    exists w1 r, obj dv d k o w = Ok (w1, r) /\ tx_inv T d l h p w1 (tx_spec_step T d l s (WObj k o))).
  { intros v N Hv H E.
    destruct (obj_write dv d k o w c e i b v N C1 C2 C6 B1) as [c1 [lg [R [K V]]]]; [lia|exact H|].
    do 2 eexists. split; [exact R|]. rewrite E. rewrite Hv.
    eapply tx_inv_write; eassumption. }
  assert (Hk' : existsb (Z.eqb k) (keys l) = true) by (apply existsb_eqb, Hk).
  assert (Hcur : tx_cur s k = view c) by (rewrite (Hc k Hk); unfold held_of, held, view; rewrite C1; reflexivity).
  assert (DW : forall v, List.length v = n -> forall wr, exists c1,
     data_write c v wr = Ok (c1, [EvWrite (c_wr c) v wr], if wr then RDone else RThrow DeviceError) /\ view c1 = Some v).
  { intros v Hv wr. destruct (data_write_ok (T k) c v wr CK) as [c1 [E1 [_ [E2 _]]]].
    - apply numeric_value; [exact C4|lia].
    - exists c1. auto. }
  destruct o as [cached|v|v| | |r0 w0]; cbn [tx_allowed] in Ha.
  - (* get *) rewrite (Ha Hk) in *. cbn [to_op step] in *.
    destruct (e_readable e) eqn:Er.
    + apply (Same (RVal (c_buf c))); [exact I| |cbn [tx_spec_step]; rewrite Hk'; reflexivity].
      intros rd wr. unfold data_get. rewrite Er, C12 by (left; reflexivity). cbn [negb orb].
      rewrite (access_ok _ _ CK). reflexivity.
    + apply (Same (RThrow NoReadAccess)); [exact I| |cbn [tx_spec_step]; rewrite Hk'; reflexivity].
      intros rd wr. unfold data_get. rewrite Er. reflexivity.
  - (* set *) apply (Write v); [exact I|rewrite <- C5; apply Ha, Hk| |cbn [tx_spec_step]; rewrite Hk'; reflexivity].
    intros rd wr. cbn [to_op step]. unfold data_set. rewrite C7. cbn [negb]. apply DW. rewrite <- C5. apply Ha, Hk.
  - (* set cached *)
    assert (Hv : List.length v = n) by (rewrite <- C5; apply Ha, Hk).
    cbn [tx_spec_step] in *. rewrite Hk', Hcur in *. unfold view in *.
    destruct (c_valid c) eqn:Ev; cbn [same] in *.
    + destruct (val_eqb (T k) v (c_buf c)) eqn:Eq.
      * apply (Same RDone); [exact I| |reflexivity].
        intros rd wr. cbn [to_op step]. unfold data_set_cached. rewrite Ev. cbn [negb].
        rewrite (access_ok _ _ CK), C3, Eq. reflexivity.
      * apply (Write v); [exact I|exact Hv| |reflexivity].
        intros rd wr. cbn [to_op step]. unfold data_set_cached. rewrite Ev. cbn [negb].
        rewrite (access_ok _ _ CK), C3, Eq, C7. cbn [negb]. apply DW, Hv.
    + apply (Write v); [exact I|exact Hv| |reflexivity].
      intros rd wr. cbn [to_op step]. unfold data_set_cached. rewrite Ev, C7. cbn [negb]. apply DW, Hv.
  - (* init *)
    cbn [tx_spec_step] in *. rewrite Hk', Hcur, C2 in *.
    destruct (h_data (e_init e)) as [iv|] eqn:Ei.
    2:{ apply (Same RDone); [exact I| |reflexivity]. intros rd wr. cbn [to_op step]. unfold data_init. rewrite Ei. reflexivity. }
    assert (Hiv : List.length iv = n).
    { destruct C8 as [_ C8]. unfold hold_ok in C8. rewrite Ei in C8. destruct C8 as [_ C8].
      destruct (T k); cbn [value_ok numeric ty_size] in *; try contradiction; lia. }
    unfold user_changed, view in *.
    destruct (h_data (e_def e)) as [dvv|] eqn:Ed.
    + assert (Ev : c_valid c = true) by (apply C12; right; discriminate). rewrite Ev in *.
      rewrite !differs_eqb in *. rewrite (bytes_eqb_sym iv (c_buf c)) in *.
      destruct (bytes_eqb (c_buf c) dvv) eqn:E1; cbn [negb orb] in *.
      * destruct (bytes_eqb (c_buf c) iv) eqn:E2; cbn [negb] in *.
        -- apply (Same RDone); [exact I| |reflexivity]. intros rd wr. cbn [to_op step]. unfold data_init.
           rewrite Ei, Ed, Ev, E1, E2. reflexivity.
        -- apply (Write iv); [exact I|exact Hiv| |reflexivity]. intros rd wr. cbn [to_op step]. unfold data_init.
           rewrite Ei, Ed, Ev, E1, E2, C7. cbn [negb andb orb].
           assert (E3 : bytes_eqb iv dvv = false).
           { apply not_true_iff_false. intros E3. apply bytes_eqb_spec in E1. apply bytes_eqb_spec in E3.
             apply not_true_iff_false in E2. apply E2. apply bytes_eqb_spec. congruence. }
           rewrite E3. cbn [negb]. eexists. split; [reflexivity|apply view_set_buf].
      * apply (Same RDone); [exact I| |reflexivity]. intros rd wr. cbn [to_op step]. unfold data_init.
        rewrite Ei, Ed, Ev, E1. reflexivity.
    + replace (match (if c_valid c then Some (c_buf c) else None) with Some _ | _ => false end) with false in * by (destruct (c_valid c); reflexivity).
      cbn [orb] in *. destruct (c_valid c) eqn:Ev; cbn [differs negb] in *.
      * assert (D : differs iv (Some (c_buf c)) = negb (bytes_eqb (c_buf c) iv)) by (rewrite differs_eqb, bytes_eqb_sym; reflexivity).
        cbn [differs] in D. rewrite D in *. rewrite negb_involutive in *.
        destruct (bytes_eqb (c_buf c) iv) eqn:E2; cbn [negb] in *.
        -- apply (Same RDone); [exact I| |reflexivity]. intros rd wr. cbn [to_op step]. unfold data_init.
           rewrite Ei, Ed, Ev, E2. reflexivity.
        -- apply (Write iv); [exact I|exact Hiv| |reflexivity]. intros rd wr. cbn [to_op step]. unfold data_init.
           rewrite Ei, Ed, Ev, E2, C7. cbn [negb andb orb]. eexists. split; [reflexivity|apply view_set_buf].
      * apply (Write iv); [exact I|exact Hiv| |reflexivity]. intros rd wr. cbn [to_op step]. unfold data_init.
        rewrite Ei, Ed, Ev, C7. cbn [negb andb orb]. eexists. split; [reflexivity|apply view_set_buf].
  - contradiction.
  - contradiction.
Qed.

(** ** A cycle *)

Lemma filled_shows : forall l bs bufs junk out rest cur,
  List.length l = List.length bs ->
  (forall x i, In (x, i) (combine l bs) -> exists b, bufs i = Some b /\ b_size b = snd x /\
     List.length (b_data b) = snd x /\
     forall k v, fst x = Some k -> cur k = Some v -> b_empty b = false /\ b_data b = v) ->
  filled bufs bs junk out -> List.length out = total l ->
  shows l cur (out ++ rest).
Proof.
  induction l as [|[ko n] l IH]; intros [|j bs] bufs junk out rest cur E H F L; cbn [List.length] in E; try discriminate; [exact I|].
  cbn [filled] in F. destruct F as [b [B1 [B2 B3]]].
  destruct (H (ko, n) j) as [b' [A1 [A2 [A3 A4]]]]; [left; reflexivity|]. cbn [fst snd] in *.
  rewrite B1 in A1. injection A1 as <-. rewrite A2 in *. cbn [total fold_right snd] in L.
  change (fold_right (fun x m => (snd x + m)%nat) 0%nat l) with (total l) in L.
  cbn [shows]. split.
  - intros k v Hk Hv. destruct (A4 k v Hk Hv) as [Ee Ed]. rewrite Ee in B2.
    rewrite firstn_app. replace (n - List.length out)%nat with 0%nat by (cbn [fst snd] in *; lia). cbn [firstn]. rewrite app_nil_r, B2, Ed.
    apply firstn_all2. subst v. lia.
  - rewrite skipn_app. replace (n - List.length out)%nat with 0%nat by lia. cbn [skipn].
    apply (IH bs bufs (skipn n junk)); [lia| |exact B3|rewrite skipn_length; lia].
    intros x i Hx. apply H. right. exact Hx.
Qed.

Lemma tx_cycle : forall T d l h p w s,
  tx_inv T d l h p w s ->
  exists p1 w1 f, tpdo_sync p w = Ok (p1, w1, f) /\ tx_inv T d l h p1 w1 (mkTx (tx_cur s) false) /\
    tx_result_ok h l s WCycle (WSent f).
Proof.
  intros T d l h p w s [M [Hh [Hc Hd]]].
  pose proof M as [Ln Po Nd Nk Tt Dl Da Sl Ow].
  unfold tpdo_sync.
  destruct (tpdo_fill_spec (p_bufs p) (map snd l) (w_bufs w) (Z.to_nat (f_dlc (p_frame p))) (f_data (p_frame p)) false)
    as [bufs' [out [R [L [F B]]]]].
  - exact Nd.
  - assert (G : Forall2 (fun x i => sized (w_bufs w) i (snd x)) l (p_bufs p)).
    { apply combine_Forall2; [exact Ln|]. intros x i Hx. destruct (Sl x i Hx) as [b [B1 [B2 _]]]. exists b. auto. }
    clear - G. induction G; constructor; auto.
  - intros i b Hi Hb. destruct (combine_right _ _ l (p_bufs p) i Ln Hi) as [x Hx].
    destruct (Sl x i Hx) as [b' [B1 [B2 [B3 _]]]]. congruence.
  - rewrite Dl, Nat2Z.id, total_sum. lia.
  - rewrite Dl, Nat2Z.id, Da. lia.
  - rewrite <- total_sum in L. rewrite R. rewrite orb_false_r.
    do 3 eexists. split; [reflexivity|].
    assert (Bb : forall x i, In (x, i) (combine l (p_bufs p)) -> exists b, w_bufs w i = Some b /\ bufs' i = Some (fetched b)).
    { intros x i Hx. destruct (Sl x i Hx) as [b [B1 _]]. exists b. split; [exact B1|]. rewrite B, B1.
      replace (existsb (Nat.eqb i) (p_bufs p)) with true; [reflexivity|].
      symmetry. apply existsb_exists. exists i. split; [eapply in_combine_r, Hx|apply Nat.eqb_refl]. }
    assert (Hshow : shows l (tx_cur s) (overwrite out (f_data (p_frame p)))).
    { unfold overwrite. eapply filled_shows; [exact Ln| |exact F|exact L].
      intros x i Hx. destruct (Sl x i Hx) as [b [B1 [B2 [B3 B4]]]]. exists b.
      split; [exact B1|]. split; [exact B2|]. split; [exact B3|]. intros k v Hk Hv. rewrite Hk in B4.
      destruct B4 as (c & e & C1 & C2 & C3 & C4 & C5 & C6 & C7 & C8 & C9 & C10 & C11 & C12).
      rewrite Hc in Hv.
      2:{ destruct x as [xk xn]; cbn [fst] in Hk. subst xk. eapply keys_in, in_combine_l, Hx. }
      unfold held_of, held in Hv. rewrite C1 in Hv. destruct (c_valid c) eqn:Ev; [|discriminate].
      injection Hv as <-. split; [destruct (b_empty b); [discriminate|reflexivity]|apply C11; reflexivity]. }
    assert (Hlen8 : List.length (overwrite out (f_data (p_frame p))) = 8%nat).
    { unfold overwrite. rewrite app_length, skipn_length. lia. }
    split.
    + split; [|split; [exact Hh|split]].
      * constructor; cbn [p_bufs p_frame f_dlc f_data]; auto.
        intros x i Hx. destruct (Sl x i Hx) as [b [B1 [B2 [B3 B4]]]].
        destruct (Bb x i Hx) as [b2 [E2 E3]]. rewrite B1 in E2. injection E2 as <-.
        exists (fetched b). cbn [w_bufs w_store]. split; [exact E3|]. unfold fetched, buf_clean.
        destruct (b_empty b) eqn:Ee; cbn [b_size b_data b_empty]; rewrite ?Ee; auto.
      * exact Hc.
      * cbn [tx_changed]. symmetry. apply not_true_iff_false. unfold some_dirty. cbn [p_bufs w_bufs].
        intros G. apply existsb_exists in G as [i [Hi Hb]].
        destruct (combine_right _ _ l (p_bufs p) i Ln Hi) as [x Hx].
        destruct (Bb x i Hx) as [b [_ E3]]. rewrite E3 in Hb. unfold fetched in Hb.
        destruct (b_empty b) eqn:Ee; cbn in Hb; rewrite ?Ee in Hb; rewrite ?andb_false_r in Hb; discriminate.
    + change (existsb _ (p_bufs p)) with (some_dirty p w). rewrite <- Hd.
      destruct (tx_changed s) eqn:Et; cbn [tx_result_ok]; auto.

Qed.

(** ** Histories *)

Lemma tx_history : forall T d l h dv ops p w s,
  tx_inv T d l h p w s -> Forall (tx_allowed T l) ops ->
  forall s' rs, tx_run dv d ops (p, w) = Ok (s', rs) -> tx_conforms T d h l s ops rs.
Proof.
  intros T d l h dv ops. induction ops as [|o ops IH]; intros p w s Inv Ha s' rs R; cbn [tx_run] in R.
  - injection R as _ <-. exact I.
  - apply Forall_cons_iff in Ha as [Ho Ha].
    destruct (tx_step dv d o (p, w)) as [[[p1 w1] r]|] eqn:Es; [|discriminate].
    destruct (tx_run dv d ops (p1, w1)) as [[s2 rs2]|] eqn:Er; [|discriminate].
    injection R as _ <-. cbn [tx_conforms].
    assert (G : tx_result_ok h l s o r /\ tx_inv T d l h p1 w1 (tx_spec_step T d l s o)).
    { destruct o as [k o|]; cbn [tx_step fst snd] in Es.
      - destruct (obj dv d k o w) as [[w2 r2]|] eqn:Eo; [|discriminate]. injection Es as <- <- <-.
        split; [exact I|]. destruct (existsb (Z.eqb k) (keys l)) eqn:Ek.
        + apply existsb_eqb in Ek. destruct (tx_mapped_op T d l h dv p w s k o Inv Ek Ho) as [w3 [r3 [E3 I3]]].
          rewrite Eo in E3. injection E3 as -> _. exact I3.
        + cbn [tx_spec_step]. rewrite Ek. apply existsb_neqb in Ek.
          eapply tx_other; [exact Inv|exact Ek| |exact Eo]. destruct o; try exact I. contradiction.
      - destruct (tx_cycle T d l h p w s Inv) as [p2 [w2 [f [E2 [I2 R2]]]]]. rewrite E2 in Es.
        injection Es as <- <- <-. split; [exact R2|exact I2]. }
    destruct G as [G1 G2]. split; [exact G1|]. eapply IH; eassumption.
Qed.

(** Nothing undefined happens as long as only mapped objects are used. *)
Lemma tx_defined : forall T d l h dv ops p w s,
  tx_inv T d l h p w s -> Forall (tx_allowed T l) ops ->
  Forall (fun o => match o with WObj k _ => In k (keys l) | WCycle => True end) ops ->
  exists s' rs, tx_run dv d ops (p, w) = Ok (s', rs).
Proof.
  intros T d l h dv ops. induction ops as [|o ops IH]; intros p w s Inv Ha Hk; cbn [tx_run]; [eauto|].
  apply Forall_cons_iff in Ha as [Ho Ha]. apply Forall_cons_iff in Hk as [Hk0 Hk].
  assert (G : exists p1 w1 r, tx_step dv d o (p, w) = Ok ((p1, w1), r) /\ tx_inv T d l h p1 w1 (tx_spec_step T d l s o)).
  { destruct o as [k o|]; cbn [tx_step fst snd].
    - destruct (tx_mapped_op T d l h dv p w s k o Inv Hk0 Ho) as [w3 [r3 [E3 I3]]]. rewrite E3. eauto 6.
    - destruct (tx_cycle T d l h p w s Inv) as [p2 [w2 [f [E2 [I2 R2]]]]]. rewrite E2. eauto 6. }
  destruct G as [p1 [w1 [r [E I1]]]]. rewrite E.
  destruct (IH p1 w1 _ I1 Ha Hk) as [s' [rs R]]. rewrite R. eauto.
Qed.
