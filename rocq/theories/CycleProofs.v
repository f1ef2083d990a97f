(** A write cycle of one joint: proofs. *)
From Coq Require Import Floats.SpecFloat QArith Qabs.
From Verif Require Import Base CanModel KeyModel StorageModel StorageSpec StorageProofs LayerModel MotorModel MotorSpec MotorProofs HandleModel PdoModel PdoSpec PdoTxProofs PdoRxProofs CycleModel CycleSpec.
From Verif Require JointModel FloatProofs.
Local Open Scope Z_scope.

(** ** Numbers *)
Lemma le_len n x : List.length (le_bytes n x) = n.
Proof. revert x. induction n as [|n IH]; intros x; cbn [le_bytes List.length]; [reflexivity|]. rewrite IH. reflexivity. Qed.
Lemma le_value n x : unsigned_le (le_bytes n x) = x mod 2 ^ (8 * Z.of_nat n).
Proof.
  revert x. induction n as [|n IH]; intros x; cbn [le_bytes unsigned_le].
  - rewrite Z.mod_1_r. reflexivity.
  - rewrite IH. replace (8 * Z.of_nat (S n)) with (8 + 8 * Z.of_nat n) by lia. rewrite Z.pow_add_r by lia.
    change (2 ^ 8) with 256. rewrite Z.rem_mul_r; [lia|lia|]. apply Z.pow_pos_nonneg; lia.
Qed.
Lemma le_signed n x : (0 < n)%nat -> - 2 ^ (8 * Z.of_nat n - 1) <= x < 2 ^ (8 * Z.of_nat n - 1) -> signed_le (le_bytes n x) = x.
Proof.
  intros N H. unfold signed_le. rewrite le_value, le_len. set (b := 8 * Z.of_nat n) in *.
  assert (E : 2 ^ b = 2 * 2 ^ (b - 1)). { rewrite <- Z.pow_succ_r by (unfold b; lia). f_equal. lia. }
  set (h := 2 ^ (b - 1)) in *. rewrite E. assert (0 < h) by (apply Z.pow_pos_nonneg; unfold b; lia).
  destruct (Z.leb_spec 0 x).
  - rewrite Z.mod_small by lia. destruct (Z.ltb_spec x h); lia.
  - replace (x mod (2 * h)) with (x + 2 * h). 2:{ apply Z.mod_unique with (-1); lia. }
    destruct (Z.ltb_spec (x + 2 * h) h); lia.
Qed.

(** ** Writes of mapped objects *)
Section Mapped.
Variable T : Z -> ty.
Variable d : dict.
Variable l : layout.
Variable h : header.
Variable dv : device.

Lemma mapped_slot p w k : tx_mapped T d l p w -> In k (keys l) ->
  exists i b c e, lookup k (w_store w) = Some c /\ lookup k d = Some e /\ c_wr c = S i /\ w_bufs w (S i) = Some b /\ b_size b = ty_size (T k) /\
    cell_ok (T k) c /\ numeric (T k) /\ e_writable e = true /\ c_type c = T k.
Proof.
  intros M Hk. destruct (keys_entry _ _ Hk) as [n Hn].
  destruct (combine_left _ _ _ (p_bufs p) _ (txm_len _ _ _ _ _ M) Hn) as [i Hi].
  destruct (txm_slots _ _ _ _ _ M _ _ Hi) as (b & B1 & B2 & B3 & c & e & C1 & C2 & C3 & C4 & C5 & C6 & C7 & C8 & C9 & C10 & C11 & C12).
  cbn [fst snd] in *.
  destruct i as [|i]; [exfalso; apply (txm_pos _ _ _ _ _ M); eapply in_combine_r, Hi|].
  exists i, b, c, e. repeat (split; [first [assumption|congruence]|]). split; [|split; [exact C4|split; [exact C7|exact C3]]].
  split; [exact C3|apply numeric_value; [exact C4|lia]].
Qed.

Lemma set_done p w s k v : tx_inv T d l h p w s -> In k (keys l) -> List.length v = ty_size (T k) ->
  exists w1, obj dv d k (SSet v) w = Ok (w1, inl RDone) /\ tx_inv T d l h p w1 (tx_write s k v).
Proof.
  intros Inv Hk Hv. destruct (tx_mapped_op T d l h dv p w s k (SSet v) Inv Hk) as (w1 & r & E & Inv1); [intros _; exact Hv|].
  destruct (mapped_slot p w k (proj1 Inv) Hk) as (i & b & c & e & C1 & C2 & C3 & B1 & B2 & CK & Nu & Wr & Ty).
  destruct (obj_write dv d k (SSet v) w c e i b v I C1 C2 C3 B1) as (c1 & lg & R & _ & _); [lia| |].
  { intros rd wr. cbn [to_op step]. unfold data_set. rewrite Wr. cbn [negb].
    destruct (data_write_ok (T k) c v wr CK) as [c1 [E1 [_ [E2 _]]]]; [apply numeric_value; assumption|]. exists c1. auto. }
  rewrite R in E. injection E as <- <-. eexists. split; [exact R|].
  cbn [tx_spec_step] in Inv1. rewrite (proj2 (existsb_eqb _ _) Hk) in Inv1. exact Inv1.
Qed.

Lemma cached_done p w s k v I0 : tx_inv T d l h p w s -> In k (keys l) -> T k = TInt I0 -> List.length v = ty_size (T k) ->
  exists w1 s1, obj dv d k (SSetCached v) w = Ok (w1, inl RDone) /\ tx_inv T d l h p w1 s1 /\
    tx_cur s1 k = Some v /\ (forall j, j <> k -> tx_cur s1 j = tx_cur s j) /\ (tx_changed s = true -> tx_changed s1 = true).
Proof.
  intros Inv Hk HT Hv. destruct (tx_mapped_op T d l h dv p w s k (SSetCached v) Inv Hk) as (w1 & r & E & Inv1); [intros _; exact Hv|].
  destruct (mapped_slot p w k (proj1 Inv) Hk) as (i & b & c & e & C1 & C2 & C3 & B1 & B2 & CK & Nu & Wr & Ty).
  assert (Hcur : tx_cur s k = view c). { destruct Inv as [_ [_ [Hc _]]]. rewrite (Hc k Hk). unfold held_of, held, view. rewrite C1. reflexivity. }
  cbn [tx_spec_step] in Inv1. rewrite (proj2 (existsb_eqb _ _) Hk), Hcur in Inv1.
  assert (W : same (T k) v (view c) = false -> r = inl RDone).
  { intros Sm. destruct (obj_write dv d k (SSetCached v) w c e i b v I C1 C2 C3 B1) as (c1 & lg & R & _ & _); [lia| |].
    { intros rd wr. cbn [to_op step]. unfold data_set_cached. unfold view in Sm.
      destruct (data_write_ok (T k) c v wr CK) as [c1 [E1 [_ [E2 _]]]]; [apply numeric_value; assumption|]. exists c1. split; [|exact E2].
      destruct (c_valid c) eqn:Ev; cbn [negb same] in *.
      - rewrite (access_ok _ _ CK), Ty, Sm, Wr. cbn [negb]. exact E1.
      - rewrite Wr. cbn [negb]. exact E1. }
    rewrite R in E. injection E as _ <-. reflexivity. }
  destruct (same (T k) v (view c)) eqn:Sm.
  - exists w1, s. unfold view in *. destruct (c_valid c) eqn:Ev; [|discriminate Sm]. cbn [same] in Sm.
    assert (R : r = inl RDone).
    { unfold obj in E. rewrite C1, C2 in E. unfold cell_op in E. cbv zeta in E. cbn [to_op step] in E.
      assert (DS : forall wr, data_set_cached e c v wr = Ok (c, [], RDone)).
      { intros wr. unfold data_set_cached. rewrite Ev. cbn [negb]. rewrite (access_ok _ _ CK), Ty, Sm. reflexivity. }
      rewrite !DS in E. cbn in E. injection E as _ <-. reflexivity. }
    subst r. split; [exact E|]. split; [exact Inv1|]. split; [|split; [reflexivity|auto]].
    rewrite Hcur. rewrite HT in Sm. cbn [val_eqb] in Sm. apply bytes_eqb_spec in Sm. subst v. reflexivity.
  - rewrite (W eq_refl) in E. exists w1, (tx_write s k v). split; [exact E|]. split; [exact Inv1|]. cbn [tx_write tx_cur tx_changed].
    rewrite Z.eqb_refl. split; [reflexivity|]. split; [|reflexivity]. intros j N. rewrite (proj2 (Z.eqb_neq j k) N). reflexivity.
Qed.
End Mapped.

(** ** The motor *)
Lemma forward_row m idx sub lo hi : target_object m idx sub lo hi ->
  exists mask, forward_mode m = Some (m, idx, sub, mask, (lo, hi)) /\ forward_mode_beh m = (fun t => Some (forward_beh mask t)) /\
    forward_key m = Some (object_key idx sub) /\ Z.of_nat (forward_size m) = target_size lo /\ (0 < forward_size m)%nat /\
    lo = - 2 ^ (8 * Z.of_nat (forward_size m) - 1) /\ hi = 2 ^ (8 * Z.of_nat (forward_size m) - 1) - 1 /\ object_key idx sub <> cw_key.
Proof. intros []; eexists; repeat (split; [reflexivity|]); (split; [cbn; lia|]); repeat (split; [reflexivity|]); vm_compute; discriminate. Qed.

Definition last_target (t : tgt) : option Z := if has_target t then Some (target t) else None.
Definition commanded (tv : option spec_float) (m : motor) : motor := match tv with Some v => command v m | None => m end.
Lemma commanded_tgt tv m idx sub lo hi n : target_object (mo_mode m) idx sub lo hi -> mo_state m = OperationEnable ->
  commands lo hi (last_target (mo_tgt m)) tv n -> (has_target (mo_tgt m) = true -> lo <= target (mo_tgt m) <= hi) ->
  commanded tv m = with_tgt (mkTgt n true) m /\ lo <= n <= hi.
Proof.
  intros TO E C B. destruct (forward_row _ _ _ _ _ TO) as (mask & F & _ & _ & _ & FS & L & H & _).
  assert (LH : lo <= 0 <= hi). { assert (0 < 2 ^ (8 * Z.of_nat (forward_size (mo_mode m)) - 1)) by (apply Z.pow_pos_nonneg; lia). lia. }
  assert (Last : last_target (mo_tgt m) = Some n -> m = with_tgt (mkTgt n true) m /\ lo <= n <= hi).
  { unfold last_target. intros L0. destruct (mo_tgt m) as [t0 []] eqn:T0; cbn [has_target target] in *; [|discriminate].
    injection L0 as ->. split; [|auto]. destruct m; cbn in *. subst. reflexivity. }
  assert (Fin : forall v ok, helper_set_target lo hi v (mo_tgt m) = (ok, mkTgt n true) -> command v m = with_tgt (mkTgt n true) m).
  { intros v ok V. unfold command, set_target. rewrite F, E. cbn [state_eqb]. change (state_eqb OperationEnable OperationEnable) with true.
    cbv iota. rewrite V. reflexivity. }
  assert (Num : forall v num den t, represents v num den -> truncation num den t -> n = Z.max lo (Z.min hi t) -> command v m = with_tgt (mkTgt n true) m /\ lo <= n <= hi).
  { intros v num den t R0 T0 ->. split; [|lia]. apply Fin with (ok := true). apply (set_target_finite lo hi v (mo_tgt m) num den t LH R0 T0). }
  destruct tv as [v|]; cbn [commanded commands] in *; [|exact (Last C)].
  destruct v as [s|s| |s m0 e].
  - destruct C as (num & den & t & R0 & T0 & N0). eapply Num; eassumption.
  - destruct s; subst n; (split; [eapply Fin; reflexivity|lia]).
  - destruct (Last C) as [Q0 Q1]. split; [|exact Q1]. transitivity m; [|exact Q0]. unfold command. rewrite F. unfold set_target. rewrite E.
    change (state_eqb OperationEnable OperationEnable) with true. cbn. destruct m; reflexivity.
  - destruct C as (num & den & t & R0 & T0 & N0). eapply Num; eassumption.
Qed.

(** A double that is a whole number *)
Lemma dvalue_int v z n : JointModel.dvalue v = Some z -> (z == inject_Z n)%Q -> exists num den, represents v num den /\ truncation num den n.
Proof.
  assert (Fin : forall (s : bool) m e, ((if s then - (inject_Z (Zpos m) * Qpower 2 e) else inject_Z (Zpos m) * Qpower 2 e) == inject_Z n)%Q ->
    let sm := if s then Z.neg m else Z.pos m in if 0 <=? e then sm * 2 ^ e = n else sm = n * 2 ^ (- e)).
  { intros s m e H sm.
    assert (H1 : (inject_Z sm * FloatProofs.p2 e == inject_Z n)%Q).
    { destruct s; unfold sm; rewrite <- H; unfold FloatProofs.p2; [|reflexivity]. change (Z.neg m) with (- Z.pos m). rewrite inject_Z_opp. ring. }
    destruct (Z.leb_spec 0 e).
    - rewrite FloatProofs.p2_nat, <- inject_Z_mult in H1 by lia. exact (proj1 (inject_Z_injective _ _) H1).
    - apply (proj1 (inject_Z_injective _ _)). rewrite inject_Z_mult, <- FloatProofs.p2_nat, <- H1 by lia. rewrite <- Qmult_assoc, <- FloatProofs.p2_add.
      replace (e + - e) with 0 by lia. cbn. ring. }
  intros D E. destruct v as [s|s| |s m e]; cbn [JointModel.dvalue] in D; try discriminate; injection D as <-.
  - exists 0, 1. split; [split; [lia|reflexivity]|]. assert (n = 0) as -> by (apply (proj1 (inject_Z_injective _ _)); rewrite <- E; reflexivity). left. lia.
  - specialize (Fin s m e E). cbn zeta in Fin. unfold represents. destruct (Z.leb_spec 0 e) as [L|L].
    + exists n, 1. split; [split; [lia|lia]|]. unfold truncation. lia.
    + exists (if s then Z.neg m else Z.pos m), (2 ^ (- e)). assert (0 < 2 ^ (- e)) by (apply Z.pow_pos_nonneg; lia).
      split; [split; [lia|lia]|]. unfold truncation. nia.
Qed.

(** ** Reading *)
Lemma of_le_unsigned b : of_le b = unsigned_le b.
Proof. induction b as [|x b IH]; cbn [of_le unsigned_le]; [reflexivity|]. rewrite IH. reflexivity. Qed.
Lemma unsigned_bound b : Forall (fun x => 0 <= x < 256) b -> 0 <= unsigned_le b < 2 ^ (8 * Z.of_nat (List.length b)).
Proof.
  induction 1 as [|x b Hx _ IH]; cbn [unsigned_le List.length]; [cbn; lia|].
  replace (8 * Z.of_nat (S (List.length b))) with (8 + 8 * Z.of_nat (List.length b)) by lia. rewrite Z.pow_add_r by lia. change (2 ^ 8) with 256. nia.
Qed.
Lemma wrap_value i b : Forall (fun x => 0 <= x < 256) b -> Z.of_nat (List.length b) = i_size i -> wrap i (of_le b) = frame_value i b.
Proof.
  intros B L. unfold wrap, frame_value, signed_le, i_bits. rewrite of_le_unsigned, L. pose proof (unsigned_bound b B) as U. rewrite L in U.
  rewrite Z.mod_small by exact U. destruct (i_signed i); cbn [andb]; [|reflexivity].
  rewrite Z.leb_antisym. destruct (unsigned_le b <? 2 ^ (8 * i_size i - 1)); reflexivity.
Qed.
Lemma forall_parts (P : Z -> Prop) n l : Forall P l -> Forall P (firstn n l) /\ Forall P (skipn n l).
Proof. intros F. rewrite <- (firstn_skipn n l), Forall_app in F. exact F. Qed.
Lemma slice_bytes (P : Z -> Prop) l k src v : Forall P src -> slice l k src = Some v -> Forall P v.
Proof.
  revert src. induction l as [|[[k'|] n] l IH]; intros src F E; cbn [slice] in E; [discriminate| |].
  - destruct (k' =? k); [injection E as <-; apply (forall_parts P n src F)|]. apply IH in E; [exact E|apply (forall_parts P n src F)].
  - apply IH in E; [exact E|apply (forall_parts P n src F)].
Qed.
Lemma slice_in l k src : In k (keys l) -> exists v, slice l k src = Some v.
Proof.
  revert src. induction l as [|[[k'|] n] l IH]; intros src H; cbn [slice]; [destruct H| |].
  - unfold keys in H. cbn [flat_map fst app In] in H. destruct (Z.eqb_spec k' k) as [->|N]; [eauto|]. apply IH. destruct H; [contradiction|exact H].
  - apply IH. exact H.
Qed.

Lemma poll_ok T d l dv ks : forall last p w w1 rd, rx_mapped T d l last p w -> poll dv d T ks w = Ok (w1, rd) ->
  rx_mapped T d l last p w1 /\
  forall k, In k ks -> In k (keys l) -> rd k = match last k with Some v => number (T k) v | None => None end.
Proof.
  induction ks as [|k ks IH]; intros last p w w1 rd M R; cbn [poll] in R.
  - injection R as <- <-. split; [exact M|]. intros k [].
  - destruct (obj dv d k (SGet false) w) as [[w2 r]|] eqn:O; [|discriminate]. destruct (poll dv d T ks w2) as [[w3 rd3]|] eqn:P; [|discriminate].
    injection R as <- <-.
    assert (M2 : rx_mapped T d l last p w2 /\ (In k (keys l) -> match last k with Some v => r = inl (RVal v) | None => r = inr (PStorage DeviceError) end)).
    { destruct (existsb (Z.eqb k) (keys l)) eqn:Ek.
      - apply existsb_eqb in Ek. destruct (rx_get T d l last dv p w k false M Ek) as (w4 & r4 & O4 & M4 & RR). rewrite O in O4. injection O4 as <- <-.
        split; [exact M4|]. intros Hk. cbn [rx_result_ok] in RR. specialize (RR Hk). destruct (last k); congruence.
      - apply existsb_neqb in Ek. split; [exact (rx_other T d l last dv p w k (SGet false) w2 r M Ek Logic.I O)|]. contradiction. }
    destruct M2 as [M2 RR]. destruct (IH last p w2 w3 rd3 M2 P) as [M3 Hrd]. split; [exact M3|].
    intros j Hj Hl. destruct (Z.eqb_spec j k) as [->|N].
    + specialize (RR Hl). destruct (last k); rewrite RR; reflexivity.
    + apply Hrd; [|exact Hl]. destruct Hj; [congruence|assumption].
Qed.
