(** Properties C33-C38 and C68: process data objects. *)
From Verif Require Import Base CanModel CanSpec KeyModel StorageModel StorageSpec StorageProofs PdoModel PdoSpec PdoProofs PdoTxProofs PdoRxProofs PdoConfProofs PdoLiveProofs.

(** ** A dictionary used by the examples *)

Definition h8 (v : Z) : hold := hold_int (mkIty false 1) v.
Definition h16 (v : Z) : hold := hold_int (mkIty false 2) v.
Definition h32 (v : Z) : hold := hold_int (mkIty false 4) v.
Definition rw (def init : hold) : entry := mkEntry true true false def init.
Definition wo (def init : hold) : entry := mkEntry false true false def init.
Definition ro (def init : hold) : entry := mkEntry true false false def init.
Definition typed (t : ty) : hold := mkHold (Some t) None.
Definition T8 : ty := TInt (mkIty false 1).
Definition T16 : ty := TInt (mkIty false 2).

(** First receive PDO of the device: control word, a gap of one byte and a mode
    that is write only; first transmit PDO: status word and mode display. *)
Definition k_cw := key_sub 0x6040 0.
Definition k_mode := key_sub 0x6060 0.
Definition k_sw := key_sub 0x6041 0.
Definition k_disp := key_sub 0x6061 0.
Definition objects : dict := [
  (k_cw, rw (h16 0) no_value); (k_mode, wo (typed T8) no_value);
  (k_sw, ro (typed T16) no_value); (k_disp, ro (typed T8) no_value)].
Definition tx_params (tt : Z) : dict := [
  (key_sub 0x1400 0, ro (h8 2) no_value); (key_sub 0x1400 1, rw (h32 0x201) no_value);
  (key_sub 0x1400 2, rw (h8 tt) no_value);
  (key_sub 0x1600 0, rw (h8 3) no_value); (key_sub 0x1600 1, rw (h32 0x60400010) no_value);
  (key_sub 0x1600 2, rw (h32 0x00050008) no_value); (key_sub 0x1600 3, rw (h32 0x60600008) no_value)].
Definition rx_params (cob : Z) : dict := [
  (key_sub 0x1800 0, ro (h8 2) no_value); (key_sub 0x1800 1, rw (h32 cob) no_value);
  (key_sub 0x1800 2, rw (h8 1) no_value);
  (key_sub 0x1A00 0, rw (h8 2) no_value); (key_sub 0x1A00 1, rw (h32 0x60410010) no_value);
  (key_sub 0x1A00 2, rw (h32 0x60610008) no_value)].
Definition dev : device := mkDevice (fun _ _ data => (data, true)) (fun _ _ _ => true).
Definition fresh : pw := mkPW [] [] (fun _ => None) 1.
Definition junk8 : bytes := [0xAA; 0xAA; 0xAA; 0xAA; 0xAA; 0xAA; 0xAA; 0xAA].

(** ** C37 *)

Theorem C37_cob_id_decoded : forall inv nortr ext id fill, can_id_ok ext id ->
  let v := cob_layout inv nortr ext id in
  pdoid_header v fill = mkHeader id ext (fill && negb nortr) false /\
  header_isValid (pdoid_header v fill) = true /\ pdoid_invalid v = inv.
Proof. exact cob_id_decoded. Qed.
Print Assumptions C37_cob_id_decoded.

(** Values with an 11 bit identifier and higher identifier bits set are not laid
    out as CiA 301 says; their header is not valid. *)
Theorem C37_cob_id_reserved : forall v fill, 0 <= v < 2^32 ->
  header_isValid (pdoid_header v fill) = true <->
  exists inv nortr ext id, can_id_ok ext id /\ v = cob_layout inv nortr ext id.
Proof. exact cob_reserved. Qed.
Print Assumptions C37_cob_id_reserved.

Theorem C37_mapping_decoded : forall index sub len, 0 <= index < 2^16 -> 0 <= sub < 2^8 -> 0 <= len < 2^8 ->
  let v := map_layout index sub len in
  map_idx v = index /\ map_sub v = sub /\ map_length v = len.
Proof. exact map_decoded. Qed.
Print Assumptions C37_mapping_decoded.

Theorem C37_mapping_any : forall v, 0 <= v < 2^32 -> v = map_layout (map_idx v) (map_sub v) (map_length v).
Proof. exact map_any. Qed.
Print Assumptions C37_mapping_any.

Example C37_ex : pdoid_header 0x60012345 true = mkHeader 0x12345 true false false /\
  pdoid_invalid 0x80000181 = true /\ map_idx 0x60400010 = 0x6040 /\ map_length 0x60400010 = 16.
Proof. repeat split. Qed.

(** ** C36 *)

(** What a cycle reports, for every history: the PDO has a period [n], was
    received [c] cycles ago, and [c] exceeds it by two. *)
Theorem C36_reported_partial : forall p h, p_timeout p = -1 ->
  snd (rx_run p (h ++ [Cycle])) = snd (rx_run p h) ++
    [match period (p_type p) (h_rtr (f_hdr (p_frame p))), since (rev h) with
     | Some n, Some c => n + 2 <=? Z.of_nat c
     | _, _ => false
     end].
Proof. exact reported. Qed.
Print Assumptions C36_reported_partial.

(** Asynchronous ones are never reported. *)
Theorem C36_asynchronous : forall p h, p_timeout p = -1 ->
  p_type p = 0 \/ 240 < p_type p -> p_type p <> 0xFC ->
  Forall (fun r => r = false) (snd (rx_run p h)).
Proof.
  intros p h Ht Ha Hn. induction h as [|e h IH] using rev_ind; [constructor|].
  destruct e.
  - rewrite rx_run_app. destruct (rx_run p h) as [p1 o1]. cbn. rewrite app_nil_r. exact IH.
  - rewrite reported by exact Ht. apply Forall_app. split; [exact IH|]. constructor; [|constructor].
    unfold period. replace ((1 <=? p_type p) && (p_type p <=? 240)) with false by lia.
    replace (p_type p =? 252) with false by lia. reflexivity.
Qed.
Print Assumptions C36_asynchronous.

(** After any history a cycle sends a frame for a PDO of type 252 or 253 that is requested by remote frames,
    namely the PDO's own request, and nothing for any other. *)
Theorem C36_requests : forall p h f, p_timeout p = -1 ->
  (snd (rpdo_sync (fst (rx_run p h))) = Some f <->
   f = p_frame p /\ h_rtr (f_hdr f) = true /\ (p_type p = 0xFC \/ p_type p = 0xFD)).
Proof.
  intros p h f H. destruct (armed_run p h H) as (A & B & _). unfold rpdo_sync. cbn [snd]. rewrite A, B.
  destruct (((p_type p =? 0xFC) || (p_type p =? 0xFD)) && h_rtr (f_hdr (p_frame p))) eqn:E; split.
  - intros Q1. injection Q1 as <-. split; [reflexivity|]. apply andb_prop in E. destruct E as [E R]. split; [exact R|]. lia.
  - intros (-> & _). reflexivity.
  - discriminate.
  - intros (-> & R & T). rewrite R, andb_true_r in E. exfalso. lia.
Qed.
Print Assumptions C36_requests.
Example C36_requests_ex : let p := mkPdo (mkFrame (mkHeader 0x181 false true false) 0 junk8) 0xFD [] (-1) None in
  snd (rpdo_sync (fst (rx_run p [Received; Cycle]))) = Some (p_frame p).
Proof. reflexivity. Qed.

(** The report is repeated in every further cycle, not made once. *)
Theorem C36_once_refuted : exists p,
  p_timeout p = -1 /\ p_type p = 1 /\
  snd (rx_run p [Received; Cycle; Cycle; Cycle; Cycle; Cycle; Cycle]) = [false; false; false; true; true; true].
Proof. exists (mkPdo (mkFrame (mkHeader 0x181 false false false) 0 junk8) 1 [] (-1) None). repeat split. Qed.
Print Assumptions C36_once_refuted.

Example C36_ex : let p := mkPdo (mkFrame (mkHeader 0x181 false false false) 0 junk8) 2 [] (-1) None in
  snd (rx_run p [Cycle; Received; Cycle; Cycle; Cycle; Cycle; Received; Cycle]) =
    [false; false; false; false; false; false].
Proof. vm_compute. reflexivity. Qed.

(** ** C34: one buffer *)

Theorem C34_reported_changed : forall n ops,
  snd (buf_run (buf_new n) (ops ++ [BCycle])) = snd (buf_run (buf_new n) ops) ++ [written n (rev ops)].
Proof. exact buf_changed. Qed.
Print Assumptions C34_reported_changed.

Example C34_buf_ex : snd (buf_run (buf_new 2) [BCycle; BWrite [1; 2]; BWrite [1; 2]; BCycle; BCycle; BWrite [1]; BCycle])
  = [false; true; false; false].
Proof. reflexivity. Qed.

(** Reading mapped objects of a receive PDO: uncached reads return the bytes of
    the last frame (at the object's place in the layout), the preset value if
    none was received, and fail without one. Missing: frames shorter than the
    mapping and writes to the mapped objects, see the refutations. *)
Theorem C34_last_received_partial : forall T d l dv ops last p w,
  rx_mapped T d l last p w -> Forall (rx_allowed l) ops ->
  forall s' rs, rx_runs dv d ops (p, w) = Ok (s', rs) -> rx_conforms l last ops rs.
Proof. exact rx_history. Qed.
Print Assumptions C34_last_received_partial.

Theorem C34_reads_defined : forall T d l dv ops last p w,
  rx_mapped T d l last p w -> Forall (rx_allowed l) ops ->
  Forall (fun o => match o with XObj k _ => In k (keys l) | _ => True end) ops ->
  exists s' rs, rx_runs dv d ops (p, w) = Ok (s', rs).
Proof. exact rx_defined. Qed.
Print Assumptions C34_reads_defined.

(** The PDOs of the example, set up by the mapper itself. *)
Definition ex_dict := rx_params 0x181 ++ tx_params 255 ++ objects.
Definition ex_init := mapper_init dev ex_dict 1 junk8 4 4 (mkMapper [] []) fresh.
Definition ex_world : pw := Eval vm_compute in match ex_init with Ok (w, _, _) => w | Undef => fresh end.
Definition nopdo : pdo := mkPdo (mkFrame (mkHeader 0 false false false) 0 []) 0 [] 0 None.
Definition ex_rpdo : pdo := Eval vm_compute in match ex_init with Ok (_, m, _) => hd nopdo (rpdos m) | Undef => nopdo end.
Definition ex_tpdo : pdo := Eval vm_compute in match ex_init with Ok (_, m, _) => hd nopdo (tpdos m) | Undef => nopdo end.
Definition rx_layout : layout := [(Some k_sw, 2%nat); (Some k_disp, 1%nat)].
Definition tx_layout : layout := [(Some k_cw, 2%nat); (None, 1%nat); (Some k_mode, 1%nat)].
Definition ex_T (k : Z) : ty := if (k =? k_cw) || (k =? k_sw) then T16 else T8.

Example ex_init_ok : ex_init = Ok (ex_world, mkMapper [ex_rpdo] [ex_tpdo], None).
Proof. vm_compute. reflexivity. Qed.

Lemma lookup_In : forall A k (a : A) s, lookup k s = Some a -> In (k, a) s.
Proof.
  induction s as [|[k' a'] s IH]; cbn; [discriminate|].
  destruct (Z.eqb_spec k' k) as [->|]; [intros H; injection H as ->; left; reflexivity|right; auto].
Qed.

Definition memb (i : nat) (l : list nat) : bool := existsb (Nat.eqb i) l.
Lemma memb_spec : forall i l, memb i l = true <-> In i l.
Proof.
  intros i l. unfold memb. rewrite existsb_exists. split.
  - intros [x [H E]]. apply Nat.eqb_eq in E. subst. exact H.
  - intros H. exists i. split; [exact H|apply Nat.eqb_refl].
Qed.
Definition own (a b : cell -> nat) (l : layout) (ids : list nat) (w : pw) : bool :=
  forallb (fun x => negb (memb (a (snd x)) ids) && (negb (memb (b (snd x)) ids) || existsb (Z.eqb (fst x)) (keys l))) (w_store w).
Lemma own_spec : forall a b l ids w, own a b l ids w = true -> forall k c, lookup k (w_store w) = Some c ->
  ~ In (a c) ids /\ (In (b c) ids -> In k (keys l)).
Proof.
  intros a b l ids w H k c E. apply lookup_In in E. unfold own in H. rewrite forallb_forall in H.
  specialize (H _ E). cbn [fst snd] in H. apply andb_prop in H as [H1 H2]. apply negb_true_iff in H1. split.
  - intros X. apply memb_spec in X. congruence.
  - intros X. apply memb_spec in X. rewrite X in H2. cbn in H2. apply existsb_exists in H2 as [y [Hy Ey]].
    apply Z.eqb_eq in Ey. subst. exact Hy.
Qed.

Example C34_ex_mapped : rx_mapped ex_T ex_dict rx_layout (held_of ex_world) ex_rpdo ex_world.
Proof.
  constructor.
  - vm_compute. reflexivity.
  - vm_compute. intuition discriminate.
  - vm_compute. repeat constructor; cbn; intuition discriminate.
  - vm_compute. repeat constructor; cbn; intuition discriminate.
  - intros x i H. vm_compute in H. destruct H as [H|[H|[]]]; injection H as <- <-.
    + eexists. split; [vm_compute; reflexivity|]. split; [reflexivity|]. split; [reflexivity|]. cbn [fst].
      do 2 eexists. repeat (split; [vm_compute; reflexivity|]). vm_compute. repeat split.
    + eexists. split; [vm_compute; reflexivity|]. split; [reflexivity|]. split; [reflexivity|]. cbn [fst].
      do 2 eexists. repeat (split; [vm_compute; reflexivity|]). vm_compute. repeat split.
  - apply own_spec. vm_compute. reflexivity.
Qed.

Example C34_ex : exists s rs,
  rx_runs dev ex_dict [XObj k_sw (SGet false); XFrame (mkFrame (mkHeader 0x181 false false false) 3 [1; 2; 3; 0; 0; 0; 0; 0]);
                       XObj k_disp (SGet false); XObj k_sw (SGet false); XCycle; XObj k_sw (SGet false)] (ex_rpdo, ex_world)
  = Ok (s, rs) /\
  rs = [XRes (inl (RVal [0; 0])); XNone; XRes (inl (RVal [3])); XRes (inl (RVal [1; 2])); XNone; XRes (inl (RVal [1; 2]))].
Proof. do 2 eexists. split; vm_compute; reflexivity. Qed.

(** A value written by the application (through SDO) is returned until the next
    frame arrives. *)
Definition ex_rw : dict := rx_params 0x181 ++ [(k_sw, rw (typed T16) no_value); (k_disp, ro (typed T8) no_value)].
Theorem C34_own_write_refuted : exists w p s,
  mapper_init dev ex_rw 1 junk8 4 4 (mkMapper [] []) fresh = Ok (w, mkMapper [p] [], None) /\
  rx_runs dev ex_rw [XFrame (mkFrame (mkHeader 0x181 false false false) 3 [1; 2; 3; 0; 0; 0; 0; 0]);
                     XObj k_sw (SGet false); XObj k_sw (SSet [9; 9]); XObj k_sw (SGet false)] (p, w) =
    Ok (s, [XNone; XRes (inl (RVal [1; 2])); XRes (inl RDone); XRes (inl (RVal [9; 9]))]).
Proof. do 3 eexists. split; vm_compute; reflexivity. Qed.
Print Assumptions C34_own_write_refuted.

(** An object mapped with a length that is not the one of its type: every uncached read and every
    write fails with an exception, and the buffer stays as it is. *)
Theorem C34_size_mismatch : forall dv d k e c T i b w v,
  lookup k d = Some e -> lookup k (w_store w) = Some c -> c_type c = TInt T -> c_valid c = true ->
  List.length (c_buf c) = ty_size (TInt T) -> e_constant e = false ->
  w_bufs w (S i) = Some b -> b_size b <> ty_size (TInt T) -> List.length v = ty_size (TInt T) ->
  (c_rd c = S i -> e_readable e = true ->
     exists w1, obj dv d k (SGet false) w = Ok (w1, inr (PStorage DeviceError)) /\ w_bufs w1 (S i) = Some b) /\
  (c_wr c = S i -> e_writable e = true ->
     exists w1, obj dv d k (SSet v) w = Ok (w1, inr (PStorage DeviceError)) /\ w_bufs w1 (S i) = Some b).
Proof.
  intros dv d k e c T i b w v Ld Ls Ct Cv Cl Ec Lb Ne Lv. unfold obj. rewrite Ls, Ld.
  assert (Nb : (b_size b =? ty_size (TInt T))%nat = false) by (apply Nat.eqb_neq; exact Ne).
  assert (Al : allocate c = c) by (unfold allocate; rewrite Ct, Cv; reflexivity).
  split.
  - intros R Er. unfold cell_op. rewrite R.
    assert (Rd : delegate_read dv w k (S i) (c_buf c) = (c_buf c, false))
      by (cbn [delegate_read]; rewrite Lb; unfold buf_get; rewrite Cl, Nb; reflexivity).
    cbn [to_op step]. unfold data_get. rewrite Er, Ec, Cv. cbn [negb orb]. rewrite Al, Rd. unfold ret.
    unfold live_events. cbn [forallb event_delegate]. rewrite R. unfold live. rewrite Lb. cbn [andb fold_left apply_event].
    eexists. split; [reflexivity|]. exact Lb.
  - intros R Ew. unfold cell_op. cbn [to_op step]. unfold data_set. rewrite Ew. cbn [negb].
    assert (As : assign c v = Ok (set_buf c v)).
    { unfold assign. rewrite Al, Ct, Cl, Nat.ltb_irrefl. rewrite skipn_all2 by lia. rewrite app_nil_r. reflexivity. }
    unfold data_write. rewrite As. unfold ret. cbn [set_buf c_buf].
    assert (Wo : forall x, writes_ok dv w k [EvWrite (c_wr c) v x] = false).
    { intros x. unfold writes_ok. cbn [forallb]. rewrite R. unfold delegate_write. rewrite Lb. unfold buf_set.
      rewrite Lv, Nb. reflexivity. }
    rewrite Wo. unfold live_events. cbn [forallb event_delegate]. rewrite R. unfold live. rewrite Lb.
    cbn [andb fold_left apply_event]. eexists. split; [reflexivity|]. exact Lb.
Qed.
Print Assumptions C34_size_mismatch.

(** The statusword mapped with 8 bits *)
Definition ex_short : pw :=
  mkPW [(k_sw, mkCell T16 true [1; 2] 1 0)] [] (fun i => if (i =? 1)%nat then Some (mkBuf 1 true false [7]) else None) 2.
Example C34_size_ex :
  exists w1, obj dev [(k_sw, rw (typed T16) no_value)] k_sw (SGet false) ex_short = Ok (w1, inr (PStorage DeviceError)) /\
    w_bufs w1 1%nat = Some (mkBuf 1 true false [7]).
Proof.
  exact (proj1 (C34_size_mismatch dev [(k_sw, rw (typed T16) no_value)] k_sw (rw (typed T16) no_value)
           (mkCell T16 true [1; 2] 1 0) (mkIty false 2) 0 (mkBuf 1 true false [7]) ex_short [3; 4]
           ltac:(vm_compute; reflexivity) ltac:(vm_compute; reflexivity) eq_refl eq_refl eq_refl eq_refl eq_refl
           ltac:(discriminate) eq_refl) eq_refl eq_refl).
Qed.

(** ** C35 *)

(** Histories of writes, cached reads, initialisations and cycles: a frame is
    sent exactly if something was written since the last cycle, and it shows
    the newest value of every mapped object that has one. Missing: uncached
    reads and resets of the mapped objects, see the refutation. *)
Theorem C35_transmission_partial : forall T d l dv ops p w,
  tx_mapped T d l p w -> Forall (tx_allowed T l) ops ->
  forall s' rs, tx_run dv d ops (p, w) = Ok (s', rs) ->
  tx_conforms T d (f_hdr (p_frame p)) l (mkTx (held_of w) (some_dirty p w)) ops rs.
Proof.
  intros T d l dv ops p w M Ha s' rs R. eapply tx_history; [|exact Ha|exact R].
  split; [exact M|]. repeat split.
Qed.
Print Assumptions C35_transmission_partial.

Theorem C35_defined : forall T d l dv ops p w,
  tx_mapped T d l p w -> Forall (tx_allowed T l) ops ->
  Forall (fun o => match o with WObj k _ => In k (keys l) | WCycle => True end) ops ->
  exists s' rs, tx_run dv d ops (p, w) = Ok (s', rs).
Proof.
  intros T d l dv ops p w M Ha Hk. eapply (tx_defined T d l (f_hdr (p_frame p)) dv ops p w (mkTx (held_of w) (some_dirty p w)));
    [|exact Ha|exact Hk]. split; [exact M|]. repeat split.
Qed.
Print Assumptions C35_defined.

Example C35_ex_mapped : tx_mapped ex_T ex_dict tx_layout ex_tpdo ex_world.
Proof.
  constructor.
  - vm_compute. reflexivity.
  - vm_compute. intuition discriminate.
  - vm_compute. repeat constructor; cbn; intuition discriminate.
  - vm_compute. repeat constructor; cbn; intuition discriminate.
  - vm_compute. lia.
  - vm_compute. reflexivity.
  - vm_compute. reflexivity.
  - intros x i H. vm_compute in H. destruct H as [H|[H|[H|[]]]]; injection H as <- <-.
    + eexists. split; [vm_compute; reflexivity|]. split; [reflexivity|]. split; [reflexivity|]. cbn [fst].
      do 2 eexists. repeat (split; [vm_compute; reflexivity|]). split; [vm_compute; repeat split|]. 
      repeat (split; [vm_compute; auto|]). vm_compute. auto.
    + eexists. split; [vm_compute; reflexivity|]. split; [reflexivity|]. split; reflexivity.
    + eexists. split; [vm_compute; reflexivity|]. split; [reflexivity|]. split; [reflexivity|]. cbn [fst].
      do 2 eexists. repeat (split; [vm_compute; reflexivity|]). split; [vm_compute; repeat split|].
      repeat (split; [vm_compute; auto; try discriminate|]). vm_compute. intuition discriminate.
  - apply own_spec. vm_compute. reflexivity.
Qed.

Example C35_ex : exists s rs, tx_run dev ex_dict
   [WCycle; WObj k_cw (SSet [15; 0]); WObj k_mode (SSetCached [8]); WCycle; WObj k_mode (SSetCached [8]); WCycle] (ex_tpdo, ex_world)
  = Ok (s, rs) /\
  rs = [WSent None; WRes (inl RDone); WRes (inl RDone);
        WSent (Some (mkFrame (mkHeader 0x201 false false false) 4 [15; 0; 0xAA; 8; 0xAA; 0xAA; 0xAA; 0xAA]));
        WRes (inl RDone); WSent None].
Proof. do 2 eexists. split; vm_compute; reflexivity. Qed.

(** An uncached read replaces the cached value by the one of the device; then a
    cached write of that value is skipped although the PDO still holds, and the
    device last received, another one. *)
Definition dev_other : device := mkDevice (fun lg k data => if k =? k_cw then ([6; 0], true) else (data, true)) (fun _ _ _ => true).
Theorem C35_newest_value_refuted : exists s f1 f2, tx_run dev_other ex_dict
   [WObj k_cw (SSet [15; 0]); WCycle; WObj k_cw (SGet false); WObj k_cw (SSetCached [6; 0]); WObj k_mode (SSet [8]); WCycle] (ex_tpdo, ex_world)
  = Ok (s, [WRes (inl RDone); WSent (Some f1); WRes (inl (RVal [6; 0])); WRes (inl RDone); WRes (inl RDone); WSent (Some f2)]) /\
  firstn 2 (f_data f2) = [15; 0].
Proof. do 3 eexists. split; vm_compute; reflexivity. Qed.
Print Assumptions C35_newest_value_refuted.

(** An object that was never written and cannot be read is sent with whatever
    the frame contained: the mode byte in the frame below is uninitialised. *)
Theorem C35_uninitialised_refuted : forall j, List.length j = 8%nat -> exists w p s f,
  mapper_init dev ex_dict 1 j 0 4 (mkMapper [] []) fresh = Ok (w, mkMapper [] [p], None) /\
  tx_run dev ex_dict [WObj k_cw (SSet [15; 0]); WCycle] (p, w) = Ok (s, [WRes (inl RDone); WSent (Some f)]) /\
  nth 3 (f_data f) 0 = nth 3 j 0.
Proof.
  intros j Hj. destruct j as [|a0 [|a1 [|a2 [|a3 [|a4 [|a5 [|a6 [|a7 [|]]]]]]]]]; try discriminate.
  do 4 eexists. split; [vm_compute; reflexivity|]. split; vm_compute; reflexivity.
Qed.
Print Assumptions C35_uninitialised_refuted.

(** ** C33 *)

(** A frame sent shows every value at its place. *)
Theorem C33_transmit_content : forall T d l p w p1 w1 f,
  tx_mapped T d l p w -> tpdo_sync p w = Ok (p1, w1, Some f) ->
  f_dlc f = Z.of_nat (total l) /\ shows l (held_of w) (f_data f).
Proof.
  intros T d l p w p1 w1 f M H.
  destruct (tx_cycle T d l (f_hdr (p_frame p)) p w (mkTx (held_of w) (some_dirty p w))) as [p2 [w2 [g [E [_ R]]]]].
  - split; [exact M|]. repeat split.
  - rewrite H in E. injection E as <- <- <-. destruct R as [_ [_ [R1 [_ R2]]]]. split; assumption.
Qed.
Print Assumptions C33_transmit_content.

(** A frame of sufficient length delivers to every object its bytes. *)
Theorem C33_receive_content_partial : forall T d l last dv p w f k,
  rx_mapped T d l last p w -> rx_allowed l (XFrame f) -> In k (keys l) ->
  exists p1 w1 v w2, rpdo_handle p f w = Ok (p1, w1) /\ slice l k (f_data f) = Some v /\
    obj dv d k (SGet false) w1 = Ok (w2, inl (RVal v)).
Proof.
  intros T d l last dv p w f k M Ha Hk.
  destruct (rx_frame T d l last p w f M Ha) as [p1 [w1 [E M1]]].
  destruct (rx_get T d l _ dv p1 w1 k false M1 Hk) as [w2 [r [Eo [_ R]]]].
  unfold rx_result_ok, rx_last in R. specialize (R Hk).
  destruct (keys_entry _ _ Hk) as [n Hn].
  destruct (combine_left _ _ _ (p_bufs p) _ (rxm_len _ _ _ _ _ _ M) Hn) as [i Hi].
  destruct (placed_slice l (p_bufs p) (f_data f) k n i (rxm_len _ _ _ _ _ _ M) (rxm_nodup _ _ _ _ _ _ M) (rxm_keys _ _ _ _ _ _ M) Hi) as [v [_ Hv]].
  rewrite Hv in R. injection R as ->. exists p1, w1, v, w2. auto.
Qed.
Print Assumptions C33_receive_content_partial.

Lemma shows_slice : forall l cur data k v, NoDup (keys l) -> shows l cur data -> In k (keys l) -> cur k = Some v ->
  slice l k data = Some v.
Proof.
  induction l as [|[[k'|] n] l IH]; intros cur data k v Nk S Hk Hc; cbn [slice shows] in *; [contradiction| |].
  - unfold keys in Nk, Hk. cbn [flat_map fst app In] in Nk, Hk. apply NoDup_cons_iff in Nk as [Hni Nk].
    destruct S as [S1 S2]. destruct (Z.eqb_spec k' k) as [->|N].
    + f_equal. exact (S1 k v eq_refl Hc).
    + destruct Hk as [->|Hk]; [contradiction|]. eapply IH; eassumption.
  - destruct S as [_ S]. eapply IH; eassumption.
Qed.

(** Sending and receiving with the same layout: the receiver reads what the
    sender holds. Gaps take their place in both. *)
Theorem C33_round_trip : forall Ta da pa wa pa1 wa1 f Tb db last dv pb wb l k v,
  tx_mapped Ta da l pa wa -> tpdo_sync pa wa = Ok (pa1, wa1, Some f) ->
  rx_mapped Tb db l last pb wb -> In k (keys l) -> held_of wa k = Some v ->
  exists pb1 wb1 wb2, rpdo_handle pb f wb = Ok (pb1, wb1) /\
    obj dv db k (SGet false) wb1 = Ok (wb2, inl (RVal v)).
Proof.
  intros Ta da pa wa pa1 wa1 f Tb db last dv pb wb l k v Ma Es Mb Hk Hv.
  destruct (tx_cycle Ta da l (f_hdr (p_frame pa)) pa wa (mkTx (held_of wa) (some_dirty pa wa))) as [p2 [w2 [g [E [_ R]]]]].
  { split; [exact Ma|]. repeat split. }
  rewrite Es in E. injection E as <- <- <-. destruct R as [_ [_ [R1 [R3 R2]]]].
  assert (Ha : rx_allowed l (XFrame f)).
  { split; [|exact R3]. pose proof (txm_total _ _ _ _ _ Ma). lia. }
  destruct (C33_receive_content_partial _ _ _ _ dv _ _ _ k Mb Ha Hk) as [p1 [w1 [v' [w3 [E1 [E2 E3]]]]]].
  rewrite (shows_slice l (held_of wa) (f_data f) k v (txm_keys _ _ _ _ _ Ma) R2 Hk Hv) in E2. injection E2 as <-.
  exists p1, w1, w3. auto.
Qed.
Print Assumptions C33_round_trip.

(** A frame that is too short for a large object still fills the smaller ones
    behind it, from the place of the large one. *)
Theorem C33_short_frame_refuted : exists bufs,
  rpdo_spread (fun i => match i with 1%nat => Some (buf_new 4) | 2%nat => Some (buf_new 1) | _ => None end)
              [1; 2]%nat 1 [7; 0; 0; 0; 0; 0; 0; 0] = Ok bufs /\
  bufs 1%nat = Some (buf_new 4) /\ bufs 2%nat = Some (mkBuf 1 true false [7]).
Proof. eexists. split; [reflexivity|]. split; reflexivity. Qed.
Print Assumptions C33_short_frame_refuted.

Example C33_ex : shows tx_layout (fun k => if k =? k_cw then Some [1; 2] else if k =? k_mode then Some [3] else None)
                       [1; 2; 0xAA; 3; 0; 0; 0; 0] /\
  slice tx_layout k_mode [1; 2; 0xAA; 3; 0; 0; 0; 0] = Some [3].
Proof. split; [|reflexivity]. cbn. repeat split; intros k v H E; try discriminate; injection H as <-; injection E as <-; reflexivity. Qed.

(** ** C38 *)

(** All writes parse_and_set_mapping makes are accepted by a device that
    insists on the protocol; when it ends normally and something was configured
    the PDO is enabled as the dictionary says, with the configured count.
    Hypotheses: COB-ID and count are writable and accessed through SDO. *)
Theorem C38_protocol_partial : forall com map dv d nid rdf wrf dlc en ec w s w1 r,
  0 <= com < 2^16 -> 0 <= map < 2^16 -> com <> map ->
  lookup (key_sub map 0) d = Some en -> e_writable en = true ->
  lookup (key_sub com 1) d = Some ec -> e_writable ec = true ->
  (forall x n, lookup (key_sub com 0) d = Some x -> hold_get U8 (e_value x) = Some n -> n <= 255) ->
  (0 < w_next w)%nat -> plain_access w (key_sub map 0) -> plain_access w (key_sub com 1) ->
  parse_and_set_mapping dv d nid com map rdf wrf dlc w = Ok (w1, r) ->
  exists log, w_log w1 = w_log w ++ log /\ reconf_ok com map s log /\
    forall res, r = inl res ->
      plain_access w1 (key_sub map 0) -> plain_access w1 (key_sub com 1) -> 
      1 <= pdo_count d map <= 64 ->
      (exists i e, 1 <= i <= pdo_count d map /\ lookup (key_sub map i) d = Some e /\ h_data (e_init e) <> None) ->
      dp_count (reconf_end com map s log) = pdo_count d map /\
      exists v, given_u32 nid ec v /\
                dp_enabled (reconf_end com map s log) = negb (Z.testbit v 31).
Proof.
  intros com map dv d nid rdf wrf dlc en ec w s w1 r Hc Hm Hne En Wn Ec Wc Hsubs Pos P1 P2 E.
  pose proof (parse_legal com map Hc Hm Hne dv d nid rdf wrf dlc en ec En Wn Ec Wc Hsubs) as T.
  cbv zeta in T. destruct (T w s w1 r Pos (conj P1 P2) E) as [_ [log [L [O Q]]]].
  exists log. split; [exact L|]. split; [exact O|]. intros res -> Q1 Q2 Hn [i [e [Hi [Hl He]]]].
  set (n := match hold_get U8 (e_value en) with Some v => v | None => 0 end) in *.
  assert (Hcount : pdo_count d map = n) by (unfold pdo_count; rewrite En; reflexivity). rewrite Hcount in *.
  assert (Hch : check_map_changed d n map = true).
  { unfold check_map_changed. replace (n <=? 64) with true by lia. apply existsb_exists. exists (i - 1).
    split; [apply in_range; lia|]. replace (i - 1 + 1) with i by lia. unfold has_init. rewrite Hl.
    destruct (h_data (e_init e)); [reflexivity|contradiction]. }
  assert (Cells : (exists c, lookup (key_sub map 0) (w_store w1) = Some c) /\ (exists c, lookup (key_sub com 1) (w_store w1) = Some c)).
  { clear - E Pos En. unfold parse_and_set_mapping in E. cbv zeta in E.
    apply bind_inl in E as [w2 [[] [E1 E]]]. destruct (entry_of_inv _ _ _ _ _ _ E1) as [[c [C1 _]] _].
    pose proof (Eff_entry_of True _ _ _ _ _ _ _ Pos E1) as [N2 _].
    apply bind_inl in E as [w3 [e [E2 E]]]. unfold desc in E2. destruct (lookup (key_sub map 0) d); [|discriminate]. injection E2 as <- _.
    apply bind_inl in E as [w4 [[] [E3 E]]]. destruct (entry_of_inv _ _ _ _ _ _ E3) as [[c' [C1' _]] _].
    match type of E3 with _ ?w' = _ => assert (Pw : (0 < w_next w')%nat) by lia end.
    pose proof (Eff_entry_of True _ _ _ _ _ _ _ Pw E3) as [N4 [_ F4]].
    destruct (F4 _ _ C1) as [c2 [C2 _]].
    assert (G : eff (fun _ => True) False w4 w1).
    { revert E. match goal with |- ?m w4 = _ -> _ => assert (X : Eff (fun _ => True) False m); [|intros E; eapply X; [|exact E]; lia] end.
      apply Eff_bind; [apply Eff_desc|]. intros ce.
      assert (W : forall A K (m : M A), Eff K False m -> Eff (fun _ => True) False m) by (intros A K m; apply Eff_weaken; auto).
      apply Eff_bind; [apply Eff_when; intros _; apply Eff_bind; [eapply W, Eff_get_val|intros; eapply W, Eff_set_val]|]. intros _.
      apply Eff_bind.
      { destruct (_ && _); [|apply Eff_retm]. apply Eff_bind; [apply Eff_when; intros _; eapply W, Eff_set_val|]. intros _. eapply W, Eff_map_loop. }
      intros x. apply Eff_bind.
      { apply Eff_when. intros _. apply Eff_bind; [apply Eff_desc|]. intros y. destruct (hold_get U8 (e_value y)); [|apply Eff_throw].
        apply Eff_bind; [apply Eff_assert|]. intros _. eapply W, Eff_init_com. }
      intros _. apply Eff_bind; [apply Eff_when; intros _; eapply W, Eff_set_val|]. intros _.
      apply Eff_bind; [|intros; apply Eff_retm]. apply Eff_when. intros _. apply Eff_bind; [eapply W, Eff_init_key|]. intros _.
      destruct (apply_u32 nid (e_value ce)); [eapply W, Eff_set_val|apply Eff_throw]. }
    destruct G as [_ [_ F]]. destruct (F _ _ C2) as [x [X _]]. destruct (F _ _ C1') as [y [Y _]]. eauto. }
  destruct Cells as [[c1 C1] [c2 C2]]. destruct Q as [Qa Qb]. split.
  - rewrite (Qa Hch).
    + apply Z.mod_small. lia.
    + exists c1. split; [exact C1|]. apply (Q1 c1 C1).
  - destruct Qb as [v [V1 V2]]; [rewrite Hch; reflexivity|exists c2; split; [exact C2|apply (Q2 c2 C2)]|].
    exists v. split; [apply apply_given; exact V1|exact V2].
Qed.
Print Assumptions C38_protocol_partial.

(** The part of the protocol about the transmission type, as a test *)
Fixpoint com_check (com map : Z) (s : dpdo) (log : list (Z * event)) : bool :=
  match log with
  | [] => true
  | x :: t => match snd x with EvWrite O _ _ => negb (fst x =? key_sub com 2) || negb (dp_enabled s) | _ => true end
              && com_check com map (reconf_step com map s x) t
  end.
Lemma com_bad : forall com map log s, reconf_ok com map s log -> com_check com map s log = true.
Proof.
  intros com map. induction log as [|x t IH]; intros s H; [reflexivity|]. destruct H as [L H].
  cbn [com_check]. rewrite (IH _ H), andb_true_r. unfold reconf_legal in L.
  destruct (snd x) as [n b o|n b o]; [reflexivity|]. destruct n; [|reflexivity]. destruct L as [_ [_ L]].
  destruct (Z.eqb_spec (fst x) (key_sub com 2)) as [E|]; [|reflexivity].
  rewrite (L 2); [reflexivity|lia|exact E].
Qed.

Definition sdo_writes (log : list (Z * event)) : list (Z * bytes) :=
  flat_map (fun x => match snd x with EvWrite O b true => [(fst x, b)] | _ => [] end) log.

(** The overlay configures a mapping entry and the transmission type. *)
Definition cfg_dict (tt_init map_init : hold) : dict := [
  (key_sub 0x1800 0, ro (h8 2) no_value); (key_sub 0x1800 1, rw (h32 0x181) no_value);
  (key_sub 0x1800 2, rw (h8 255) tt_init);
  (key_sub 0x1A00 0, rw (h8 1) no_value); (key_sub 0x1A00 1, rw (h32 0x60610008) map_init)] ++ objects.
Example C38_ex : exists w1 r,
  parse_and_set_mapping dev (cfg_dict (h8 1) (h32 0x60410010)) 1 0x1800 0x1A00 true false 0 fresh = Ok (w1, inl r) /\
  sdo_writes (w_log w1) =
    [(key_sub 0x1800 1, [0x81; 1; 0; 0x80]); (key_sub 0x1A00 0, [0]); (key_sub 0x1A00 1, [0x10; 0; 0x41; 0x60]);
     (key_sub 0x1800 2, [1]); (key_sub 0x1A00 0, [1]); (key_sub 0x1800 1, [0x81; 1; 0; 0])].
Proof. do 2 eexists. split; vm_compute; reflexivity. Qed.

(** Nothing is written to the device if no mapping parameter is configured. (Sub-indices 0 to 6 are
    looked at even if the mapping has fewer objects; communication parameters are not looked at, see
    below.) *)
Theorem C38_unconfigured : forall com map dv d nid rdf wrf dlc w w1 r,
  (0 < w_next w)%nat -> pdo_count d map <= 64 ->
  (forall i e, 0 <= i <= 6 \/ 1 <= i <= pdo_count d map -> lookup (key_sub map i) d = Some e -> h_data (e_init e) = None) ->
  parse_and_set_mapping dv d nid com map rdf wrf dlc w = Ok (w1, r) ->
  exists log, w_log w1 = w_log w ++ log /\ forall k b ok, ~ In (k, EvWrite 0 b ok) log.
Proof.
  intros com map dv d nid rdf wrf dlc w w1 r Pos Hn H E.
  assert (NI : forall i, 0 <= i <= 6 \/ 1 <= i <= pdo_count d map -> has_init d (key_sub map i) = false).
  { intros i Hi. unfold has_init. destruct (lookup (key_sub map i) d) as [e|] eqn:L; [|reflexivity]. rewrite (H i e Hi L). reflexivity. }
  assert (C : check_com_changed d map = false).
  { unfold check_com_changed. apply not_true_is_false. intros X. apply existsb_exists in X as [s [I X]]. apply range_in in I. rewrite NI in X by lia. discriminate. }
  assert (EF : Eff never False (parse_and_set_mapping dv d nid com map rdf wrf dlc)).
  { unfold parse_and_set_mapping. cbv zeta. rewrite C. apply Eff_bind; [apply Eff_entry_of|]. intros _.
    intros v v1 q P. unfold bind at 1. unfold desc at 1. unfold pdo_count in *. destruct (lookup (key_sub map 0) d) as [en|] eqn:En; [|intros X; injection X as <- _; apply eff_refl].
    set (n := match hold_get U8 (e_value en) with Some v => v | None => 0 end) in *.
    assert (Cm : check_map_changed d n map = false).
    { unfold check_map_changed. replace (n <=? 64) with true by (symmetry; apply Z.leb_le; lia).
      apply not_true_is_false. intros X. apply existsb_exists in X as [s [I X]]. apply range_in in I. rewrite NI in X by lia. discriminate. }
    rewrite Cm. cbn [orb andb]. revert v v1 q P. match goal with |- forall v v1 q, _ -> ?m v = _ -> _ => change (Eff never False m) end.
    apply Eff_bind; [apply Eff_entry_of|]. intros _. apply Eff_bind; [apply Eff_desc|]. intros ce.
    apply Eff_bind; [apply Eff_retm|]. intros _. apply Eff_bind.
    - destruct (_ && _); [|apply Eff_retm]. apply Eff_bind; [apply Eff_retm|]. intros _.
      eapply Eff_weaken; [|intros HD; exact HD|apply Eff_map_loop].
      intros k [s [I [-> X]]]. apply in_map_iff in I as [j [<- I]]; apply range_in in I. rewrite (NI (j + 1)) in X by lia. discriminate.
    - intros res. repeat (apply Eff_bind; [apply Eff_retm|intros _]). apply Eff_retm. }
  destruct (EF w w1 r Pos E) as [_ [[log [L F]] _]]. exists log. split; [exact L|]. intros k b ok I.
  rewrite Forall_forall in F. exact (F _ I).
Qed.
Print Assumptions C38_unconfigured.
Example C38_unconfigured_ex : exists w1 r, pdo_count (rx_params 0x181 ++ objects) 0x1A00 = 2 /\
  parse_and_set_mapping dev (rx_params 0x181 ++ objects) 1 0x1800 0x1A00 true false 0 fresh = Ok (w1, inl r).
Proof. do 2 eexists. split; vm_compute; reflexivity. Qed.

(** If only communication parameters are configured the PDO is not disabled
    (line 107 passes the index of the mapping); the value is written by the
    later initialisation of all objects while the PDO is enabled. *)
Theorem C38_communication_only_refuted : exists w1 r w2,
  let d := cfg_dict (h8 1) no_value in
  parse_and_set_mapping dev d 1 0x1800 0x1A00 true false 0 fresh = Ok (w1, inl r) /\
  init_key dev d (key_sub 0x1800 2) w1 = Ok (w2, inl tt) /\
  sdo_writes (w_log w2) = [(key_sub 0x1800 2, [1])] /\
  ~ reconf_ok 0x1800 0x1A00 (mkDpdo true 1) (w_log w2).
Proof.
  do 3 eexists. split; [vm_compute; reflexivity|]. split; [vm_compute; reflexivity|]. split; [vm_compute; reflexivity|].
  intros H. apply com_bad in H. vm_compute in H. discriminate.
Qed.
Print Assumptions C38_communication_only_refuted.

(** The transmission type of a transmit PDO is written while it is enabled. *)
Theorem C38_transmission_type_refuted : exists w1 p,
  tpdo_init dev (tx_params 0 ++ objects) 1 junk8 0x1400 0x1600 fresh = Ok (w1, inl (Some p)) /\
  sdo_writes (w_log w1) = [(key_sub 0x1400 2, [1])] /\
  ~ reconf_ok 0x1400 0x1600 (mkDpdo true 3) (w_log w1).
Proof.
  do 2 eexists. split; [vm_compute; reflexivity|]. split; [vm_compute; reflexivity|].
  intros H. apply com_bad in H. vm_compute in H. discriminate.
Qed.
Print Assumptions C38_transmission_type_refuted.

(** ** C68 *)

(** Setting up the PDOs leaves no object connected to a destroyed buffer if
    every PDO of the dictionary with mapped objects is enabled and no exception
    occurs. *)
Theorem C68_no_dangling_partial : forall dv d nid junk nr_tx nr_rx w w1 m,
  pdos_enabled d nid 0x1800 0x1A00 -> pdos_enabled d nid 0x1400 0x1600 ->
  no_dangling w -> mapper_init dv d nid junk nr_tx nr_rx (mkMapper [] []) w = Ok (w1, m, None) -> no_dangling w1.
Proof. exact mapper_live. Qed.
Print Assumptions C68_no_dangling_partial.

(** A disabled PDO with mapped objects is destroyed after its objects have been
    connected to its buffers; reading such an object calls a destroyed buffer. *)
Theorem C68_disabled_pdo_refuted : exists w1,
  let d := rx_params 0x80000181 ++ objects in
  mapper_init dev d 1 junk8 4 4 (mkMapper [] []) fresh = Ok (w1, mkMapper [] [], None) /\
  ~ no_dangling w1 /\ obj dev d k_sw (SGet false) w1 = Undef.
Proof.
  eexists. cbv zeta. split; [vm_compute; reflexivity|]. split; [|vm_compute; reflexivity].
  intros H. assert (E : exists c, lookup k_sw (w_store (match mapper_init dev (rx_params 0x80000181 ++ objects) 1 junk8 4 4 (mkMapper [] []) fresh with Ok (w, _, _) => w | Undef => fresh end)) = Some c /\ live (match mapper_init dev (rx_params 0x80000181 ++ objects) 1 junk8 4 4 (mkMapper [] []) fresh with Ok (w, _, _) => w | Undef => fresh end) (c_rd c) = false).
  { eexists. split; vm_compute; reflexivity. }
  destruct E as [c [E1 E2]]. vm_compute in E1. injection E1 as <-. specialize (H k_sw). 
  edestruct H as [H1 _]; [vm_compute; reflexivity|]. vm_compute in H1. discriminate.
Qed.
Print Assumptions C68_disabled_pdo_refuted.

Example C68_ex : pdos_enabled ex_dict 1 0x1800 0x1A00 /\ pdos_enabled ex_dict 1 0x1400 0x1600 /\ no_dangling fresh.
Proof.
  assert (G : forall cb mb, (forall i, 0 <= i < 512 -> i <> 0 -> lookup (key_sub (mb + i) 0) ex_dict = None) ->
    pdo_enabled ex_dict 1 cb -> pdos_enabled ex_dict 1 cb mb).
  { intros cb mb H H0 i Hi Hn. destruct (Z.eq_dec i 0) as [->|N]; [rewrite Z.add_0_r; exact H0|].
    unfold pdo_count in Hn. rewrite (H i Hi N) in Hn. lia. }
  split; [|split; [|intros k c H; discriminate]].
  - apply G.
    + intros i Hi Hn. pose proof (forall_range 512 (fun i => (i =? 0) || match lookup (key_sub (0x1A00 + i) 0) ex_dict with None => true | _ => false end) eq_refl i Hi) as X.
      cbn beta in X. destruct (lookup (key_sub (6656 + i) 0) ex_dict); [lia|reflexivity].
    + do 2 eexists. split; [vm_compute; reflexivity|]. split; [apply apply_given|]; vm_compute; reflexivity.
  - apply G.
    + intros i Hi Hn. pose proof (forall_range 512 (fun i => (i =? 0) || match lookup (key_sub (0x1600 + i) 0) ex_dict with None => true | _ => false end) eq_refl i Hi) as X.
      cbn beta in X. destruct (lookup (key_sub (5632 + i) 0) ex_dict); [lia|reflexivity].
    + do 2 eexists. split; [vm_compute; reflexivity|]. split; [apply apply_given|]; vm_compute; reflexivity.
Qed.
