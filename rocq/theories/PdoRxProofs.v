From Verif Require Import Base CanModel KeyModel StorageModel StorageSpec StorageProofs PdoModel PdoSpec PdoProofs PdoTxProofs.

(** The buffer of an object receives its slice of the frame. *)
Lemma placed_slice : forall l bs src k n i, List.length l = List.length bs -> NoDup bs -> NoDup (keys l) ->
  In ((Some k, n), i) (combine l bs) ->
  exists v, placed bs (map snd l) src i = Some v /\ slice l k src = Some v.
Proof.
  induction l as [|[ko m] l IH]; intros [|j bs] src k n i E Nb Nk H; cbn [combine In List.length] in *; try contradiction; try discriminate.
  apply NoDup_cons_iff in Nb as [Hj Nb]. cbn [map snd placed slice].
  destruct H as [H|H].
  - injection H as -> -> ->. rewrite Nat.eqb_refl, Z.eqb_refl. eauto.
  - assert (Hi : i <> j) by (intros ->; apply Hj; eapply in_combine_r, H).
    rewrite (proj2 (Nat.eqb_neq _ _) Hi).
    destruct ko as [k'|].
    + unfold keys in Nk. cbn [flat_map fst app] in Nk. apply NoDup_cons_iff in Nk as [Hk Nk].
      assert (k' <> k) by (intros ->; apply Hk; eapply keys_in, in_combine_l, H).
      rewrite (proj2 (Z.eqb_neq _ _)) by assumption. apply (IH bs _ k n i); [lia|exact Nb|exact Nk|exact H].
    + apply (IH bs _ k n i); [lia|exact Nb|exact Nk|exact H].
Qed.

Lemma slice_length : forall l k n src v, NoDup (keys l) -> In (Some k, n) l -> (total l <= List.length src)%nat ->
  slice l k src = Some v -> List.length v = n.
Proof.
  induction l as [|[ko m] l IH]; intros k n src v Nk H L S; cbn [In slice total fold_right snd] in *; [contradiction|].
  change (fold_right (fun x m => (snd x + m)%nat) 0%nat l) with (total l) in L.
  destruct ko as [k'|].
  - unfold keys in Nk. cbn [flat_map fst app] in Nk. apply NoDup_cons_iff in Nk as [Hk Nk].
    destruct (Z.eqb_spec k' k) as [->|N].
    + destruct H as [H|H]; [|apply keys_in in H; contradiction]. injection H as ->. injection S as <-.
      rewrite firstn_length. lia.
    + destruct H as [H|H]; [congruence|]. eapply IH; [exact Nk|exact H| |exact S]. rewrite skipn_length. lia.
  - destruct H as [H|H]; [discriminate|]. eapply IH; [exact Nk|exact H| |exact S]. rewrite skipn_length. lia.
Qed.

Lemma slice_notin : forall l k src, ~ In k (keys l) -> slice l k src = None.
Proof.
  induction l as [|[[k'|] m] l IH]; intros k src H; cbn [slice]; [reflexivity| |].
  - unfold keys in H. cbn [flat_map fst app In] in H. destruct (Z.eqb_spec k' k) as [->|_]; [tauto|].
    apply IH. tauto.
  - apply IH. exact H.
Qed.

Lemma rx_map_frame : forall T d l last p w w1,
  rx_mapped T d l last p w ->
  (forall k, In k (keys l) -> lookup k (w_store w1) = lookup k (w_store w)) ->
  (forall i, In i (p_bufs p) -> w_bufs w1 i = w_bufs w i) ->
  (forall k c1, lookup k (w_store w1) = Some c1 -> exists c, lookup k (w_store w) = Some c /\ keeps c c1) ->
  rx_mapped T d l last p w1.
Proof.
  intros T d l last p w w1 [Ln Po Nd Nk Sl Ow] Hl Hb Ho. constructor; auto.
  - intros x i Hx. destruct (Sl x i Hx) as [b [B1 [B2 [B3 B4]]]].
    exists b. rewrite Hb by (eapply in_combine_r, Hx). split; [exact B1|]. split; [exact B2|]. split; [exact B3|].
    destruct x as [[k|] n]; cbn [fst snd] in *; [|exact B4].
    rewrite Hl by (eapply keys_in, in_combine_l, Hx). exact B4.
  - intros k c1 H1. destruct (Ho k c1 H1) as [c [Hc0 [K1 [K2 K3]]]]. rewrite K2, K3. apply Ow, Hc0.
Qed.

Lemma rx_other : forall T d l last dv p w k o w1 r,
  rx_mapped T d l last p w -> ~ In k (keys l) -> not_smap o -> obj dv d k o w = Ok (w1, r) ->
  rx_mapped T d l last p w1.
Proof.
  intros T d l last dv p w k o w1 r Inv Hk N H.
  destruct (obj_frame _ _ _ _ _ _ _ N H) as [F1 [F2 [F3 F4]]].
  eapply rx_map_frame; [exact Inv| | |].
  - intros k' Hk'. apply F1. congruence.
  - intros i Hi. apply F4. intros c Hc.
    destruct (rxm_owner _ _ _ _ _ _ Inv k c Hc) as [O1 O2].
    split; intros E; subst i; [apply Hk, O2, Hi|apply O1, Hi].
  - intros k' c1 H1. destruct (Z.eq_dec k' k) as [->|Hn]; [apply F3, H1|].
    rewrite F1 in H1 by exact Hn. exists c1. split; [exact H1|apply keeps_refl].
Qed.

(** A frame *)
Lemma rx_frame : forall T d l last p w f,
  rx_mapped T d l last p w -> rx_allowed l (XFrame f) ->
  exists p1 w1, rpdo_handle p f w = Ok (p1, w1) /\ rx_mapped T d l (rx_last l last (XFrame f)) p1 w1.
Proof.
  intros T d l last p w f M [Hdlc Hlen]. pose proof M as [Ln Po Nd Nk Sl Ow].
  unfold rpdo_handle.
  destruct (rpdo_spread_spec (p_bufs p) (map snd l) (w_bufs w) (Z.to_nat (f_dlc f)) (f_data f)) as [bufs' [R B]].
  - exact Nd.
  - assert (G : Forall2 (fun x i => sized (w_bufs w) i (snd x)) l (p_bufs p)).
    { apply combine_Forall2; [exact Ln|]. intros x i Hx. destruct (Sl x i Hx) as [b [B1 [B2 _]]]. exists b. auto. }
    clear - G. induction G; constructor; auto.
  - intros i b Hi Hb. destruct (combine_right _ _ l (p_bufs p) i Ln Hi) as [x Hx].
    destruct (Sl x i Hx) as [b' [B1 [B2 [B3 _]]]]. congruence.
  - rewrite <- total_sum. lia.
  - lia.
  - rewrite R. do 2 eexists. split; [reflexivity|]. constructor; cbn [p_bufs rpdo_rearm w_store w_bufs]; auto.
    intros x i Hx. destruct (Sl x i Hx) as [b [B1 [B2 [B3 B4]]]].
    destruct x as [[k|] n]; cbn [fst snd] in *.
    + destruct (placed_slice l (p_bufs p) (f_data f) k n i Ln Nd Nk Hx) as [v [P1 P2]].
      exists (mkBuf n true false v). cbn [w_bufs w_store fst snd]. rewrite B, B1, P1, B2.
      assert (Hv : List.length v = n).
      { eapply slice_length; [exact Nk|eapply in_combine_l, Hx| |exact P2]. lia. }
      split; [reflexivity|]. split; [reflexivity|]. split; [exact Hv|].
      destruct B4 as (c & e & C1 & C2 & C3 & C4 & C5 & C6 & C7 & C8 & C9 & C10).
      exists c, e. repeat split; auto. unfold rx_last. rewrite P2. cbn. auto.
    + destruct (placed (p_bufs p) (map snd l) (f_data f) i) as [v|] eqn:Ep.
      * exists (mkBuf n true false v). cbn [w_bufs]. rewrite B, B1, Ep, B2. repeat split.
        clear - Ep Hx Ln Hlen Hdlc Nd. 
        assert (G : forall l bs src, List.length l = List.length bs -> NoDup bs -> (total l <= List.length src)%nat ->
          In ((None : option Z, n), i) (combine l bs) -> placed bs (map snd l) src i = Some v -> List.length v = n).
        { clear. induction l as [|[ko m] l IH]; intros [|j bs] src E Nb L H P; cbn [combine In List.length map placed snd total fold_right] in *;
            try contradiction; try discriminate.
          change (fold_right (fun x m => (snd x + m)%nat) 0%nat l) with (total l) in L.
          apply NoDup_cons_iff in Nb as [Hj Nb].
          destruct H as [H|H].
          - injection H as -> -> ->. rewrite Nat.eqb_refl in P. injection P as <-. rewrite firstn_length. lia.
          - assert (Hi : i <> j) by (intros ->; apply Hj; eapply in_combine_r, H).
            rewrite (proj2 (Nat.eqb_neq _ _) Hi) in P. apply (IH bs (skipn m src)); auto. rewrite skipn_length. lia. }
        apply (G l (p_bufs p) (f_data f)); auto. lia.
      * exists b. cbn [w_bufs]. rewrite B, B1, Ep. auto.
Qed.

(** An uncached read returns the last received value, a cached one leaves the
    rest as it is. *)
Lemma rx_get : forall T d l last dv p w k cached,
  rx_mapped T d l last p w -> In k (keys l) ->
  exists w1 r, obj dv d k (SGet cached) w = Ok (w1, r) /\ rx_mapped T d l last p w1 /\
    rx_result_ok l last (XObj k (SGet cached)) (XRes r).
Proof.
  intros T d l last dv p w k cached M Hk. pose proof M as [Ln Po Nd Nk Sl Ow].
  destruct (keys_entry _ _ Hk) as [n Hn].
  destruct (combine_left _ _ _ (p_bufs p) _ Ln Hn) as [i Hi].
  destruct (Sl _ _ Hi) as (b & B1 & B2 & B3 & c & e & C1 & C2 & C3 & C4 & C5 & C6 & C7 & C8 & C9 & C10).
  cbn [fst snd] in *.
  destruct i as [|i]; [exfalso; apply Po; eapply in_combine_r, Hi|].
  assert (CK : cell_ok (T k) c) by (split; [exact C3|apply numeric_value; [exact C4|lia]]).
  assert (Al : c_buf (allocate c) = c_buf c /\ forall x, set_buf (allocate c) x = set_buf c x).
  { unfold allocate. destruct c as [t va bu r1 w1]. cbn [c_type c_valid c_buf] in *. subst t.
    assert (Hr : resize n bu = bu) by (unfold resize; rewrite C9, firstn_all2, Nat.sub_diag by lia; apply app_nil_r).
    destruct (T k); try contradiction; cbn [numeric ty_size] in *; destruct va; cbn [c_buf set_buf c_type c_rd c_wr];
      rewrite ?C5, ?Hr; auto. }
  destruct Al as [Al1 Al2].
  (* without a delegate call *)
  assert (Quiet : c_valid c = true -> (cached || e_constant e) = true ->
    obj dv d k (SGet cached) w = Ok (mkPW (store k c (w_store w)) (w_log w) (w_bufs w) (w_next w), inl (RVal (c_buf c)))).
  { intros Ev Hcc. unfold obj. rewrite C1, C2. unfold cell_op. cbv zeta. cbn [to_op step]. unfold data_get.
    rewrite C7, Ev, Hcc. cbn [negb andb orb].
    rewrite (access_ok _ _ CK). unfold ret. cbn [live_events forallb fold_left keyed map]. rewrite app_nil_r. reflexivity. }
  assert (Store : rx_mapped T d l last p (mkPW (store k c (w_store w)) (w_log w) (w_bufs w) (w_next w))).
  { eapply rx_map_frame; [exact M| | |]; cbn [w_store w_bufs].
    - intros k' _. destruct (Z.eq_dec k' k) as [->|Hne]; [rewrite lookup_store_eq; congruence|apply lookup_store_neq; congruence].
    - reflexivity.
    - intros k' c1 H1. destruct (Z.eq_dec k' k) as [->|Hne].
      + rewrite lookup_store_eq in H1. injection H1 as <-. exists c. split; [exact C1|apply keeps_refl].
      + rewrite lookup_store_neq in H1 by congruence. exists c1. split; [exact H1|apply keeps_refl]. }
  destruct (c_valid c && cached) eqn:Hq.
  { apply andb_true_iff in Hq as [Ev ->]. do 2 eexists. split; [apply Quiet; [exact Ev|reflexivity]|].
    split; [exact Store|exact I]. }
  (* through the buffer *)
  unfold obj. rewrite C1, C2. unfold cell_op. cbv zeta. cbn [to_op step]. unfold data_get.
  rewrite C7. cbn [negb]. cbv zeta.
  replace (negb (c_valid c) || negb (cached || e_constant e)) with true
    by (rewrite C8; destruct (c_valid c), cached; try reflexivity; discriminate).
  rewrite Al1, C6. cbn [delegate_read]. rewrite B1. unfold buf_get. rewrite C9, B2, Nat.eqb_refl. cbn [negb].
  (* the new cell *)
  assert (New : forall x b', List.length x = n -> b_size b' = n -> List.length (b_data b') = n ->
     (match last k with
      | None => b_empty b' = true
      | Some v => b_empty b' = false /\ (if b_dirty b' then b_data b' = v else x = v)
      end) ->
     forall lg nx bufs, (forall j, bufs j = if Nat.eqb j (S i) then Some b' else w_bufs w j) ->
     rx_mapped T d l last p (mkPW (store k (set_buf c x) (w_store w)) lg bufs nx)).
  { intros x b' Hx Hs Hd Hl lg nx bufs Hbufs. constructor; auto.
    - intros y j Hy. cbn [w_bufs w_store]. destruct (Nat.eq_dec j (S i)) as [->|Hj].
      + pose proof (combine_fun _ _ _ _ _ _ Nd Hi Hy) as E. subst y.
        exists b'. cbn [w_bufs w_store fst snd]. rewrite Hbufs, Nat.eqb_refl. split; [reflexivity|]. split; [exact Hs|]. split; [exact Hd|].
        exists (set_buf c x), e. rewrite lookup_store_eq. repeat split; auto.
        destruct (last k) as [v|]; [|exact Hl]. destruct Hl as [Hl1 Hl2]. split; [exact Hl1|].
        destruct (b_dirty b'); [exact Hl2|]. split; [reflexivity|exact Hl2].
      + destruct (Sl y j Hy) as [b2 [D1 [D2 [D3 D4]]]]. exists b2. cbn [w_bufs w_store].
        rewrite Hbufs, (proj2 (Nat.eqb_neq _ _) Hj). split; [exact D1|]. split; [exact D2|]. split; [exact D3|].
        destruct y as [[k'|] n']; cbn [fst snd] in *; [|exact D4].
        rewrite lookup_store_neq; [exact D4|]. intros <-.
        destruct (combine_key _ _ _ _ _ _ _ Nk Hi Hy). congruence.
    - intros k' c' H. cbn [w_store] in H. destruct (Z.eq_dec k' k) as [->|Hk'].
      + rewrite lookup_store_eq in H. injection H as <-. cbn [c_rd c_wr set_buf]. apply Ow, C1.
      + rewrite lookup_store_neq in H by congruence. apply Ow in H. exact H. }
  destruct (last k) as [v|] eqn:Elast.
  - destruct C10 as [Ee Hv]. rewrite Ee. destruct (b_dirty b) eqn:Edy.
    + assert (Hacc : access (set_buf c (b_data b)) = Ok (b_data b)).
      { rewrite (access_ok (T k)); [reflexivity|]. split; [exact C3|]. apply numeric_value; [exact C4|]. cbn [c_buf set_buf]. lia. }
      rewrite !Al2. rewrite Hacc. unfold ret. cbn [writes_ok forallb]. rewrite ?Hacc. cbn [live_events forallb live event_delegate]. rewrite B1. cbn [andb].
      do 2 eexists. split; [reflexivity|]. split.
      * apply New with (b' := buf_clean b); cbn [buf_clean b_size b_data b_empty b_dirty]; auto.
        intros j. cbn [fold_left apply_event]. rewrite B1. reflexivity.
      * unfold rx_result_ok. rewrite Elast. destruct cached; [exact I|]. intros _. rewrite Hv. reflexivity.
    + destruct Hv as [Hv1 Hv2].
      assert (Hacc : access (set_buf c (c_buf c)) = Ok (c_buf c)).
      { rewrite (access_ok (T k)); [reflexivity|]. split; [exact C3|]. apply numeric_value; [exact C4|]. cbn [c_buf set_buf]. lia. }
      rewrite !Al2. rewrite Hacc. unfold ret. cbn [writes_ok forallb]. rewrite ?Hacc. cbn [live_events forallb live event_delegate]. rewrite B1. cbn [andb].
      do 2 eexists. split; [reflexivity|]. split.
      * apply New with (b' := buf_clean b); cbn [buf_clean b_size b_data b_empty b_dirty]; auto.
        intros j. cbn [fold_left apply_event]. rewrite B1. reflexivity.
      * unfold rx_result_ok. rewrite Elast. destruct cached; [exact I|]. intros _. rewrite Hv2. reflexivity.
  - rewrite C10. rewrite !Al2. unfold ret. cbn [writes_ok forallb live_events live event_delegate]. rewrite B1. cbn [andb].
    do 2 eexists. split; [reflexivity|]. split.
    + apply New with (b' := b); auto. intros j. cbn [fold_left apply_event].
      destruct (Nat.eqb_spec j (S i)) as [->|]; [exact B1|reflexivity].
    + unfold rx_result_ok. rewrite Elast. destruct cached; [exact I|]. intros _. reflexivity.
Qed.

Lemma rx_history : forall T d l dv ops last p w,
  rx_mapped T d l last p w -> Forall (rx_allowed l) ops ->
  forall s' rs, rx_runs dv d ops (p, w) = Ok (s', rs) -> rx_conforms l last ops rs.
Proof.
  intros T d l dv ops. induction ops as [|o ops IH]; intros last p w Inv Ha s' rs R; cbn [rx_runs] in R.
  - injection R as _ <-. exact I.
  - apply Forall_cons_iff in Ha as [Ho Ha].
    destruct (rx_step dv d o (p, w)) as [[[p1 w1] r]|] eqn:Es; [|discriminate].
    destruct (rx_runs dv d ops (p1, w1)) as [[s2 rs2]|] eqn:Er; [|discriminate].
    injection R as _ <-. cbn [rx_conforms].
    assert (G : rx_result_ok l last o r /\ rx_mapped T d l (rx_last l last o) p1 w1).
    { destruct o as [f| |k o]; cbn [rx_step fst snd] in Es.
      - destruct (rx_frame T d l last p w f Inv Ho) as [p2 [w2 [E2 M2]]]. rewrite E2 in Es.
        injection Es as <- <- <-. split; [exact I|exact M2].
      - destruct (rpdo_sync p) as [[p2 rr] ff] eqn:Ey. injection Es as <- <- <-. split; [exact I|].
        unfold rpdo_sync in Ey. injection Ey as <- _ _. destruct Inv. constructor; auto.
      - destruct (obj dv d k o w) as [[w2 r2]|] eqn:Eo; [|discriminate]. injection Es as <- <- <-.
        destruct (in_dec Z.eq_dec k (keys l)) as [Hk|Hk].
        + destruct o as [cached|v|v| | |]; cbn [rx_allowed] in Ho; try contradiction.
          destruct (rx_get T d l last dv p w k cached Inv Hk) as [w3 [r3 [E3 [M3 R3]]]].
          rewrite Eo in E3. injection E3 as -> ->. split; [exact R3|exact M3].
        + split.
          * destruct o as [[|]|v|v| | |]; try exact I. cbn [rx_result_ok]. contradiction.
          * cbn [rx_last]. eapply rx_other; [exact Inv|exact Hk| |exact Eo]. destruct o; try exact I. contradiction. }
    destruct G as [G1 G2]. split; [exact G1|]. eapply IH; eassumption.
Qed.

Lemma rx_defined : forall T d l dv ops last p w,
  rx_mapped T d l last p w -> Forall (rx_allowed l) ops ->
  Forall (fun o => match o with XObj k _ => In k (keys l) | _ => True end) ops ->
  exists s' rs, rx_runs dv d ops (p, w) = Ok (s', rs).
Proof.
  intros T d l dv ops. induction ops as [|o ops IH]; intros last p w Inv Ha Hk; cbn [rx_runs]; [eauto|].
  apply Forall_cons_iff in Ha as [Ho Ha]. apply Forall_cons_iff in Hk as [Hk0 Hk].
  assert (G : exists p1 w1 r, rx_step dv d o (p, w) = Ok ((p1, w1), r) /\ rx_mapped T d l (rx_last l last o) p1 w1).
  { destruct o as [f| |k o]; cbn [rx_step fst snd].
    - destruct (rx_frame T d l last p w f Inv Ho) as [p2 [w2 [E2 M2]]]. rewrite E2. eauto 6.
    - destruct (rpdo_sync p) as [[p2 rr] ff] eqn:Ey. do 3 eexists. split; [reflexivity|].
      unfold rpdo_sync in Ey. injection Ey as <- _ _. destruct Inv. constructor; auto.
    - destruct o as [cached|v|v| | |]; cbn [rx_allowed] in Ho; try contradiction.
      destruct (rx_get T d l last dv p w k cached Inv Hk0) as [w3 [r3 [E3 [M3 R3]]]]. rewrite E3. eauto 6. }
  destruct G as [p1 [w1 [r [E I1]]]]. rewrite E.
  destruct (IH _ p1 w1 I1 Ha Hk) as [s' [rs R]]. rewrite R. eauto.
Qed.
