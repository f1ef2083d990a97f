From Verif Require Import Base CanModel SyncModel SyncSpec SyncProofs.

Lemma started_heard : forall ign mon h p, is_started ign mon h p -> heard ign mon p.
Proof. intros ign mon h p (h1 & f & h2 & _ & (A & _) & _). exact A. Qed.

Lemma started_snoc : forall ign mon h f p,
  is_started ign mon (h ++ [f]) p <-> starts ign mon h f p \/ (~ stops ign mon f p /\ is_started ign mon h p).
Proof.
  intros ign mon h f p. split.
  - intros (h1 & g & h2 & E & ST & N). destruct h2 as [|x h2] using rev_ind.
    + apply app_inj_tail in E. destruct E as [-> ->]. left. exact ST.
    + clear IHh2. rewrite app_comm_cons, app_assoc in E. apply app_inj_tail in E. destruct E as [-> ->].
      right. split; [apply N, in_or_app; right; left; reflexivity|].
      exists h1, g, h2. split; [reflexivity|]. split; [exact ST|]. intros y Y. apply N, in_or_app. left. exact Y.
  - intros [ST|[N (h1 & g & h2 & -> & ST & M)]].
    + exists h, f, []. split; [reflexivity|]. split; [exact ST|intros g []].
    + exists h1, g, (h2 ++ [f]). split; [rewrite <- app_assoc; reflexivity|]. split; [exact ST|].
      intros y Y. apply in_app_or in Y. destruct Y as [Y|[<-|[]]]; [apply M, Y|exact N].
Qed.

Definition known_spec (ign mon : list Z) (h : list frame) (p : Z) : Prop :=
  heard ign mon p /\ exists g, In g h /\ mentions g p.

Lemma known_snoc : forall ign mon h f p, known_spec ign mon (h ++ [f]) p <-> known_spec ign mon h p \/ (heard ign mon p /\ mentions f p).
Proof.
  intros ign mon h f p. unfold known_spec. split.
  - intros (A & g & B & C). apply in_app_or in B. destruct B as [B|[<-|[]]]; [left; split; [exact A|]; exists g; auto|right; auto].
  - intros [(A & g & B & C)|(A & C)]; (split; [exact A|]); [exists g|exists f]; (split; [apply in_or_app|exact C]); [left; exact B|right; left; reflexivity].
Qed.

Lemma mem_spec : forall p l, mem p l = true <-> In p l.
Proof.
  intros p l. unfold mem. rewrite existsb_exists. split.
  - intros (x & A & B). apply Z.eqb_eq in B. subst. exact A.
  - intro H. exists p. split; [exact H|apply Z.eqb_refl].
Qed.

Lemma skip_spec : forall id b,
  match skip_node id b with
  | None => ~ heard (b_ignored b) (b_monitored b) id
  | Some k => heard (b_ignored b) (b_monitored b) id /\ k = set_insert id (b_known b)
  end.
Proof.
  intros id b. unfold skip_node, heard. destruct (mem id (b_ignored b)) eqn:I.
  - apply mem_spec in I. tauto.
  - assert (NI : ~ In id (b_ignored b)) by (rewrite <- mem_spec, I; discriminate).
    destruct (b_monitored b) as [|x m] eqn:M; [cbn; auto|]. cbn [negb andb].
    destruct (mem id (x :: m)) eqn:E; cbn [negb].
    + apply mem_spec in E. auto.
    + intros [_ [H|H]]; [discriminate|]. apply mem_spec in H. congruence.
Qed.

Lemma in_fold_insert : forall k s q, In q (fold_right set_insert s k) <-> In q k \/ In q s.
Proof.
  induction k as [|x k IH]; intros s q; [cbn; tauto|].
  cbn [fold_right]. rewrite in_set_insert, IH. cbn. intuition.
Qed.

Definition nonempty (l : list Z) : bool := match l with [] => false | _ => true end.

Record binv (ign mon : list Z) (h : list frame) (b : bcm) : Prop := {
  i_ign : b_ignored b = ign;
  i_mon : b_monitored b = mon;
  i_hdl : b_handler b = true;
  i_sock : b_sock b = true;
  i_leak : b_leak b = false;
  i_run : b_running b = nonempty (b_started b);
  i_tx : b_tx b = b_running b;
  i_known : forall p, In p (b_known b) <-> known_spec ign mon h p;
  i_start : forall p, In p (b_started b) <-> is_started ign mon h p
}.

(** Toggling establishes the first part. *)
Lemma toggle_inv : forall b k s, b_sock b = true -> b_tx b = b_running b -> b_running b = nonempty (b_started b) ->
  let c := toggle true (with_nodes b k s) in
  b_running c = nonempty s /\ b_tx c = b_running c /\ b_known c = k /\ b_started c = s /\ b_sock c = true /\
  b_ignored c = b_ignored b /\ b_monitored c = b_monitored b /\ b_handler c = b_handler b /\ b_leak c = b_leak b.
Proof.
  intros [ig mo kn st ru ha so tx le] k s A B C. cbn in *. subst. unfold toggle, with_nodes. cbn.
  destruct s, st; cbn; auto 12.
Qed.

Lemma with_nodes_same : forall b, with_nodes b (b_known b) (b_started b) = b.
Proof. intros []. reflexivity. Qed.

Lemma nmt_fun : forall f c p c' p', nmt f c p -> nmt f c' p' -> c' = c /\ p' = p.
Proof. intros f c p c' p' (A & B & C & D) (A' & B' & C' & D'). split; congruence. Qed.
Lemma nmt_not_hb : forall f c p q, nmt f c p -> heartbeat f q -> False.
Proof. intros f c p q (A & _) (B & C). lia. Qed.

Lemma frame_inv : forall ign mon h b f, binv ign mon h b -> binv ign mon (h ++ [f]) (bstep (BFrame f true) b).
Proof.
  intros ign mon h b f I. destruct I as [Ig Mo Hd So Le Ru Tx Kn St].
  assert (SAME : (forall p, ~ (heard ign mon p /\ mentions f p)) ->
     (forall p, is_started ign mon h p -> ~ stops ign mon f p) ->
     (forall p, ~ starts ign mon h f p) -> binv ign mon (h ++ [f]) b).
  { intros A B C. split; try assumption.
    - intro p. rewrite Kn, known_snoc. specialize (A p). tauto.
    - intro p. rewrite St, started_snoc. specialize (B p). specialize (C p). tauto. }
  assert (TOG : forall k s, (forall p, In p k <-> known_spec ign mon (h ++ [f]) p) ->
     (forall p, In p s <-> is_started ign mon (h ++ [f]) p) -> binv ign mon (h ++ [f]) (toggle true (with_nodes b k s))).
  { intros k s A B. destruct (toggle_inv b k s So Tx Ru) as (T1 & T2 & T3 & T4 & T5 & T6 & T7 & T8 & T9).
    split; try congruence; [rewrite T3; exact A|rewrite T4; exact B]. }
  cbn [bstep]. rewrite Hd. unfold handle_frame.
  destruct (Z.eqb_spec (h_id (f_hdr f)) 0) as [Z0|Z0].
  - destruct (Z.ltb_spec 1 (f_dlc f)) as [D|D].
    + set (c := nth 0 (f_data f) 0). set (q := nth 1 (f_data f) 0).
      assert (NM : nmt f c q) by (unfold nmt; auto).
      assert (MEN : forall p, mentions f p <-> p = q).
      { intro p. split.
        - intros [[c' H]|H]; [apply (nmt_fun _ _ _ _ _ NM) in H; tauto|destruct (nmt_not_hb _ _ _ _ NM H)].
        - intros ->. left. exists c. exact NM. }
      assert (STP : forall p, stops ign mon f p <-> c <> 1 /\ (p = q \/ (q = 0 /\ heard ign mon 0))).
      { intro p. unfold stops. split.
        - intros [(c' & N & H)|[(A & c' & N & H)|(H & _)]].
          + apply (nmt_fun _ _ _ _ _ NM) in H. destruct H; subst c' p. auto.
          + apply (nmt_fun _ _ _ _ _ NM) in H. destruct H as [E1 E2]; subst c'. auto.
          + destruct (nmt_not_hb _ _ _ _ NM H).
        - intros [N [->|[Q HH]]]; [left|right; left; split; [exact HH|]]; exists c; (split; [exact N|]); [exact NM|rewrite <- Q; exact NM]. }
      assert (STA : forall p, starts ign mon h f p <-> heard ign mon p /\ c = 1 /\ ((p <> 0 /\ p = q) \/ (q = 0 /\ heard ign mon 0 /\ (p = 0 \/ known_spec ign mon h p)))).
      { intro p. unfold starts, known_spec. split.
        - intros (HP & [(P & H)|(H & H0 & X)]); (split; [exact HP|]); apply (nmt_fun _ _ _ _ _ NM) in H; destruct H; (split; [congruence|]); [left; auto|].
          right. split; [congruence|]. split; [exact H0|]. tauto.
        - intros (HP & C1 & [(P & ->)|(Q & H0 & X)]); (split; [exact HP|]); [left|right]; (split; [|]); try assumption; try (rewrite <- C1; exact NM).
          + rewrite <- C1, <- Q. exact NM.
          + split; [exact H0|]. tauto. }
      pose proof (skip_spec q b) as SK. rewrite Ig, Mo in SK. destruct (skip_node q b) as [k|].
      * destruct SK as [HQ ->]. apply TOG.
        -- intro p. rewrite in_set_insert, Kn, known_snoc, MEN. split; [intros [->|X]|intros [X|[_ X]]]; auto.
        -- intro p. rewrite started_snoc, STA, STP. pose proof (started_heard ign mon h p) as SH.
           assert (DP : p = q \/ p <> q) by lia.
           destruct (Z.eqb_spec c 1) as [C1|C1]; destruct (Z.eqb_spec q 0) as [Q0|Q0]; cbn [negb].
           ++ rewrite in_fold_insert, in_set_insert, Kn, St. rewrite Q0 in *. unfold known_spec in *.
              split; [intros [[->|X]|X]|intros [X|X]].
              ** left. auto 10.
              ** left. split; [apply X|]. auto 10.
              ** right. split; [tauto|exact X].
              ** destruct X as (X1 & X2 & [X3|(_ & X4 & [X5|X5])]); [lia|auto|auto].
              ** right. apply X.
           ++ rewrite in_set_insert, St. split; [intros [->|X]|intros [X|X]]; [left; auto 10|right; tauto|left; tauto|right; tauto].
           ++ cbn [In]. split; [intros []|]. rewrite Q0 in *. intros [(_ & X & _)|(X & _)]; [contradiction|]. apply X. auto.
           ++ rewrite in_set_erase, St. split; [intros [X Y]|intros [X|[X Y]]]; [right|tauto|].
              { split; [|exact Y]. intros [_ [E|[E _]]]; contradiction. }
              { split; [|exact Y]. intro E. apply X. auto. }
      * apply SAME.
        -- intros p [A B]. apply MEN in B. subst p. contradiction.
        -- intros p A B. apply STP in B. destruct B as [_ [->|[E F]]]; [apply SK, (started_heard _ _ _ _ A)|apply SK; rewrite E; exact F].
        -- intros p A. apply STA in A. destruct A as (A & _ & [(_ & ->)|(E & F & _)]); [contradiction|apply SK; rewrite E; exact F].
    + rewrite <- (with_nodes_same b). apply TOG.
      * intro p. rewrite Kn, known_snoc. split; [auto|]. intros [X|[_ [[c (_ & X & _)]|[X Y]]]]; [exact X|lia|lia].
      * intro p. rewrite St, started_snoc. split.
        -- intro X. right. split; [|exact X]. intros [(c & _ & _ & Y & _)|[(_ & c & _ & _ & Y & _)|[[Y Y2] _]]]; lia.
        -- intros [(_ & [(_ & _ & Y & _)|((_ & Y & _) & _)])|[_ X]]; [lia|lia|exact X].
  - destruct (Z.eqb_spec (h_id (f_hdr f) / 128) 14) as [HB|HB].
    + set (q := h_id (f_hdr f) mod 128).
      assert (NN : forall c p, ~ nmt f c p) by (intros c p (A & _); contradiction).
      assert (HQ : heartbeat f q) by (unfold heartbeat, q; lia).
      assert (HF : forall p, heartbeat f p -> p = q) by (intros p [A B]; unfold q; lia).
      assert (MEN : forall p, mentions f p <-> p = q).
      { intro p. split; [intros [[c H]|H]; [destruct (NN _ _ H)|apply HF, H]|intros ->; right; exact HQ]. }
      assert (STA : forall p, ~ starts ign mon h f p).
      { intros p (_ & [(_ & X)|(X & _)]); exact (NN _ _ X). }
      assert (STP : forall p, stops ign mon f p <-> p = q /\ says_stopped f).
      { intro p. split.
        - intros [(c & _ & X)|[(_ & c & _ & X)|(X & Y)]]; [destruct (NN _ _ X)|destruct (NN _ _ X)|]. split; [apply HF, X|exact Y].
        - intros [-> X]. right. right. auto. }
      pose proof (skip_spec q b) as SK. rewrite Ig, Mo in SK. destruct (skip_node q b) as [k|].
      * destruct SK as [HH ->]. apply TOG.
        -- intro p. rewrite in_set_insert, Kn, known_snoc, MEN. split; [intros [->|X]|intros [X|[_ X]]]; auto.
        -- intro p. rewrite started_snoc, STP. specialize (STA p).
           destruct ((0 <? f_dlc f) && (nth 0 (f_data f) 0 =? 4)) eqn:SS.
           ++ assert (says_stopped f) by (unfold says_stopped; lia). rewrite in_set_erase, St. tauto.
           ++ assert (~ says_stopped f) by (unfold says_stopped; lia). rewrite St. tauto.
      * apply SAME; [|intros p A B|exact STA].
        -- intros p [A B]. apply MEN in B. subst p. contradiction.
        -- apply STP in B. destruct B as [-> _]. apply SK, (started_heard _ _ _ _ A).
    + assert (NN : forall c p, ~ nmt f c p) by (intros c p (A & _); contradiction).
      assert (NH : forall p, ~ heartbeat f p) by (intros p [A B]; lia).
      rewrite <- (with_nodes_same b). apply TOG.
      * intro p. rewrite Kn, known_snoc. split; [auto|]. intros [X|[_ [[c X]|X]]]; [exact X|destruct (NN _ _ X)|destruct (NH _ X)].
      * intro p. rewrite St, started_snoc. split.
        -- intro X. right. split; [|exact X]. intros [(c & _ & Y)|[(_ & c & _ & Y)|[Y _]]]; [destruct (NN _ _ Y)|destruct (NN _ _ Y)|destruct (NH _ Y)].
        -- intros [(_ & [(_ & Y)|(Y & _)])|[_ X]]; [destruct (NN _ _ Y)|destruct (NN _ _ Y)|exact X].
Qed.

Lemma brun_app : forall a c b, brun (a ++ c) b = brun c (brun a b).
Proof. intros. unfold brun. apply fold_left_app. Qed.

Lemma frames_inv : forall ign mon h, binv ign mon h (brun (BInit true true :: ok_frames h) (new_bcm ign mon)).
Proof.
  intros ign mon h. induction h as [|f h IH] using rev_ind.
  - split; try reflexivity; intro p; cbn; (split; [intros []|]).
    + intros (_ & g & [] & _).
    + intros (h1 & f & h2 & E & _). destruct h1; discriminate.
  - unfold ok_frames in *. rewrite map_app. cbn [map]. rewrite app_comm_cons, brun_app. exact (frame_inv _ _ _ _ _ IH).
Qed.

Lemma running_iff : forall ign mon h,
  b_tx (brun (BInit true true :: ok_frames h) (new_bcm ign mon)) = true <-> exists p, is_started ign mon h p.
Proof.
  intros ign mon h. destruct (frames_inv ign mon h) as [_ _ _ _ _ Ru Tx _ St]. rewrite Tx, Ru.
  destruct (b_started (brun (BInit true true :: ok_frames h) (new_bcm ign mon))) as [|p l] eqn:E; cbn [nonempty].
  - split; [discriminate|]. intros (p & H). rewrite <- St in H. destruct H.
  - split; [intros _; exists p; apply St; left; reflexivity|reflexivity].
Qed.

(** The flag follows the kernel, also when it refuses. *)
Definition frames_only (e : bevent) : Prop := match e with BFrame _ _ => True | _ => False end.
Lemma flag_inv : forall es b, Forall frames_only es -> b_tx b = b_running b -> b_tx (brun es b) = b_running (brun es b).
Proof.
  induction es as [|e es IH]; intros b F T; [exact T|].
  inversion F as [|? ? F1 F2]; subst. change (brun (e :: es) b) with (brun es (bstep e b)). apply IH; [exact F2|].
  destruct e as [|f ok| | |]; try destruct F1. cbn. destruct (b_handler b); [|exact T].
  assert (TG : forall c, b_tx c = b_running c -> b_tx (toggle ok c) = b_running (toggle ok c)).
  { intros c H. unfold toggle. destruct (b_started c), (b_running c) eqn:R; cbn; try congruence; destruct (ok && b_sock c); cbn; congruence. }
  unfold handle_frame. repeat match goal with |- context [if ?x then _ else _] => destruct x end;
    repeat match goal with |- context [match skip_node ?x b with _ => _ end] => destruct (skip_node x b) end; try exact T; try (apply TG; exact T).
Qed.

Lemma sync_frames_spec : forall junk h n, junk <> [] -> 1 <= n <= 255 ->
  List.length (sync_frames junk h n) = Z.to_nat n /\
  forall i, (i < Z.to_nat n)%nat -> exists f, nth_error (sync_frames junk h n) i = Some f /\
    f_hdr f = h /\ payload f = [Z.of_nat i + 1].
Proof.
  intros junk h n J N. unfold sync_frames. replace (n =? 0) with false by lia. unfold range.
  rewrite !map_length, seq_length. split; [reflexivity|]. intros i Hi.
  rewrite !nth_error_map. rewrite (nth_error_nth' _ O) by (rewrite seq_length; exact Hi). rewrite seq_nth by exact Hi.
  cbn [option_map]. eexists. split; [reflexivity|]. split; [reflexivity|]. unfold payload. cbn [f_dlc f_data].
  destruct junk as [|x l]; [congruence|]. cbn. unfold u8. rewrite Z.mod_small by lia. reflexivity.
Qed.
