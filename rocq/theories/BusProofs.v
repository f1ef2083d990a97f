From Verif Require Import Base CanModel CanSpec CanProofs PdoModel SdoChanModel BusModel BusSpec.
From Verif Require NodeModel EmcyModel ReaderModel.

(** ** Headers *)

Lemma own_range : forall d x, device d -> In x (own_ids d) -> 0x80 <= x < 2^11.
Proof. intros d x D H. unfold device in D. repeat (destruct H as [<-|H]; [lia|]). destruct H. Qed.

Lemma own_apart : forall d e x, device d -> device e -> In x (own_ids d) -> In x (own_ids e) -> d = e.
Proof.
  intros d e x D E H1 H2. unfold device in *.
  repeat (destruct H1 as [<-|H1]; [repeat (destruct H2 as [H2|H2]; [lia|]); destruct H2|]). destruct H1.
Qed.

Lemma key_own : forall d h g, device d -> own_header d g -> header_ok h -> key h = key g -> own_header d h.
Proof.
  intros d h g D (A & B & C & H) O K. pose proof (own_range _ _ D H) as R.
  assert (OG : header_ok g) by (unfold header_ok; lia).
  unfold key in K. rewrite C in K. rewrite (fullid_sum g OG) in K. rewrite A, B, C in K. cbn [b2z] in K.
  unfold header_ok in O.
  destruct (h_err h) eqn:E; [unfold ERROR_MASK in K; lia|].
  rewrite (fullid_sum h O) in K. rewrite E in K.
  destruct (h_rtr h) eqn:F; [destruct (h_ext h); cbn [b2z] in K; lia|].
  destruct (h_ext h) eqn:G; cbn [b2z] in K; [lia|].
  split; [exact G|]. split; [exact F|]. split; [exact E|]. replace (h_id h) with (h_id g) by lia. exact H.
Qed.

(** A frame that is not for a node's addresses is no matter to it. *)
Definition addressed (u : unit_) (f : frame) : Prop := exists h, address u h /\ key (f_hdr f) = key h.

Lemma rpdos_deaf : forall f w ps, (forall p, In p ps -> hears p f = false) -> on_rpdos f ps w = Ok (ps, w).
Proof.
  induction ps as [|p t IH]; intros H; [reflexivity|]. cbn. rewrite (H p (or_introl eq_refl)), IH; [reflexivity|].
  intros q Q. apply H. right. exact Q.
Qed.

Lemma receive_deaf : forall now f u, ~ addressed u f -> receive now f u = Ok u.
Proof.
  intros now f u H.
  assert (N : forall h, address u h -> (key (f_hdr f) =? key h) = false).
  { intros h A. apply Z.eqb_neq. intros E. apply H. exists h. auto. }
  unfold receive, on_nmt. rewrite (N (heartbeat_header (u_node u))) by (left; reflexivity). rewrite andb_false_r. cbn [bind].
  assert (S : on_sdo f u = Ok u).
  { unfold on_sdo. cbn [cstep]. rewrite (N (c_server (u_sdo u))) by (right; left; reflexivity). destruct u; reflexivity. }
  rewrite S. cbn [bind].
  assert (E : on_emcy f u = Ok u).
  { unfold on_emcy. destruct (u_emcy_header u) as [h|] eqn:Q; [|reflexivity]. rewrite (N h) by (right; right; left; exact Q). reflexivity. }
  rewrite E. cbn [bind]. unfold on_pdo. rewrite rpdos_deaf; [destruct u; reflexivity|].
  intros p P. unfold hears. destruct (p_listen p) as [h|] eqn:Q; [|reflexivity]. apply N. right; right; right. exists p. auto.
Qed.

(** ** What a frame leaves alone *)

Lemma switch_keeps : forall s n, NodeModel.n_id (fst (NodeModel.switch_state s n)) = NodeModel.n_id n
  /\ NodeModel.n_hb (fst (NodeModel.switch_state s n)) = NodeModel.n_hb n.
Proof. intros s n. unfold NodeModel.switch_state. destruct (NodeModel.n_state n =? s); cbn; auto. Qed.

Lemma nmt_keeps : forall now s n n' a ok, NodeModel.handle_nmt now s n = (n', a, ok) ->
  NodeModel.n_id n' = NodeModel.n_id n /\
  (NodeModel.n_hb n <> NodeModel.HbUnread -> ok = true /\ NodeModel.n_hb n' = NodeModel.n_hb n).
Proof.
  intros now s n n' a ok. unfold NodeModel.handle_nmt, NodeModel.interval.
  destruct (NodeModel.n_hb n) as [| |v] eqn:E; cbn.
  - pose proof (switch_keeps s n) as [A B]. destruct (NodeModel.switch_state s n) as [m b]. cbn in A, B. intros X. inversion X; subst.
    split; [exact A|]. intros _. split; [reflexivity|]. congruence.
  - intros X. inversion X; subst. cbn. split; [reflexivity|]. intros C; destruct (C eq_refl).
  - set (m := if v =? 0 then n else _). pose proof (switch_keeps s m) as [A B].
    assert (M : NodeModel.n_id m = NodeModel.n_id n /\ NodeModel.n_hb m = NodeModel.n_hb n) by (unfold m; destruct (v =? 0); auto).
    destruct (NodeModel.switch_state s m) as [m2 b]. cbn in A, B. intros X. inversion X; subst.
    split; [destruct M; congruence|]. intros _. split; [reflexivity|]. destruct M; congruence.
Qed.

Lemma handle_keeps : forall p f w p' w', rpdo_handle p f w = Ok (p', w') -> p_listen p' = p_listen p /\ p_bufs p' = p_bufs p.
Proof. intros p f w p' w'. unfold rpdo_handle. destruct (rpdo_spread _ _ _ _); [|discriminate]. intros X. inversion X. auto. Qed.

Lemma rpdos_keep : forall f ps w ps' w', on_rpdos f ps w = Ok (ps', w') ->
  map p_listen ps' = map p_listen ps /\ map p_bufs ps' = map p_bufs ps.
Proof.
  induction ps as [|p t IH]; intros w ps' w' H; cbn in H; [inversion H; auto|].
  destruct (if hears p f then rpdo_handle p f w else Ok (p, w)) as [[p1 w1]|] eqn:E; [|discriminate].
  destruct (on_rpdos f t w1) as [[t1 w2]|] eqn:F; [|discriminate]. inversion H; subst. destruct (IH _ _ _ F) as [A B].
  assert (K : p_listen p1 = p_listen p /\ p_bufs p1 = p_bufs p).
  { destruct (hears p f); [exact (handle_keeps _ _ _ _ _ E)|]. inversion E; auto. }
  destruct K as [K1 K2]. cbn. rewrite A, B, K1, K2. auto.
Qed.

Lemma receive_parts : forall now f u u', receive now f u = Ok u' -> exists n c ps w,
  u' = mkUnit n c (u_emcy_header u)
         (match u_emcy_header u with
          | Some h => if key (f_hdr f) =? key h then fst (EmcyModel.step (EmcyModel.Emergency (f_data f)) (u_emcy u)) else u_emcy u
          | None => u_emcy u end) ps w
  /\ NodeModel.n_id n = NodeModel.n_id (u_node u) /\ c_server c = c_server (u_sdo u)
  /\ on_rpdos f (u_rpdos u) (u_world u) = Ok (ps, w).
Proof.
  intros now f u u' H. unfold receive in H.
  destruct (on_nmt now f u) as [u1|] eqn:E1; [|discriminate]. cbn [bind] in H.
  assert (K1 : exists n, u1 = mkUnit n (u_sdo u) (u_emcy_header u) (u_emcy u) (u_rpdos u) (u_world u) /\ NodeModel.n_id n = NodeModel.n_id (u_node u)).
  { unfold on_nmt in E1. destruct (_ && _).
    - destruct (f_dlc f =? 1); [|discriminate].
      destruct (NodeModel.handle_nmt now (nth 0 (f_data f) 0) (u_node u)) as [[n a] ok] eqn:Q. destruct (nmt_keeps _ _ _ _ _ _ Q) as [I _].
      destruct ok; [|discriminate]. inversion E1. exists n. auto.
    - inversion E1. exists (u_node u1). split; [destruct u1; reflexivity | reflexivity]. }
  destruct K1 as (n & -> & I). unfold on_sdo in H. cbn [cstep u_sdo u_node u_emcy_header u_emcy u_rpdos u_world bind] in H.
  set (c := if key (f_hdr f) =? key (c_server (u_sdo u)) then _ else _) in H.
  unfold on_emcy in H. cbn [u_emcy_header u_node u_sdo u_emcy u_rpdos u_world bind] in H.
  assert (C : c_server c = c_server (u_sdo u)) by (unfold c; destruct (_ =? _); reflexivity).
  destruct (u_emcy_header u) as [h|]; [destruct (key (f_hdr f) =? key h)|]; cbn [bind] in H;
    unfold on_pdo in H; cbn [u_node u_sdo u_emcy_header u_emcy u_rpdos u_world] in H;
    (destruct (on_rpdos f (u_rpdos u) (u_world u)) as [[ps w]|] eqn:P; [|discriminate]);
    inversion H; exists n, c, ps, w; repeat split; auto.
Qed.

Lemma receive_addresses : forall now f u u', receive now f u = Ok u' -> id_of u' = id_of u /\ forall h, address u' h -> address u h.
Proof.
  intros now f u u' H. destruct (receive_parts _ _ _ _ H) as (n & c & ps & w & -> & I & C & P). split; [exact I|].
  destruct (rpdos_keep _ _ _ _ _ P) as [L _].
  unfold address. cbn [u_node u_sdo u_emcy_header u_rpdos]. intros h [->|[->|[E|(p & Q & R)]]].
  - left. unfold heartbeat_header. rewrite I. reflexivity.
  - right; left. exact C.
  - right; right; left. exact E.
  - right; right; right. assert (X : In (Some h) (map p_listen (u_rpdos u))) by (rewrite <- L, <- R; apply in_map; exact Q).
    apply in_map_iff in X as (q & Y & W). exists q. auto.
Qed.

Lemma predefined_keep : forall u u', id_of u' = id_of u -> (forall h, address u' h -> address u h) -> predefined u -> predefined u'.
Proof. intros u u' I A [D H]. split; [rewrite I; exact D|]. intros h K. rewrite I. auto. Qed.

(** ** Chains *)

Lemma all_nth : forall now f c c', all_receive now f c = Ok c' -> forall i u, nth_error c i = Some u ->
  exists u', nth_error c' i = Some u' /\ receive now f u = Ok u'.
Proof.
  induction c as [|v t IH]; intros c' H i u E; [destruct i; discriminate|]. cbn in H.
  destruct (receive now f v) as [v1|] eqn:R; [|discriminate]. cbn [bind] in H.
  destruct (all_receive now f t) as [t1|] eqn:T; [|discriminate]. inversion H; subst.
  destruct i as [|i]; cbn in E.
  - inversion E; subst. exists v1. auto.
  - exact (IH _ eq_refl _ _ E).
Qed.

Lemma all_one : forall now f u, all_receive now f [u] = bind (receive now f u) (fun u1 => Ok [u1]).
Proof. intros. cbn. destruct (receive now f u); reflexivity. Qed.

Lemma change_nth : forall c i j g u, nth_error c i = Some u ->
  nth_error (change j g c) i = Some (if (i =? j)%nat then g u else u).
Proof.
  induction c as [|v t IH]; intros i j g u E; [destruct i; discriminate|].
  destruct i as [|i], j as [|j]; cbn in *; try (inversion E; subst; reflexivity); auto.
Qed.

Lemma isolated : forall h c c' i u, Forall fair h -> run (map event_of h) c = Ok c' ->
  nth_error c i = Some u -> predefined u ->
  exists u', nth_error c' i = Some u' /\ run (concerning i (id_of u) h) [u] = Ok [u'].
Proof.
  induction h as [|x h IH]; intros c c' i u F R E P; cbn in R.
  - inversion R; subst. exists u. auto.
  - inversion F as [|? ? FX FH]; subst. destruct x as [d now f|j g]; cbn [event_of step] in R.
    + destruct (all_receive now f c) as [c1|] eqn:A; [|discriminate]. cbn [bind] in R.
      destruct (all_nth _ _ _ _ A _ _ E) as (u1 & E1 & R1). destruct (receive_addresses _ _ _ _ R1) as [I AD].
      destruct (IH c1 c' i u1 FH R E1 (predefined_keep _ _ I AD P)) as (u' & N & Q).
      exists u'. split; [exact N|]. rewrite I in Q. cbn [concerning].
      destruct (d =? id_of u) eqn:S.
      * cbn [run step]. rewrite all_one, R1. exact Q.
      * assert (DE : ~ addressed u f).
        { intros (a & B & K). destruct P as [D PA]. destruct FX as [O [[D2 W]|[Z W]]].
          - pose proof (key_own _ _ _ D (PA _ B) O K) as V. apply Z.eqb_neq in S. apply S.
            destruct V as (_ & _ & _ & V). destruct W as (_ & _ & _ & W). exact (own_apart _ _ _ D2 D W V).
          - exact (W _ D (key_own _ _ _ D (PA _ B) O K)). }
        rewrite (receive_deaf now f u DE) in R1. inversion R1; subst. exact Q.
    + cbn [bind] in R. pose proof (change_nth c i j g u E) as E1. cbn [concerning].
      destruct (i =? j)%nat eqn:S.
      * destruct (FX u) as [I AD].
        destruct (IH _ c' i (g u) FH R E1 (predefined_keep _ _ I AD P)) as (u' & N & Q).
        exists u'. split; [exact N|]. rewrite I in Q. exact Q.
      * exact (IH _ c' i u FH R E1 P).
Qed.

(** ** No frame ends the process *)

Lemma spread_total : forall ids bufs left src, (forall b, In b ids -> bufs b <> None) ->
  exists bufs', rpdo_spread bufs ids left src = Ok bufs' /\ forall b, bufs b <> None -> bufs' b <> None.
Proof.
  induction ids as [|i t IH]; intros bufs left src H; [exists bufs; split; [reflexivity | auto]|].
  cbn. destruct (bufs i) as [b|] eqn:E; [|destruct (H i (or_introl eq_refl) E)].
  destruct (b_size b <=? left)%nat.
  - set (b1 := upd bufs i (Some (buf_put b src))).
    assert (U : forall k, bufs k <> None -> b1 k <> None) by (intros k K; unfold b1, upd; destruct (Nat.eqb k i) eqn:Q; [discriminate|exact K]).
    destruct (IH b1 (left - b_size b)%nat (skipn (b_size b) src)) as (b2 & A & B); [intros k K; apply U; apply H; right; exact K|].
    exists b2. split; [exact A|]. auto.
  - apply IH. intros k K. apply H. right. exact K.
Qed.

Lemma rpdos_total : forall f ps w, (forall p b, In p ps -> In b (p_bufs p) -> w_bufs w b <> None) ->
  exists ps' w', on_rpdos f ps w = Ok (ps', w') /\ forall b, w_bufs w b <> None -> w_bufs w' b <> None.
Proof.
  induction ps as [|p t IH]; intros w H; [exists [], w; auto|]. cbn.
  assert (X : exists p1 w1, (if hears p f then rpdo_handle p f w else Ok (p, w)) = Ok (p1, w1) /\ forall b, w_bufs w b <> None -> w_bufs w1 b <> None).
  { destruct (hears p f); [|exists p, w; auto]. unfold rpdo_handle.
    destruct (spread_total (p_bufs p) (w_bufs w) (Z.to_nat (f_dlc f)) (f_data f)) as (b' & A & B); [intros b Hb; exact (H p b (or_introl eq_refl) Hb)|].
    rewrite A. do 2 eexists. split; [reflexivity|]. exact B. }
  destruct X as (p1 & w1 & -> & K). destruct (IH w1) as (t1 & w2 & -> & K2); [intros q b Q B; apply K; apply (H q b); [right; exact Q | exact B]|].
  exists (p1 :: t1), w2. auto.
Qed.

Lemma receive_total : forall now f u, sound u ->
  (NodeModel.n_listening (u_node u) = true -> key (f_hdr f) = key (heartbeat_header (u_node u)) -> f_dlc f = 1) ->
  exists u', receive now f u = Ok u' /\ sound u' /\ id_of u' = id_of u.
Proof.
  intros now f u [S1 S2] HB.
  assert (X : exists u1, on_nmt now f u = Ok u1 /\ NodeModel.n_hb (u_node u1) <> NodeModel.HbUnread /\ u_rpdos u1 = u_rpdos u /\ u_world u1 = u_world u).
  { unfold on_nmt. destruct (NodeModel.n_listening (u_node u)); [|exists u; auto].
    destruct (key (f_hdr f) =? key (heartbeat_header (u_node u))) eqn:K; [|exists u; auto]. cbn [andb].
    rewrite (HB eq_refl (proj1 (Z.eqb_eq _ _) K)), Z.eqb_refl.
    destruct (NodeModel.handle_nmt now (nth 0 (f_data f) 0) (u_node u)) as [[n a] ok] eqn:Q. destruct (nmt_keeps _ _ _ _ _ _ Q) as [_ I].
    destruct (I S1) as [-> J]. eexists. split; [reflexivity|]. cbn. rewrite J. auto. }
  destruct X as (u1 & N & H1 & P1 & W1).
  destruct (rpdos_total f (u_rpdos u) (u_world u) S2) as (ps & w & R & K).
  assert (T : exists u', receive now f u = Ok u' /\ NodeModel.n_hb (u_node u') <> NodeModel.HbUnread).
  { unfold receive. rewrite N. cbn [bind]. unfold on_sdo. cbn [cstep bind]. unfold on_emcy. cbn [u_emcy_header u_node u_sdo u_emcy u_rpdos u_world].
    destruct (u_emcy_header u1) as [h|]; [destruct (key (f_hdr f) =? key h)|]; cbn [bind]; unfold on_pdo;
      cbn [u_node u_sdo u_emcy_header u_emcy u_rpdos u_world]; rewrite P1, W1, R; eexists; (split; [reflexivity|exact H1]). }
  destruct T as (u' & T & H'). exists u'. split; [exact T|]. destruct (receive_addresses _ _ _ _ T) as [I _].
  split; [split; [exact H'|]|exact I].
  destruct (receive_parts _ _ _ _ T) as (n & c & ps' & w' & E & _ & _ & R'). rewrite R in R'. inversion R'; subst ps' w'. subst u'.
  cbn [u_rpdos u_world]. destruct (rpdos_keep _ _ _ _ _ R) as [_ B]. intros p b Hp Hb. apply K.
  assert (Y : In (p_bufs p) (map p_bufs (u_rpdos u))) by (rewrite <- B; apply in_map; exact Hp).
  apply in_map_iff in Y as (q & Y & V). apply (S2 q b V). rewrite Y. exact Hb.
Qed.

Definition ids (c : list unit_) : list Z := map id_of c.
Lemma all_total : forall now f c, Forall sound c -> heartbeats_fit c (Frame_ now f) ->
  exists c', all_receive now f c = Ok c' /\ Forall sound c' /\ ids c' = ids c.
Proof.
  induction c as [|u t IH]; intros S H; [exists []; auto|]. inversion S as [|? ? S1 S2]; subst.
  destruct (receive_total now f u S1) as (u1 & R & A & B); [intros _; apply H; left; reflexivity|].
  destruct (IH S2) as (t1 & R2 & A2 & B2); [intros v V; apply H; right; exact V|].
  cbn. rewrite R. cbn [bind]. rewrite R2. cbn [bind]. exists (u1 :: t1). split; [reflexivity|]. split; [constructor; auto|].
  unfold ids in *. cbn. congruence.
Qed.
Lemma change_sound : forall g, (forall u, id_of (g u) = id_of u /\ (sound u -> sound (g u))) ->
  forall c i, Forall sound c -> Forall sound (change i g c) /\ ids (change i g c) = ids c.
Proof.
  intros g G. induction c as [|u t IH]; intros i S; [destruct i; auto|]. inversion S as [|? ? S1 S2]; subst.
  destruct i as [|i]; cbn.
  - destruct (G u) as [A B]. split; [constructor; auto|]. congruence.
  - destruct (IH i S2) as [A B]. split; [constructor; auto|]. unfold ids in B. congruence.
Qed.

Lemma fit_ids : forall c c' e, ids c' = ids c -> heartbeats_fit c e -> heartbeats_fit c' e.
Proof.
  intros c c' [now f|i g] I H; [|exact H]. intros u U K.
  assert (X : In (id_of u) (ids c)) by (rewrite <- I; apply in_map; exact U).
  apply in_map_iff in X as (v & E & V). apply (H v V). unfold heartbeat_header in *. unfold id_of in E. rewrite E. exact K.
Qed.

Lemma survives : forall es c, Forall sound c -> Forall (heartbeats_fit c) es -> run es c <> Undef.
Proof.
  induction es as [|e es IH]; intros c S F; [discriminate|]. inversion F as [|? ? FE FS]; subst. cbn.
  destruct e as [now f|i g]; cbn [step].
  - destruct (all_total now f c S FE) as (c1 & -> & S1 & I). cbn [bind]. apply IH; [exact S1|].
    eapply Forall_impl; [|exact FS]. intros e. apply fit_ids. exact I.
  - cbn [bind]. destruct (change_sound g FE c i S) as [S1 I]. apply IH; [exact S1|].
    eapply Forall_impl; [|exact FS]. intros e. apply fit_ids. exact I.
Qed.

(** A heartbeat of another length. *)
Lemma all_undef : forall now f c u, In u c -> receive now f u = Undef -> all_receive now f c = Undef.
Proof.
  induction c as [|v t IH]; intros u U R; [destruct U|]. cbn. destruct U as [->|U].
  - rewrite R. reflexivity.
  - rewrite (IH u U R). destruct (receive now f v); reflexivity.
Qed.

Lemma length_ends : forall now f c u, In u c -> NodeModel.n_listening (u_node u) = true ->
  f_hdr f = heartbeat_header (u_node u) -> f_dlc f <> 1 -> forall es, run (Frame_ now f :: es) c = Undef.
Proof.
  intros now f c u U L H D es. cbn. rewrite (all_undef now f c u U); [reflexivity|].
  unfold receive, on_nmt. rewrite L, H, Z.eqb_refl. cbn [andb]. rewrite (proj2 (Z.eqb_neq _ _) D). reflexivity.
Qed.
