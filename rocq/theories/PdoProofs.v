From Verif Require Import Base CanModel KeyModel StorageModel StorageSpec StorageProofs PdoModel PdoSpec.

(** ** Parameters *)

Lemma b2z_bound : forall b, b2z b = 0 \/ b2z b = 1.
Proof. intros []; auto. Qed.

Lemma cob_bits : forall inv nortr ext id, 0 <= id < 2^29 ->
  let v := cob_layout inv nortr ext id in
  Z.land v (2^29 - 1) = id /\ has v (2^29) = ext /\ has v (2^30) = nortr /\ has v (2^31) = inv.
Proof.
  intros inv nortr ext id H v.
  rewrite land_ones_mod, !pow2_testbit_has, !testbit_div by lia.
  unfold v, cob_layout.
  destruct inv, nortr, ext; cbn [b2z];
    repeat split; try apply Z.eqb_eq; try apply Z.eqb_neq; lia.
Qed.

Lemma cob_id_decoded : forall inv nortr ext id fill, can_id_ok ext id ->
  let v := cob_layout inv nortr ext id in
  pdoid_header v fill = mkHeader id ext (fill && negb nortr) false /\
  header_isValid (pdoid_header v fill) = true /\ pdoid_invalid v = inv.
Proof.
  intros inv nortr ext id fill H v.
  assert (0 <= id < 2^29) by (unfold can_id_ok in H; destruct ext; lia).
  destruct (cob_bits inv nortr ext id H0) as [A [B [C D]]]. fold v in A, B, C, D.
  unfold pdoid_header, pdoid_invalid, Header. rewrite A, B, C, D.
  rewrite Z.mod_small by lia. repeat split.
  unfold header_isValid. cbn. unfold can_id_ok in H. destruct ext; apply Z.ltb_lt; lia.
Qed.

Lemma cob_any : forall v, 0 <= v < 2^32 -> exists inv nortr ext id,
  0 <= id < 2^29 /\ v = cob_layout inv nortr ext id.
Proof.
  intros v H. exists (v / 2^31 =? 1), ((v / 2^30) mod 2 =? 1), ((v / 2^29) mod 2 =? 1), (v mod 2^29).
  split; [lia|]. unfold cob_layout, b2z.
  destruct (Z.eqb_spec (v / 2^31) 1), (Z.eqb_spec ((v / 2^30) mod 2) 1), (Z.eqb_spec ((v / 2^29) mod 2) 1); lia.
Qed.

Lemma cob_reserved : forall v fill, 0 <= v < 2^32 ->
  header_isValid (pdoid_header v fill) = true <->
  exists inv nortr ext id, can_id_ok ext id /\ v = cob_layout inv nortr ext id.
Proof.
  intros v fill H. destruct (cob_any v H) as [inv [nortr [ext [id [Hid ->]]]]].
  destruct (cob_bits inv nortr ext id Hid) as [A [B [C D]]].
  split.
  - intros Hv. exists inv, nortr, ext, id. split; [|reflexivity].
    unfold header_isValid, pdoid_header, Header in Hv. cbn [h_id h_ext] in Hv.
    rewrite A, B, Z.mod_small in Hv by lia. unfold can_id_ok.
    apply Z.ltb_lt in Hv. destruct ext; lia.
  - intros [i2 [n2 [e2 [id2 [H2 E]]]]]. rewrite E. apply cob_id_decoded, H2.
Qed.

Lemma map_decoded : forall index sub len, 0 <= index < 2^16 -> 0 <= sub < 2^8 -> 0 <= len < 2^8 ->
  let v := map_layout index sub len in
  map_idx v = index /\ map_sub v = sub /\ map_length v = len.
Proof.
  intros index sub len Hi Hs Hl v. unfold map_idx, map_sub, map_length, u8, u16.
  change 255 with (2^8 - 1). rewrite !land_ones_mod, !shiftr_div by lia.
  unfold v, map_layout. repeat split; lia.
Qed.

Lemma map_any : forall v, 0 <= v < 2^32 ->
  v = map_layout (map_idx v) (map_sub v) (map_length v).
Proof.
  intros v H. unfold map_idx, map_sub, map_length, u8, u16, map_layout.
  change 255 with (2^8 - 1). rewrite !land_ones_mod, !shiftr_div by lia. lia.
Qed.

(** ** Supervision *)

Definition armed_ok (p0 p : pdo) (h : list rhist) : Prop :=
  p_type p = p_type p0 /\ p_frame p = p_frame p0 /\
  match period (p_type p0) (h_rtr (f_hdr (p_frame p0))) with
  | Some n =>
    p_timeout p = match since h with
                  | None => -1
                  | Some c => Z.max 0 (n + 2 - Z.of_nat c)
                  end
  | None => p_type p0 = 0xFC \/ (p_type p0 < 1 \/ 240 < p_type p0) /\ p_type p0 <> 0xFC
  end /\ (p_type p0 = 0xFC -> h_rtr (f_hdr (p_frame p0)) = false -> p_timeout p = -1).

Lemma period_some : forall tt r n, period tt r = Some n ->
  (1 <= tt <= 240 /\ n = tt) \/ (tt = 0xFC /\ r = true /\ n = 1).
Proof.
  intros tt r n. unfold period.
  destruct (Z.leb_spec 1 tt), (Z.leb_spec tt 240); cbn [andb];
    try (intros E; injection E; intros; left; lia);
    destruct (Z.eqb_spec tt 0xFC); cbn [andb]; try discriminate; destruct r; try discriminate;
    intros E; injection E; intros; right; lia.
Qed.

Lemma armed_received : forall p0 p h, armed_ok p0 p h -> armed_ok p0 (rpdo_rearm p) (Received :: h).
Proof.
  intros p0 p h [A [B [C D]]]. unfold armed_ok, rpdo_rearm. cbn [p_type p_frame p_timeout since].
  rewrite A, B. split; [reflexivity|]. split; [reflexivity|].
  split.
  - destruct (period (p_type p0) (h_rtr (f_hdr (p_frame p0)))) as [n|] eqn:E; [|exact C].
    destruct (period_some _ _ _ E) as [[H1 ->]|[H1 [H2 ->]]].
    + replace ((1 <=? p_type p0) && (p_type p0 <=? 240)) with true by lia. lia.
    + rewrite H1, H2. reflexivity.
  - intros H1 H2. rewrite H1, H2. cbn [andb]. rewrite andb_false_r.
    change ((1 <=? 0xFC) && (0xFC <=? 240)) with false. cbn iota. exact (D H1 H2).
Qed.

Lemma armed_cycle : forall p0 p h, armed_ok p0 p h ->
  armed_ok p0 (fst (fst (rpdo_sync p))) (Cycle :: h) /\
  snd (fst (rpdo_sync p)) = match period (p_type p0) (h_rtr (f_hdr (p_frame p0))), since h with
                | Some n, Some c => n + 2 <=? Z.of_nat c
                | _, _ => false
                end.
Proof.
  intros p0 p h [A [B [C D]]].
  unfold rpdo_sync, armed_ok. cbn [fst snd p_type p_frame p_timeout since]. rewrite A, B.
  destruct (period (p_type p0) (h_rtr (f_hdr (p_frame p0)))) as [n|] eqn:E.
  - assert (Hc : ((1 <=? p_type p0) && (p_type p0 <=? 240) || (p_type p0 =? 0xFC)) = true).
    { destruct (period_some _ _ _ E) as [[H1 ->]|[H1 [H2 ->]]]; lia. }
    assert (Hn : 1 <= n) by (destruct (period_some _ _ _ E) as [[H1 ->]|[H1 [H2 ->]]]; lia).
    rewrite Hc. cbn [andb]. split; [split; [reflexivity|]; split; [reflexivity|]; split|].
    + rewrite C. destruct (since h) as [c|].
      * destruct (Z.ltb_spec 0 (Z.max 0 (n + 2 - Z.of_nat c))); lia.
      * reflexivity.
    + intros H1 H2. rewrite (D H1 H2). reflexivity.
    + rewrite C. destruct (since h) as [c|]; [|reflexivity].
      destruct (Z.leb_spec (n + 2) (Z.of_nat c)); lia.
  - split; [split; [reflexivity|]; split; [reflexivity|]; split; [exact C|]|].
    + intros H1 H2. rewrite (D H1 H2). change (0 <? -1) with false. rewrite andb_false_r. reflexivity.
    + destruct (since h).
      all: destruct C as [C|[C1 C2]].
      all: try (replace ((1 <=? p_type p0) && (p_type p0 <=? 240) || (p_type p0 =? 0xFC)) with false by lia; reflexivity).
      all: destruct (h_rtr (f_hdr (p_frame p0))) eqn:R;
        [unfold period in E; rewrite C in E; discriminate|rewrite (D C eq_refl); apply andb_false_r].
Qed.

Lemma rx_run_app : forall h1 h2 p, rx_run p (h1 ++ h2) =
  let '(p1, o1) := rx_run p h1 in let '(p2, o2) := rx_run p1 h2 in (p2, o1 ++ o2).
Proof.
  induction h1 as [|e h1 IH]; intros h2 p; cbn [app rx_run].
  - destruct (rx_run p h2). reflexivity.
  - destruct (rx_event p e) as [p1 o1]. rewrite IH.
    destruct (rx_run p1 h1) as [p2 o2]. destruct (rx_run p2 h2) as [p3 o3].
    rewrite app_assoc. reflexivity.
Qed.

Lemma armed_init : forall p0, p_timeout p0 = -1 -> armed_ok p0 p0 [].
Proof.
  intros p0 H. unfold armed_ok. cbn [since]. rewrite H. split; [reflexivity|]. split; [reflexivity|].
  split; [|reflexivity].
  destruct (period _ _) eqn:E; [reflexivity|]. unfold period in E.
  destruct (Z.leb_spec 1 (p_type p0)), (Z.leb_spec (p_type p0) 240); cbn [andb] in E; try discriminate; lia.
Qed.

Lemma armed_run : forall p0 h, p_timeout p0 = -1 -> armed_ok p0 (fst (rx_run p0 h)) (rev h).
Proof.
  intros p0 h H. induction h as [|e h IH] using rev_ind; [apply armed_init, H|].
  rewrite rx_run_app, rev_app_distr. cbn [rev app rx_run].
  destruct (rx_run p0 h) as [p1 o1] eqn:E. cbn [fst] in IH.
  destruct e; cbn [rx_event].
  - cbn [fst]. apply armed_received, IH.
  - destruct (rpdo_sync p1) as [[p2 r] f] eqn:E2. cbn [fst].
    replace p2 with (fst (fst (rpdo_sync p1))) by (rewrite E2; reflexivity).
    apply armed_cycle, IH.
Qed.

Lemma reported : forall p0 h, p_timeout p0 = -1 ->
  snd (rx_run p0 (h ++ [Cycle])) = snd (rx_run p0 h) ++
    [match period (p_type p0) (h_rtr (f_hdr (p_frame p0))), since (rev h) with
     | Some n, Some c => n + 2 <=? Z.of_nat c
     | _, _ => false
     end].
Proof.
  intros p0 h H. pose proof (armed_run p0 h H) as A. rewrite rx_run_app.
  destruct (rx_run p0 h) as [p1 o1]. cbn [fst snd] in *. cbn [rx_run rx_event].
  pose proof (proj2 (armed_cycle p0 p1 (rev h) A)) as B.
  destruct (rpdo_sync p1) as [[p2 r] f]. cbn [fst snd app] in *. rewrite B. reflexivity.
Qed.

(** ** One buffer *)

Lemma buf_run_app : forall a b s, buf_run s (a ++ b) =
  let '(s1, r1) := buf_run s a in let '(s2, r2) := buf_run s1 b in (s2, r1 ++ r2).
Proof.
  induction a as [|o a IH]; intros b s; cbn [app buf_run].
  - destruct (buf_run s b). reflexivity.
  - destruct (buf_step s o) as [s1 r1]. rewrite IH. destruct (buf_run s1 a) as [s2 r2].
    destruct (buf_run s2 b) as [s3 r3]. rewrite app_assoc. reflexivity.
Qed.

Lemma buf_run_dirty : forall n ops b, b_size b = n -> b_dirty b = false ->
  b_size (fst (buf_run b ops)) = n /\
  b_dirty (fst (buf_run b ops)) = written n (rev ops) /\
  (written n (rev ops) = true -> b_empty (fst (buf_run b ops)) = false).
Proof.
  intros n ops b Hn Hd. induction ops as [|o ops [A [B C]]] using rev_ind.
  - cbn. repeat split; auto. discriminate.
  - rewrite buf_run_app, rev_app_distr. cbn [rev app buf_run].
    destruct (buf_run b ops) as [b1 r1]. cbn [fst] in *.
    destruct o as [data|]; cbn [buf_step written].
    + unfold buf_set. rewrite A. destruct (Nat.eqb_spec n (List.length data)) as [E|E]; cbn [negb fst].
      * rewrite E, Nat.eqb_refl. cbn. repeat split; auto.
      * rewrite (proj2 (Nat.eqb_neq _ _)) by lia. cbn [orb]. auto.
    + unfold buf_fetch. destruct (b_empty b1) eqn:Eb; cbn [fst].
      * split; [exact A|]. split; [|discriminate]. rewrite B.
        destruct (written n (rev ops)); [|reflexivity]. specialize (C eq_refl). discriminate.
      * split; [exact A|]. split; [reflexivity|]. discriminate.
Qed.

Lemma buf_changed : forall n ops,
  snd (buf_run (buf_new n) (ops ++ [BCycle])) = snd (buf_run (buf_new n) ops) ++ [written n (rev ops)].
Proof.
  intros n ops. destruct (buf_run_dirty n ops (buf_new n) eq_refl eq_refl) as [A [B C]].
  rewrite buf_run_app. destruct (buf_run (buf_new n) ops) as [b1 r1]. cbn [fst snd] in *.
  cbn [buf_run buf_step]. unfold buf_fetch.
  destruct (b_empty b1) eqn:E; cbn [snd app]; do 2 f_equal.
  - destruct (written n (rev ops)); [specialize (C eq_refl); discriminate|reflexivity].
  - exact B.
Qed.

(** ** Filling and spreading *)

Lemma upd_eq : forall A (f : nat -> A) n a, upd f n a n = a.
Proof. intros. unfold upd. rewrite Nat.eqb_refl. reflexivity. Qed.
Lemma upd_neq : forall A (f : nat -> A) n a i, i <> n -> upd f n a i = f i.
Proof. intros. unfold upd. apply Nat.eqb_neq in H. rewrite H. reflexivity. Qed.

(** Buffers belonging to ids, with sizes. *)
Definition sized (bufs : nat -> option pbuf) (i n : nat) : Prop := exists b, bufs i = Some b /\ b_size b = n.
Definition sum (ns : list nat) : nat := fold_right Nat.add 0%nat ns.

Definition fetched (b : pbuf) : pbuf := if b_empty b then b else buf_clean b.
Definition sends (b : pbuf) : bool := b_dirty b && negb (b_empty b).

(** [ids] buffers show their content in [data]; gaps show [junk]. *)
Fixpoint filled (bufs : nat -> option pbuf) (ids : list nat) (junk data : bytes) : Prop :=
  match ids with
  | [] => data = []
  | i :: t =>
    exists b, bufs i = Some b /\
      firstn (b_size b) data = (if b_empty b then firstn (b_size b) junk else firstn (b_size b) (b_data b)) /\
      filled bufs t (skipn (b_size b) junk) (skipn (b_size b) data)
  end.

Lemma filled_ext : forall ids b1 b2 junk data, (forall i, In i ids -> b1 i = b2 i) ->
  filled b1 ids junk data -> filled b2 ids junk data.
Proof.
  induction ids as [|i ids IH]; intros b1 b2 junk data H F; [exact F|].
  destruct F as [b [A [B C]]]. exists b. split; [rewrite <- H by (left; reflexivity); exact A|].
  split; [exact B|]. eapply IH; [|exact C]. intros. apply H. right. assumption.
Qed.

Lemma tpdo_fill_spec : forall ids ns bufs len data upd0,
  NoDup ids -> Forall2 (sized bufs) ids ns ->
  (forall i b, In i ids -> bufs i = Some b -> List.length (b_data b) = b_size b) ->
  (sum ns <= len)%nat -> (len <= List.length data)%nat ->
  exists bufs' out, 
    tpdo_fill bufs ids len data upd0 =
      Ok (bufs', out, existsb (fun i => match bufs i with Some b => sends b | None => false end) ids || upd0) /\
    List.length out = sum ns /\ filled bufs ids data out /\
    (forall i, bufs' i = if existsb (Nat.eqb i) ids
                         then match bufs i with Some b => Some (fetched b) | None => None end else bufs i).
Proof.
  induction ids as [|i ids IH]; intros ns bufs len data upd0 Hnd HF Hlen Hsum Hdata;
    inversion HF as [|? n ? ns' Hs HF' E1 E2]; subst; clear HF.
  - exists bufs, []. cbn. auto.
  - destruct Hs as [b [Eb Hn]]. apply NoDup_cons_iff in Hnd as [Hni Hnd].
    cbn [sum fold_right] in *. fold (sum ns') in *.
    cbn [tpdo_fill]. rewrite Eb. subst n.
    rewrite (proj2 (Nat.leb_le _ _)) by lia.
    assert (Hb : buf_fetch b = (fetched b, if b_empty b then None else Some (firstn (b_size b) (b_data b)), sends b)).
    { unfold buf_fetch, fetched, sends. destruct (b_empty b); [rewrite andb_false_r|rewrite andb_true_r]; reflexivity. }
    rewrite Hb.
    assert (Hneq : forall j, In j ids -> upd bufs i (Some (fetched b)) j = bufs j).
    { intros j Hj. apply upd_neq. intros ->. contradiction. }
    destruct (IH ns' (upd bufs i (Some (fetched b))) (len - b_size b)%nat (skipn (b_size b) data) (sends b || upd0))
      as [bufs' [out [R [L [F B]]]]]; auto.
    + clear - HF' Hneq. induction HF' as [|x y xs ys H HF IH]; constructor.
      * destruct H as [b' [E H]]. exists b'. rewrite Hneq by (left; reflexivity). auto.
      * apply IH. intros. apply Hneq. right. assumption.
    + intros j b' Hj E. rewrite Hneq in E by exact Hj. apply (Hlen j b'); [right; exact Hj|exact E].
    + lia.
    + rewrite skipn_length. lia.
    + rewrite R. set (here := match (if b_empty b then None else Some (firstn (b_size b) (b_data b))) with
                             | Some x => x | None => firstn (b_size b) data end).
      assert (Hh : List.length here = b_size b).
      { unfold here. destruct (b_empty b); rewrite firstn_length; [lia|].
        rewrite (Hlen i b) by (auto; left; reflexivity). lia. }
      exists bufs', (here ++ out). repeat split.
      * do 2 f_equal. cbn [existsb]. rewrite Eb.
        replace (existsb (fun i0 => match upd bufs i (Some (fetched b)) i0 with Some b0 => sends b0 | None => false end) ids)
          with (existsb (fun i0 => match bufs i0 with Some b0 => sends b0 | None => false end) ids).
        -- rewrite orb_assoc. rewrite (orb_comm (existsb (fun i0 => match bufs i0 with Some b0 => sends b0 | None => false end) ids) (sends b)). reflexivity.
        -- clear - Hneq. induction ids as [|j ids IH]; [reflexivity|]. cbn [existsb].
           rewrite Hneq by (left; reflexivity). f_equal. apply IH. intros. apply Hneq. right. assumption.
      * rewrite app_length. lia.
      * cbn [filled]. exists b. split; [exact Eb|]. split.
        -- rewrite firstn_app, Hh, Nat.sub_diag. cbn [firstn]. rewrite app_nil_r.
           rewrite (firstn_all2 here) by lia.
           unfold here. destruct (b_empty b); reflexivity.
        -- rewrite skipn_app, Hh, Nat.sub_diag. rewrite (skipn_all2 here) by lia. cbn [skipn app].
           apply (filled_ext ids (upd bufs i (Some (fetched b)))); auto.
      * intros j. rewrite B. cbn [existsb]. destruct (Nat.eqb_spec j i) as [->|Hj].
        -- replace (existsb (Nat.eqb i) ids) with false; [rewrite upd_eq, Eb; reflexivity|].
           symmetry. apply not_true_iff_false. rewrite existsb_exists. intros [x [Hx Hq]].
           apply Nat.eqb_eq in Hq. subst. contradiction.
        -- cbn [orb]. rewrite upd_neq by exact Hj. reflexivity.
Qed.

(** Distribution of a frame that is long enough. *)
Fixpoint placed (ids : list nat) (ns : list nat) (src : bytes) (i : nat) : option bytes :=
  match ids, ns with
  | j :: t, n :: nt => if Nat.eqb i j then Some (firstn n src) else placed t nt (skipn n src) i
  | _, _ => None
  end.

Lemma placed_notin : forall ids ns src i, ~ In i ids -> placed ids ns src i = None.
Proof.
  induction ids as [|j ids IH]; intros [|n ns] src i H; try reflexivity.
  cbn [placed]. destruct (Nat.eqb_spec i j) as [->|_]; [exfalso; apply H; left; reflexivity|].
  apply IH. intro. apply H. right. assumption.
Qed.

Lemma rpdo_spread_spec : forall ids ns bufs left src,
  NoDup ids -> Forall2 (sized bufs) ids ns ->
  (forall i b, In i ids -> bufs i = Some b -> List.length (b_data b) = b_size b) ->
  (sum ns <= left)%nat -> (left <= List.length src)%nat ->
  exists bufs', rpdo_spread bufs ids left src = Ok bufs' /\
    forall i, bufs' i = match placed ids ns src i, bufs i with
                        | Some v, Some b => Some (mkBuf (b_size b) true false v)
                        | _, _ => bufs i
                        end.
Proof.
  induction ids as [|i ids IH]; intros ns bufs left src Hnd HF Hlen Hsum Hsrc;
    inversion HF as [|? n ? ns' Hs HF' E1 E2]; subst; clear HF.
  - exists bufs. split; reflexivity.
  - destruct Hs as [b [Eb Hn]]. apply NoDup_cons_iff in Hnd as [Hni Hnd].
    cbn [sum fold_right] in *. fold (sum ns') in *. subst n.
    cbn [rpdo_spread]. rewrite Eb. rewrite (proj2 (Nat.leb_le _ _)) by lia.
    assert (Hneq : forall j, In j ids -> upd bufs i (Some (buf_put b src)) j = bufs j).
    { intros j Hj. apply upd_neq. intros ->. contradiction. }
    destruct (IH ns' (upd bufs i (Some (buf_put b src))) (left - b_size b)%nat (skipn (b_size b) src))
      as [bufs' [R B]]; auto.
    + clear - HF' Hneq. induction HF' as [|x y xs ys H HF IH]; constructor.
      * destruct H as [b' [E H]]. exists b'. rewrite Hneq by (left; reflexivity). auto.
      * apply IH. intros. apply Hneq. right. assumption.
    + intros j b' Hj E. rewrite Hneq in E by exact Hj. apply (Hlen j b'); [right; exact Hj|exact E].
    + lia.
    + rewrite skipn_length. lia.
    + exists bufs'. split; [exact R|]. intros j. rewrite B. cbn [placed].
      destruct (Nat.eqb_spec j i) as [->|Hj].
      * rewrite placed_notin by exact Hni. rewrite upd_eq, Eb. unfold buf_put.
        rewrite skipn_all2 by (rewrite (Hlen i b); [lia|left; reflexivity|exact Eb]).
        rewrite app_nil_r. reflexivity.
      * rewrite upd_neq by exact Hj. reflexivity.
Qed.
