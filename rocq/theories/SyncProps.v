(** Properties C44-C46: sync layers. *)
From Verif Require Import Base CanModel SyncModel SyncSpec SyncProofs BcmProofs.

(** ** C44 *)

(** Overflow values 1 and more than 240 are rejected, no others. *)
Theorem C44_accepted : forall junk h period n, 0 <= n < 256 ->
  (new_sync junk h period n <> None <-> n = 0 \/ 2 <= n <= 240).
Proof.
  intros junk h period n H. unfold new_sync. destruct ((n =? 1) || (240 <? n)) eqn:E; split; try congruence; lia.
Qed.
Print Assumptions C44_accepted.

(** Each message carries the number of the cycle, counted cyclically in 1..n;
    [i] is the position of the cycle among all calls. *)
Theorem C44_counter : forall junk h period n y es i t f, junk <> [] -> 2 <= n -> new_sync junk h period n = Some y ->
  sent_at es y i = Some (t, f) -> f_hdr f = h /\ payload f = [count is_write (firstn (S i) es) mod n + 1].
Proof. exact counter_sent. Qed.
Print Assumptions C44_counter.

Theorem C44_in_range : forall junk h period n y es i t f, junk <> [] -> 2 <= n -> new_sync junk h period n = Some y ->
  sent_at es y i = Some (t, f) -> exists c, payload f = [c] /\ 1 <= c <= n.
Proof.
  intros junk h period n y es i t f J N H S. destruct (counter_sent _ _ _ _ _ _ _ _ _ J N H S) as [_ ->].
  eexists. split; [reflexivity|]. pose proof (Z.mod_pos_bound (count is_write (firstn (Datatypes.S i) es)) n ltac:(lia)). lia.
Qed.
Print Assumptions C44_in_range.

(** Messages of successive cycles carry successive values. *)
Theorem C44_successive_partial : forall junk h period n y es i j t f u g c d, junk <> [] -> 2 <= n ->
  new_sync junk h period n = Some y -> (i < j)%nat ->
  sent_at es y i = Some (t, f) -> sent_at es y j = Some (u, g) ->
  (forall k e, (i < k < j)%nat -> nth_error es k = Some e -> is_write e = false) ->
  payload f = [c] -> payload g = [d] -> d = if c =? n then 1 else c + 1.
Proof.
  intros junk h period n y es i j t f u g c d J N H IJ Sf Sg NB Pc Pd.
  destruct (counter_sent _ _ _ _ _ _ _ _ _ J N H Sf) as [_ Cf]. destruct (counter_sent _ _ _ _ _ _ _ _ _ J N H Sg) as [_ Cg].
  pose proof (sent_frame _ _ _ _ _ Sg) as (ej & Ej & Wj & _ & _).
  assert (X : forall m, (i <= m)%nat -> (m < j)%nat -> count is_write (firstn (S m) es) = count is_write (firstn (S i) es)).
  { induction m as [|m IH]; intros M1 M2; [replace i with O by lia; reflexivity|].
    destruct (Nat.eq_dec (S m) i) as [<-|NE]; [reflexivity|].
    destruct (nth_error es (S m)) as [e|] eqn:E.
    - rewrite (firstn_snoc_count _ _ _ _ E). rewrite (NB (S m) e) by (assumption || lia). rewrite IH by lia. cbn [b2z]. lia.
    - exfalso. apply nth_error_None in E. assert (j < List.length es)%nat by (apply nth_error_Some; congruence). lia. }
  assert (Y : count is_write (firstn j es) = count is_write (firstn (S i) es)).
  { destruct j as [|j]; [lia|]. apply X; lia. }
  rewrite (firstn_snoc_count _ _ _ _ Ej), Wj, Y in Cg. cbn [b2z] in Cg.
  set (q := count is_write (firstn (S i) es)) in *. clearbody q.
  assert (c = q mod n + 1) as -> by congruence. assert (d = (q + 1) mod n + 1) as -> by congruence. clear -N.
  rewrite (Zplus_mod q 1 n), (Z.mod_small 1 n) by lia. pose proof (Z.mod_pos_bound q n ltac:(lia)) as B. set (m := q mod n) in *. clearbody m.
  destruct (Z.eqb_spec (m + 1) n) as [E|E].
  - rewrite E, Z_mod_same_full. lia.
  - rewrite Z.mod_small by lia. lia.
Qed.
Print Assumptions C44_successive_partial.

Definition cycles : list event :=
  [AddNode 7; InitSync 100; ReadSync true 101 0; WriteSync true 106 1 0; ReadSync true 121 0; WriteSync true 126 0 1; ReadSync true 140 0; WriteSync true 141 0 0].
Example C44_ex : exists y, new_sync [9;9;9;9;9;9;9;9] (MsgHeader 0x80 false) 10 3 = Some y /\
  map payload_of (map fst (snd (run cycles y))) = [None; None; None; Some [2]; None; Some [3]; None; Some [1]].
Proof. eexists. split; reflexivity. Qed.

Theorem C44_no_counter : forall junk h period y es i t f, new_sync junk h period 0 = Some y ->
  sent_at es y i = Some (t, f) -> f_hdr f = h /\ payload f = [].
Proof. exact no_counter. Qed.
Print Assumptions C44_no_counter.

(** Cycles without message advance the counter as well: successive messages
    carry 2 and 4. *)
Theorem C44_idle_refuted : exists y, new_sync [0;0;0;0;0;0;0;0] (MsgHeader 0x80 false) 10 8 = Some y /\
  map payload_of (map fst (snd (run [AddNode 7; WriteSync true 0 0 0; RemoveNode 7; WriteSync true 10 0 0; AddNode 7; WriteSync true 20 0 0] y)))
  = [None; Some [2]; None; None; None; Some [4]].
Proof. eexists. split; reflexivity. Qed.
Print Assumptions C44_idle_refuted.

(** The counter is advanced before the first message: it carries 2, not 1. *)
Theorem C44_first_refuted : forall junk h period n y, junk <> [] -> 2 <= n <= 240 -> new_sync junk h period n = Some y ->
  payload_of (sent_at [AddNode 7; WriteSync true 0 0 0] y 1) = Some [2].
Proof.
  intros junk h period n y J N H.
  assert (exists t f, sent_at [AddNode 7; WriteSync true 0 0 0] y 1 = Some (t, f)) as (t & f & E).
  { assert (Y : y_nodes y = []) by (apply (new_sync_fields junk h period n y J); [lia|exact H]).
    unfold sent_at. cbn. rewrite Y. cbn. eauto. }
  rewrite E. destruct (counter_sent junk h period n y _ _ _ _ J ltac:(lia) H E) as [_ P]. cbn. rewrite P.
  unfold count. cbn -[Z.modulo]. rewrite Z.mod_small by lia. reflexivity.
Qed.
Print Assumptions C44_first_refuted.

(** ** C45 *)

(** In a running cycle a message is sent iff a node is registered; otherwise none. *)
Theorem C45_sent_iff : forall junk h period n y es i e, new_sync junk h period n = Some y ->
  nth_error es i = Some e -> is_write e = true -> (sent_at es y i <> None <-> registered (firstn i es)).
Proof.
  intros junk h period n y es i e H. apply sent_iff. unfold new_sync in H. destruct ((n =? 1) || (240 <? n)); [discriminate|].
  injection H as <-. reflexivity.
Qed.
Print Assumptions C45_sent_iff.

Theorem C45_only_in_write : forall y es i, (forall e, nth_error es i = Some e -> is_write e = false) -> sent_at es y i = None.
Proof. exact not_sent. Qed.
Print Assumptions C45_only_in_write.

(** The schedule: after an initialisation at [t0] no message is sent before as
    many periods as there were read cycles, plus one, have passed. *)
Theorem C45_schedule : forall h t0 es y i t f, y_step y > 0 -> existsb is_init es = false -> Forall lags_ok es ->
  sent_at (h ++ InitSync t0 :: es) y (List.length h + 1 + i) = Some (t, f) ->
  t0 + (count is_read (firstn i es) + 1) * y_step y <= t.
Proof. exact sent_time. Qed.
Print Assumptions C45_schedule.

(** Also after any delay two messages with a read cycle between them are half a
    period apart. *)
Theorem C45_spacing : forall es y i j k ti fi tj fj a n l, 0 <= y_half y -> Forall lags_ok es -> sequential es y ->
  (i < k < j)%nat -> sent_at es y i = Some (ti, fi) -> nth_error es k = Some (ReadSync a n l) -> a = true ->
  sent_at es y j = Some (tj, fj) -> ti + y_half y <= tj.
Proof. exact spacing. Qed.
Print Assumptions C45_spacing.

Example C45_ex : exists y, new_sync [0;0;0;0;0;0;0;0] (MsgHeader 0x80 false) 10 0 = Some y /\ y_step y > 0 /\
  existsb is_init (skipn 2 cycles) = false /\ Forall lags_ok cycles /\ sequential cycles y /\
  map (option_map fst) (map fst (snd (run cycles y))) = [None; None; None; Some 121; None; Some 130; None; Some 141].
Proof.
  eexists. split; [reflexivity|]. split; [cbn; lia|]. split; [reflexivity|]. split.
  - unfold cycles. repeat (apply Forall_cons; [cbn; auto; lia|]). constructor.
  - split; [|reflexivity]. set (y := mkSync _ _ _ _ _ _ _).
    intros i j e t n o r IJ E C R T CT.
    let rr := eval vm_compute in (snd (run cycles y)) in change (snd (run cycles y)) with rr in R.
    do 8 (destruct i as [|i]; [injection E as <-; (discriminate C || injection C as <-);
      do 8 (destruct j as [|j]; [try lia; injection R as <- <-; injection T as <-; try (cbn in CT; congruence); try lia|]); lia|]).
    destruct i; discriminate.
Qed.

(** A stalled process catches up: the messages then are half a period apart
    instead of a period. *)
Example C45_burst : exists y, new_sync [0;0;0;0;0;0;0;0] (MsgHeader 0x80 false) 10 0 = Some y /\
  map (option_map fst) (map fst (snd (run
    [AddNode 7; InitSync 0; ReadSync true 5 0; WriteSync true 95 0 0; ReadSync true 95 0; WriteSync true 100 0 0; ReadSync true 100 0; WriteSync true 105 0 0] y)))
  = [None; None; None; Some 95; None; Some 100; None; Some 105].
Proof. eexists. split; reflexivity. Qed.

(** ** C46 *)

(** After an initialisation that succeeded, for every sequence of frames the kernel
    sends iff some node was started and not stopped since (node 0 stands for all
    nodes started at once). *)
Theorem C46_running_partial : forall ign mon h,
  b_tx (brun (BInit true true :: ok_frames h) (new_bcm ign mon)) = true <-> exists p, is_started ign mon h p.
Proof. exact running_iff. Qed.
Print Assumptions C46_running_partial.

Definition nmt_frame (c p : Z) : frame := mkFrame (MsgHeader 0 false) 2 [c; p; 0; 0; 0; 0; 0; 0].
Definition hb_frame (p s : Z) : frame := mkFrame (MsgHeader (0x700 + p) false) 1 [s; 0; 0; 0; 0; 0; 0; 0].

Example C46_ex1 : let h := [hb_frame 5 127; nmt_frame 1 5; hb_frame 5 5; nmt_frame 1 9; nmt_frame 128 5] in
  b_tx (brun (BInit true true :: ok_frames h) (new_bcm [9] [])) = false /\
  b_tx (brun (BInit true true :: ok_frames (firstn 4 h)) (new_bcm [9] [])) = true.
Proof. split; reflexivity. Qed.

(** If the kernel refuses to start or stop, what is reported stays correct. *)
Theorem C46_flag : forall ign mon s f es, Forall frames_only es ->
  let b := brun (BInit s f :: es) (new_bcm ign mon) in b_tx b = b_running b.
Proof. intros ign mon s f es F. exact (flag_inv es (bcm_init s f (new_bcm ign mon)) F eq_refl). Qed.
Print Assumptions C46_flag.

(** A halt stops the transmission if the kernel does. *)
Theorem C46_halt : forall ign mon es, Forall frames_only es ->
  b_tx (brun (BInit true true :: es ++ [BHalt true]) (new_bcm ign mon)) = false.
Proof.
  intros ign mon es F. change (BInit true true :: es ++ [BHalt true]) with ((BInit true true :: es) ++ [BHalt true]). rewrite brun_app.
  pose proof (C46_flag ign mon true true es F) as H. cbn zeta in H.
  assert (SO : forall es b, Forall frames_only es -> b_sock b = true -> b_sock (brun es b) = true).
  { clear. induction es as [|e es IH]; intros b F S; [exact S|]. inversion F as [|? ? F1 F2]; subst.
    change (brun (e :: es) b) with (brun es (bstep e b)). apply IH; [exact F2|].
    destruct e as [|f ok| | |]; try destruct F1. cbn. destruct (b_handler b); [|exact S].
    assert (TG : forall c, b_sock c = true -> b_sock (toggle ok c) = true).
    { intros c X. unfold toggle. destruct (b_started c), (b_running c); exact X. }
    unfold handle_frame. repeat match goal with |- context [if ?x then _ else _] => destruct x end;
      repeat match goal with |- context [match skip_node ?x b with _ => _ end] => destruct (skip_node x b) end; try exact S; try (apply TG; exact S). }
  specialize (SO es (bcm_init true true (new_bcm ign mon)) F eq_refl).
  change (brun (BInit true true :: es) (new_bcm ign mon)) with (brun es (bcm_init true true (new_bcm ign mon))) in *.
  set (b := brun es (bcm_init true true (new_bcm ign mon))) in *. clearbody b.
  cbn. unfold bcm_halt. destruct (b_running b) eqn:R; cbn; [rewrite SO; reflexivity|rewrite H; reflexivity].
Qed.
Print Assumptions C46_halt.

(** The messages: one per counter value, or one without counter; the interval is
    the period. *)
Theorem C46_frames : forall junk h n, junk <> [] -> 1 <= n <= 255 ->
  List.length (sync_frames junk h n) = Z.to_nat n /\
  forall i, (i < Z.to_nat n)%nat -> exists f, nth_error (sync_frames junk h n) i = Some f /\
    f_hdr f = h /\ payload f = [Z.of_nat i + 1].
Proof. exact sync_frames_spec. Qed.
Print Assumptions C46_frames.

Theorem C46_interval : forall p h fs, 0 <= p ->
  let m := start_tx p h fs in
  m_sec m * 1000000 + m_usec m = p * 1000 /\ 0 <= m_usec m < 1000000 /\ map (fun x => snd x) (m_frames m) = map payload fs /\
  List.length (m_frames m) = List.length fs.
Proof.
  intros p h fs H. cbn. split; [lia|]. split; [lia|]. rewrite map_map, map_length. split; reflexivity.
Qed.
Print Assumptions C46_interval.

(** Not all known nodes have to be started. *)
Theorem C46_all_started_refuted : forall p q, 0 < p < 128 -> 0 < q < 128 -> p <> q ->
  let h := [hb_frame p 127; hb_frame q 127; nmt_frame 1 p] in
  b_tx (brun (BInit true true :: ok_frames h) (new_bcm [] [])) = true /\ ~ is_started [] [] h q.
Proof.
  intros p q P Q N h.
  assert (NH : forall x s c y, 0 < x < 128 -> ~ nmt (hb_frame x s) c y).
  { intros x s c y X (A & _). unfold hb_frame, MsgHeader, Header in A. cbn -[Z.modulo Z.add] in A. rewrite Z.mod_small in A by lia. lia. }
  split.
  - apply running_iff. exists p. exists [hb_frame p 127; hb_frame q 127], (nmt_frame 1 p), [].
    split; [reflexivity|]. split; [|intros g []]. unfold starts, heard. split; [cbn; auto|]. left. split; [lia|].
    unfold nmt. cbn. repeat split; lia.
  - unfold h. change ([hb_frame p 127; hb_frame q 127; nmt_frame 1 p]) with (([] ++ [hb_frame p 127; hb_frame q 127]) ++ [nmt_frame 1 p]).
    change (([] ++ [hb_frame p 127; hb_frame q 127])) with (([] ++ [hb_frame p 127]) ++ [hb_frame q 127]).
    rewrite !started_snoc. intros [(_ & [(_ & _ & _ & _ & X)|((_ & _ & _ & X) & _)])|[_ [X|[_ [X|[_ X]]]]]].
    + cbn in X. lia.
    + cbn in X. lia.
    + destruct X as (_ & [(_ & Y)|(Y & _)]); exact (NH _ _ _ _ Q Y).
    + destruct X as (_ & [(_ & Y)|(Y & _)]); exact (NH _ _ _ _ P Y).
    + destruct X as (a & f & c & E & _). destruct a; discriminate.
Qed.
Print Assumptions C46_all_started_refuted.

(** With a list of monitored nodes the command for all nodes is not heard: sync
    goes on after all nodes have been stopped. *)
Theorem C46_broadcast_refuted : forall c, c <> 1 ->
  b_tx (brun (BInit true true :: ok_frames [nmt_frame 1 5; nmt_frame c 0]) (new_bcm [] [5])) = true.
Proof. reflexivity. Qed.
Print Assumptions C46_broadcast_refuted.

(** After a start of all nodes, stopping each of them does not stop sync. *)
Theorem C46_start_all_refuted :
  b_tx (brun (BInit true true :: ok_frames [hb_frame 5 127; nmt_frame 1 0; nmt_frame 2 5; hb_frame 5 4]) (new_bcm [] [])) = true.
Proof. reflexivity. Qed.
Print Assumptions C46_start_all_refuted.

(** After a recover (or shutdown and init) while sync was running it is not
    started again, but reported as running. *)
Theorem C46_recover_refuted : forall cs, (forall p, In p cs -> 0 < p) ->
  let b := brun ([BInit true true; BFrame (nmt_frame 1 5) true; BRecover true true] ++ ok_frames (map (nmt_frame 1) cs)) (new_bcm [] []) in
  b_tx b = false /\ (cs <> [] -> b_running b = true).
Proof.
  intros cs H b. unfold b. rewrite brun_app. set (b0 := brun _ (new_bcm [] [])).
  assert (I0 : b_tx b0 = false /\ b_running b0 = true /\ b_ignored b0 = [] /\ b_monitored b0 = [] /\ b_handler b0 = true) by (repeat split).
  assert (X : forall cs b0, (forall p, In p cs -> 0 < p) -> b_tx b0 = false /\ b_running b0 = true /\ b_ignored b0 = [] /\ b_monitored b0 = [] /\ b_handler b0 = true ->
    b_tx (brun (ok_frames (map (nmt_frame 1) cs)) b0) = false /\ b_running (brun (ok_frames (map (nmt_frame 1) cs)) b0) = true).
  { clear. induction cs as [|p cs IH]; intros b H (A & B & C & D & E); [cbn; auto|].
    cbn [map ok_frames]. change (brun (?x :: ?y) b) with (brun y (bstep x b)). apply IH; [intros q Q; apply H; right; exact Q|].
    assert (P : 0 < p) by (apply H; left; reflexivity).
    destruct b as [ig mo kn st ru ha so tx le]. cbn in A, B, C, D, E. subst. cbn. unfold handle_frame, skip_node. cbn.
    replace (p =? 0) with false by lia. cbn [negb].
    unfold toggle. cbn. destruct (set_insert p st) as [|z l] eqn:S.
    - exfalso. assert (In p (set_insert p st)) by (apply in_set_insert; auto). rewrite S in H0. destruct H0.
    - cbn. auto 10. }
  destruct (X cs b0 H I0) as [X1 X2]. auto.
Qed.
Print Assumptions C46_recover_refuted.

(** Overflow values that the other sync layer rejects are accepted here. *)
Theorem C46_overflow_refuted : forall junk h n, n = 1 \/ 240 < n <= 255 -> List.length (sync_frames junk h n) = Z.to_nat n /\
  forall period, new_sync junk h period n = None.
Proof.
  intros junk h n N. unfold sync_frames, new_sync. replace (n =? 0) with false by lia. unfold range. rewrite !map_length, seq_length.
  split; [reflexivity|]. intro. replace ((n =? 1) || (240 <? n)) with true by lia. reflexivity.
Qed.
Print Assumptions C46_overflow_refuted.

(** The identifier as the kernel wants it: bit 31 tells extended ones. *)
Theorem C46_identifier : forall p h fs, 0 <= h_id h < 2^29 ->
  let m := start_tx p h fs in
  m_id m = h_id h + (if h_ext h then 2^31 else 0) /\ forall x, In x (m_frames m) -> fst (fst x) = m_id m.
Proof.
  intros p h fs H. cbn zeta. split.
  - unfold start_tx. cbn [m_id]. destruct (h_ext h); [|rewrite Z.lor_0_r; lia].
    rewrite <- Z.lxor_lor, <- Z.add_nocarry_lxor; try reflexivity;
      (apply Z.bits_inj'; intros i Hi; rewrite Z.land_spec, Z.bits_0; destruct (Z.eq_dec i 31) as [->|N];
       [rewrite testbit_div by lia; rewrite Z.div_small by lia; reflexivity|rewrite Z.pow2_bits_false by congruence; apply andb_false_r]).
  - intros x X. unfold start_tx in X. cbn [m_frames] in X. apply in_map_iff in X as [f [<- _]]. reflexivity.
Qed.
Print Assumptions C46_identifier.
Example C46_ex_id : m_id (start_tx 10 (mkHeader 0x80 true false false) [mkFrame (mkHeader 0x80 true false false) 0 []]) = 0x80000080.
Proof. reflexivity. Qed.

Lemma unheard : forall es b, Forall frames_only es -> b_handler b = false -> b_tx b = false -> b_tx (brun es b) = false.
Proof.
  induction es as [|e es IH]; intros b F H T; [exact T|]. inversion F as [|? ? F1 F2]; subst.
  change (brun (e :: es) b) with (brun es (bstep e b)). destruct e as [|f ok| | |]; try destruct F1. cbn [bstep]. rewrite H. apply IH; assumption.
Qed.
(** After a shutdown nothing is sent, whatever is heard, until the next initialisation. *)
Theorem C46_shutdown : forall h es b, Forall frames_only es -> b_tx (brun (h ++ BShutdown :: es) b) = false.
Proof. intros h es b F. rewrite brun_app. change (brun (BShutdown :: es) ?c) with (brun es (bstep BShutdown c)). apply unheard; [exact F|reflexivity|reflexivity]. Qed.
Print Assumptions C46_shutdown.
(** Nor if the first initialisation failed. *)
Theorem C46_failed : forall ign mon s f es, s && f = false -> Forall frames_only es ->
  b_tx (brun (BInit s f :: es) (new_bcm ign mon)) = false.
Proof.
  intros ign mon s f es H F. change (brun (BInit s f :: es) ?b) with (brun es (bstep (BInit s f) b)).
  apply unheard; [exact F| |reflexivity]. cbn [bstep]. unfold bcm_init. cbn [b_handler]. rewrite H. reflexivity.
Qed.
Print Assumptions C46_failed.

(** Without counter one frame without data is sent. *)
Theorem C46_no_counter : forall p junk h, exists id,
  m_frames (start_tx p h (sync_frames junk h 0)) = [(id, 0, [])] /\ map f_hdr (sync_frames junk h 0) = [h].
Proof. intros. eexists. split; reflexivity. Qed.
Print Assumptions C46_no_counter.

(** Frames of nodes that are ignored, or not among those to be monitored, change nothing, at any time. *)
Lemma lists_stay : forall es b, b_ignored (brun es b) = b_ignored b /\ b_monitored (brun es b) = b_monitored b.
Proof.
  assert (T : forall ok b, b_ignored (toggle ok b) = b_ignored b /\ b_monitored (toggle ok b) = b_monitored b).
  { intros ok b. unfold toggle. destruct (b_started b), (b_running b); auto. }
  assert (ST : forall e b, b_ignored (bstep e b) = b_ignored b /\ b_monitored (bstep e b) = b_monitored b).
  { intros [s f|f ok|ok| |s f] b; cbn [bstep]; auto.
    - destruct (b_handler b); [|auto]. unfold handle_frame.
      destruct (h_id (f_hdr f) =? 0); [destruct (1 <? f_dlc f); [destruct (skip_node _ b); [|auto]|]|
        destruct (h_id (f_hdr f) / 128 =? 14); [destruct (skip_node _ b); [|auto]|]]; (rewrite (proj1 (T _ _)), (proj2 (T _ _)); auto).
    - unfold bcm_halt. destruct (b_running b); auto. }
  induction es as [|e es IH]; intros b; [auto|]. change (brun (e :: es) b) with (brun es (bstep e b)). destruct (IH (bstep e b)) as [-> ->]. apply ST.
Qed.
Theorem C46_unheard : forall ign mon es f p ok, mentions f p -> ~ heard ign mon p ->
  let b := brun es (new_bcm ign mon) in
  let b' := brun (es ++ [BFrame f ok]) (new_bcm ign mon) in
  b_tx b' = b_tx b /\ b_running b' = b_running b /\
  forall es', b_tx (brun (es ++ BFrame f ok :: es') (new_bcm ign mon)) = b_tx (brun (es ++ es') (new_bcm ign mon)).
Proof.
  intros ign mon es f p ok M H. cbv zeta. set (b := brun es (new_bcm ign mon)).
  assert (S0 : skip_node p b = None).
  { destruct (lists_stay es (new_bcm ign mon)) as [A B]. fold b in A, B. cbn [new_bcm b_ignored b_monitored] in A, B. unfold skip_node. rewrite A, B. unfold mem.
    destruct (existsb (Z.eqb p) ign) eqn:X; [reflexivity|]. destruct mon as [|m mon].
    - exfalso. apply H. split; [|auto]. intros I. apply not_true_iff_false in X. apply X, existsb_exists. exists p. split; [exact I|lia].
    - cbn [negb andb]. destruct (existsb (Z.eqb p) (m :: mon)) eqn:Y; [|reflexivity]. exfalso. apply H. split.
      + intros I. apply not_true_iff_false in X. apply X, existsb_exists. exists p. split; [exact I|lia].
      + right. apply existsb_exists in Y as (q & I & E). replace p with q by lia. exact I. }
  assert (E : bstep (BFrame f ok) b = b).
  { cbn [bstep]. destruct (b_handler b); [|reflexivity]. unfold handle_frame. destruct M as [(c & M0 & M1 & _ & M2)|(M0 & M1)].
    - rewrite M0. cbn [Z.eqb]. replace (1 <? f_dlc f) with true by lia. rewrite M2, S0. reflexivity.
    - rewrite M0. replace (0x700 + p =? 0) with false by lia. rewrite <- (Z.div_unique (0x700 + p) 128 14 p) by lia. cbn [Z.eqb Pos.eqb].
      rewrite <- (Z.mod_unique (0x700 + p) 128 14 p) by lia. rewrite S0. reflexivity. }
  rewrite brun_app. fold b. change (brun [BFrame f ok] b) with (bstep (BFrame f ok) b). rewrite E. split; [reflexivity|]. split; [reflexivity|].
  intros es'. rewrite !brun_app. fold b. change (brun (BFrame f ok :: es') b) with (brun es' (bstep (BFrame f ok) b)). rewrite E. reflexivity.
Qed.
Print Assumptions C46_unheard.
Example C46_unheard_ex : mentions (nmt_frame 2 9) 9 /\ ~ heard [9] [] 9 /\
  b_tx (brun ([BInit true true; BShutdown; BInit true true; BFrame (nmt_frame 1 9) true]) (new_bcm [9] [])) = false /\
  b_tx (brun ([BInit true true; BShutdown; BInit true true; BFrame (nmt_frame 1 5) true; BFrame (nmt_frame 2 9) true]) (new_bcm [9] [])) = true.
Proof. split; [left; exists 2; vm_compute; auto|]. split; [intros [H _]; apply H; left; reflexivity|]. split; reflexivity. Qed.
