(** Proofs about SDO transfers with a conforming server. *)
From Verif Require Import Base CanModel KeyModel StorageModel SdoModel SdoSpec SdoProofs SdoReadProofs.

Lemma object_bytes_ok : forall index sub, object_ok index sub -> bytes_ok (object_bytes index sub).
Proof. intros index sub [I S]. repeat constructor; unfold byte_ok; lia. Qed.

Lemma le32_bytes_ok : forall x, bytes_ok (le32_bytes x).
Proof. intros x. repeat constructor; unfold byte_ok; lia. Qed.

Lemma build_ok : forall index sub b tail, object_ok index sub -> byte_ok b -> bytes_ok tail -> List.length tail = 4%nat ->
  msg_ok ([b] ++ object_bytes index sub ++ tail).
Proof.
  intros index sub b tail O B T L. split.
  - rewrite !app_length, L. reflexivity.
  - apply Forall_app. split; [constructor; [assumption|constructor]|].
    apply Forall_app. split; [apply object_bytes_ok; assumption|assumption].
Qed.

Lemma refuse_ok : forall index sub r, object_ok index sub ->
  msg_ok ([128] ++ object_bytes index sub ++ le32_bytes r) /\ code ([128] ++ object_bytes index sub ++ le32_bytes r) = 4.
Proof.
  intros. split; [|reflexivity]. apply build_ok; [assumption|unfold byte_ok; lia|apply le32_bytes_ok|reflexivity].
Qed.

Section TalkWrite.
Variables (v : server) (index sub : Z) (data obj : bytes).
Hypothesis OBJ : object_ok index sub.
Hypothesis DATA : bytes_ok data.
Hypothesis NONEMPTY : data <> [].

Notation wreq := (wreq index sub data).
Notation wcount := (wcount data).
Notation wst := (wst index sub data).
Notation client := (sdo_write index sub data).

Definition server_at (j : nat) (st : srv_state * bytes) : Prop :=
  match j with
  | O => st = (SrvIdle, obj)
  | S i => st = (SrvDown (Some (i_announced (wreq 0))) (firstn (7 * i) data) (Z.of_nat i mod 2), obj)
  end.

Definition mismatch (j : nat) : bool :=
  (j =? wcount)%nat && (0 <? j)%nat && v_strict v && negb (i_announced (wreq 0) =? Z.of_nat (List.length data)).

Lemma wreq0_fields : (List.length data <= 4 -> i_exp (wreq 0) = true /\ i_data (wreq 0) = data)%nat /\
  (4 < List.length data -> i_exp (wreq 0) = false /\ i_sized (wreq 0) = true)%nat.
Proof.
  assert (L0 : List.length data <> 0%nat) by (intro H; apply length_zero_iff_nil in H; contradiction).
  unfold SdoProofs.wreq, download_initiate. split; intros L.
  - destruct (4 <? List.length data)%nat eqn:E; [lia|]. cbn [fst].
    assert (B : forall t, b0 ([1 + 2 + 4 * ((4 - Z.of_nat (List.length data)) mod 4) + 1 * 32; index mod 256; index / 256; sub] ++ t)
       = 35 + 4 * (4 - Z.of_nat (List.length data))) by (intros; unfold b0; cbn [app nth]; lia).
    unfold i_exp, i_data, i_sized. rewrite B. split; [apply Z.eqb_eq; lia|].
    destruct ((35 + 4 * (4 - Z.of_nat (List.length data))) mod 2 =? 1) eqn:O; [|apply Z.eqb_neq in O; lia].
    replace (Z.to_nat _) with (List.length data) by lia.
    cbn [app skipn]. unfold pad_to. rewrite firstn_app, firstn_all, Nat.sub_diag. cbn [firstn]. apply app_nil_r.
  - destruct (4 <? List.length data)%nat eqn:E; [|lia]. split; reflexivity.
Qed.

Lemma firstn_chunk : forall k, firstn (7 * k) data ++ chunk data k = firstn (7 * k + 7) data.
Proof.
  intros k. unfold chunk. rewrite <- (firstn_skipn (7 * k) data) at 3.
  rewrite firstn_app. rewrite (firstn_all2 (n := 7 * k + 7)) by (rewrite firstn_length; lia).
  f_equal. destruct (Nat.le_gt_cases (7 * k) (List.length data)).
  - f_equal. rewrite firstn_length. lia.
  - rewrite skipn_all2 by lia. rewrite !firstn_nil. reflexivity.
Qed.

Lemma serve_write : forall j st, (j <= wcount)%nat -> server_at j st ->
  let '(st', m) := serve v index sub st (wreq j) in msg_ok m /\
  if v_veto v (fst st) (wreq j) || mismatch j then code m = 4 /\ snd st' = obj
  else answers (wreq j) m /\ ((j < wcount)%nat -> server_at (S j) st') /\ (j = wcount -> snd st' = data).
Proof.
  intros j st J A. pose proof (wcount_eq data) as WC. pose proof (count_bound data) as CB.
  destruct (wreq0_ok index sub data OBJ DATA) as [O1 [O2 O3]].
  assert (L0 : List.length data <> 0%nat) by (intro H; apply length_zero_iff_nil in H; contradiction).
  destruct j as [|i].
  - cbn [server_at] in A. subst st. unfold serve. cbn [fst].
    assert (MM : mismatch 0 = false) by (unfold mismatch; destruct (0 =? wcount)%nat; reflexivity).
    rewrite MM, orb_false_r.
    destruct (v_veto v SrvIdle (wreq 0)); [split; [apply refuse_ok; assumption|split; reflexivity]|].
    rewrite O2. change (1 =? 1) with true. cbv iota.
    destruct (list_eq_dec Z.eq_dec (firstn 3 (skipn 1 (wreq 0))) (object_bytes index sub)) as [E|E]; [|exfalso; apply E; exact O3].
    cbn [negb]. cbv iota.
    assert (M : msg_ok ([96] ++ object_bytes index sub ++ [0; 0; 0; 0])).
    { apply build_ok; [assumption|unfold byte_ok; lia| |reflexivity]. repeat constructor; unfold byte_ok; lia. }
    assert (AN : answers (wreq 0) ([96] ++ object_bytes index sub ++ [0; 0; 0; 0])).
    { left. split; [assumption|]. split; [reflexivity|]. unfold same_object. rewrite E. reflexivity. }
    destruct wreq0_fields as [F1 F2].
    destruct (Nat.le_gt_cases (List.length data) 4) as [L|L].
    + destruct (F1 L) as [F3 F4]. rewrite F3. split; [assumption|]. split; [assumption|].
      split; intros; [|assumption].
      rewrite WC in H. destruct (List.length data <=? 4)%nat eqn:X; lia.
    + destruct (F2 L) as [F3 F4]. rewrite F3. split; [assumption|]. split; [assumption|].
      split; intros H.
      * cbn [server_at]. rewrite F4. reflexivity.
      * rewrite WC in H. destruct (List.length data <=? 4)%nat eqn:X; [lia|]. lia.
  - cbn [server_at] in A. subst st. unfold serve. cbn [fst].
    destruct (segment_request_fields data DATA i) as [S1 [S2 [S3 S4]]].
    change (wreq (S i)) with (segment_request data i).
    destruct (v_veto v _ (segment_request data i)); [split; [apply refuse_ok; assumption|split; reflexivity]|].
    cbn [orb].
    rewrite S1. change (0 =? 1) with false. change (0 =? 0) with true. cbv iota.
    rewrite S2, Z.eqb_refl. cbn [negb]. cbv iota.
    rewrite S3, S4, firstn_chunk.
    assert (M : msg_ok [32 + 16 * (Z.of_nat i mod 2); 0; 0; 0; 0; 0; 0; 0]).
    { split; [reflexivity|]. repeat constructor; unfold byte_ok; lia. }
    assert (AN : answers (segment_request data i) [32 + 16 * (Z.of_nat i mod 2); 0; 0; 0; 0; 0; 0; 0]).
    { right. left. split; [assumption|]. unfold code, tog, b0 in *. cbn [nth]. rewrite S2. lia. }
    destruct (List.length data <=? 7 * i + 7)%nat eqn:LST.
    + assert (W : S i = wcount).
      { rewrite WC in J |- *. destruct (List.length data <=? 4)%nat; lia. }
      rewrite firstn_all2 by lia.
      unfold mismatch. rewrite W, Nat.eqb_refl.
      replace (0 <? wcount)%nat with true by (symmetry; apply Nat.ltb_lt; lia). cbn [andb].
      destruct (v_strict v && negb (i_announced (wreq 0) =? Z.of_nat (List.length data))) eqn:MM.
      * split; [apply refuse_ok; assumption|split; reflexivity].
      * split; [assumption|]. split; [assumption|]. split; intros; [lia|reflexivity].
    + assert (W : (S i < wcount)%nat).
      { rewrite WC in J |- *. destruct (List.length data <=? 4)%nat; lia. }
      assert (MM : mismatch (S i) = false).
      { unfold mismatch. replace (S i =? wcount)%nat with false by (symmetry; apply Nat.eqb_neq; lia). reflexivity. }
      rewrite MM. split; [assumption|]. split; [assumption|]. split; intros; [|lia].
      cbn [server_at]. replace (7 * i + 7)%nat with (7 * S i)%nat by lia.
      replace (1 - Z.of_nat i mod 2) with (Z.of_nat (S i) mod 2) by lia. reflexivity.
Qed.

Inductive write_state (n : nat) (ins : list input) (st : srv_state * bytes) : Prop :=
| ws_waiting : (n <= wcount)%nat -> server_at n st ->
    wloop index sub data ins = Ok (wst n, firstn n (segment_requests data), false) -> write_state n ins st
| ws_done : (wcount < n)%nat -> snd st = data -> mismatch wcount = false ->
    wloop index sub data ins = Ok (set_done (wst wcount), segment_requests data, true) -> write_state n ins st
| ws_failed : forall s out, wloop index sub data ins = Ok (s, out, true) -> finish s true = SThrow ->
    (exists s r, v_veto v s r = true) \/ mismatch wcount = true -> snd st = obj -> write_state n ins st.

Lemma finish_write_done : finish (set_done (wst wcount)) true = SReturn data.
Proof.
  assert (L0 : List.length data <> 0%nat) by (intro H; apply length_zero_iff_nil in H; contradiction).
  apply finish_return; cbn [set_done SdoProofs.wst s_off s_total]; rewrite woff_last; [reflexivity|assumption].
Qed.

Lemma last_wreq : forall n, (n <= wcount)%nat -> last (wreq 0 :: firstn n (segment_requests data)) [] = wreq n.
Proof.
  intros n H. rewrite (wreqs_firstn index sub data n), wreqs_S by assumption. apply last_last.
Qed.

Lemma talk_write : forall n, let '(ins, st) := talk v index sub client obj n in write_state n ins st.
Proof.
  induction n as [|n IH].
  - cbn [talk]. apply ws_waiting; [lia|reflexivity|reflexivity].
  - cbn [talk]. destruct (talk v index sub client obj n) as [ins st].
    rewrite (write_eq index sub data ins).
    destruct IH as [N A E|N A MM E|s out E F W U]; rewrite E.
    + cbn [finish]. unfold finish. cbn [negb].
      rewrite (last_wreq n N).
      pose proof (serve_write n st N A) as SW.
      destruct (serve v index sub st (wreq n)) as [st' m]. destruct SW as [M SW].
      pose proof (wloop_snoc index sub data ins (IFrame 8 m)) as X. rewrite E in X.
      cbn [transfer_loop SdoProofs.wst s_done] in X.
      fold (SdoProofs.wst index sub data n) in X.
      destruct (v_veto v (fst st) (wreq n) || mismatch n) eqn:RF.
      * destruct SW as [SW SO]. rewrite process_abort in X by assumption.
        eapply ws_failed; [exact X|apply finish_throw0; reflexivity| |exact SO].
        apply orb_prop in RF. destruct RF as [RF|RF]; [left; eexists; eexists; exact RF|right].
        assert (n = wcount) as ->; [|assumption].
        unfold mismatch in RF. destruct (n =? wcount)%nat eqn:NW; [lia|discriminate].
      * apply orb_false_elim in RF. destruct RF as [_ RF].
        destruct SW as [AN [S1 S2]].
        rewrite (write_answer index sub data OBJ DATA n m N M AN) in X.
        destruct (n <? wcount)%nat eqn:L.
        -- cbn [transfer_loop SdoProofs.wst s_done] in X. cbn [app] in X.
           apply ws_waiting; [lia|apply S1; lia|]. rewrite (segs_S index sub data n) by lia. exact X.
        -- assert (n = wcount) as -> by lia.
           cbn [transfer_loop set_done s_done SdoProofs.wst] in X. rewrite app_nil_r in X.
           apply ws_done; [lia|apply S2; reflexivity|assumption|].
           rewrite X. unfold SdoProofs.wcount. rewrite firstn_all. reflexivity.
    + rewrite finish_write_done. apply ws_done; [lia|assumption|assumption|assumption].
    + rewrite F. eapply ws_failed; [exact E|exact F|exact W|exact U].
Qed.

Lemma write_delivers : forall n ins st sent b,
  talk v index sub client obj n = (ins, st) -> client ins = Ok (sent, SReturn b) -> snd st = data.
Proof.
  intros n ins st sent b T C. pose proof (talk_write n) as W. rewrite T in W.
  rewrite (write_eq index sub data ins) in C.
  destruct W as [N A E|N A MM E|s out E F W U]; rewrite E in C.
  - discriminate.
  - assumption.
  - rewrite F in C. discriminate.
Qed.

Lemma announced_value : (4 < List.length data)%nat ->
  i_announced (wreq 0) = Z.of_nat (List.length data) mod 256 + 16777216 * ((Z.of_nat (List.length data) / 256) mod 256).
Proof.
  intros L. unfold SdoProofs.wreq, download_initiate. destruct (4 <? List.length data)%nat eqn:E; [|lia].
  unfold i_announced, le32. cbn [fst app skipn nth].
  change 255 with (2^8 - 1). rewrite !land_ones_mod, shiftr_div by lia. lia.
Qed.

Lemma no_mismatch : (List.length data < 256)%nat \/ v_strict v = false -> mismatch wcount = false.
Proof.
  intros H. unfold mismatch. rewrite Nat.eqb_refl.
  destruct (0 <? wcount)%nat eqn:W; [|reflexivity].
  destruct H as [H| ->]; [|reflexivity].
  pose proof (wcount_eq data) as WC.
  rewrite announced_value by (destruct (List.length data <=? 4)%nat eqn:X; lia).
  replace (_ =? _) with true; [destruct (v_strict v); reflexivity|].
  symmetry. apply Z.eqb_eq. lia.
Qed.

Lemma write_completes : v_veto v = no_veto -> (List.length data < 256)%nat \/ v_strict v = false ->
  forall n, (wcount < n)%nat -> exists ins st sent,
  talk v index sub client obj n = (ins, st) /\ client ins = Ok (sent, SReturn data) /\ snd st = data.
Proof.
  intros NV OKS n N. pose proof (talk_write n) as W.
  destruct (talk v index sub client obj n) as [ins st] eqn:T.
  pose proof (no_mismatch OKS) as MM.
  destruct W as [N' A E|N' A _ E|s out E F [[s0 [r V]]|W] U]; [lia| |rewrite NV in V; discriminate|congruence].
  exists ins, st. eexists. split; [reflexivity|]. split; [|assumption].
  rewrite (write_eq index sub data ins), E, finish_write_done. reflexivity.
Qed.

Lemma write_never : v_strict v = true -> (256 <= List.length data)%nat -> forall n ins st sent b,
  talk v index sub client obj n = (ins, st) -> client ins <> Ok (sent, SReturn b).
Proof.
  intros ST L n ins st sent b T C. pose proof (talk_write n) as W. rewrite T in W.
  assert (MM : mismatch wcount = true).
  { unfold mismatch. pose proof (wcount_eq data) as WC. pose proof (count_bound data) as CB.
    rewrite Nat.eqb_refl, ST. replace (0 <? wcount)%nat with true.
    - rewrite announced_value by lia. cbn [andb]. apply negb_true_iff, Z.eqb_neq. lia.
    - symmetry. apply Nat.ltb_lt. destruct (List.length data <=? 4)%nat eqn:X; lia. }
  rewrite (write_eq index sub data ins) in C.
  destruct W as [N A E|N A MM' E|s out E F W U]; rewrite E in C.
  - discriminate.
  - congruence.
  - rewrite F in C. discriminate.
Qed.

End TalkWrite.

Lemma empty_write_throws : forall index sub ins sent b, object_ok index sub -> Forall input_ok ins ->
  sdo_write index sub [] ins <> Ok (sent, SReturn b).
Proof.
  intros index sub ins sent b O I H. rewrite (write_eq index sub []) in H.
  assert (D : bytes_ok []) by constructor.
  assert (F : forall s x b, s_total s = 0%nat -> finish s x <> SReturn b).
  { intros s x c T F. unfold finish in F. destruct x; cbn [negb] in F; [|discriminate].
    rewrite T in F. destruct (s_off s); discriminate. }
  destruct (write_courses index sub [] O D ins I) as
      [j J A E|used rest X A E|j used rest X J A E|j used dlc m rest X Q J A E|j used m rest X Q J A E|j used m rest r X Q J A R E];
  rewrite E in H; injection H as _ H; eapply F; try exact H; reflexivity.
Qed.

(** ** Uploads from a conforming server *)

Lemma skip_skip : forall A (l : list A) a b, skipn a (skipn b l) = skipn (a + b) l.
Proof.
  intros A l a b. revert l. induction b as [|b IH]; intros l.
  - rewrite Nat.add_0_r. reflexivity.
  - replace (a + S b)%nat with (S (a + b)) by lia. destruct l; [rewrite !skipn_nil; reflexivity|]. apply IH.
Qed.

Lemma last_upload : forall n f, last (f :: map upload_next (seq 0 (S n))) [] = upload_next n.
Proof.
  intros n f. replace (S n) with (n + 1)%nat by lia. rewrite seq_app, map_app.
  cbn [Nat.add seq map]. rewrite app_comm_cons. apply last_last.
Qed.

Section TalkRead.
Variables (v : server) (index sub : Z) (buf0 obj : bytes).
Hypothesis OBJ : object_ok index sub.
Hypothesis DATA : bytes_ok obj.
Hypothesis NONEMPTY : obj <> [].
Notation size := (List.length buf0).
Notation L := (List.length obj).
Hypothesis FIT : (size = L /\ ((L < 256)%nat \/ v_sized v = false)) \/ (size = 0%nat /\ v_sized v = true /\ (L < 256)%nat).
Notation client := (sdo_read index sub buf0).
Notation rloop := (rloop index sub buf0).

Lemma zeros_firstn : forall n b, firstn (List.length b) (zeros n b) = b.
Proof. intros n b. unfold zeros. rewrite firstn_app, firstn_all, Nat.sub_diag. cbn [firstn]. apply app_nil_r. Qed.

Lemma obj_zeros : forall n b, bytes_ok b -> (List.length b <= n)%nat -> bytes_ok (zeros n b) /\ List.length (zeros n b) = n.
Proof.
  intros n b B H. unfold zeros. split.
  - apply Forall_app. split; [assumption|]. apply Forall_forall. intros x X. apply repeat_spec in X. subst. unfold byte_ok. lia.
  - rewrite app_length, repeat_length. lia.
Qed.

Definition up_state (k : nat) (st : srv_state * bytes) : Prop :=
  st = (SrvUp (skipn (7 * k) obj) (Z.of_nat k mod 2), obj).

Inductive read_state (n : nat) (ins : list input) (st : srv_state * bytes) : Prop :=
| rs_initial : n = 0%nat -> st = (SrvIdle, obj) -> rloop ins = Ok (start_read index sub buf0, [], false) -> read_state n ins st
| rs_segments : forall init segs s, n = S (List.length segs) -> up_state (List.length segs) st ->
    in_segments index sub buf0 init segs s -> target buf0 init = L ->
    List.concat (map g_data segs) = firstn (7 * List.length segs) obj -> (7 * List.length segs < L)%nat ->
    rloop ins = Ok (s, map upload_next (seq 0 (S (List.length segs))), false) -> read_state n ins st
| rs_done : forall s out, (0 < n)%nat -> rloop ins = Ok (s, out, true) -> finish s true = SReturn obj -> read_state n ins st
| rs_failed : forall s out, rloop ins = Ok (s, out, true) -> finish s true = SThrow ->
    (exists s r, v_veto v s r = true) -> read_state n ins st.

(** A segment that fits. *)
Lemma read_fit : forall init segs s m, in_segments index sub buf0 init segs s -> msg_ok m ->
  answers (upload_next (List.length segs)) m -> target buf0 init <> 0%nat ->
  let got := List.concat (map g_data segs) ++ g_data m in
  ((List.length got < target buf0 init)%nat -> g_last m = false ->
    exists s2, process_frame index sub 8 m s = Ok (s2, [upload_next (S (List.length segs))], true) /\
        in_segments index sub buf0 init (segs ++ [m]) s2) /\
  (List.length got = target buf0 init ->
    exists s2, process_frame index sub 8 m s = Ok (s2, [], true) /\ s_done s2 = true /\ finish s2 true = SReturn got).
Proof.
  intros init segs s m IS Hm A NZ. 
  pose proof IS as (G & FC & ALT & LAST & DONE & TOT & OFF & GOT & T0 & T1).
  destruct (upload_next_ok (List.length segs)) as [U1 [U2 U3]].
  assert (C : code m = 0 /\ tog m = Z.of_nat (List.length segs) mod 2).
  { unfold answers in A. rewrite U2, U3 in A. intuition lia. }
  destruct C as [C T].
  destruct (g_data_length m Hm) as [D1 [D2 D3]].
  unfold process_frame. rewrite !code_eq, C. change (negb (8 =? 8)) with false. cbv iota.
  change (0 =? 3) with false. change (0 =? 1) with false. change (0 =? 2) with false. change (0 =? 0) with true. cbv iota.
  unfold test_upload_segment. rewrite code_eq, LAST, U2. change (negb (3 =? 3)) with false. cbv iota.
  assert (TE : Bool.eqb (m_toggle m) (m_toggle (upload_next (List.length segs))) = true) by (apply toggle_same; congruence).
  rewrite TE. cbn [negb]. cbv iota zeta.
  unfold read_segment. rewrite TOT.
  set (n := seg_data_size m) in *.
  destruct (target buf0 init =? 0)%nat eqn:TZ; [lia|].
  destruct (T1 NZ) as [TL TO]. rewrite !app_length, D1, <- OFF.
  unfold copy_in. rewrite TL.
  split; intros LT.
  - intros LM. destruct (s_off s + n <=? target buf0 init)%nat eqn:LE; [|lia].
    destruct (target buf0 init <=? s_off s)%nat eqn:LE2; [lia|].
    replace (n <=? List.length (m_payload7 m))%nat with true by (symmetry; apply Nat.leb_le; lia).
    cbn [andb]. rewrite GOT, <- D2. cbn [s_off s_total]. rewrite done_eq, LM. cbn [orb].
    destruct (s_off s + n =? target buf0 init)%nat eqn:EQ; [lia|].
    assert (NEXT : upload_segment (negb (m_toggle m)) = upload_next (S (List.length segs))).
    { rewrite <- upload_segment_eq. f_equal. apply odd_of_tog. assumption. }
    eexists. split; [unfold set_last; cbn [s_buf s_off s_total s_done]; rewrite NEXT; reflexivity|].
    assert (FC' : Forall (fun m => code m = 0) (segs ++ [m])) by (apply Forall_app; split; [assumption|constructor; [assumption|constructor]]).
    assert (ALT' : alternating 0 (segs ++ [m])) by (apply alternating_snoc; [lia|assumption|rewrite T; f_equal; lia]).
    unfold in_segments. rewrite g_concat_snoc. cbn [s_last s_done s_total s_off s_buf].
    rewrite !app_length, D1. cbn [List.length].
    repeat split; try assumption; try apply G; try lia.
    + f_equal. lia.
    + rewrite app_assoc, firstn_app.
      replace (s_off s + n - List.length (List.concat (map g_data segs) ++ g_data m))%nat with 0%nat
        by (rewrite app_length, D1; lia).
      cbn [firstn]. rewrite app_nil_r. apply firstn_all2. rewrite app_length, D1. lia.
    + rewrite skipn_length. lia.
  - destruct (s_off s + n <=? target buf0 init)%nat eqn:LE; [|lia].
    destruct (target buf0 init <=? s_off s)%nat eqn:LE2; [lia|].
    replace (n <=? List.length (m_payload7 m))%nat with true by (symmetry; apply Nat.leb_le; lia).
    cbn [andb]. rewrite GOT, <- D2. cbn [s_off s_total].
    destruct (s_off s + n =? target buf0 init)%nat eqn:EQ; [|lia]. rewrite orb_true_r.
    eexists. split; [reflexivity|]. split; [reflexivity|].
    rewrite finish_return; cbn [set_done s_off s_total s_buf]; [|lia|lia].
    rewrite skipn_all2 by lia. rewrite app_nil_r. reflexivity.
Qed.

(** The first answer of the server. *)
Lemma read_fit_first : v_veto v SrvIdle (upload_first index sub) = false ->
  let '(st, m) := serve v index sub (SrvIdle, obj) (upload_first index sub) in
  msg_ok m /\ 
  ((exists s1, process_frame index sub 8 m (start_read index sub buf0) = Ok (s1, [upload_next 0], true) /\
      in_segments index sub buf0 m [] s1 /\ target buf0 m = L /\ up_state 0 st)
   \/ (exists s1, process_frame index sub 8 m (start_read index sub buf0) = Ok (s1, [], true) /\ s_done s1 = true /\
        finish s1 true = SReturn obj)).
Proof.
  intros NV. assert (L0 : L <> 0%nat) by (intro H; apply length_zero_iff_nil in H; contradiction).
  destruct (first_ok index sub OBJ) as [F1 F2].
  unfold serve. rewrite NV, F2. change (2 =? 1) with false. change (2 =? 0) with false. change (2 =? 2) with true. cbv iota.
  destruct (list_eq_dec Z.eq_dec (firstn 3 (skipn 1 (upload_first index sub))) (object_bytes index sub)) as [E|E]; [|exfalso; apply E; reflexivity].
  cbn [negb]. cbv iota.
  assert (PF : forall m, msg_ok m -> code m = 2 -> names_object index sub m ->
     (init_data_size m = 0%nat \/ size = 0%nat \/ (size <= init_data_size m)%nat) ->
     (i_exp m = false \/ ((init_data_size m <= 4)%nat /\ (size <= 4)%nat)) ->
     process_frame index sub 8 m (start_read index sub buf0) =
     match read_initiate m (start_read index sub buf0) with
        | Undef => Undef
        | Ok (s1, true) => Ok (set_done s1, [], true)
        | Ok (s1, false) => Ok (set_last s1 (upload_segment false), [upload_segment false], true)
        end).
  { intros m M C N H1 H2. unfold process_frame. rewrite !code_eq, C. change (negb (8 =? 8)) with false. cbv iota.
    change (2 =? 3) with false. change (2 =? 1) with false. change (2 =? 2) with true. cbv iota.
    unfold test_upload_initiate. change (s_last (start_read index sub buf0)) with (upload_first index sub).
    change (s_total (start_read index sub buf0)) with size. rewrite code_eq, F2.
    pose proof (proj2 (object_eq m _ M F1)) as OE.
    rewrite <- andb_assoc, OE by (unfold same_object; rewrite N; reflexivity). change ((2 =? 2) && true) with true. cbv iota zeta.
    rewrite exp_eq.
    replace ((init_data_size m =? 0)%nat || (size =? 0)%nat || (size <=? init_data_size m)%nat) with true by lia.
    replace (negb (i_exp m) || (init_data_size m <=? 4)%nat && (size <=? 4)%nat) with true; [reflexivity|].
    destruct H2 as [-> |H2]; [reflexivity|]. destruct (negb (i_exp m)); [reflexivity|]. lia. }
  destruct (v_expedited v && (0 <? Z.of_nat L) && (Z.of_nat L <=? 4)) eqn:EX.
  - (* expedited *)
    assert (L4 : (L <= 4)%nat) by lia.
    destruct (obj_zeros 4 obj DATA L4) as [ZB ZL].
    set (h := if v_sized v then 64 + 2 + 1 + 4 * (4 - Z.of_nat L) else 64 + 2).
    assert (HE : (if v_sized v then [64 + 2 + 1 + 4 * (4 - Z.of_nat L)] else [64 + 2]) = [h]) by (unfold h; destruct (v_sized v); reflexivity).
    rewrite HE. set (m := [h] ++ object_bytes index sub ++ zeros 4 obj).
    assert (M : msg_ok m) by (apply build_ok; [assumption|unfold byte_ok, h; destruct (v_sized v); lia|assumption|assumption]).
    split; [exact M|]. right.
    assert (B0 : b0 m = h) by reflexivity.
    assert (EXP : i_exp m = true) by (unfold i_exp; rewrite B0; unfold h; destruct (v_sized v); apply Z.eqb_eq; lia).
    assert (SZ : i_sized m = v_sized v) by (unfold i_sized; rewrite B0; unfold h; destruct (v_sized v); [apply Z.eqb_eq|apply Z.eqb_neq]; lia).
    assert (DS : init_data_size m = if v_sized v then L else 0%nat).
    { unfold init_data_size. rewrite exp_eq, sized_eq, EXP, SZ.
      change (m_num2 m) with ((b0 m / 4) mod 4). rewrite B0. unfold h. destruct (v_sized v); cbn [andb negb]; [lia|reflexivity]. }
    assert (PL : m_payload4 m = zeros 4 obj) by reflexivity.
    rewrite PF; [|assumption|unfold code; rewrite B0; unfold h; destruct (v_sized v); lia|reflexivity|rewrite DS; destruct (v_sized v); lia|right; rewrite DS; destruct (v_sized v); lia].
    unfold read_initiate. rewrite exp_eq, sized_eq, EXP, SZ, DS, PL.
    change (s_total (start_read index sub buf0)) with size. change (s_buf (start_read index sub buf0)) with buf0.
    change (s_done (start_read index sub buf0)) with false. change (s_last (start_read index sub buf0)) with (upload_first index sub).
    assert (X : exists bb, (if v_sized v && (size =? 0)%nat then ((if v_sized v then L else 0%nat), resize (if v_sized v then L else 0%nat) buf0) else (size, buf0)) = (L, bb) /\ List.length bb = L).
    { destruct (v_sized v) eqn:SV; cbn [andb].
      - destruct (size =? 0)%nat eqn:S0.
        + eexists. split; [reflexivity|]. apply resize_length.
        + exists buf0. split; [|lia]. f_equal. lia.
      - exists buf0. split; [|intuition congruence]. f_equal. intuition congruence. }
    destruct X as [bb [-> LB]].
    destruct (List.length bb =? 0)%nat eqn:Z0; [lia|].
    unfold copy_in. rewrite ZL, LB.
    destruct ((0 + L <=? L)%nat && (L <=? 4)%nat) eqn:CC; [|lia].
    cbn [firstn app]. rewrite skipn_all2 by lia. rewrite app_nil_r, zeros_firstn.
    eexists. split; [reflexivity|]. split; [reflexivity|].
    rewrite finish_return; cbn [set_done s_off s_total s_buf]; [reflexivity|reflexivity|assumption].
  - (* segmented *)
    set (m := if v_sized v then [64 + 1] ++ object_bytes index sub ++ le32_bytes (Z.of_nat L) else [64] ++ object_bytes index sub ++ [0; 0; 0; 0]).
    assert (M : msg_ok m).
    { unfold m. destruct (v_sized v); apply build_ok; try assumption; try reflexivity; try (unfold byte_ok; lia); [apply le32_bytes_ok|].
      repeat constructor; unfold byte_ok; lia. }
    split; [exact M|]. left.
    assert (C : code m = 2) by (unfold m; destruct (v_sized v); reflexivity).
    assert (N : names_object index sub m) by (unfold m; destruct (v_sized v); reflexivity).
    assert (EXP : i_exp m = false) by (unfold m; destruct (v_sized v); reflexivity).
    assert (SZ : i_sized m = v_sized v) by (unfold m; destruct (v_sized v); reflexivity).
    assert (DD : v_sized v = true -> decoded m = L /\ init_data_size m = L).
    { intros SV. rewrite decoded_eq by congruence. 
      assert (decoded m = L); [|split; assumption].
      unfold decoded, m. rewrite SV. cbn [app object_bytes le32_bytes nth]. 
      destruct FIT as [[_ [?|?]]|[_ [_ ?]]]; [|congruence|]; lia. }
    assert (TG : target buf0 m = L).
    { unfold target. rewrite SZ. destruct (size =? 0)%nat eqn:S0; [|lia].
      destruct (v_sized v) eqn:SV; [apply DD; reflexivity|]. intuition (congruence || lia). }
    assert (DS : init_data_size m = if v_sized v then L else 0%nat).
    { destruct (v_sized v) eqn:SV; [apply DD; reflexivity|apply unsized_eq; assumption]. }
    rewrite PF; [|assumption|assumption|assumption|rewrite DS; destruct (v_sized v); lia|left; assumption].
    unfold read_initiate. rewrite exp_eq, sized_eq, EXP, SZ, DS.
    change (s_total (start_read index sub buf0)) with size. change (s_buf (start_read index sub buf0)) with buf0.
    change (s_done (start_read index sub buf0)) with false. change (s_last (start_read index sub buf0)) with (upload_first index sub).
    change (s_off (start_read index sub buf0)) with 0%nat.
    assert (X : exists bb, (if v_sized v && (size =? 0)%nat then ((if v_sized v then L else 0%nat), resize (if v_sized v then L else 0%nat) buf0) else (size, buf0)) = (L, bb) /\ List.length bb = L).
    { destruct (v_sized v) eqn:SV; cbn [andb].
      - destruct (size =? 0)%nat eqn:S0.
        + eexists. split; [reflexivity|]. apply resize_length.
        + exists buf0. split; [|lia]. f_equal. lia.
      - exists buf0. split; [|intuition congruence]. f_equal. intuition congruence. }
    destruct X as [bb [-> LB]].
    eexists. split; [rewrite <- (upload_segment_eq 0); reflexivity|].
    split; [|split; [assumption|reflexivity]].
    unfold in_segments. rewrite TG. cbn [set_last s_last s_done s_total s_off s_buf List.length map List.concat firstn].
    split.
    { split; [assumption|]. split; [assumption|]. split; [assumption|]. split; [assumption|].
      intros H H0. rewrite SZ in H. rewrite (proj1 (DD H)). lia. }
    split; [constructor|]. split; [exact I|]. split; [reflexivity|]. split; [reflexivity|]. split; [reflexivity|].
    split; [reflexivity|]. split; [reflexivity|]. split; [lia|]. intros _. split; [assumption|lia].
Qed.

Lemma talk_read : forall n, let '(ins, st) := talk v index sub client obj n in read_state n ins st.
Proof.
  assert (L0 : L <> 0%nat) by (intro H; apply length_zero_iff_nil in H; contradiction).
  induction n as [|n IH].
  - cbn [talk]. apply rs_initial; reflexivity.
  - cbn [talk]. destruct (talk v index sub client obj n) as [ins st].
    rewrite (read_eq index sub buf0 ins).
    destruct IH as [N A E|init segs s N U IS TG G LT E|s out N E F|s out E F W]; rewrite E.
    + unfold finish. cbn [negb]. cbn [last]. subst st.
      destruct (v_veto v SrvIdle (upload_first index sub)) eqn:V.
      * unfold serve. rewrite V.
        pose proof (rloop_snoc index sub buf0 ins (IFrame 8 ([128] ++ object_bytes index sub ++ le32_bytes 0x08000000))) as X.
        rewrite E, loop_eq in X. change (s_done (start_read index sub buf0)) with false in X. cbv iota in X.
        rewrite process_abort in X by reflexivity.
        eapply rs_failed; [exact X|apply finish_throw0; reflexivity|]. eexists. eexists. exact V.
      * pose proof (read_fit_first V) as RF. 
        destruct (serve v index sub (SrvIdle, obj) (upload_first index sub)) as [st' m].
        destruct RF as [M RF].
        pose proof (rloop_snoc index sub buf0 ins (IFrame 8 m)) as X.
        rewrite E, loop_eq in X. change (s_done (start_read index sub buf0)) with false in X. cbv iota in X.
        destruct RF as [[s1 [P [IS [TG US]]]]|[s1 [P [DN F]]]]; rewrite P in X.
        -- assert (DF : s_done s1 = false) by apply IS. rewrite loop_eq, DF in X.
           eapply rs_segments with (segs := []); [cbn [List.length]; lia|exact US|exact IS|exact TG|reflexivity|cbn [List.length]; lia|exact X].
        -- rewrite loop_done in X by assumption.
           eapply rs_done; [lia|exact X|exact F].
    + unfold finish. cbn [negb]. rewrite last_upload.
      set (k := List.length segs) in *.
      destruct (upload_next_ok k) as [U1 [U2 U3]].
      pose proof IS as (_ & _ & _ & LAST & DONE & _).
      unfold up_state in U. subst st.
      destruct (v_veto v (SrvUp (skipn (7 * k) obj) (Z.of_nat k mod 2)) (upload_next k)) eqn:V.
      * unfold serve. rewrite V.
        pose proof (rloop_snoc index sub buf0 ins (IFrame 8 ([128] ++ object_bytes index sub ++ le32_bytes 0x08000000))) as X.
        rewrite E, loop_eq, DONE in X. rewrite process_abort in X by reflexivity.
        eapply rs_failed; [exact X|apply finish_throw0; reflexivity|]. eexists. eexists. exact V.
      * unfold serve. rewrite V, U2. change (3 =? 1) with false. change (3 =? 0) with false. change (3 =? 2) with false.
        change (3 =? 3) with true. cbv iota. rewrite U3, Z.eqb_refl. cbn [negb]. cbv iota zeta.
        change (firstn 7 (skipn (7 * k) obj)) with (chunk obj k).
        destruct (chunk_ok obj DATA k) as [CL CB].
        destruct (obj_zeros 7 _ CB CL) as [ZB ZL].
        assert (SL : List.length (skipn (7 * k) obj) = (L - 7 * k)%nat) by apply skipn_length.
        assert (CLN : List.length (chunk obj k) = Nat.min 7 (L - 7 * k)).
        { unfold chunk. rewrite firstn_length, SL. lia. }
        set (lst := (List.length (skipn (7 * k) obj) <=? 7)%nat).
        set (m := (b2z lst + 2 * (7 - Z.of_nat (List.length (chunk obj k))) + 16 * (Z.of_nat k mod 2)) :: zeros 7 (chunk obj k)).
        assert (BL : 0 <= b2z lst <= 1) by (unfold b2z; destruct lst; lia).
        assert (M : msg_ok m).
        { split; [unfold m; cbn [List.length]; rewrite ZL; reflexivity|]. constructor; [unfold byte_ok; lia|assumption]. }
        assert (B0 : b0 m = b2z lst + 2 * (7 - Z.of_nat (List.length (chunk obj k))) + 16 * (Z.of_nat k mod 2)) by reflexivity.
        assert (AN : answers (upload_next k) m).
        { right. right. right. split; [assumption|]. unfold code. unfold tog at 2. rewrite U3, B0. lia. }
        assert (GD : g_data m = chunk obj k).
        { unfold g_data. rewrite B0. replace (Z.to_nat _) with (List.length (chunk obj k)) by lia.
          unfold m. cbn [skipn]. apply zeros_firstn. }
        assert (GL : g_last m = lst).
        { unfold g_last. rewrite B0. unfold b2z. destruct lst; [apply Z.eqb_eq|apply Z.eqb_neq]; lia. }
        assert (GG : List.concat (map g_data segs) ++ g_data m = firstn (7 * k + 7) obj).
        { rewrite G, GD. apply firstn_chunk. }
        pose proof (rloop_snoc index sub buf0 ins (IFrame 8 m)) as X. rewrite E, loop_eq, DONE in X.
        destruct (read_fit init segs s m IS M AN ltac:(rewrite TG; exact L0)) as [R1 R2].
        rewrite GG, TG in R1, R2.
        assert (LG : List.length (firstn (7 * k + 7) obj) = Nat.min (7 * k + 7) L) by apply firstn_length.
        destruct lst eqn:LS; unfold lst in LS; cbv iota.
        -- destruct R2 as [s2 [P [DN F]]]; [lia|]. rewrite P, loop_done in X by assumption.
           rewrite firstn_all2 in F by lia.
           eapply rs_done; [lia|exact X|exact F].
        -- destruct R1 as [s2 [P IS2]]; [lia|exact GL|]. rewrite P in X.
           assert (DF : s_done s2 = false) by apply IS2. rewrite loop_eq, DF in X.
           assert (SK : List.length (segs ++ [m]) = S k) by (rewrite app_length; unfold k; cbn [List.length]; lia).
           eapply rs_segments with (segs := segs ++ [m]); [lia| |exact IS2|exact TG| |lia|].
           ++ rewrite SK. unfold up_state. rewrite skip_skip. replace (7 + 7 * k)%nat with (7 * S k)%nat by lia.
              replace (1 - Z.of_nat k mod 2) with (Z.of_nat (S k) mod 2) by lia. reflexivity.
           ++ rewrite g_concat_snoc, SK, GG. f_equal. lia.
           ++ rewrite X, SK. replace (S (S k)) with (S k + 1)%nat by lia. rewrite seq_app, map_app. reflexivity.
    + rewrite F. eapply rs_done; [lia|exact E|exact F].
    + rewrite F. eapply rs_failed; [exact E|exact F|exact W].
Qed.

Lemma read_exact : forall n ins st sent b,
  talk v index sub client obj n = (ins, st) -> client ins = Ok (sent, SReturn b) -> b = obj.
Proof.
  intros n ins st sent b T C. pose proof (talk_read n) as W. rewrite T in W.
  rewrite (read_eq index sub buf0 ins) in C.
  destruct W as [N A E|init segs s N U IS TG G LT E|s out N E F|s out E F W]; rewrite E in C; try discriminate;
  rewrite F in C; congruence.
Qed.

Lemma read_completes : v_veto v = no_veto -> forall n, (L / 7 + 2 < n)%nat -> exists ins st sent,
  talk v index sub client obj n = (ins, st) /\ client ins = Ok (sent, SReturn obj).
Proof.
  intros NV n N. pose proof (talk_read n) as W.
  destruct (talk v index sub client obj n) as [ins st] eqn:T.
  destruct W as [N' A E|init segs s N' U IS TG G LT E|s out N' E F|s out E F [s0 [r V]]]; [lia|lia| |rewrite NV in V; discriminate].
  exists ins, st. eexists. split; [reflexivity|]. rewrite (read_eq index sub buf0 ins), E, F. reflexivity.
Qed.

End TalkRead.
