(** Consequences of the courses of transfers. *)
From Verif Require Import Base CanModel KeyModel StorageModel SdoModel SdoSpec SdoProofs SdoReadProofs SdoTalkProofs.

Lemma le_bytes4 : forall r, le_bytes 4 r = le32_bytes r.
Proof.
  intros r. unfold le_bytes, le32_bytes. rewrite !Z.div_div by lia. reflexivity.
Qed.

Lemma abort_message_eq : forall index sub r, abort_request index sub r = abort_message index sub r.
Proof. intros. unfold abort_request, abort_message. rewrite le_bytes4. reflexivity. Qed.
Lemma abort_is_abort : forall index sub r, reason_ok r -> is_abort index sub (abort_request index sub r).
Proof.
  intros index sub r R. exists r. split; [apply abort_message_eq|].
  unfold reason_ok, In, toggle_not_alternated, protocol_timed_out, length_mismatch, general_error in *. lia.
Qed.

Lemma ok_inj : forall (A B : Type) (a c : A) (b d : B), Ok (a, b) = Ok (c, d) -> a = c /\ b = d.
Proof. intros. split; congruence. Qed.

Lemma requests_app : forall a b, requests (a ++ b) = requests a ++ requests b.
Proof. intros. unfold requests. apply filter_app. Qed.
Lemma requests_abort : forall index sub r, requests [abort_request index sub r] = [].
Proof. reflexivity. Qed.

Section Write.
Variables (index sub : Z) (data : bytes).
Hypothesis OBJ : object_ok index sub.
Hypothesis DATA : bytes_ok data.
Notation wreq := (wreq index sub data).
Notation wreqs := (wreqs index sub data).
Notation wcount := (wcount data).

Lemma wreqs_requests : forall j, requests (firstn j wreqs) = firstn j wreqs.
Proof.
  assert (F : Forall (fun m => negb (code m =? 4) = true) wreqs).
  { constructor.
    - destruct (wreq0_ok index sub data OBJ DATA) as [_ [C _]]. rewrite C. reflexivity.
    - unfold segment_requests. destruct (List.length data <=? 4)%nat; [constructor|].
      apply Forall_forall. intros m H. apply in_map_iff in H. destruct H as [k [<- _]].
      destruct (segment_request_fields data DATA k) as [C _]. rewrite C. reflexivity. }
  intros j. unfold requests. revert F. generalize wreqs. induction j as [|j IH]; intros l F; [reflexivity|].
  destruct l as [|m l]; [reflexivity|]. inversion F as [|? ? F1 F2]; subst. cbn [firstn List.filter].
  rewrite F1, IH by assumption. reflexivity.
Qed.

Lemma write_sent : forall ins sent res, Forall input_ok ins -> sdo_write index sub data ins = Ok (sent, res) ->
  exists j used rest, ins = used ++ rest /\ (j <= S wcount)%nat /\
    requests sent = firstn (S j) wreqs /\ answered (firstn j wreqs) used /\
    (res = SWaiting -> rest = [] /\ sent = firstn (S j) wreqs /\ (j <= wcount)%nat) /\
    (forall b, res = SReturn b -> (wcount <= j)%nat /\
       (j = wcount -> exists i t, rest = i :: t /\ ~ full_frame i)) /\
    (sent = requests sent \/ exists a, is_abort index sub a /\ sent = requests sent ++ [a]).
Proof.
  intros ins sent res OK H. rewrite (write_eq index sub data ins) in H.
  assert (NR : forall j s b, (j <= wcount)%nat -> s_off s = woff data j -> s_total s = List.length data -> finish s true = SReturn b -> (wcount <= j)%nat).
  { intros j s b J O T F. destruct (Nat.le_gt_cases wcount j) as [|L]; [assumption|exfalso].
    destruct (woff_lt data j L). rewrite finish_throw in F; [discriminate|]. lia. }
  destruct (write_courses index sub data OBJ DATA ins OK) as
      [j J A E|used rest X A E|j used rest X J A E|j used dlc m rest X Q J A E|j used m rest X Q J A E|j used m rest r X Q J A R E];
  rewrite E in H; apply ok_inj in H; destruct H as [<- <-].
  - exists j, ins, []. rewrite app_nil_r, (wreqs_firstn index sub data j), wreqs_requests.
    repeat split; try assumption; try lia; try discriminate. left. reflexivity.
  - exists (S wcount), used, rest.
    change (wreq 0 :: segment_requests data) with wreqs.
    assert (FA : firstn (S wcount) wreqs = wreqs) by (apply firstn_all2; rewrite wreqs_length; lia).
    assert (RW : requests wreqs = wreqs) by (rewrite <- FA at 1; rewrite wreqs_requests; exact FA).
    rewrite RW, FA.
    split; [assumption|]. split; [lia|]. split; [symmetry; apply firstn_all2; rewrite wreqs_length; lia|]. split; [assumption|]. split.
    { intros F. unfold finish in F. cbn [negb] in F. destruct (_ || _) in F; discriminate. }
    split; [intros b F; split; [lia|intros; lia]|]. left. reflexivity.
  - exists j, used, (ITimeout :: rest). rewrite app_comm_cons, (wreqs_firstn index sub data j), requests_app, requests_abort, app_nil_r, wreqs_requests.
    split; [assumption|]. split; [lia|]. split; [reflexivity|]. split; [assumption|]. split.
    { intros F. unfold finish in F. cbn [negb] in F. destruct (_ || _) in F; discriminate. }
    split.
    + intros b F. split; [eapply NR; [exact J| | |exact F]; reflexivity|].
      intros _. exists ITimeout, rest. split; [reflexivity|]. intros [].
    + right. exists (abort_request index sub 0x05040000). split; [apply abort_is_abort; unfold reason_ok; lia|reflexivity].
  - exists j, used, (IFrame dlc m :: rest). rewrite (wreqs_firstn index sub data j), wreqs_requests.
    split; [assumption|]. split; [lia|]. split; [reflexivity|]. split; [assumption|]. split.
    { intros F. unfold finish in F. cbn [negb] in F. destruct (_ || _) in F; discriminate. }
    split.
    + intros b F. split; [eapply NR; [exact J| | |exact F]; reflexivity|].
      intros _. exists (IFrame dlc m), rest. split; [reflexivity|]. exact Q.
    + left. reflexivity.
  - exists j, used, (IFrame 8 m :: rest). rewrite (wreqs_firstn index sub data j), wreqs_requests.
    split; [assumption|]. split; [lia|]. split; [reflexivity|]. split; [assumption|]. split.
    { intros F. unfold finish in F. cbn [negb] in F. destruct (_ || _) in F; discriminate. }
    split.
    + intros b F. rewrite finish_throw0 in F by reflexivity. discriminate.
    + left. reflexivity.
  - exists j, used, (IFrame 8 m :: rest). rewrite app_comm_cons, (wreqs_firstn index sub data j), requests_app, requests_abort, app_nil_r, wreqs_requests.
    split; [assumption|]. split; [lia|]. split; [reflexivity|]. split; [assumption|]. split.
    { intros F. unfold finish in F. cbn [negb] in F. destruct (_ || _) in F; discriminate. }
    split.
    + intros b F. rewrite finish_throw0 in F by reflexivity. discriminate.
    + right. exists (abort_request index sub r). split; [apply abort_is_abort; assumption|reflexivity].
Qed.

Lemma write_never_undef : forall ins, Forall input_ok ins -> sdo_write index sub data ins <> Undef.
Proof.
  intros ins OK H. rewrite (write_eq index sub data ins) in H.
  destruct (write_courses index sub data OBJ DATA ins OK) as
      [j J A E|used rest X A E|j used rest X J A E|j used dlc m rest X Q J A E|j used m rest X Q J A E|j used m rest r X Q J A R E];
  rewrite E in H; discriminate.
Qed.

Lemma finish_waiting : forall s x, finish s x = SWaiting -> x = false.
Proof. intros s [|] H; [|reflexivity]. unfold finish in H. cbn [negb] in H. destruct (_ || _) in H; discriminate. Qed.

Lemma write_waiting : forall ins sent, Forall input_ok ins -> sdo_write index sub data ins = Ok (sent, SWaiting) ->
  exists j, (j <= wcount)%nat /\ sent = firstn (S j) wreqs /\ last sent [] = wreq j /\ answered (firstn j wreqs) ins /\
    wloop index sub data ins = Ok (wst index sub data j, firstn j (segment_requests data), false).
Proof.
  intros ins sent OK H. rewrite (write_eq index sub data ins) in H.
  destruct (write_courses index sub data OBJ DATA ins OK) as
      [j J A E|used rest X A E|j used rest X J A E|j used dlc m rest X Q J A E|j used m rest X Q J A E|j used m rest r X Q J A R E];
  rewrite E in H; apply ok_inj in H; destruct H as [H1 H2]; try (apply finish_waiting in H2; discriminate).
  exists j. rewrite <- H1. split; [assumption|]. split; [reflexivity|]. split; [apply last_wreq; assumption|]. split; assumption.
Qed.

Lemma write_after : forall ins sent i more, Forall input_ok ins -> sdo_write index sub data ins = Ok (sent, SWaiting) ->
  exists j, (j <= wcount)%nat /\ last sent [] = wreq j /\
  sdo_write index sub data (ins ++ i :: more) =
  match transfer_loop index sub (i :: more) (wst index sub data j) with
  | Undef => Undef
  | Ok (s2, o2, x) => Ok (sent ++ o2, finish s2 x)
  end.
Proof.
  intros ins sent i more OK H. destruct (write_waiting ins sent OK H) as (j & J & S & L & A & E).
  exists j. split; [assumption|]. split; [assumption|].
  rewrite (write_eq index sub data (ins ++ i :: more)). unfold wloop in *. rewrite loop_app, E.
  destruct (transfer_loop index sub (i :: more) (wst index sub data j)) as [[[s2 o2] x]|]; [|reflexivity].
  rewrite S, <- (wreqs_firstn index sub data j). reflexivity.
Qed.
End Write.

Section Read.
Variables (index sub : Z) (buf0 : bytes).
Hypothesis OBJ : object_ok index sub.

Lemma read_waiting : forall ins sent, Forall input_ok ins -> sdo_read index sub buf0 ins = Ok (sent, SWaiting) ->
  exists s, msg_ok (s_last s) /\ s_last s = last sent [] /\ s_done s = false /\
    (s_off s = 0%nat \/ s_off s <> s_total s) /\
    forall i more, sdo_read index sub buf0 (ins ++ i :: more) =
      match transfer_loop index sub (i :: more) s with
      | Undef => Undef
      | Ok (s2, o2, x) => Ok (sent ++ o2, finish s2 x)
      end.
Proof.
  intros ins sent OK H. rewrite (read_eq index sub buf0 ins) in H.
  assert (GEN : forall s out, rloop index sub buf0 ins = Ok (s, out, false) -> sent = upload_first index sub :: out ->
    forall i more, sdo_read index sub buf0 (ins ++ i :: more) =
      match transfer_loop index sub (i :: more) s with
      | Undef => Undef
      | Ok (s2, o2, x) => Ok (sent ++ o2, finish s2 x)
      end).
  { intros s out E -> i more. rewrite (read_eq index sub buf0 (ins ++ i :: more)). unfold rloop in *.
    rewrite loop_app, E. destruct (transfer_loop index sub (i :: more) s) as [[[s2 o2] x]|]; reflexivity. }
  destruct (read_courses index sub buf0 OBJ ins OK) as [R E|init segs s R IS E|used rest s k tail X E TL K BK F|E S0 B];
    rewrite E in H.
  - apply ok_inj in H; destruct H as [H1 _]. exists (start_read index sub buf0).
    split; [apply first_ok; assumption|]. split; [rewrite <- H1; reflexivity|]. split; [reflexivity|].
    split; [left; reflexivity|]. eapply GEN; [exact E|congruence].
  - apply ok_inj in H; destruct H as [H1 _]. exists s.
    pose proof IS as (G & FC & ALT & LAST & DONE & TOT & OFF & GOT & T0 & T1).
    split; [rewrite LAST; apply upload_next_ok|]. split; [rewrite <- H1, last_upload; assumption|]. split; [assumption|].
    split; [rewrite TOT; destruct (Nat.eq_dec (target buf0 init) 0) as [Z|NZ]; [lia|destruct (T1 NZ); lia]|].
    eapply GEN; [exact E|congruence].
  - apply ok_inj in H; destruct H as [_ H]. apply finish_waiting in H. discriminate.
  - discriminate.
Qed.

Lemma read_result : forall ins sent b, Forall input_ok ins -> sdo_read index sub buf0 ins = Ok (sent, SReturn b) ->
  exists used rest, ins = used ++ rest /\ complete_upload index sub (List.length buf0) (responses used) decoded b.
Proof.
  intros ins sent b OK H. rewrite (read_eq index sub buf0 ins) in H.
  destruct (read_courses index sub buf0 OBJ ins OK) as [R E|init segs s R IS E|used rest s k tail X E TL K BK F|E S0 B];
    rewrite E in H; try discriminate.
  apply ok_inj in H; destruct H as [_ H]. destruct F as [F|[c [F CU]]]; [congruence|].
  exists used, rest. split; [assumption|]. congruence.
Qed.

Lemma read_sent : forall ins sent res, Forall input_ok ins -> sdo_read index sub buf0 ins = Ok (sent, res) ->
  exists k used rest, ins = used ++ rest /\
  requests sent = upload_first index sub :: map upload_next (seq 0 k) /\
  (k <= List.length (responses used))%nat /\ bound_ok buf0 used k /\
  (sent = requests sent \/ exists a, is_abort index sub a /\ sent = requests sent ++ [a]).
Proof.
  intros ins sent res OK H. rewrite (read_eq index sub buf0 ins) in H.
  assert (RQ : forall k, requests (upload_first index sub :: map upload_next (seq 0 k)) = upload_first index sub :: map upload_next (seq 0 k)).
  { intros k. unfold requests. cbn [List.filter]. change (negb (code (upload_first index sub) =? 4)) with true. cbv iota. f_equal.
    generalize 0%nat. induction k as [|k IH]; intros s; [reflexivity|]. cbn [seq map List.filter].
    destruct (upload_next_ok s) as [_ [C _]]. rewrite C. change (negb (3 =? 4)) with true. cbv iota. rewrite IH. reflexivity. }
  destruct (read_courses index sub buf0 OBJ ins OK) as [R E|init segs s R IS E|used rest s k tail X E TL K BK F|E S0 B];
    rewrite E in H; try discriminate.
  - apply ok_inj in H; destruct H as [<- _]. exists 0%nat, ins, []. rewrite app_nil_r. split; [reflexivity|]. split; [reflexivity|].
    split; [lia|]. split; [intros ? ? ? ? ?; lia|]. left. reflexivity.
  - apply ok_inj in H; destruct H as [<- _]. exists (S (List.length segs)), ins, []. rewrite app_nil_r. split; [reflexivity|].
    rewrite RQ. split; [reflexivity|]. split; [rewrite R; cbn [List.length]; lia|].
    split; [apply (segments_bound index sub buf0 init segs s _ []); [assumption|rewrite app_nil_r; assumption]|]. left. reflexivity.
  - apply ok_inj in H; destruct H as [<- _]. exists k, used, rest. split; [assumption|].
    rewrite app_comm_cons, requests_app, RQ.
    destruct TL as [-> |[r [Rr ->]]].
    + cbn [requests List.filter]. rewrite !app_nil_r. split; [reflexivity|]. split; [assumption|]. split; [assumption|]. left. reflexivity.
    + rewrite requests_abort, app_nil_r. split; [reflexivity|]. split; [assumption|]. split; [assumption|]. right.
      eexists. split; [apply abort_is_abort; exact Rr|reflexivity].
Qed.

Lemma read_undef : forall ins, Forall input_ok ins -> sdo_read index sub buf0 ins = Undef ->
  buf0 = [] /\ exists dlc m, In (IFrame dlc m) ins /\ bad_frame m.
Proof.
  intros ins OK H. rewrite (read_eq index sub buf0 ins) in H.
  destruct (read_courses index sub buf0 OBJ ins OK) as [R E|init segs s R IS E|used rest s k tail X E TL K BK F|E S0 B];
    rewrite E in H; try discriminate.
  split; [apply length_zero_iff_nil; assumption|assumption].
Qed.
End Read.

(** Endless uploads: the server sends empty segments. *)
Definition empty_segment (k : nat) : msg := [14 + 16 * (Z.of_nat k mod 2); 0; 0; 0; 0; 0; 0; 0].
Definition endless_answer (index sub : Z) : msg := [64] ++ object_bytes index sub ++ [0; 0; 0; 0].

Lemma endless_loop : forall index sub n k s, s_last s = upload_next k -> s_done s = false ->
  (s_off s < s_total s)%nat -> List.length (s_buf s) = s_total s ->
  exists s2, transfer_loop index sub (map (fun i => IFrame 8 (empty_segment i)) (seq k n)) s =
    Ok (s2, map upload_next (seq (S k) n), false).
Proof.
  intros index sub n. induction n as [|n IH]; intros k s LAST DONE LT LEN.
  - exists s. cbn [seq map]. rewrite loop_eq, DONE. reflexivity.
  - cbn [seq map]. rewrite loop_eq, DONE.
    assert (P : exists s1, process_frame index sub 8 (empty_segment k) s = Ok (s1, [upload_next (S k)], true) /\
       s_last s1 = upload_next (S k) /\ s_done s1 = false /\ (s_off s1 < s_total s1)%nat /\ List.length (s_buf s1) = s_total s1).
    { destruct (upload_next_ok k) as [_ [U2 U3]].
      assert (B0 : b0 (empty_segment k) = 14 + 16 * (Z.of_nat k mod 2)) by reflexivity.
      assert (C : code (empty_segment k) = 0) by (unfold code; rewrite B0; lia).
      assert (T : tog (empty_segment k) = Z.of_nat k mod 2) by (unfold tog; rewrite B0; lia).
      unfold process_frame. rewrite !code_eq, C. change (negb (8 =? 8)) with false. cbv iota.
      change (0 =? 3) with false. change (0 =? 1) with false. change (0 =? 2) with false. change (0 =? 0) with true. cbv iota.
      unfold test_upload_segment. rewrite code_eq, LAST, U2. change (negb (3 =? 3)) with false. cbv iota.
      assert (TE : Bool.eqb (m_toggle (empty_segment k)) (m_toggle (upload_next k)) = true) by (apply toggle_same; congruence).
      rewrite TE. cbn [negb]. cbv iota.
      assert (N0 : seg_data_size (empty_segment k) = 0%nat).
      { unfold seg_data_size. change (m_num3 (empty_segment k)) with ((b0 (empty_segment k) / 2) mod 8). rewrite B0. lia. }
      unfold read_segment. rewrite N0.
      destruct (s_total s =? 0)%nat eqn:TZ; [lia|].
      destruct (s_off s + 0 <=? List.length (s_buf s))%nat eqn:L1; [|lia].
      destruct (List.length (s_buf s) <=? s_off s)%nat eqn:L2; [lia|].
      unfold copy_in. rewrite L1. cbn [Nat.leb andb s_off s_total].
      assert (D : m_done (empty_segment k) = false).
      { rewrite done_eq. unfold g_last. rewrite B0. apply Z.eqb_neq. lia. }
      rewrite D. cbn [orb]. destruct (s_off s + 0 =? s_total s)%nat eqn:EQ; [lia|].
      replace (upload_segment (negb (m_toggle (empty_segment k)))) with (upload_next (S k))
        by (rewrite <- upload_segment_eq; f_equal; symmetry; apply odd_of_tog; assumption).
      eexists. split; [reflexivity|]. cbn [set_last s_last s_done s_off s_total s_buf].
      split; [reflexivity|]. split; [assumption|]. split; [lia|].
      rewrite !app_length, firstn_length, skipn_length. cbn [firstn List.length]. lia. }
    destruct P as [s1 [P [A1 [A2 [A3 A4]]]]]. rewrite P.
    destruct (IH (S k) s1 A1 A2 A3 A4) as [s2 E]. rewrite E. exists s2. reflexivity.
Qed.
