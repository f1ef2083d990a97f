(** C26-C32, C67: SDO transfers. *)
From Verif Require Import Base CanModel KeyModel StorageModel SdoModel SdoSpec SdoProofs SdoReadProofs SdoTalkProofs SdoFinal.

(** ** C26 *)

Lemma empty_talk : forall v index sub obj n ins st sent b, object_ok index sub ->
  talk v index sub (sdo_write index sub []) obj n = (ins, st) ->
  sdo_write index sub [] ins <> Ok (sent, SReturn b).
Proof.
  intros v index sub obj n ins st sent b O T.
  apply empty_write_throws; [assumption|].
  assert (G : forall n, Forall input_ok (fst (talk v index sub (sdo_write index sub []) obj n)) /\
     (fst (talk v index sub (sdo_write index sub []) obj n) = [] /\ snd (talk v index sub (sdo_write index sub []) obj n) = (SrvIdle, obj)
      \/ exists s r, sdo_write index sub [] (fst (talk v index sub (sdo_write index sub []) obj n)) = Ok (s, r) /\ r <> SWaiting)).
  { clear n T. induction n as [|n IH]; [split; [constructor|left; split; reflexivity]|].
    cbn [talk]. destruct (talk v index sub (sdo_write index sub []) obj n) as [i s]. cbn [fst snd] in IH.
    destruct IH as [F [[-> ->]|[s0 [r [E N]]]]].
    - change (sdo_write index sub [] []) with (Ok ([[35; index mod 256; index / 256; sub; 0; 0; 0; 0]], SWaiting)).
      cbn [last]. unfold serve.
      destruct (v_veto v SrvIdle _).
      + cbn [fst]. rewrite app_nil_l. split; [constructor; [apply refuse_ok; assumption|constructor]|].
        right. eexists. eexists. split; [reflexivity|]. discriminate.
      + change (code [35; index mod 256; index / 256; sub; 0; 0; 0; 0] =? 1) with true. cbv iota.
        destruct (list_eq_dec Z.eq_dec _ _) as [X|X]; [|exfalso; apply X; reflexivity].
        cbn [negb]. change (i_exp [35; index mod 256; index / 256; sub; 0; 0; 0; 0]) with true. cbv iota. cbn [fst]. rewrite app_nil_l.
        assert (M : msg_ok ([96] ++ object_bytes index sub ++ [0; 0; 0; 0])).
        { apply build_ok; [assumption|unfold byte_ok; lia| |reflexivity]. repeat constructor; unfold byte_ok; lia. }
        split; [constructor; [exact M|constructor]|]. right.
        assert (D : bytes_ok []) by constructor.
        destruct (wreq0_ok index sub [] O D) as [W1 [W2 W3]].
        assert (A : answers (wreq index sub [] 0) ([96] ++ object_bytes index sub ++ [0; 0; 0; 0])).
        { left. split; [assumption|]. split; [reflexivity|]. unfold same_object. rewrite W3. reflexivity. }
        rewrite (write_eq index sub []). unfold wloop. rewrite loop_eq.
        change (s_done (wst index sub [] 0)) with false. cbv iota.
        rewrite (write_answer index sub [] O D 0 _ (Nat.le_0_l _) M A).
        change (0 <? wcount [])%nat with false. cbv iota. rewrite loop_done by reflexivity.
        eexists. eexists. split; [reflexivity|]. discriminate.
    - rewrite E. destruct r; [| |congruence]; cbn [fst]; (split; [assumption|]; right; eexists; eexists; split; [exact E|discriminate]). }
  specialize (G n). rewrite T in G. apply G.
Qed.

(** Whatever the server refuses, and whether or not it checks sizes: a write that
    returns has stored exactly the data. *)
Theorem C26_delivered : forall v index sub data obj n ins st sent b,
  object_ok index sub -> bytes_ok data ->
  talk v index sub (sdo_write index sub data) obj n = (ins, st) ->
  sdo_write index sub data ins = Ok (sent, SReturn b) ->
  snd st = data.
Proof.
  intros v index sub data obj n ins st sent b O D T C.
  destruct data as [|x data].
  - exfalso. eapply empty_talk; [exact O|exact T|exact C].
  - eapply write_delivers with (obj := obj); [exact O|exact D|discriminate|exact T|exact C].
Qed.
Print Assumptions C26_delivered.

Definition plain_server : server := mkServer true true true no_veto.

Example C26_ex :
  let '(ins, st) := talk plain_server 0x2000 3 (sdo_write 0x2000 3 (map Z.of_nat (seq 0 20))) [7] 4 in
  (exists sent, sdo_write 0x2000 3 (map Z.of_nat (seq 0 20)) ins = Ok (sent, SReturn (map Z.of_nat (seq 0 20)))) /\
  snd st = map Z.of_nat (seq 0 20) /\ List.length ins = 4%nat.
Proof. vm_compute. split; [eexists; reflexivity|split; reflexivity]. Qed.

(** ** C67 *)

(** Writes of 1 to 255 bytes, or any number of bytes if the server does not
    compare sizes, complete. *)
Theorem C67_write_partial : forall v index sub data obj,
  object_ok index sub -> bytes_ok data -> data <> [] ->
  (List.length data < 256)%nat \/ v_strict v = false -> v_veto v = no_veto ->
  exists k, forall n, (k < n)%nat -> exists ins st sent,
  talk v index sub (sdo_write index sub data) obj n = (ins, st) /\
  sdo_write index sub data ins = Ok (sent, SReturn data) /\ snd st = data.
Proof.
  intros v index sub data obj O D NE OKS NV. exists (wcount data). intros n N.
  eapply write_completes; eassumption.
Qed.
Print Assumptions C67_write_partial.

(** Longer ones never complete if the server compares the sizes. *)
Theorem C67_long_write_refuted : forall v index sub data obj n ins st sent b,
  object_ok index sub -> bytes_ok data -> (256 <= List.length data)%nat -> v_strict v = true ->
  talk v index sub (sdo_write index sub data) obj n = (ins, st) ->
  sdo_write index sub data ins <> Ok (sent, SReturn b).
Proof.
  intros v index sub data obj n ins st sent b O D LN ST T.
  eapply write_never with (v := v); [exact O|exact D| |exact ST|exact LN|exact T].
  intros ->. cbn in LN. lia.
Qed.
Print Assumptions C67_long_write_refuted.

(** Writes of an empty string always throw, and the server has stored four zeros. *)
Theorem C67_empty_write_refuted : forall index sub ins sent b, object_ok index sub -> Forall input_ok ins ->
  sdo_write index sub [] ins <> Ok (sent, SReturn b).
Proof. exact empty_write_throws. Qed.
Print Assumptions C67_empty_write_refuted.

Example C67_empty_ex :
  let '(ins, st) := talk plain_server 0x2000 3 (sdo_write 0x2000 3 []) [7] 4 in
  (exists sent, sdo_write 0x2000 3 [] ins = Ok (sent, SThrow)) /\ snd st = [0; 0; 0; 0].
Proof. vm_compute. split; [eexists; reflexivity|reflexivity]. Qed.

(** Reads complete: numbers of the right size, and strings of 1 to 255 bytes if
    the server indicates their size. *)
Theorem C67_read_partial : forall v index sub buf0 obj,
  object_ok index sub -> bytes_ok obj -> obj <> [] -> v_veto v = no_veto ->
  (List.length buf0 = List.length obj /\ (List.length obj < 256)%nat) \/
  (buf0 = [] /\ v_sized v = true /\ (List.length obj < 256)%nat) ->
  exists k, forall n, (k < n)%nat -> exists ins st sent,
  talk v index sub (sdo_read index sub buf0) obj n = (ins, st) /\
  sdo_read index sub buf0 ins = Ok (sent, SReturn obj).
Proof.
  intros v index sub buf0 obj O D NE NV F. exists (List.length obj / 7 + 2)%nat. intros n N.
  eapply read_completes; try eassumption.
  destruct F as [[F1 F2]|[F1 [F2 F3]]]; [left; split; [assumption|left; assumption]|right].
  split; [rewrite F1; reflexivity|split; assumption].
Qed.
Print Assumptions C67_read_partial.

Example C67_read_ex :
  let obj := map Z.of_nat (seq 0 20) in
  let '(ins, st) := talk plain_server 0x2000 3 (sdo_read 0x2000 3 []) obj 5 in
  exists sent, sdo_read 0x2000 3 [] ins = Ok (sent, SReturn obj).
Proof. vm_compute. eexists. reflexivity. Qed.

(** ** C27 *)

(** What a read returns is exactly what the server holds, for numbers of the
    right size and strings of less than 256 bytes with indicated size. *)
Theorem C27_exact_partial : forall v index sub buf0 obj n ins st sent b,
  object_ok index sub -> bytes_ok obj -> obj <> [] ->
  (List.length buf0 = List.length obj /\ ((List.length obj < 256)%nat \/ v_sized v = false)) \/
  (List.length buf0 = 0%nat /\ v_sized v = true /\ (List.length obj < 256)%nat) ->
  talk v index sub (sdo_read index sub buf0) obj n = (ins, st) ->
  sdo_read index sub buf0 ins = Ok (sent, SReturn b) -> b = obj.
Proof.
  intros v index sub buf0 obj n ins st sent b O D NE F T C.
  eapply read_exact; eassumption.
Qed.
Print Assumptions C27_exact_partial.

Example C27_ex :
  let '(ins, st) := talk plain_server 0x1018 1 (sdo_read 0x1018 1 [0; 0; 0; 0]) [1; 2; 3; 4] 3 in
  exists sent, sdo_read 0x1018 1 [0; 0; 0; 0] ins = Ok (sent, SReturn [1; 2; 3; 4]).
Proof. vm_compute. eexists. reflexivity. Qed.

(** A string of 263 bytes: the read succeeds with the first seven bytes. *)
Theorem C27_truncated_refuted : exists v index sub obj n ins st sent,
  object_ok index sub /\ bytes_ok obj /\ List.length obj = 263%nat /\ v_veto v = no_veto /\
  talk v index sub (sdo_read index sub []) obj n = (ins, st) /\
  sdo_read index sub [] ins = Ok (sent, SReturn (firstn 7 obj)).
Proof.
  exists plain_server, 0x2000, 3, (map (fun i => Z.of_nat i mod 256) (seq 0 263)), 5%nat.
  eexists. eexists. eexists. split; [unfold object_ok; lia|]. split.
  { apply Forall_forall. intros x H. apply in_map_iff in H. destruct H as [k [<- _]]. unfold byte_ok. lia. }
  split; [reflexivity|]. split; [reflexivity|]. split; [vm_compute; reflexivity|]. vm_compute. reflexivity.
Qed.
Print Assumptions C27_truncated_refuted.

(** A string of 300 bytes cannot be read. *)
Theorem C27_long_refuted : exists v index sub obj n ins st sent,
  object_ok index sub /\ bytes_ok obj /\ List.length obj = 300%nat /\ v_veto v = no_veto /\
  talk v index sub (sdo_read index sub []) obj n = (ins, st) /\
  sdo_read index sub [] ins = Ok (sent, SThrow).
Proof.
  exists plain_server, 0x2000, 3, (map (fun i => Z.of_nat i mod 256) (seq 0 300)), 50%nat.
  eexists. eexists. eexists. split; [unfold object_ok; lia|]. split.
  { apply Forall_forall. intros x H. apply in_map_iff in H. destruct H as [k [<- _]]. unfold byte_ok. lia. }
  split; [reflexivity|]. split; [reflexivity|]. split; [vm_compute; reflexivity|]. vm_compute. reflexivity.
Qed.
Print Assumptions C27_long_refuted.

(** A string cannot be read from a server that does not indicate sizes. *)
Theorem C27_unsized_refuted : exists v index sub obj n ins st sent,
  object_ok index sub /\ bytes_ok obj /\ List.length obj = 10%nat /\ v_veto v = no_veto /\ v_sized v = false /\
  talk v index sub (sdo_read index sub []) obj n = (ins, st) /\
  sdo_read index sub [] ins = Ok (sent, SThrow).
Proof.
  exists (mkServer true false true no_veto), 0x2000, 3, (map Z.of_nat (seq 0 10)), 5%nat.
  eexists. eexists. eexists. split; [unfold object_ok; lia|]. split.
  { apply Forall_forall. intros x H. apply in_map_iff in H. destruct H as [k [<- H]]. apply in_seq in H. unfold byte_ok. lia. }
  split; [reflexivity|]. split; [reflexivity|]. split; [reflexivity|]. split; [vm_compute; reflexivity|]. vm_compute. reflexivity.
Qed.
Print Assumptions C27_unsized_refuted.

(** ** C28 *)

(** An expedited write returns without any answer. *)
Theorem C28_unanswered_refuted : forall index sub data, (1 <= List.length data <= 4)%nat ->
  exists sent b, sdo_write index sub data [ITimeout] = Ok (sent, SReturn b).
Proof.
  intros index sub data L. unfold sdo_write, transmit, start_write, download_initiate.
  destruct (4 <? List.length data)%nat eqn:E; [lia|].
  cbn [transfer_loop s_done s_last]. eexists. eexists. f_equal. f_equal.
  apply finish_return; cbn [set_last s_off s_total]; lia.
Qed.
Print Assumptions C28_unanswered_refuted.

(** All requests but the last were acknowledged; the last one was acknowledged as
    well, unless the answer was missing or too short. *)
Theorem C28_acknowledged_partial : forall index sub data ins sent b,
  object_ok index sub -> bytes_ok data -> Forall input_ok ins ->
  sdo_write index sub data ins = Ok (sent, SReturn b) ->
  exists used rest, ins = used ++ rest /\
  (answered (requests sent) used \/
   (answered (removelast (requests sent)) used /\ exists i t, rest = i :: t /\ ~ full_frame i)).
Proof.
  intros index sub data ins sent b O D OK H.
  destruct (write_sent index sub data O D ins sent _ OK H) as (j & used & rest & -> & J & RQ & A & _ & R & _).
  destruct (R b eq_refl) as [J1 J2]. exists used, rest. split; [reflexivity|].
  rewrite RQ. destruct (Nat.eq_dec j (wcount data)) as [E|E].
  - right. split; [|apply J2; assumption].
    rewrite wreqs_S by lia. rewrite removelast_last. assumption.
  - left. assert (j = S (wcount data)) as -> by lia.
    rewrite firstn_all2 by (rewrite wreqs_length; lia).
    rewrite firstn_all2 in A by (rewrite wreqs_length; lia). assumption.
Qed.
Print Assumptions C28_acknowledged_partial.

Example C28_ex : sdo_write 0x6040 0 [15; 0] [IFrame 8 [96; 64; 96; 0; 0; 0; 0; 0]] =
  Ok ([[43; 64; 96; 0; 15; 0; 0; 0]], SReturn [15; 0]).
Proof. reflexivity. Qed.

(** The requests carry exactly the data, in order. *)
Theorem C28_requests_carry_data : forall index sub data ins sent b,
  object_ok index sub -> bytes_ok data -> Forall input_ok ins -> (4 < List.length data)%nat ->
  sdo_write index sub data ins = Ok (sent, SReturn b) ->
  List.concat (map g_data (tl (requests sent))) = data.
Proof.
  intros index sub data ins sent b O D OK L H.
  destruct (write_sent index sub data O D ins sent _ OK H) as (j & used & rest & -> & J & RQ & A & _ & R & _).
  destruct (R b eq_refl) as [J1 J2]. rewrite RQ.
  rewrite firstn_all2 by (rewrite wreqs_length; lia). cbn [wreqs tl].
  unfold segment_requests. destruct (List.length data <=? 4)%nat eqn:E; [lia|].
  pose proof (count_bound data) as CB.
  assert (G : forall k, List.concat (map g_data (map (segment_request data) (seq 0 k))) = firstn (7 * k) data).
  { induction k as [|k IH]; [reflexivity|].
    replace (S k) with (k + 1)%nat by lia. rewrite seq_app, !map_app, concat_app, IH.
    cbn [Nat.add seq map List.concat]. rewrite app_nil_r.
    destruct (segment_request_fields data D k) as (_ & _ & _ & ->).
    rewrite firstn_chunk. f_equal. lia. }
  rewrite G. apply firstn_all2. lia.
Qed.
Print Assumptions C28_requests_carry_data.

(** ** C29 *)

Lemma complete_announced : forall index sub size rs b, Forall msg_ok rs -> 
  complete_upload index sub size rs decoded b ->
  ((0 < size <= 256)%nat \/ (forall m, In m rs -> (announced m < 256)%nat)) ->
  complete_upload index sub size rs announced b.
Proof.
  intros index sub size rs b OK (init & segs & -> & C & N & H) F.
  exists init, segs. split; [reflexivity|]. split; [assumption|]. split; [assumption|].
  destruct H as [H|(E & FC & ALT & B & H1 & H2)]; [left; assumption|right].
  inversion OK as [|? ? M _]; subst.
  destruct (msg_cases init M) as (x0&x1&x2&x3&x4&x5&x6&x7&->&B0&B1&B2&B3&B4&B5&B6&B7).
  unfold byte_ok in *.
  assert (DE : decoded [x0; x1; x2; x3; x4; x5; x6; x7] = Z.to_nat (x4 + 256 * x7)) by reflexivity.
  assert (AE : announced [x0; x1; x2; x3; x4; x5; x6; x7] = Z.to_nat (x4 + 256 * x5 + 65536 * x6 + 16777216 * x7)) by reflexivity.
  split; [assumption|]. split; [assumption|]. split; [assumption|]. split; [reflexivity|].
  split.
  - intros S. destruct F as [F|F]; [lia|]. specialize (F _ (or_introl eq_refl)). rewrite AE in *. rewrite DE in *.
    destruct (H1 S) as [H3 H4]. split; [assumption|]. rewrite H4. lia.
  - intros S. destruct (H2 S) as [H3 H4]. split; [assumption|]. intros H5. specialize (H4 H5). rewrite AE in *. rewrite DE in *.
    destruct F as [F|F].
    + destruct (Z.eq_dec x5 0), (Z.eq_dec x6 0), (Z.eq_dec x7 0); lia.
    + specialize (F _ (or_introl eq_refl)). rewrite AE in F. lia.
Qed.

Lemma responses_ok : forall ins, Forall input_ok ins -> Forall msg_ok (responses ins).
Proof.
  induction 1 as [|i ins H F IH]; [constructor|].
  unfold responses in *. cbn [flat_map]. apply Forall_app. split; [|assumption].
  destruct i as [dlc m|]; [|constructor]. destruct (code m <=? 4); [constructor; [assumption|constructor]|constructor].
Qed.

(** Numbers: for every sequence of server frames. *)
Theorem C29_number : forall index sub buf0 ins sent b,
  object_ok index sub -> Forall input_ok ins -> (0 < List.length buf0 <= 256)%nat ->
  sdo_read index sub buf0 ins = Ok (sent, SReturn b) ->
  exists used rest, ins = used ++ rest /\
  complete_upload index sub (List.length buf0) (responses used) announced b.
Proof.
  intros index sub buf0 ins sent b O OK L H.
  destruct (read_result index sub buf0 O ins sent b OK H) as (used & rest & -> & C).
  exists used, rest. split; [reflexivity|]. apply Forall_app in OK.
  apply complete_announced; [apply responses_ok; apply OK|assumption|left; assumption].
Qed.
Print Assumptions C29_number.

Example C29_ex :
  sdo_read 0x2000 0 (repeat 0 8)
    [IFrame 8 [65; 0; 32; 0; 8; 0; 0; 0]; IFrame 8 [0; 1; 2; 3; 4; 5; 6; 7]; IFrame 8 [29; 8; 0; 0; 0; 0; 0; 0]] =
  Ok ([[64; 0; 32; 0; 0; 0; 0; 0]; [96; 0; 0; 0; 0; 0; 0; 0]; [112; 0; 0; 0; 0; 0; 0; 0]], SReturn [1; 2; 3; 4; 5; 6; 7; 8]).
Proof. reflexivity. Qed.

(** Strings: if no response announces 256 bytes or more. Missing: longer ones. *)
Theorem C29_string_partial : forall index sub ins sent b,
  object_ok index sub -> Forall input_ok ins ->
  (forall m, In m (responses ins) -> (announced m < 256)%nat) ->
  sdo_read index sub [] ins = Ok (sent, SReturn b) ->
  exists used rest, ins = used ++ rest /\
  complete_upload index sub 0 (responses used) announced b.
Proof.
  intros index sub ins sent b O OK A H.
  destruct (read_result index sub [] O ins sent b OK H) as (used & rest & -> & C).
  exists used, rest. split; [reflexivity|]. apply Forall_app in OK.
  apply complete_announced; [apply responses_ok; apply OK|assumption|right].
  intros m Hm. apply A. rewrite responses_app. apply in_or_app. left. assumption.
Qed.
Print Assumptions C29_string_partial.

(** In general with the length the client computes from the announced size. *)
Theorem C29_decoded : forall index sub buf0 ins sent b,
  object_ok index sub -> Forall input_ok ins ->
  sdo_read index sub buf0 ins = Ok (sent, SReturn b) ->
  exists used rest, ins = used ++ rest /\
  complete_upload index sub (List.length buf0) (responses used) decoded b.
Proof. intros. eapply read_result; eassumption. Qed.
Print Assumptions C29_decoded.

(** Announced 263 bytes, received 7, returned 7. *)
Theorem C29_string_refuted : exists index sub ins sent b,
  object_ok index sub /\ Forall input_ok ins /\ sdo_read index sub [] ins = Ok (sent, SReturn b) /\
  forall used rest, ins = used ++ rest -> ~ complete_upload index sub 0 (responses used) announced b.
Proof.
  exists 0x2000, 0, [IFrame 8 [65; 0; 32; 0; 7; 1; 0; 0]; IFrame 8 [0; 1; 2; 3; 4; 5; 6; 7]].
  eexists. eexists. split; [unfold object_ok; lia|]. split.
  { repeat constructor; unfold byte_ok; lia. }
  split; [reflexivity|].
  intros used rest E (init & segs & R & C & N & H).
  assert (I : exists t, responses (used ++ rest) = init :: t).
  { rewrite responses_app, R. eexists. reflexivity. }
  destruct I as [t I]. rewrite <- E in I. cbn in I. injection I as <- _.
  destruct H as [[X _]|(_ & _ & _ & _ & H & _)]; [discriminate|].
  destruct (H eq_refl) as [_ L]. apply (f_equal Z.of_nat) in L. cbn in L. discriminate.
Qed.
Print Assumptions C29_string_refuted.

(** ** C30 *)

Theorem C30_write : forall index sub data ins, object_ok index sub -> bytes_ok data -> Forall input_ok ins ->
  sdo_write index sub data ins <> Undef.
Proof. intros. apply write_never_undef; assumption. Qed.
Print Assumptions C30_write.

Theorem C30_read_number : forall index sub buf0 ins, object_ok index sub -> Forall input_ok ins -> buf0 <> [] ->
  sdo_read index sub buf0 ins <> Undef.
Proof. intros index sub buf0 ins O OK NE H. apply read_undef in H; [|assumption|assumption]. apply NE, H. Qed.
Print Assumptions C30_read_number.

(** Strings: if expedited responses indicate the size and no segment is empty. *)
Theorem C30_read_string_partial : forall index sub buf0 ins, object_ok index sub -> Forall input_ok ins ->
  (forall dlc m, In (IFrame dlc m) ins ->
     (code m = 2 -> i_exp m = true -> i_sized m = true) /\ (code m = 0 -> g_data m <> [])) ->
  sdo_read index sub buf0 ins <> Undef.
Proof.
  intros index sub buf0 ins O OK G H. apply read_undef in H; [|assumption|assumption].
  destruct H as [_ (dlc & m & I & [[C [E S]]|[C E]])]; destruct (G dlc m I) as [G1 G2].
  - rewrite G1 in S; [discriminate|assumption|assumption].
  - apply G2; assumption.
Qed.
Print Assumptions C30_read_string_partial.

(** Otherwise the client takes the address of an element of an empty vector. *)
Theorem C30_read_string_refuted :
  sdo_read 0x2000 0 [] [IFrame 8 [66; 0; 32; 0; 1; 2; 3; 4]] = Undef /\
  sdo_read 0x2000 0 [] [IFrame 8 [65; 0; 32; 0; 0; 0; 0; 0]; IFrame 8 [15; 0; 0; 0; 0; 0; 0; 0]] = Undef.
Proof. split; reflexivity. Qed.
Print Assumptions C30_read_string_refuted.

(** ** C31 *)

(** Writes: the requests are a prefix of the fixed list; each one follows the
    answer to the one before; at most one abort ends the transfer. *)
Theorem C31_write : forall index sub data ins sent res,
  object_ok index sub -> bytes_ok data -> Forall input_ok ins ->
  sdo_write index sub data ins = Ok (sent, res) ->
  exists first used rest j, ins = used ++ rest /\ code first = 1 /\ names_object index sub first /\
  requests sent = firstn (S j) (first :: segment_requests data) /\
  answered (firstn j (first :: segment_requests data)) used /\
  (List.length (requests sent) <= 1 + (List.length data + 6) / 7)%nat /\
  (sent = requests sent \/ exists a, is_abort index sub a /\ sent = requests sent ++ [a]).
Proof.
  intros index sub data ins sent res O D OK H.
  destruct (write_sent index sub data O D ins sent _ OK H) as (j & used & rest & -> & J & RQ & A & _ & _ & S).
  destruct (wreq0_ok index sub data O D) as [_ [W1 W2]].
  exists (wreq index sub data 0), used, rest, j. split; [reflexivity|]. split; [assumption|]. split; [assumption|].
  split; [assumption|]. split; [assumption|]. split; [|assumption].
  rewrite RQ, firstn_length, wreqs_length. pose proof (wcount_eq data) as WC. unfold segment_count in WC.
  destruct (List.length data <=? 4)%nat; lia.
Qed.
Print Assumptions C31_write.

(** The first request is the one CiA 301 asks for, from 1 to 255 bytes. *)
Theorem C31_first_write_partial : forall index sub data ins sent res,
  (1 <= List.length data < 256)%nat ->
  sdo_write index sub data ins = Ok (sent, res) -> hd [] sent = first_request index sub data.
Proof.
  intros index sub data ins sent res L H. unfold sdo_write, transmit in H.
  destruct (transfer_loop index sub ins (start_write index sub data)) as [[[s1 out] x]|]; [|discriminate].
  injection H as <- _. cbn [hd]. unfold start_write, download_initiate, first_request.
  destruct (4 <? List.length data)%nat eqn:E; destruct (List.length data <=? 4)%nat eqn:F; try lia; cbn [s_last].
  - unfold announce_request, le32_bytes. change 255 with (2^8 - 1). rewrite !land_ones_mod, shiftr_div by lia.
    set (l := Z.of_nat (List.length data)). change (2^8) with 256.
    assert (l / 256 = 0 /\ l / 65536 = 0 /\ l / 16777216 = 0) as (-> & -> & ->) by lia. reflexivity.
  - unfold expedited_request. rewrite pad_to_zeros. cbn [app]. f_equal. lia.
Qed.
Print Assumptions C31_first_write_partial.

Theorem C31_read : forall index sub buf0 ins sent res,
  object_ok index sub -> Forall input_ok ins ->
  sdo_read index sub buf0 ins = Ok (sent, res) ->
  exists k used rest, ins = used ++ rest /\
  requests sent = upload_first index sub :: map upload_next (seq 0 k) /\
  (k <= List.length (responses used))%nat /\
  (sent = requests sent \/ exists a, is_abort index sub a /\ sent = requests sent ++ [a]).
Proof.
  intros index sub buf0 ins sent res O OK H.
  destruct (read_sent index sub buf0 O ins sent res OK H) as (k & used & rest & E & RQ & K & _ & S).
  exists k, used, rest. split; [assumption|]. split; [assumption|]. split; assumption.
Qed.
Print Assumptions C31_read.

(** Reads are bounded if the size is known and no segment is empty. *)
Theorem C31_read_bound_partial : forall index sub buf0 ins sent res,
  object_ok index sub -> Forall input_ok ins -> buf0 <> [] ->
  (forall m, In m (responses ins) -> g_data m <> []) ->
  sdo_read index sub buf0 ins = Ok (sent, res) ->
  (List.length (requests sent) <= 1 + List.length buf0)%nat.
Proof.
  intros index sub buf0 ins sent res O OK NE G H.
  destruct (read_sent index sub buf0 O ins sent res OK H) as (k & used & rest & E & RQ & K & B & S).
  rewrite RQ. cbn [List.length]. rewrite map_length, seq_length.
  assert (L0 : List.length buf0 <> 0%nat) by (intro X; apply length_zero_iff_nil in X; contradiction).
  destruct (responses used) as [|init segs] eqn:R; [cbn in K; lia|].
  assert (TG : target buf0 init = List.length buf0) by (unfold target; destruct (List.length buf0 =? 0)%nat eqn:Z; [lia|reflexivity]).
  assert (k <= target buf0 init)%nat; [|lia].
  apply (B init segs); [assumption| |lia].
  apply Forall_forall. intros m Hm. apply G. rewrite E, responses_app, R. apply in_or_app. left. right. assumption.
Qed.
Print Assumptions C31_read_bound_partial.

(** Otherwise there is no bound: with empty segments the transfer goes on for any
    number of requests. *)
Theorem C31_read_bound_refuted : forall N, exists ins sent, Forall input_ok ins /\
  sdo_read 0x2000 0 [0; 0] ins = Ok (sent, SWaiting) /\ (N < List.length (requests sent))%nat.
Proof.
  intros N.
  exists (IFrame 8 (endless_answer 0x2000 0) :: map (fun i => IFrame 8 (empty_segment i)) (seq 0 N)).
  eexists. split.
  - constructor; [repeat constructor; unfold byte_ok; lia|]. apply Forall_forall. intros i H.
    apply in_map_iff in H. destruct H as [k [<- _]]. split; [reflexivity|]. unfold empty_segment. repeat constructor; unfold byte_ok; lia.
  - unfold sdo_read, transmit. rewrite loop_eq. change (s_done (start_read 0x2000 0 [0; 0])) with false. cbv iota.
    assert (P : process_frame 0x2000 0 8 (endless_answer 0x2000 0) (start_read 0x2000 0 [0; 0]) =
      Ok (mkSdo [0; 0] 0 2 false (upload_next 0), [upload_next 0], true)) by reflexivity.
    rewrite P.
    destruct (endless_loop 0x2000 0 N 0 (mkSdo [0; 0] 0 2 false (upload_next 0)) eq_refl eq_refl ltac:(cbn; lia) eq_refl) as [s2 E].
    rewrite E. split; [reflexivity|].
    change (s_last (start_read 0x2000 0 [0; 0]) :: [upload_next 0] ++ map upload_next (seq 1 N))
      with (upload_first 0x2000 0 :: upload_next 0 :: map upload_next (seq 1 N)).
    unfold requests. cbn [List.filter].
    change (negb (code (upload_first 0x2000 0) =? 4)) with true. change (negb (code (upload_next 0) =? 4)) with true. cbv iota.
    cbn [List.length].
    assert (F : forall n s, List.length (List.filter (fun m => negb (code m =? 4)) (map upload_next (seq s n))) = n).
    { induction n as [|n IH]; intros s; [reflexivity|]. cbn [seq map List.filter].
      destruct (upload_next_ok s) as [_ [C _]]. rewrite C. change (negb (3 =? 4)) with true. cbv iota. cbn [List.length]. rewrite IH. reflexivity. }
    rewrite F. lia.
Qed.
Print Assumptions C31_read_bound_refuted.

(** ** C32 *)

Theorem C32_server_abort_write : forall index sub data ins sent m more,
  object_ok index sub -> bytes_ok data -> Forall input_ok ins ->
  sdo_write index sub data ins = Ok (sent, SWaiting) -> code m = 4 ->
  sdo_write index sub data (ins ++ IFrame 8 m :: more) = Ok (sent, SThrow).
Proof.
  intros index sub data ins sent m more O D OK H C.
  destruct (write_after index sub data O D ins sent (IFrame 8 m) more OK H) as (j & J & L & ->).
  rewrite loop_eq. change (s_done (wst index sub data j)) with false. cbv iota.
  rewrite process_abort by assumption. rewrite app_nil_r, finish_throw0 by reflexivity. reflexivity.
Qed.
Print Assumptions C32_server_abort_write.

Theorem C32_server_abort_read : forall index sub buf0 ins sent m more,
  object_ok index sub -> Forall input_ok ins ->
  sdo_read index sub buf0 ins = Ok (sent, SWaiting) -> code m = 4 ->
  sdo_read index sub buf0 (ins ++ IFrame 8 m :: more) = Ok (sent, SThrow).
Proof.
  intros index sub buf0 ins sent m more O OK H C.
  destruct (read_waiting index sub buf0 O ins sent OK H) as (s & M & LA & DN & NF & E). rewrite E.
  rewrite loop_eq, DN. rewrite process_abort by assumption. rewrite app_nil_r, finish_throw0 by reflexivity. reflexivity.
Qed.
Print Assumptions C32_server_abort_read.

Theorem C32_error_write : forall index sub data ins sent m more,
  object_ok index sub -> bytes_ok data -> Forall input_ok ins -> msg_ok m ->
  sdo_write index sub data ins = Ok (sent, SWaiting) -> protocol_error (last sent []) m ->
  sdo_write index sub data (ins ++ IFrame 8 m :: more) =
  Ok (sent ++ [abort_message index sub (error_reason (last sent []) m)], SThrow).
Proof.
  intros index sub data ins sent m more O D OK M H P.
  destruct (write_after index sub data O D ins sent (IFrame 8 m) more OK H) as (j & J & L & ->).
  rewrite L in P |- *.
  destruct (process_error_reason index sub m (wst index sub data j) M (wreq_ok index sub data O D j) P) as [r [R X]].
  change (s_last (wst index sub data j)) with (wreq index sub data j) in R. rewrite <- R, <- abort_message_eq.
  rewrite loop_eq. change (s_done (wst index sub data j)) with false. cbv iota. rewrite X.
  rewrite finish_throw0 by reflexivity. reflexivity.
Qed.
Print Assumptions C32_error_write.

Theorem C32_error_read : forall index sub buf0 ins sent m more,
  object_ok index sub -> Forall input_ok ins -> msg_ok m ->
  sdo_read index sub buf0 ins = Ok (sent, SWaiting) -> protocol_error (last sent []) m ->
  sdo_read index sub buf0 (ins ++ IFrame 8 m :: more) =
  Ok (sent ++ [abort_message index sub (error_reason (last sent []) m)], SThrow).
Proof.
  intros index sub buf0 ins sent m more O OK M H P.
  destruct (read_waiting index sub buf0 O ins sent OK H) as (s & MS & LA & DN & NF & E).
  rewrite <- LA in P |- *.
  destruct (process_error_reason index sub m s M MS P) as [r [R X]].
  rewrite <- R, <- abort_message_eq.
  rewrite E, loop_eq, DN, X. rewrite finish_throw0 by reflexivity. reflexivity.
Qed.
Print Assumptions C32_error_read.

(** No answer for a second: the abort is sent as well. *)
Theorem C32_timeout_write : forall index sub data ins sent more,
  object_ok index sub -> bytes_ok data -> Forall input_ok ins ->
  sdo_write index sub data ins = Ok (sent, SWaiting) ->
  exists res, sdo_write index sub data (ins ++ ITimeout :: more) =
  Ok (sent ++ [abort_message index sub protocol_timed_out], res).
Proof.
  intros index sub data ins sent more O D OK H.
  destruct (write_after index sub data O D ins sent ITimeout more OK H) as (j & J & L & ->).
  rewrite loop_eq. change (s_done (wst index sub data j)) with false. cbv iota.
  eexists. rewrite <- abort_message_eq. reflexivity.
Qed.
Print Assumptions C32_timeout_write.

Theorem C32_timeout_read : forall index sub buf0 ins sent more,
  object_ok index sub -> Forall input_ok ins ->
  sdo_read index sub buf0 ins = Ok (sent, SWaiting) ->
  sdo_read index sub buf0 (ins ++ ITimeout :: more) =
  Ok (sent ++ [abort_message index sub protocol_timed_out], SThrow).
Proof.
  intros index sub buf0 ins sent more O OK H.
  destruct (read_waiting index sub buf0 O ins sent OK H) as (s & MS & LA & DN & NF & E).
  unfold protocol_timed_out. rewrite <- abort_message_eq.
  rewrite E, loop_eq, DN. cbv beta iota zeta.
  assert (F : finish (set_last s (abort_request index sub 0x05040000)) true = SThrow)
    by (destruct NF; [apply finish_throw0|apply finish_throw]; assumption).
  rewrite F. reflexivity.
Qed.
Print Assumptions C32_timeout_read.

Example C32_ex : sdo_read 0x6041 0 [0; 0] [IFrame 8 [128; 65; 96; 0; 0; 0; 2; 6]] =
  Ok ([[64; 65; 96; 0; 0; 0; 0; 0]], SThrow).
Proof. reflexivity. Qed.
Example C32_ex2 : protocol_error [64; 65; 96; 0; 0; 0; 0; 0] [75; 64; 96; 0; 1; 2; 0; 0] /\
  sdo_read 0x6041 0 [0; 0] [IFrame 8 [75; 64; 96; 0; 1; 2; 0; 0]] =
  Ok ([[64; 65; 96; 0; 0; 0; 0; 0]; [128; 65; 96; 0; 0; 0; 0; 8]], SThrow).
Proof.
  split; [|reflexivity]. split; [cbv; discriminate|].
  intros [H|[H|[[_ [_ H]]|H]]]; [destruct H as [H _]|destruct H as [H _]| |destruct H as [H _]]; discriminate H.
Qed.
