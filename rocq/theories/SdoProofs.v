(** Proofs about SDO transfers. *)
From Verif Require Import Base CanModel KeyModel StorageModel SdoModel SdoSpec.

(** ** Messages *)

Lemma msg_cases : forall m, msg_ok m -> exists a b c d e f g h,
  m = [a; b; c; d; e; f; g; h] /\ byte_ok a /\ byte_ok b /\ byte_ok c /\ byte_ok d /\
  byte_ok e /\ byte_ok f /\ byte_ok g /\ byte_ok h.
Proof.
  intros m [L B].
  destruct m as [|a [|b [|c [|d [|e [|f [|g [|h [|]]]]]]]]]; try discriminate L.
  unfold bytes_ok in B. repeat match goal with H : Forall _ (_ :: _) |- _ => inversion H; clear H; subst end.
  exists a, b, c, d, e, f, g, h. repeat split; try assumption; apply H1 || apply H2 || idtac; unfold byte_ok in *; lia.
Qed.

Lemma b0_ok : forall m, msg_ok m -> byte_ok (b0 m).
Proof. intros m H. destruct (msg_cases m H) as (a&b&c&d&e&f&g&h&->&?). apply H0. Qed.

Lemma code_eq : forall m, m_command m = code m. Proof. reflexivity. Qed.

Lemma code_range : forall m, msg_ok m -> 0 <= code m <= 7.
Proof. intros m H. apply b0_ok in H. unfold code, byte_ok in *. lia. Qed.

Lemma toggle_eq : forall m, m_toggle m = (tog m =? 1).
Proof. intros m. unfold m_toggle, tog, byte_at, b0. rewrite testbit_div by lia. reflexivity. Qed.

Lemma tog_range : forall m, 0 <= tog m <= 1.
Proof. intros. unfold tog. lia. Qed.

Lemma toggle_same : forall a b, Bool.eqb (m_toggle a) (m_toggle b) = true <-> tog a = tog b.
Proof.
  intros a b. rewrite !toggle_eq, eqb_true_iff.
  pose proof (tog_range a). pose proof (tog_range b). lia.
Qed.

Lemma sized_eq : forall m, m_sized m = i_sized m.
Proof.
  intros m. unfold m_sized, i_sized, byte_at, b0. rewrite testbit_div by lia.
  change (2^0) with 1. rewrite Z.div_1_r. reflexivity.
Qed.
Lemma done_eq : forall m, m_done m = g_last m.
Proof.
  intros m. unfold m_done, g_last, byte_at, b0. rewrite testbit_div by lia.
  change (2^0) with 1. rewrite Z.div_1_r. reflexivity.
Qed.
Lemma exp_eq : forall m, m_expedited m = i_exp m.
Proof.
  intros m. unfold m_expedited, i_exp, byte_at, b0. rewrite testbit_div by lia. reflexivity.
Qed.

Lemma object_eq : forall a b, msg_ok a -> msg_ok b ->
  ((m_index a =? m_index b) && (m_sub a =? m_sub b) = true <-> same_object b a).
Proof.
  intros a b Ha Hb.
  destruct (msg_cases a Ha) as (a1&b1&c1&d1&e1&f1&g1&h1&->&?&?&?&?&?).
  destruct (msg_cases b Hb) as (a2&b2&c2&d2&e2&f2&g2&h2&->&?&?&?&?&?).
  unfold m_index, m_sub, byte_at, same_object, byte_ok in *. cbn [nth firstn skipn].
  rewrite andb_true_iff, !Z.eqb_eq. split.
  - intros [X Y]. assert (c1 = c2) by lia. assert (b1 = b2) by lia. congruence.
  - intros X. injection X as -> -> ->. split; reflexivity.
Qed.

(** ** The answer test, for any state *)

Definition reason_ok (r : Z) : Prop :=
  r = 0x05030000 \/ r = 0x05040000 \/ r = 0x06070010 \/ r = 0x08000000.

Ltac reason := unfold error_reason;
  match goal with |- context [if ?b then _ else _] => destruct b eqn:?RE end;
  first [reflexivity|exfalso; lia].

Lemma process_error_reason : forall index sub m s, msg_ok m -> msg_ok (s_last s) ->
  protocol_error (s_last s) m -> exists r, r = error_reason (s_last s) m /\
  process_frame index sub 8 m s =
    Ok (set_off (set_last s (abort_request index sub r)) 0, [abort_request index sub r], false).
Proof.
  intros index sub m s Hm Hs [C N].
  unfold process_frame. rewrite !code_eq. change (negb (8 =? 8)) with false. cbv iota.
  pose proof (code_range _ Hm) as Cr.
  unfold answers in N.
  pose proof (object_eq m (s_last s) Hm Hs) as OE.
  pose proof (toggle_same m (s_last s)) as TE.
  destruct (code m =? 3) eqn:C3; [|destruct (code m =? 1) eqn:C1; [|destruct (code m =? 2) eqn:C2;
    [|destruct (code m =? 0) eqn:C0; [|lia]]]].
  - unfold test_download_initiate. rewrite code_eq.
    destruct ((code (s_last s) =? 1) && (m_index m =? m_index (s_last s)) && (m_sub m =? m_sub (s_last s))) eqn:E.
    + exfalso. apply N. left. rewrite <- andb_assoc, andb_true_iff, OE in E. split; [lia|split; [lia|apply E]].
    + eexists. split; [|reflexivity]. reason.
  - unfold test_download_segment. rewrite code_eq.
    destruct (code (s_last s) =? 0) eqn:E; cbn [negb].
    + destruct (Bool.eqb (m_toggle m) (m_toggle (s_last s))) eqn:T; cbn [negb].
      * exfalso. apply N. right. left. split; [lia|split; [lia|symmetry; apply TE; reflexivity]].
      * eexists. split; [|reflexivity]. reason.
    + eexists. split; [|reflexivity]. reason.
  - unfold test_upload_initiate. rewrite code_eq.
    destruct ((code (s_last s) =? 2) && (m_index m =? m_index (s_last s)) && (m_sub m =? m_sub (s_last s))) eqn:E.
    + exfalso. apply N. right. right. left. rewrite <- andb_assoc, andb_true_iff, OE in E. split; [lia|split; [lia|apply E]].
    + eexists. split; [|reflexivity]. reason.
  - unfold test_upload_segment. rewrite code_eq.
    destruct (code (s_last s) =? 3) eqn:E; cbn [negb].
    + destruct (Bool.eqb (m_toggle m) (m_toggle (s_last s))) eqn:T; cbn [negb].
      * exfalso. apply N. right. right. right. split; [lia|split; [lia|symmetry; apply TE; reflexivity]].
      * eexists. split; [|reflexivity]. reason.
    + eexists. split; [|reflexivity]. reason.
Qed.

Lemma process_error : forall index sub m s, msg_ok m -> msg_ok (s_last s) ->
  protocol_error (s_last s) m -> exists r, reason_ok r /\
  process_frame index sub 8 m s =
    Ok (set_off (set_last s (abort_request index sub r)) 0, [abort_request index sub r], false).
Proof.
  intros index sub m s Hm Hs P. destruct (process_error_reason index sub m s Hm Hs P) as [r [R X]].
  exists r. split; [|exact X]. rewrite R. unfold error_reason, reason_ok, toggle_not_alternated, general_error.
  destruct (_ || _); tauto.
Qed.

Lemma process_abort : forall index sub m s, code m = 4 ->
  process_frame index sub 8 m s = Ok (set_off s 0, [], false).
Proof. intros. unfold process_frame. rewrite !code_eq, H. reflexivity. Qed.

Lemma process_skip : forall index sub m s, no_response m ->
  process_frame index sub 8 m s = Ok (s, [], true).
Proof.
  intros index sub m s H. unfold process_frame, no_response in *. rewrite !code_eq.
  change (negb (8 =? 8)) with false. cbv iota.
  destruct (code m =? 3) eqn:A; [lia|]. destruct (code m =? 1) eqn:B; [lia|].
  destruct (code m =? 2) eqn:C; [lia|]. destruct (code m =? 0) eqn:D; [lia|].
  destruct (code m =? 4) eqn:E; [lia|]. reflexivity.
Qed.

Lemma process_short : forall index sub dlc m s, dlc <> 8 ->
  process_frame index sub dlc m s = Ok (s, [], false).
Proof.
  intros. unfold process_frame. destruct (dlc =? 8) eqn:E; [lia|]. reflexivity.
Qed.

Lemma answers_dec : forall r m, answers r m \/ ~ answers r m.
Proof.
  intros r m. unfold answers, same_object.
  assert (D : Decidable.decidable (firstn 3 (skipn 1 r) = firstn 3 (skipn 1 m))).
  { destruct (list_eq_dec Z.eq_dec (firstn 3 (skipn 1 r)) (firstn 3 (skipn 1 m))); [left|right]; assumption. }
  assert (Q : forall a b : Z, Decidable.decidable (a = b)) by (intros a b; destruct (Z.eq_dec a b); [left|right]; assumption).
  repeat apply Decidable.dec_or; repeat apply Decidable.dec_and; first [exact D|apply Q].
Qed.

(** Every input is one of these. *)
Inductive verdict (r : msg) : input -> Prop :=
| v_timeout : verdict r ITimeout
| v_short : forall dlc m, dlc <> 8 -> verdict r (IFrame dlc m)
| v_abort : forall m, code m = 4 -> verdict r (IFrame 8 m)
| v_skip : forall m, no_response m -> verdict r (IFrame 8 m)
| v_error : forall m, msg_ok m -> protocol_error r m -> verdict r (IFrame 8 m)
| v_answer : forall m, msg_ok m -> answers r m -> verdict r (IFrame 8 m).

Lemma verdict_total : forall r i, input_ok i -> verdict r i.
Proof.
  intros r [dlc m|] H; [|constructor].
  destruct (Z.eq_dec dlc 8) as [->|]; [|constructor; assumption].
  pose proof (code_range m H) as C.
  destruct (Z.eq_dec (code m) 4); [apply v_abort; assumption|].
  destruct (Z_lt_dec 4 (code m)); [apply v_skip; unfold no_response; lia|].
  destruct (answers_dec r m); [apply v_answer; assumption|apply v_error; [assumption|]].
  split; [lia|assumption].
Qed.

(** ** The loop *)

Lemma loop_eq : forall index sub ins s, transfer_loop index sub ins s =
  if s_done s then Ok (s, [], true)
  else match ins with
       | [] => Ok (s, [], false)
       | ITimeout :: _ =>
         let a := abort_request index sub 0x05040000 in
         Ok (set_last s a, [a], true)
       | IFrame dlc m :: t =>
         match process_frame index sub dlc m s with
         | Undef => Undef
         | Ok (s1, out, false) => Ok (s1, out, true)
         | Ok (s1, out, true) =>
           match transfer_loop index sub t s1 with
           | Undef => Undef
           | Ok (s2, out2, stopped) => Ok (s2, out ++ out2, stopped)
           end
         end
       end.
Proof. intros. destruct ins; reflexivity. Qed.

Lemma loop_done : forall index sub ins s, s_done s = true -> transfer_loop index sub ins s = Ok (s, [], true).
Proof. intros. rewrite loop_eq, H. reflexivity. Qed.

Lemma loop_app : forall index sub a b s, transfer_loop index sub (a ++ b) s =
  match transfer_loop index sub a s with
  | Undef => Undef
  | Ok (s1, o1, true) => Ok (s1, o1, true)
  | Ok (s1, o1, false) =>
    match transfer_loop index sub b s1 with
    | Undef => Undef
    | Ok (s2, o2, x) => Ok (s2, o1 ++ o2, x)
    end
  end.
Proof.
  intros index sub a b. induction a as [|i a IH]; intros s.
  - rewrite (loop_eq index sub [] s). destruct (s_done s) eqn:D.
    + rewrite loop_done by assumption. reflexivity.
    + cbn [app]. destruct (transfer_loop index sub b s) as [[[s2 o2] x]|]; reflexivity.
  - cbn [app]. rewrite (loop_eq index sub (i :: a ++ b)), (loop_eq index sub (i :: a)).
    destruct (s_done s); [reflexivity|].
    destruct i as [dlc m|]; [|reflexivity].
    destruct (process_frame index sub dlc m s) as [[[s1 o1] [|]]|]; [|reflexivity|reflexivity].
    rewrite IH. destruct (transfer_loop index sub a s1) as [[[s2 o2] [|]]|]; [reflexivity| |reflexivity].
    destruct (transfer_loop index sub b s2) as [[[s3 o3] x]|]; [|reflexivity].
    rewrite app_assoc. reflexivity.
Qed.

(** A frame that keeps the loop running sends at most one request, which becomes
    the last message. *)
Lemma process_last : forall index sub dlc m s s1 out,
  process_frame index sub dlc m s = Ok (s1, out, true) ->
  (out = [] /\ s_last s1 = s_last s) \/ (s_done s1 = s_done s /\ out = [s_last s1] /\
    ((exists t b o, s_last s1 = fst (download_segment t b o)) \/ exists t, s_last s1 = upload_segment t)).
Proof.
  intros index sub dlc m s s1 out H. unfold process_frame in H.
  destruct (negb (dlc =? 8)); [discriminate|].
  destruct (m_command m =? 3).
  { destruct (test_download_initiate m (s_last s)); [discriminate|].
    destruct (s_off s <? s_total s)%nat.
    - destruct (download_segment false (s_buf s) (s_off s)) as [r o] eqn:E.
      injection H as <- <-. right. split; [reflexivity|split; [reflexivity|]].
      left. exists false, (s_buf s), (s_off s). rewrite E. reflexivity.
    - injection H as <- <-. left. split; reflexivity. }
  destruct (m_command m =? 1).
  { destruct (test_download_segment m (s_last s)); [discriminate|].
    destruct (s_off s <? s_total s)%nat.
    - destruct (download_segment (negb (m_toggle m)) (s_buf s) (s_off s)) as [r o] eqn:E.
      injection H as <- <-. right. split; [reflexivity|split; [reflexivity|]].
      left. exists (negb (m_toggle m)), (s_buf s), (s_off s). rewrite E. reflexivity.
    - injection H as <- <-. left. split; reflexivity. }
  destruct (m_command m =? 2).
  { destruct (test_upload_initiate m (s_last s) (s_total s)); [discriminate|].
    destruct (read_initiate m s) as [[s2 [|]]|] eqn:E; [| |discriminate].
    - injection H as <- <-. left. split; [reflexivity|].
      unfold read_initiate in E.
      destruct (if m_sized m && (s_total s =? 0)%nat then _ else _) as [tt bf].
      destruct (m_expedited m); [|discriminate].
      destruct (List.length bf =? 0)%nat; [discriminate|].
      destruct (copy_in bf 0 (m_payload4 m) (List.length bf)); [|discriminate].
      injection E as <-. reflexivity.
    - injection H as <- <-. right. split; [|split; [reflexivity|right; exists false; reflexivity]].
      unfold read_initiate in E.
      destruct (if m_sized m && (s_total s =? 0)%nat then _ else _) as [tt bf].
      destruct (m_expedited m).
      + destruct (List.length bf =? 0)%nat; [discriminate|].
        destruct (copy_in bf 0 (m_payload4 m) (List.length bf)); discriminate.
      + injection E as <-. reflexivity. }
  destruct (m_command m =? 0).
  { destruct (test_upload_segment m (s_last s)); [discriminate|].
    destruct (read_segment m s) as [[s2 [|]]|] eqn:E; [|discriminate|discriminate].
    assert (X : s_last s2 = s_last s /\ s_done s2 = s_done s).
    { unfold read_segment in E.
      destruct (_ <=? _)%nat; [|discriminate].
      destruct (_ <=? _)%nat; [discriminate|].
      destruct (copy_in _ _ _ _); [|discriminate]. injection E as <-. split; reflexivity. }
    destruct (m_done m || (s_off s2 =? s_total s2)%nat).
    - injection H as <- <-. left. split; [reflexivity|apply X].
    - injection H as <- <-. right. split; [apply X|split; [reflexivity|]].
      right. exists (negb (m_toggle m)). reflexivity. }
  destruct (m_command m =? 4); [discriminate|].
  injection H as <- <-. left. split; reflexivity.
Qed.

Lemma loop_last : forall index sub ins s s1 out,
  transfer_loop index sub ins s = Ok (s1, out, false) ->
  s_last s1 = last (s_last s :: out) [] /\ s_done s1 = false.
Proof.
  intros index sub ins. induction ins as [|i ins IH]; intros s s1 out H; rewrite loop_eq in H.
  - destruct (s_done s) eqn:D; [discriminate|]. injection H as <- <-. split; [reflexivity|assumption].
  - destruct (s_done s) eqn:D; [discriminate|].
    destruct i as [dlc m|]; [|discriminate].
    destruct (process_frame index sub dlc m s) as [[[s2 o2] [|]]|] eqn:P; try discriminate.
    destruct (transfer_loop index sub ins s2) as [[[s3 o3] x]|] eqn:L; [|discriminate].
    injection H as <- <- ->. destruct (IH _ _ _ L) as [A B]. split; [|assumption].
    apply process_last in P. destruct P as [[-> P]|[_ [-> _]]].
    + cbn [app]. rewrite A. rewrite P. reflexivity.
    + rewrite A. reflexivity.
Qed.

(** ** Downloads *)

Section Download.
Variables (index sub : Z) (data : bytes).
Hypothesis OBJ : object_ok index sub.
Hypothesis DATA : bytes_ok data.

Definition wreq (k : nat) : msg :=
  match k with O => fst (download_initiate index sub data) | S j => segment_request data j end.
Definition wreqs : list msg := wreq 0 :: segment_requests data.
Definition woff (k : nat) : nat :=
  match k with
  | O => if (List.length data <=? 4)%nat then List.length data else 0%nat
  | S j => Nat.min (7 * j + 7) (List.length data)
  end.
Definition wcount : nat := List.length (segment_requests data).
Definition wst (k : nat) : sdo := mkSdo data (woff k) (List.length data) false (wreq k).

Lemma wcount_eq : wcount = if (List.length data <=? 4)%nat then 0%nat else segment_count data.
Proof.
  unfold wcount, segment_requests. destruct (List.length data <=? 4)%nat; [reflexivity|].
  rewrite map_length, seq_length. reflexivity.
Qed.

Lemma count_bound : (List.length data <= 7 * segment_count data < List.length data + 7)%nat.
Proof. unfold segment_count. lia. Qed.

Lemma woff_lt : forall k, (k < wcount)%nat -> woff k = (7 * k)%nat /\ (7 * k < List.length data)%nat.
Proof.
  intros k H. rewrite wcount_eq in H. pose proof count_bound.
  destruct (List.length data <=? 4)%nat eqn:E; [lia|].
  destruct k; unfold woff; [rewrite E|]; lia.
Qed.
Lemma woff_last : woff wcount = List.length data.
Proof.
  rewrite wcount_eq. pose proof count_bound.
  destruct (List.length data <=? 4)%nat eqn:E.
  - unfold woff. rewrite E. reflexivity.
  - destruct (segment_count data) eqn:F; unfold woff; [lia|lia].
Qed.

Lemma start_write_eq : start_write index sub data = wst 0.
Proof.
  unfold start_write, wst, wreq, woff, download_initiate.
  destruct (4 <? List.length data)%nat eqn:E; destruct (List.length data <=? 4)%nat eqn:F; try lia; reflexivity.
Qed.

Lemma wreqs_nth : forall k, (k <= wcount)%nat -> nth_error wreqs k = Some (wreq k).
Proof.
  intros [|k] H; [reflexivity|]. unfold wreqs. cbn [nth_error].
  unfold segment_requests. rewrite wcount_eq in H.
  destruct (List.length data <=? 4)%nat eqn:E; [lia|].
  rewrite nth_error_map. replace (nth_error (seq 0 (segment_count data)) k) with (Some k).
  - reflexivity.
  - symmetry. rewrite (nth_error_nth' _ 0%nat) by (rewrite seq_length; lia).
    rewrite seq_nth by lia. reflexivity.
Qed.

Lemma firstn_S_nth : forall A (l : list A) k x, nth_error l k = Some x -> firstn (S k) l = firstn k l ++ [x].
Proof.
  induction l as [|y l IH]; intros [|k] x H; try discriminate.
  - cbn in *. congruence.
  - cbn [nth_error] in H. rewrite !firstn_cons. rewrite (IH k x H). reflexivity.
Qed.

Lemma wreqs_S : forall k, (k <= wcount)%nat -> firstn (S k) wreqs = firstn k wreqs ++ [wreq k].
Proof. intros. apply firstn_S_nth, wreqs_nth. assumption. Qed.

Lemma download_segment_eq : forall k, (7 * k < List.length data)%nat ->
  download_segment (Nat.odd k) data (7 * k) = (segment_request data k, woff (S k)).
Proof.
  intros k H. unfold download_segment, segment_request, woff.
  assert (T : b2z (Nat.odd k) = Z.of_nat k mod 2).
  { rewrite <- Nat.bit0_odd. rewrite Nat.bit0_odd.
    destruct (Nat.odd k) eqn:O.
    - apply Nat.odd_spec in O. destruct O as [j ->]. cbn [b2z]. lia.
    - assert (E : Nat.even k = true) by (rewrite <- Nat.negb_odd, O; reflexivity).
      apply Nat.even_spec in E. destruct E as [j ->]. cbn [b2z]. lia. }
  assert (C : forall n, (n = 7 \/ (n <= 7 /\ n = List.length data - 7 * k))%nat -> (n <= List.length data - 7 * k)%nat ->
    firstn n (skipn (7 * k) data) = chunk data k /\ List.length (chunk data k) = n).
  { intros n N1 N2. unfold chunk.
    assert (L : List.length (skipn (7 * k) data) = (List.length data - 7 * k)%nat) by apply skipn_length.
    destruct N1 as [->|[N0 N1]].
    - split; [reflexivity|]. rewrite firstn_length. lia.
    - rewrite !firstn_all2 by lia. split; [reflexivity|lia]. }
  destruct (7 <? List.length data - 7 * k)%nat eqn:E.
  - destruct (C 7%nat) as [C1 C2]; [left; reflexivity|lia|].
    rewrite C1, C2, T.
    destruct (List.length data <=? 7 * k + 7)%nat eqn:F; [lia|].
    f_equal; [|lia]. f_equal. unfold b2z. lia.
  - destruct (C (List.length data - 7 * k)%nat) as [C1 C2]; [right; lia|lia|].
    rewrite C1, C2, T.
    destruct (List.length data <=? 7 * k + 7)%nat eqn:F; [|lia].
    f_equal; [|lia]. f_equal. unfold b2z. lia.
Qed.

Lemma zeros_ok : forall n b, (List.length b <= n)%nat -> bytes_ok b ->
  List.length (zeros n b) = n /\ bytes_ok (zeros n b).
Proof.
  intros n b L B. unfold zeros. split.
  - rewrite app_length, repeat_length. lia.
  - apply Forall_app. split; [assumption|]. apply Forall_forall. intros x H. apply repeat_spec in H. subst.
    unfold byte_ok. lia.
Qed.

Lemma chunk_ok : forall k, (List.length (chunk data k) <= 7)%nat /\ bytes_ok (chunk data k).
Proof.
  intros k. unfold chunk. split; [rewrite firstn_length; lia|].
  unfold bytes_ok in *. rewrite Forall_forall in *. intros x H. apply DATA.
  assert (In x (skipn (7 * k) data)) by (rewrite <- (firstn_skipn 7 (skipn (7 * k) data)); apply in_or_app; left; exact H).
  rewrite <- (firstn_skipn (7 * k) data). apply in_or_app. right. assumption.
Qed.

Lemma segment_request_b0 : forall k, b0 (segment_request data k) =
  b2z (List.length data <=? 7 * k + 7)%nat + 2 * (7 - Z.of_nat (List.length (chunk data k))) + 16 * (Z.of_nat k mod 2).
Proof. reflexivity. Qed.

Lemma segment_request_fields : forall k, code (segment_request data k) = 0 /\
  tog (segment_request data k) = Z.of_nat k mod 2 /\
  g_last (segment_request data k) = (List.length data <=? 7 * k + 7)%nat /\
  g_data (segment_request data k) = chunk data k.
Proof.
  intros k. destruct (chunk_ok k) as [L _].
  unfold code, tog, g_last, g_data. rewrite segment_request_b0.
  set (n := List.length (chunk data k)) in *.
  assert (B : 0 <= b2z (List.length data <=? 7 * k + 7)%nat <= 1) by (unfold b2z; destruct (_ <=? _)%nat; lia).
  split; [lia|]. split; [lia|]. split.
  - unfold b2z in *. destruct (_ <=? _)%nat; [apply Z.eqb_eq; lia|apply Z.eqb_neq; lia].
  - replace (Z.to_nat _) with n.
    + cbn [segment_request skipn]. unfold zeros. rewrite firstn_app. unfold n.
      rewrite firstn_all, Nat.sub_diag. cbn [firstn]. apply app_nil_r.
    + lia.
Qed.

Lemma segment_request_ok : forall k, msg_ok (segment_request data k).
Proof.
  intros k. destruct (chunk_ok k) as [L B]. destruct (zeros_ok 7 _ L B) as [Z1 Z2].
  unfold segment_request. split; [cbn [List.length]; rewrite Z1; reflexivity|].
  constructor; [|assumption]. unfold byte_ok, b2z. destruct (_ <=? _)%nat; lia.
Qed.

Lemma pad_to_zeros : forall n b, pad_to n b = zeros n b. Proof. reflexivity. Qed.

Lemma wreq0_ok : msg_ok (wreq 0) /\ code (wreq 0) = 1 /\ names_object index sub (wreq 0).
Proof.
  destruct OBJ as [I S]. unfold wreq, download_initiate.
  destruct (4 <? List.length data)%nat eqn:E; cbn [fst].
  - split; [|split; reflexivity].
    split; [reflexivity|].
    change 255 with (2^8 - 1). rewrite !land_ones_mod by lia.
    repeat constructor; unfold byte_ok; try lia.
  - rewrite pad_to_zeros. assert (L : (List.length data <= 4)%nat) by lia.
    destruct (zeros_ok 4 data L DATA) as [Z1 Z2].
    split; [|split].
    + split; [cbn [app List.length]; rewrite Z1; reflexivity|].
      cbn [app]. repeat constructor; unfold byte_ok; try lia. assumption.
    + unfold code, b0. cbn [app nth]. lia.
    + reflexivity.
Qed.

Lemma wreq_ok : forall k, msg_ok (wreq k).
Proof. intros [|k]; [apply wreq0_ok|apply segment_request_ok]. Qed.

Lemma wreq_answers : forall k m, answers (wreq k) m ->
  match k with
  | O => code m = 3 /\ same_object (wreq 0) m
  | S j => code m = 1 /\ tog m = Z.of_nat j mod 2
  end.
Proof.
  intros [|j] m H; unfold answers in H.
  - destruct wreq0_ok as [_ [C _]]. rewrite C in H. intuition lia.
  - destruct (segment_request_fields j) as [C [T _]]. cbn [wreq] in H. rewrite C, T in H. intuition lia.
Qed.

Lemma odd_of_tog : forall j m, tog m = Z.of_nat j mod 2 -> negb (m_toggle m) = Nat.odd (S j).
Proof.
  intros j m H. rewrite toggle_eq, H, Nat.odd_succ, <- Nat.negb_odd. f_equal.
  destruct (Nat.odd j) eqn:O.
  - apply Nat.odd_spec in O. destruct O as [i ->]. apply Z.eqb_eq. lia.
  - assert (E : Nat.even j = true) by (rewrite <- Nat.negb_odd, O; reflexivity).
    apply Nat.even_spec in E. destruct E as [i ->]. apply Z.eqb_neq. lia.
Qed.

Lemma write_answer : forall k m, (k <= wcount)%nat -> msg_ok m -> answers (wreq k) m ->
  process_frame index sub 8 m (wst k) =
  if (k <? wcount)%nat then Ok (wst (S k), [wreq (S k)], true) else Ok (set_done (wst k), [], true).
Proof.
  intros k m K Hm A. pose proof (wreq_answers k m A) as W.
  unfold process_frame. rewrite !code_eq. change (negb (8 =? 8)) with false. cbv iota.
  assert (NEXT : (k < wcount)%nat -> (woff k <? List.length data)%nat = true /\
      forall t, t = Nat.odd k -> download_segment t data (woff k) = (wreq (S k), woff (S k))).
  { intros L. destruct (woff_lt k L) as [-> L2]. split; [apply Nat.ltb_lt; lia|].
    intros t ->. apply download_segment_eq. assumption. }
  assert (LAST : (wcount <= k)%nat -> (woff k <? List.length data)%nat = false).
  { intros L. assert (k = wcount) as -> by lia. rewrite woff_last. apply Nat.ltb_ge. lia. }
  destruct k as [|j].
  - destruct W as [C S]. rewrite C. cbv iota. change (3 =? 3) with true. cbv iota.
    unfold test_download_initiate. rewrite code_eq.
    change (s_last (wst 0)) with (wreq 0).
    destruct wreq0_ok as [O1 [O2 O3]]. rewrite O2.
    pose proof (proj2 (object_eq m (wreq 0) Hm O1) S) as OE.
    rewrite <- andb_assoc, OE. change ((1 =? 1) && true) with true. cbv iota.
    change (s_off (wst 0)) with (woff 0). change (s_total (wst 0)) with (List.length data).
    change (s_buf (wst 0)) with data.
    destruct (0 <? wcount)%nat eqn:E.
    + destruct NEXT as [N1 N2]; [lia|]. rewrite N1, (N2 false eq_refl). reflexivity.
    + rewrite LAST by lia. reflexivity.
  - destruct W as [C T]. rewrite C. cbv iota. change (1 =? 3) with false. change (1 =? 1) with true. cbv iota.
    unfold test_download_segment. rewrite code_eq.
    change (s_last (wst (S j))) with (segment_request data j).
    destruct (segment_request_fields j) as [F1 [F2 _]]. rewrite F1.
    change (negb (0 =? 0)) with false. cbv iota.
    assert (TE : Bool.eqb (m_toggle m) (m_toggle (segment_request data j)) = true) by (apply toggle_same; congruence).
    rewrite TE. cbn [negb]. cbv iota.
    change (s_off (wst (S j))) with (woff (S j)). change (s_total (wst (S j))) with (List.length data).
    change (s_buf (wst (S j))) with data.
    destruct (S j <? wcount)%nat eqn:E.
    + destruct NEXT as [N1 N2]; [lia|]. rewrite N1, (N2 _ (odd_of_tog j m T)). reflexivity.
    + rewrite LAST by lia. reflexivity.
Qed.

Definition wloop (ins : list input) := transfer_loop index sub ins (wst 0).

(** Everything that can happen to a download. *)
Inductive write_course (ins : list input) : Prop :=
| wc_waiting : forall j, (j <= wcount)%nat -> answered (firstn j wreqs) ins ->
    wloop ins = Ok (wst j, firstn j (segment_requests data), false) -> write_course ins
| wc_done : forall used rest, ins = used ++ rest -> answered wreqs used ->
    wloop ins = Ok (set_done (wst wcount), segment_requests data, true) -> write_course ins
| wc_timeout : forall j used rest, ins = used ++ ITimeout :: rest -> (j <= wcount)%nat ->
    answered (firstn j wreqs) used ->
    wloop ins = Ok (set_last (wst j) (abort_request index sub 0x05040000),
      firstn j (segment_requests data) ++ [abort_request index sub 0x05040000], true) -> write_course ins
| wc_short : forall j used dlc m rest, ins = used ++ IFrame dlc m :: rest -> dlc <> 8 -> (j <= wcount)%nat ->
    answered (firstn j wreqs) used ->
    wloop ins = Ok (wst j, firstn j (segment_requests data), true) -> write_course ins
| wc_abort : forall j used m rest, ins = used ++ IFrame 8 m :: rest -> code m = 4 -> (j <= wcount)%nat ->
    answered (firstn j wreqs) used ->
    wloop ins = Ok (set_off (wst j) 0, firstn j (segment_requests data), true) -> write_course ins
| wc_error : forall j used m rest r, ins = used ++ IFrame 8 m :: rest -> protocol_error (wreq j) m ->
    (j <= wcount)%nat -> answered (firstn j wreqs) used -> reason_ok r ->
    wloop ins = Ok (set_off (set_last (wst j) (abort_request index sub r)) 0,
      firstn j (segment_requests data) ++ [abort_request index sub r], true) -> write_course ins.

Lemma wloop_snoc : forall ins i, wloop (ins ++ [i]) =
  match wloop ins with
  | Undef => Undef
  | Ok (s1, o1, true) => Ok (s1, o1, true)
  | Ok (s1, o1, false) =>
    match transfer_loop index sub [i] s1 with
    | Undef => Undef
    | Ok (s2, o2, x) => Ok (s2, o1 ++ o2, x)
    end
  end.
Proof. intros. apply loop_app. Qed.

Lemma segs_S : forall j, (j < wcount)%nat -> firstn (S j) (segment_requests data) = firstn j (segment_requests data) ++ [wreq (S j)].
Proof.
  intros j H. apply firstn_S_nth. pose proof (wreqs_nth (S j) ltac:(lia)) as W. exact W.
Qed.

Lemma wreqs_length : List.length wreqs = S wcount.
Proof. reflexivity. Qed.

Lemma write_courses : forall ins, Forall input_ok ins -> write_course ins.
Proof.
  intros ins. induction ins as [|i ins IH] using rev_ind; intros OK.
  - eapply (wc_waiting [] 0); [lia|constructor|reflexivity].
  - apply Forall_app in OK. destruct OK as [OK1 OK2]. inversion OK2 as [|? ? Oi _]; subst.
    specialize (IH OK1). destruct IH as
      [j J A E|used rest -> A E|j used rest -> J A E|j used dlc m rest -> D J A E|j used m rest -> D J A E|j used m rest r -> D J A R E].
    + pose proof (wloop_snoc ins i) as X. rewrite E in X.
      destruct (verdict_total (wreq j) i Oi) as [|dlc m D|m D|m D|m M D|m M D].
      * cbn [transfer_loop wst s_done] in X.
        eapply wc_timeout with (rest := []); [reflexivity|exact J|exact A|exact X].
      * cbn [transfer_loop wst s_done] in X. rewrite process_short in X by assumption.
        rewrite app_nil_r in X.
        eapply wc_short with (rest := []); [reflexivity|exact D|exact J|exact A|exact X].
      * cbn [transfer_loop wst s_done] in X. rewrite process_abort in X by assumption.
        rewrite app_nil_r in X.
        eapply wc_abort with (rest := []); [reflexivity|exact D|exact J|exact A|exact X].
      * cbn [transfer_loop wst s_done] in X. rewrite process_skip in X by assumption.
        cbn [transfer_loop wst s_done] in X. rewrite !app_nil_r in X.
        eapply wc_waiting with (j := j); [exact J|constructor; assumption|exact X].
      * destruct (process_error index sub m (wst j) M (wreq_ok j) D) as [r [R P]].
        cbn [transfer_loop wst s_done] in X. fold (wst j) in X. rewrite P in X.
        eapply wc_error with (rest := []); [reflexivity|exact D|exact J|exact A|exact R|exact X].
      * pose proof (write_answer j m J M D) as P.
        cbn [transfer_loop wst s_done] in X. fold (wst j) in X. rewrite P in X.
        destruct (j <? wcount)%nat eqn:L.
        -- cbn [transfer_loop wst s_done] in X. fold (wst (S j)) in X. cbn [app] in X.
           eapply wc_waiting with (j := S j); [lia| |].
           ++ rewrite wreqs_S by lia. constructor; assumption.
           ++ rewrite segs_S by lia. exact X.
        -- assert (j = wcount) as -> by lia.
           cbn [transfer_loop set_done s_done wst] in X. rewrite !app_nil_r in X.
           apply wc_done with (used := ins ++ [IFrame 8 m]) (rest := []).
           ++ rewrite app_nil_r. reflexivity.
           ++ replace wreqs with (firstn (S wcount) wreqs).
              ** rewrite wreqs_S by lia. constructor; assumption.
              ** apply firstn_all2. rewrite wreqs_length. lia.
           ++ rewrite X. unfold wcount. rewrite firstn_all. reflexivity.
    + pose proof (wloop_snoc (used ++ rest) i) as X. rewrite E in X.
      apply wc_done with (used := used) (rest := rest ++ [i]); [symmetry; apply app_assoc|exact A|exact X].
    + pose proof (wloop_snoc (used ++ ITimeout :: rest) i) as X. rewrite E in X.
      apply wc_timeout with (used := used) (rest := rest ++ [i]) (j := j); [rewrite <- app_assoc; reflexivity|exact J|exact A|exact X].
    + pose proof (wloop_snoc (used ++ IFrame dlc m :: rest) i) as X. rewrite E in X.
      apply wc_short with (used := used) (rest := rest ++ [i]) (j := j) (dlc := dlc) (m := m); [rewrite <- app_assoc; reflexivity|exact D|exact J|exact A|exact X].
    + pose proof (wloop_snoc (used ++ IFrame 8 m :: rest) i) as X. rewrite E in X.
      apply wc_abort with (used := used) (rest := rest ++ [i]) (j := j) (m := m); [rewrite <- app_assoc; reflexivity|exact D|exact J|exact A|exact X].
    + pose proof (wloop_snoc (used ++ IFrame 8 m :: rest) i) as X. rewrite E in X.
      apply wc_error with (used := used) (rest := rest ++ [i]) (j := j) (m := m) (r := r); [rewrite <- app_assoc; reflexivity|exact D|exact J|exact A|exact R|exact X].
Qed.

Lemma write_eq : forall ins, sdo_write index sub data ins =
  match wloop ins with
  | Undef => Undef
  | Ok (s1, out, stopped) => Ok (wreq 0 :: out, finish s1 stopped)
  end.
Proof. intros. unfold sdo_write, transmit. rewrite start_write_eq. reflexivity. Qed.

Lemma wreqs_firstn : forall j, wreq 0 :: firstn j (segment_requests data) = firstn (S j) wreqs.
Proof. reflexivity. Qed.

End Download.
