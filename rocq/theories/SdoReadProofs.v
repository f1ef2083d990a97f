(** Proofs about SDO uploads. *)
From Verif Require Import Base CanModel KeyModel StorageModel SdoModel SdoSpec SdoProofs.

Lemma nat_parity : forall k, b2z (Nat.odd k) = Z.of_nat k mod 2.
Proof.
  intros k. destruct (Nat.odd k) eqn:O.
  - apply Nat.odd_spec in O. destruct O as [j ->]. cbn [b2z]. lia.
  - assert (E : Nat.even k = true) by (rewrite <- Nat.negb_odd, O; reflexivity).
    apply Nat.even_spec in E. destruct E as [j ->]. cbn [b2z]. lia.
Qed.

Lemma upload_segment_eq : forall k, upload_segment (Nat.odd k) = upload_next k.
Proof. intros k. unfold upload_segment, upload_next. rewrite nat_parity. f_equal. lia. Qed.

Lemma upload_next_ok : forall k, msg_ok (upload_next k) /\ code (upload_next k) = 3 /\ tog (upload_next k) = Z.of_nat k mod 2.
Proof.
  intros k. unfold upload_next. split; [split; [reflexivity|]|].
  - repeat constructor; unfold byte_ok; lia.
  - unfold code, tog, b0. cbn [nth]. lia.
Qed.

Lemma alternating_snoc : forall segs t m, 0 <= t <= 1 -> alternating t segs ->
  tog m = (t + Z.of_nat (List.length segs)) mod 2 -> alternating t (segs ++ [m]).
Proof.
  induction segs as [|x segs IH]; intros t m T A M.
  - cbn [List.length app alternating] in *. split; [lia|exact I].
  - cbn [List.length app alternating] in *. destruct A as [A1 A2]. split; [assumption|].
    apply IH; [lia|assumption|lia].
Qed.

Lemma responses_app : forall a b, responses (a ++ b) = responses a ++ responses b.
Proof. intros. unfold responses. apply flat_map_app. Qed.
Lemma responses_one : forall dlc m, code m <= 4 -> responses [IFrame dlc m] = [m].
Proof. intros. unfold responses. cbn [flat_map]. destruct (code m <=? 4) eqn:E; [reflexivity|lia]. Qed.
Lemma responses_skip : forall dlc m, no_response m -> responses [IFrame dlc m] = [].
Proof. intros dlc m H. unfold responses, no_response in *. cbn [flat_map]. destruct (code m <=? 4) eqn:E; [lia|reflexivity]. Qed.

Lemma g_data_length : forall m, msg_ok m -> List.length (g_data m) = seg_data_size m /\
  g_data m = firstn (seg_data_size m) (m_payload7 m) /\ (seg_data_size m <= List.length (m_payload7 m))%nat.
Proof.
  intros m H. destruct (msg_cases m H) as (a&b&c&d&e&f&g&h&->&B).
  unfold g_data, seg_data_size, m_num3, m_payload7, byte_at, b0. cbn [nth skipn].
  split; [|split; [reflexivity|]].
  - rewrite firstn_length. cbn [List.length]. lia.
  - cbn [List.length]. lia.
Qed.

Lemma decoded_eq : forall m, msg_ok m -> i_exp m = false -> i_sized m = true -> init_data_size m = decoded m.
Proof.
  intros m H E S. unfold init_data_size, decoded. rewrite exp_eq, sized_eq, E, S. cbn [andb negb].
  destruct (msg_cases m H) as (a&b&c&d&e&f&g&h&->&B). unfold byte_at. cbn [nth].
  unfold byte_ok in *. rewrite shiftl_mul by lia. rewrite lor_disjoint_add by lia. f_equal. lia.
Qed.

Lemma unsized_eq : forall m, i_sized m = false -> init_data_size m = 0%nat.
Proof. intros m S. unfold init_data_size. rewrite sized_eq, S, !andb_false_r. reflexivity. Qed.

Lemma expedited_size : forall m, msg_ok m -> i_exp m = true -> i_sized m = true ->
  init_data_size m = List.length (i_data m) /\ (1 <= init_data_size m <= 4)%nat /\
  i_data m = firstn (init_data_size m) (m_payload4 m).
Proof.
  intros m H E S. unfold init_data_size, i_data. rewrite exp_eq, sized_eq, E, S. cbn [andb].
  destruct (msg_cases m H) as (a&b&c&d&e&f&g&h&->&B).
  unfold m_num2, m_payload4, byte_at, b0. cbn [nth skipn].
  split; [|split; [lia|reflexivity]]. rewrite firstn_length. cbn [List.length]. lia.
Qed.

Lemma payload4_length : forall m, msg_ok m -> List.length (m_payload4 m) = 4%nat.
Proof. intros m H. destruct (msg_cases m H) as (a&b&c&d&e&f&g&h&->&B). reflexivity. Qed.

Lemma resize_length : forall n b, List.length (resize n b) = n.
Proof. intros. unfold resize. rewrite app_length, firstn_length, repeat_length. lia. Qed.

Lemma finish_throw0 : forall s, s_off s = 0%nat -> finish s true = SThrow.
Proof. intros s H. unfold finish. rewrite H. reflexivity. Qed.
Lemma finish_throw : forall s, s_off s <> s_total s -> finish s true = SThrow.
Proof.
  intros s H. unfold finish. cbn [negb]. destruct (s_off s =? 0)%nat; [reflexivity|].
  destruct (s_off s =? s_total s)%nat eqn:E; [lia|]. reflexivity.
Qed.
Lemma finish_return : forall s, s_off s = s_total s -> s_off s <> 0%nat -> finish s true = SReturn (s_buf s).
Proof.
  intros s H H0. unfold finish. cbn [negb]. destruct (s_off s =? 0)%nat eqn:E; [lia|].
  destruct (s_off s =? s_total s)%nat eqn:F; [|lia]. reflexivity.
Qed.

Section Upload.
Variables (index sub : Z) (buf0 : bytes).
Hypothesis OBJ : object_ok index sub.
Notation size := (List.length buf0).

Definition rloop (ins : list input) := transfer_loop index sub ins (start_read index sub buf0).

Lemma first_ok : msg_ok (upload_first index sub) /\ code (upload_first index sub) = 2.
Proof.
  destruct OBJ. split; [split; [reflexivity|]|reflexivity].
  unfold upload_first. repeat constructor; unfold byte_ok; lia.
Qed.

(** The initiate response was accepted as start of a segmented upload. *)
Definition init_good (init : msg) : Prop :=
  code init = 2 /\ names_object index sub init /\ i_exp init = false /\ msg_ok init /\
  (i_sized init = true -> size <> 0%nat -> (size <= decoded init \/ decoded init = 0)%nat).

Definition target (init : msg) : nat :=
  if (size =? 0)%nat then (if i_sized init then decoded init else 0%nat) else size.

(** Client after the segments [segs]. *)
Definition in_segments (init : msg) (segs : list msg) (s : sdo) : Prop :=
  init_good init /\ Forall (fun m => code m = 0) segs /\ alternating 0 segs /\
  s_last s = upload_next (List.length segs) /\ s_done s = false /\
  s_total s = target init /\
  s_off s = List.length (List.concat (map g_data segs)) /\
  firstn (s_off s) (s_buf s) = List.concat (map g_data segs) /\
  (target init = 0%nat -> List.length (s_buf s) = s_off s) /\
  (target init <> 0%nat -> List.length (s_buf s) = target init /\ (s_off s < target init)%nat).

(** Frames that lead to undefined behaviour when the size is not known. *)
Definition bad_frame (m : msg) : Prop :=
  (code m = 2 /\ i_exp m = true /\ i_sized m = false) \/ (code m = 0 /\ g_data m = []).

Definition bound_ok (used : list input) (k : nat) : Prop :=
  forall init segs, responses used = init :: segs -> Forall (fun m => g_data m <> []) segs ->
  target init <> 0%nat -> (k <= target init)%nat.

Inductive read_course (ins : list input) : Prop :=
| rc_initial : responses ins = [] -> rloop ins = Ok (start_read index sub buf0, [], false) -> read_course ins
| rc_segments : forall init segs s, responses ins = init :: segs -> in_segments init segs s ->
    rloop ins = Ok (s, map upload_next (seq 0 (S (List.length segs))), false) -> read_course ins
| rc_stopped : forall used rest s k tail, ins = used ++ rest ->
    rloop ins = Ok (s, map upload_next (seq 0 k) ++ tail, true) ->
    (tail = [] \/ exists r, reason_ok r /\ tail = [abort_request index sub r]) ->
    (k <= List.length (responses used))%nat -> bound_ok used k ->
    (finish s true = SThrow \/
     exists b, finish s true = SReturn b /\ complete_upload index sub size (responses used) decoded b) ->
    read_course ins
| rc_undef : rloop ins = Undef -> size = 0%nat -> (exists dlc m, In (IFrame dlc m) ins /\ bad_frame m) -> read_course ins.

Lemma rloop_snoc : forall ins i, rloop (ins ++ [i]) =
  match rloop ins with
  | Undef => Undef
  | Ok (s1, o1, true) => Ok (s1, o1, true)
  | Ok (s1, o1, false) =>
    match transfer_loop index sub [i] s1 with
    | Undef => Undef
    | Ok (s2, o2, x) => Ok (s2, o1 ++ o2, x)
    end
  end.
Proof. intros. apply loop_app. Qed.

(** What the first answer does. *)
Lemma read_first : forall m, msg_ok m -> answers (upload_first index sub) m ->
  let s := start_read index sub buf0 in
  (exists r, reason_ok r /\ process_frame index sub 8 m s =
     Ok (set_off (set_last s (abort_request index sub r)) 0, [abort_request index sub r], false))
  \/ (exists s1, process_frame index sub 8 m s = Ok (s1, [upload_next 0], true) /\ in_segments m [] s1)
  \/ (exists s1, process_frame index sub 8 m s = Ok (s1, [], true) /\ s_done s1 = true /\
        exists b, finish s1 true = SReturn b /\ complete_upload index sub size [m] decoded b)
  \/ (process_frame index sub 8 m s = Undef /\ size = 0%nat /\ bad_frame m).
Proof.
  intros m Hm A s. destruct first_ok as [F1 F2].
  assert (C : code m = 2 /\ same_object (upload_first index sub) m).
  { unfold answers in A. rewrite F2 in A. intuition lia. }
  destruct C as [C S].
  assert (N : names_object index sub m) by (unfold names_object; rewrite <- S; reflexivity).
  unfold process_frame. rewrite !code_eq, C. change (negb (8 =? 8)) with false. cbv iota.
  change (2 =? 3) with false. change (2 =? 1) with false. change (2 =? 2) with true. cbv iota.
  change (s_last s) with (upload_first index sub). change (s_total s) with size.
  unfold test_upload_initiate. rewrite code_eq, F2.
  pose proof (proj2 (object_eq m _ Hm F1) S) as OE.
  rewrite <- andb_assoc, OE. change ((2 =? 2) && true) with true. cbv iota.
  rewrite exp_eq.
  destruct ((init_data_size m =? 0)%nat || (size =? 0)%nat || (size <=? init_data_size m)%nat) eqn:T1.
  2: { left. eexists. split; [|reflexivity]. unfold reason_ok. lia. }
  destruct (negb (i_exp m) || ((init_data_size m <=? 4)%nat && (size <=? 4)%nat)) eqn:T2.
  2: { left. eexists. split; [|reflexivity]. unfold reason_ok. lia. }
  right.
  unfold read_initiate. rewrite exp_eq, sized_eq.
  change (s_total s) with size. change (s_buf s) with buf0. change (s_off s) with 0%nat.
  change (s_done s) with false. change (s_last s) with (upload_first index sub).
  destruct (i_exp m) eqn:E.
  - (* expedited *)
    cbn [negb orb] in T2. apply andb_prop in T2. destruct T2 as [T2 T3].
    destruct (i_sized m) eqn:Z.
    + destruct (expedited_size m Hm E Z) as [X1 [X2 X3]].
      destruct (size =? 0)%nat eqn:S0; cbn [andb].
      * rewrite resize_length. destruct (init_data_size m =? 0)%nat eqn:D0; [lia|].
        unfold copy_in. rewrite resize_length, payload4_length by assumption.
        destruct ((0 + init_data_size m <=? init_data_size m)%nat && (init_data_size m <=? 4)%nat) eqn:CC; [|lia].
        right. left. eexists. split; [reflexivity|]. split; [reflexivity|].
        cbn [firstn app]. rewrite skipn_all2 by (rewrite resize_length; lia). rewrite app_nil_r.
        rewrite <- X3.
        exists (i_data m). split.
        -- unfold set_done. cbn [s_buf s_off s_total s_last]. rewrite finish_return.
           ++ reflexivity.
           ++ cbn [s_off s_total]. lia.
           ++ cbn [s_off s_total]. lia.
        -- exists m, []. split; [reflexivity|]. split; [assumption|]. split; [assumption|].
           left. rewrite S0. repeat split; try assumption. lia.
      * rewrite S0. unfold copy_in. rewrite payload4_length by assumption.
        destruct ((0 + size <=? size)%nat && (size <=? 4)%nat) eqn:CC; [|lia].
        right. left. eexists. split; [reflexivity|]. split; [reflexivity|].
        cbn [firstn app]. rewrite skipn_all2 by lia. rewrite app_nil_r.
        assert (L : List.length (firstn size (m_payload4 m)) = size) by (rewrite firstn_length, payload4_length by assumption; lia).
        exists (firstn size (m_payload4 m)). split.
        -- unfold set_done. cbn [s_buf s_off s_total s_last]. rewrite finish_return.
           ++ reflexivity.
           ++ cbn [s_off s_total]. lia.
           ++ cbn [s_off s_total]. lia.
        -- exists m, []. split; [reflexivity|]. split; [assumption|]. split; [assumption|].
           left. rewrite S0. repeat split; try assumption; [lia|].
           rewrite X3, firstn_firstn. f_equal. lia.
    + cbn [andb]. destruct (size =? 0)%nat eqn:S0.
      * right. right. split; [reflexivity|]. split; [lia|]. left. repeat split; assumption.
      * unfold copy_in. rewrite payload4_length by assumption.
        destruct ((0 + size <=? size)%nat && (size <=? 4)%nat) eqn:CC; [|lia].
        right. left. eexists. split; [reflexivity|]. split; [reflexivity|].
        cbn [firstn app]. rewrite skipn_all2 by lia. rewrite app_nil_r.
        assert (L : List.length (firstn size (m_payload4 m)) = size) by (rewrite firstn_length, payload4_length by assumption; lia).
        exists (firstn size (m_payload4 m)). split.
        -- unfold set_done. cbn [s_buf s_off s_total s_last]. rewrite finish_return.
           ++ reflexivity.
           ++ cbn [s_off s_total]. lia.
           ++ cbn [s_off s_total]. lia.
        -- exists m, []. split; [reflexivity|]. split; [assumption|]. split; [assumption|].
           left. rewrite S0.
           assert (X : i_data m = m_payload4 m).
           { unfold i_data. rewrite Z. apply firstn_all2. fold (m_payload4 m). rewrite payload4_length by assumption. lia. }
           rewrite X, payload4_length by assumption.
           repeat split; try assumption; lia.
  - (* segmented *)
    left.
    assert (G : init_good m).
    { repeat split; try assumption; try apply Hm. intros Z NZ. rewrite <- (decoded_eq m Hm E Z). lia. }
    destruct (i_sized m && (size =? 0)%nat) eqn:ZS.
    + apply andb_prop in ZS. destruct ZS as [Z S0].
      eexists. split.
      * unfold set_last. cbn [s_buf s_off s_total s_done]. rewrite <- upload_segment_eq. reflexivity.
      * unfold in_segments, target. rewrite S0, Z. cbn [s_last s_done s_total s_off s_buf List.length map List.concat firstn].
        repeat split; try (exact I || assumption || apply G || constructor).
        -- apply decoded_eq; assumption.
        -- intros X. rewrite resize_length, decoded_eq by assumption. assumption.
        -- rewrite resize_length. apply decoded_eq; assumption.
        -- lia.
    + eexists. split.
      * unfold set_last. cbn [s_buf s_off s_total s_done]. rewrite <- upload_segment_eq. reflexivity.
      * assert (TT : target m = size).
        { unfold target. destruct (size =? 0)%nat eqn:S0; [|reflexivity].
          rewrite andb_true_r in ZS. rewrite ZS. lia. }
        unfold in_segments. rewrite TT. cbn [s_last s_done s_total s_off s_buf List.length map List.concat firstn].
        repeat split; try (exact I || assumption || apply G || constructor).
        -- intros; assumption.
        -- lia.
Qed.

Lemma g_concat_snoc : forall segs m, List.concat (map g_data (segs ++ [m])) = List.concat (map g_data segs) ++ g_data m.
Proof. intros. rewrite map_app, concat_app. cbn [map List.concat]. rewrite app_nil_r. reflexivity. Qed.

(** What a further answer does. *)
Lemma read_next : forall init segs s m, in_segments init segs s -> msg_ok m ->
  answers (upload_next (List.length segs)) m ->
  (exists s2 r, reason_ok r /\ process_frame index sub 8 m s = Ok (s2, [abort_request index sub r], false) /\ s_off s2 = 0%nat)
  \/ (exists s2, process_frame index sub 8 m s = Ok (s2, [upload_next (S (List.length segs))], true) /\
        in_segments init (segs ++ [m]) s2)
  \/ (exists s2, process_frame index sub 8 m s = Ok (s2, [], true) /\ s_done s2 = true /\
        (finish s2 true = SThrow \/
         exists b, finish s2 true = SReturn b /\ complete_upload index sub size (init :: segs ++ [m]) decoded b))
  \/ (process_frame index sub 8 m s = Undef /\ size = 0%nat /\ bad_frame m).
Proof.
  intros init segs s m (G & FC & ALT & LAST & DONE & TOT & OFF & GOT & T0 & T1) Hm A.
  destruct (upload_next_ok (List.length segs)) as [U1 [U2 U3]].
  assert (C : code m = 0 /\ tog m = Z.of_nat (List.length segs) mod 2).
  { unfold answers in A. rewrite U2, U3 in A. intuition lia. }
  destruct C as [C T].
  destruct (g_data_length m Hm) as [D1 [D2 D3]].
  unfold process_frame. rewrite !code_eq, C. change (negb (8 =? 8)) with false. cbv iota.
  change (0 =? 3) with false. change (0 =? 1) with false. change (0 =? 2) with false. change (0 =? 0) with true. cbv iota.
  unfold test_upload_segment. rewrite code_eq, LAST, U2. change (negb (3 =? 3)) with false. cbv iota.
  assert (TE : Bool.eqb (m_toggle m) (m_toggle (upload_next (List.length segs))) = true) by (apply toggle_same; congruence).
  rewrite TE. cbn [negb]. cbv iota.
  unfold read_segment. rewrite TOT.
  set (n := seg_data_size m) in *.
  assert (FC' : Forall (fun m => code m = 0) (segs ++ [m])) by (apply Forall_app; split; [assumption|constructor; [assumption|constructor]]).
  assert (ALT' : alternating 0 (segs ++ [m])) by (apply alternating_snoc; [lia|assumption|rewrite T; f_equal; lia]).
  assert (NEXT : upload_segment (negb (m_toggle m)) = upload_next (S (List.length segs))).
  { rewrite <- upload_segment_eq. f_equal. apply odd_of_tog. assumption. }
  destruct (target init =? 0)%nat eqn:TZ.
  - (* unknown size *)
    assert (Z : target init = 0%nat) by lia. specialize (T0 Z).
    assert (S0 : size = 0%nat).
    { unfold target in Z. destruct (size =? 0)%nat eqn:S0; lia. }
    rewrite resize_length. destruct (s_off s + n <=? s_off s + n)%nat eqn:LE; [|lia]. clear LE.
    destruct (s_off s + n <=? s_off s)%nat eqn:LE.
    + right. right. right. split; [reflexivity|]. split; [assumption|]. right. split; [assumption|].
      apply length_zero_iff_nil. rewrite D1. lia.
    + assert (RS : resize (s_off s + n) (s_buf s) = List.concat (map g_data segs) ++ repeat 0 n).
      { unfold resize. rewrite firstn_all2 by lia. rewrite <- GOT, firstn_all2 by lia. f_equal. f_equal. lia. }
      unfold copy_in. rewrite resize_length.
      destruct ((s_off s + n <=? s_off s + n)%nat && (n <=? List.length (m_payload7 m))%nat) eqn:CC; [|lia].
      rewrite RS.
      rewrite (firstn_app (s_off s)), OFF, firstn_all, Nat.sub_diag. cbn [firstn]. rewrite app_nil_r.
      rewrite (skipn_all2 (n := List.length (List.concat (map g_data segs)) + n)) by (rewrite app_length, repeat_length; lia).
      rewrite app_nil_r, <- D2.
      cbn [s_off s_total]. rewrite Z.
      replace (List.length (List.concat (map g_data segs)) + n =? 0)%nat with false by (symmetry; apply Nat.eqb_neq; lia).
      rewrite orb_false_r.
      destruct (m_done m).
      * right. right. left. eexists. split; [reflexivity|]. split; [reflexivity|]. left.
        apply finish_throw. cbn [set_done s_off s_total]. lia.
      * right. left. eexists. split; [unfold set_last; cbn [s_buf s_off s_total s_done]; rewrite NEXT; reflexivity|].
        unfold in_segments. rewrite g_concat_snoc. cbn [s_last s_done s_total s_off s_buf].
        rewrite !app_length, D1. cbn [List.length]. rewrite Z.
        repeat split; try assumption; try apply G; try lia.
        -- f_equal. lia.
        -- rewrite firstn_all2; [reflexivity|]. rewrite app_length. lia.
  - (* known size *)
    assert (Z : target init <> 0%nat) by lia. destruct (T1 Z) as [TL TO].
    destruct (s_off s + n <=? List.length (s_buf s))%nat eqn:LE.
    + destruct (List.length (s_buf s) <=? s_off s)%nat eqn:LE2; [lia|].
      unfold copy_in. rewrite LE. replace (n <=? List.length (m_payload7 m))%nat with true by (symmetry; apply Nat.leb_le; lia).
      cbn [andb]. rewrite GOT, <- D2. cbn [s_off s_total].
      set (b := List.concat (map g_data segs) ++ g_data m ++ skipn (s_off s + n) (s_buf s)).
      destruct (s_off s + n =? target init)%nat eqn:EQ.
      * rewrite orb_true_r. right. right. left. eexists. split; [reflexivity|]. split; [reflexivity|]. right.
        assert (B : b = List.concat (map g_data (segs ++ [m]))).
        { unfold b. rewrite g_concat_snoc, skipn_all2 by lia. rewrite app_nil_r. reflexivity. }
        exists b. split.
        -- unfold set_done. cbn [s_buf s_off s_total s_last]. apply finish_return; cbn [s_off s_total]; lia.
        -- exists init, (segs ++ [m]). split; [reflexivity|].
           destruct G as (G1 & G2 & G3 & G4 & G5).
           split; [assumption|]. split; [assumption|]. right.
           assert (LB : List.length b = target init).
           { rewrite B, g_concat_snoc, app_length, D1. lia. }
           split; [assumption|]. split; [assumption|]. split; [assumption|]. split; [exact B|].
           rewrite LB. unfold target in *.
           split; intros S0.
           ++ rewrite S0 in Z |- *. cbn [Nat.eqb] in Z |- *. destruct (i_sized init); [split; reflexivity|lia].
           ++ destruct (size =? 0)%nat eqn:S1; [lia|]. split; [reflexivity|]. intros H. apply G5; assumption.
      * rewrite orb_false_r. destruct (m_done m).
        -- right. right. left. eexists. split; [reflexivity|]. split; [reflexivity|]. left.
           apply finish_throw. cbn [set_done s_off s_total]. lia.
        -- right. left. eexists. split; [unfold set_last; cbn [s_buf s_off s_total s_done]; rewrite NEXT; reflexivity|].
           unfold in_segments. rewrite g_concat_snoc. cbn [s_last s_done s_total s_off s_buf].
           rewrite !app_length, D1. cbn [List.length].
           assert (LB : List.length b = target init).
           { unfold b. rewrite !app_length, skipn_length, D1. lia. }
           repeat split; try assumption; try apply G; try lia.
           ++ f_equal. lia.
           ++ unfold b. rewrite app_assoc, firstn_app.
              replace (s_off s + n - List.length (List.concat (map g_data segs) ++ g_data m))%nat with 0%nat
                by (rewrite app_length, D1; lia).
              cbn [firstn]. rewrite app_nil_r. apply firstn_all2. rewrite app_length, D1. lia.
    + left. eexists. eexists. split; [|split; [reflexivity|reflexivity]]. unfold reason_ok. lia.
Qed.

Lemma bound_nonresp : forall used rest k, responses rest = [] -> bound_ok used k -> bound_ok (used ++ rest) k.
Proof. intros used rest k R B init segs H. rewrite responses_app, R, app_nil_r in H. apply B. assumption. Qed.

Lemma concat_nonempty : forall segs, Forall (fun m => g_data m <> []) segs ->
  (List.length segs <= List.length (List.concat (map g_data segs)))%nat.
Proof.
  induction 1 as [|m segs H F IH]; [cbn; lia|].
  cbn [map List.concat List.length]. rewrite app_length. destruct (g_data m); [congruence|]. cbn [List.length]. lia.
Qed.

Lemma segments_bound : forall init segs s used more, in_segments init segs s ->
  responses used = init :: segs ++ more -> bound_ok used (S (List.length segs)).
Proof.
  intros init segs s used more (G & FC & ALT & LAST & DONE & TOT & OFF & GOT & T0 & T1) R i g E F NZ.
  rewrite R in E. injection E as <- <-. apply Forall_app in F. destruct F as [F _].
  pose proof (concat_nonempty segs F). destruct (T1 NZ). lia.
Qed.

Lemma read_courses : forall ins, Forall input_ok ins -> read_course ins.
Proof.
  intros ins. induction ins as [|i ins IH] using rev_ind; intros OK.
  - apply rc_initial; reflexivity.
  - apply Forall_app in OK. destruct OK as [OK1 OK2]. inversion OK2 as [|? ? Oi _]; subst.
    specialize (IH OK1). pose proof (rloop_snoc ins i) as X.
    assert (B0 : forall used, bound_ok used 0) by (intros used ? ? ? ? ?; lia).
    destruct IH as [R E|init segs s R IS E|used rest s k tail -> E TL K BK F|E S0 B]; rewrite E in X.
    + (* waiting for the first answer *)
      destruct (verdict_total (upload_first index sub) i Oi) as [|dlc m D|m D|m D|m M D|m M D];
        cbn [transfer_loop start_read s_done] in X.
      * eapply rc_stopped with (used := ins ++ [ITimeout]) (rest := []) (k := 0%nat);
          [rewrite app_nil_r; reflexivity|exact X| |lia|apply B0|left; apply finish_throw0; reflexivity].
        right. eexists. split; [|reflexivity]. unfold reason_ok. lia.
      * rewrite process_short in X by assumption.
        eapply rc_stopped with (used := ins ++ [IFrame dlc m]) (rest := []) (k := 0%nat) (tail := []);
          [rewrite app_nil_r; reflexivity|exact X|left; reflexivity|lia|apply B0|left; apply finish_throw0; reflexivity].
      * rewrite process_abort in X by assumption.
        eapply rc_stopped with (used := ins ++ [IFrame 8 m]) (rest := []) (k := 0%nat) (tail := []);
          [rewrite app_nil_r; reflexivity|exact X|left; reflexivity|lia|apply B0|left; apply finish_throw0; reflexivity].
      * rewrite process_skip in X by assumption. cbn [transfer_loop start_read s_done] in X.
        apply rc_initial; [|exact X]. rewrite responses_app, R, responses_skip by assumption. reflexivity.
      * fold (start_read index sub buf0) in X.
        destruct (process_error index sub m (start_read index sub buf0) M (proj1 first_ok) D) as [r [Rr P]].
        change (mkSdo buf0 0 size false (upload_initiate index sub)) with (start_read index sub buf0) in X.
        rewrite P in X.
        eapply rc_stopped with (used := ins ++ [IFrame 8 m]) (rest := []) (k := 0%nat);
          [rewrite app_nil_r; reflexivity|exact X| |lia|apply B0|left; apply finish_throw0; reflexivity].
        right. exists r. split; [assumption|reflexivity].
      * change (mkSdo buf0 0 size false (upload_initiate index sub)) with (start_read index sub buf0) in X.
        assert (C : code m = 2) by (unfold answers in D; rewrite (proj2 first_ok) in D; intuition lia).
        assert (RR : responses (ins ++ [IFrame 8 m]) = [m]) by (rewrite responses_app, R, responses_one by lia; reflexivity).
        destruct (read_first m M D) as [[r [Rr P]]|[[s1 [P IS]]|[[s1 [P [DN FB]]]|[P [S0 BF]]]]]; cbv zeta in *; rewrite P in X.
        -- eapply rc_stopped with (used := ins ++ [IFrame 8 m]) (rest := []) (k := 0%nat);
             [rewrite app_nil_r; reflexivity|exact X| |lia|apply B0|left; apply finish_throw0; reflexivity].
           right. exists r. split; [assumption|reflexivity].
        -- assert (DF : s_done s1 = false) by apply IS. rewrite DF in X. cbn [app] in X.
           eapply rc_segments; [exact RR|exact IS|exact X].
        -- rewrite DN in X. cbn [app] in X.
           eapply rc_stopped with (used := ins ++ [IFrame 8 m]) (rest := []) (k := 0%nat) (tail := []);
             [rewrite app_nil_r; reflexivity|exact X|left; reflexivity|lia|apply B0|].
           right. rewrite RR. exact FB.
        -- apply rc_undef; [exact X|assumption|]. exists 8, m. split; [apply in_or_app; right; left; reflexivity|assumption].
    + (* waiting for a segment *)
      pose proof IS as (G & FC & ALT & LAST & DONE & TOT & OFF & GOT & T0 & T1).
      assert (NF : s_off s <> s_total s \/ s_off s = 0%nat).
      { rewrite TOT. destruct (Nat.eq_dec (target init) 0) as [Z|NZ]; [lia|destruct (T1 NZ); lia]. }
      assert (NF' : forall s2, s_off s2 = s_off s -> s_total s2 = s_total s -> finish s2 true = SThrow).
      { intros s2 A1 A2. destruct NF; [apply finish_throw|apply finish_throw0]; congruence. }
      destruct (upload_next_ok (List.length segs)) as [U1 _].
      assert (LEN : (S (List.length segs) <= List.length (responses ins))%nat) by (rewrite R; cbn [List.length]; lia).
      assert (LEN' : forall j, (S (List.length segs) <= List.length (responses (ins ++ j)))%nat).
      { intros j. rewrite responses_app, app_length. lia. }
      assert (BB : forall j, bound_ok (ins ++ j) (S (List.length segs))).
      { intros j. apply (segments_bound init segs s _ (responses j)); [assumption|]. rewrite responses_app, R. reflexivity. }
      destruct (verdict_total (upload_next (List.length segs)) i Oi) as [|dlc m D|m D|m D|m M D|m M D];
        rewrite loop_eq, DONE in X.
      * eapply rc_stopped with (used := ins ++ [ITimeout]) (rest := []) (k := S (List.length segs));
          [rewrite app_nil_r; reflexivity|exact X| |apply LEN'|apply BB|left; apply NF'; reflexivity].
        right. eexists. split; [|reflexivity]. unfold reason_ok. lia.
      * rewrite process_short in X by assumption.
        eapply rc_stopped with (used := ins ++ [IFrame dlc m]) (rest := []) (k := S (List.length segs)) (tail := []);
          [rewrite app_nil_r; reflexivity|exact X|left; reflexivity|apply LEN'|apply BB|left; apply NF'; reflexivity].
      * rewrite process_abort in X by assumption.
        eapply rc_stopped with (used := ins ++ [IFrame 8 m]) (rest := []) (k := S (List.length segs)) (tail := []);
          [rewrite app_nil_r; reflexivity|exact X|left; reflexivity|apply LEN'|apply BB|left; apply finish_throw0; reflexivity].
      * rewrite process_skip, loop_eq, DONE in X by assumption. rewrite !app_nil_r in X.
        eapply rc_segments with (init := init) (segs := segs) (s := s); [|exact IS|exact X].
        rewrite responses_app, R, responses_skip, app_nil_r by assumption. reflexivity.
      * rewrite <- LAST in D, U1.
        destruct (process_error index sub m s M U1 D) as [r [Rr P]].
        rewrite P in X.
        eapply rc_stopped with (used := ins ++ [IFrame 8 m]) (rest := []) (k := S (List.length segs));
          [rewrite app_nil_r; reflexivity|exact X| |apply LEN'|apply BB|left; apply finish_throw0; reflexivity].
        right. exists r. split; [assumption|reflexivity].
      * assert (C : code m = 0).
        { unfold answers in D. rewrite (proj1 (proj2 (upload_next_ok _))) in D. intuition lia. }
        assert (RR : responses (ins ++ [IFrame 8 m]) = init :: segs ++ [m]) by (rewrite responses_app, R, responses_one by lia; reflexivity).
        destruct (read_next init segs s m IS M D) as [[s2 [r [Rr [P O]]]]|[[s2 [P IS2]]|[[s2 [P [DN FB]]]|[P [S0 BF]]]]]; rewrite P in X.
        -- eapply rc_stopped with (used := ins ++ [IFrame 8 m]) (rest := []) (k := S (List.length segs));
             [rewrite app_nil_r; reflexivity|exact X| |apply LEN'|apply BB|left; apply finish_throw0; assumption].
           right. exists r. split; [assumption|reflexivity].
        -- assert (DF : s_done s2 = false) by apply IS2. rewrite loop_eq, DF in X. cbn [app] in X.
           eapply rc_segments; [exact RR|exact IS2|].
           rewrite X, app_length. cbn [List.length].
           replace (S (List.length segs + 1)) with (S (List.length segs) + 1)%nat by lia.
           rewrite seq_app, map_app. reflexivity.
        -- rewrite loop_done in X by assumption.
           eapply rc_stopped with (used := ins ++ [IFrame 8 m]) (rest := []) (k := S (List.length segs)) (tail := []);
             [rewrite app_nil_r; reflexivity|exact X|left; reflexivity|apply LEN'|apply BB|].
           rewrite RR. exact FB.
        -- apply rc_undef; [exact X|assumption|]. exists 8, m. split; [apply in_or_app; right; left; reflexivity|assumption].
    + eapply rc_stopped with (used := used) (rest := rest ++ [i]); [symmetry; apply app_assoc|exact X|exact TL|exact K|exact BK|exact F].
    + apply rc_undef; [exact X|assumption|]. destruct B as (dlc & m & I & BF). exists dlc, m.
      split; [apply in_or_app; left; assumption|assumption].
Qed.

Lemma read_eq : forall ins, sdo_read index sub buf0 ins =
  match rloop ins with
  | Undef => Undef
  | Ok (s1, out, stopped) => Ok (upload_first index sub :: out, finish s1 stopped)
  end.
Proof. reflexivity. Qed.

End Upload.
