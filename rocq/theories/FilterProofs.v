From Verif Require Import Base CanModel CanSpec CanProofs FilterModel FilterSpec.

Lemma key_word : forall h, header_ok h -> key h = filter_word h.
Proof.
  intros h H. unfold key, filter_word. destruct (h_err h) eqn:E; [reflexivity|].
  rewrite fullid_sum by assumption. rewrite E. cbn [b2z]. lia.
Qed.

Lemma land_agree : forall mask a b,
  Z.land mask a = Z.land b mask <-> agree mask a b.
Proof.
  intros. unfold agree. split.
  - intros H i Hi M. apply (f_equal (fun z => Z.testbit z i)) in H.
    rewrite !Z.land_spec, M in H. rewrite andb_true_r in H. exact H.
  - intros H. apply Z.bits_inj'. intros i Hi. rewrite !Z.land_spec.
    destruct (Z.testbit mask i) eqn:M.
    + rewrite (H i Hi M). rewrite andb_true_r. reflexivity.
    + rewrite andb_false_r. reflexivity.
Qed.

Lemma mask_filter_pass : forall id mask invert h, header_ok h ->
  pass (FrameMaskFilter id mask invert) h = true <->
  (if invert then ~ agree mask (filter_word h) id else agree mask (filter_word h) id).
Proof.
  intros id mask invert h H. unfold pass, FrameMaskFilter. rewrite key_word by assumption.
  pose proof (land_agree mask (filter_word h) id) as LA.
  destruct (Z.eqb_spec (Z.land mask (filter_word h)) (Z.land id mask)); destruct invert; cbn; intuition congruence.
Qed.

Lemma range_filter_pass : forall lo hi invert h, header_ok h ->
  pass (FrameRangeFilter lo hi invert) h = true <->
  (if invert then ~ (lo <= filter_word h <= hi) else lo <= filter_word h <= hi).
Proof.
  intros lo hi invert h H. unfold pass, FrameRangeFilter. rewrite key_word by assumption.
  destruct (Z.leb_spec lo (filter_word h)); destruct (Z.leb_spec (filter_word h) hi); destruct invert; cbn;
    intuition (try congruence; try lia).
Qed.

(** ** Number texts *)

Lemma digits_value_take : forall t acc v any, digits_value t acc v ->
  take_hex t acc any = (v, match t with [] => any | _ => true end) /\ all_hex t.
Proof.
  induction t as [|c t IH]; intros acc v any H; cbn [digits_value] in H.
  - subst. split; [reflexivity|constructor].
  - destruct H as [d [Hd H]]. apply hex2dec_spec in Hd. cbn [take_hex]. rewrite Hd.
    replace (acc * 16 + d) with (16 * acc + d) by lia.
    destruct (IH _ _ true H) as [E A]. rewrite E. split.
    + destruct t; reflexivity.
    + constructor; auto. congruence.
Qed.

Lemma digits_value_nonneg : forall t acc v, 0 <= acc -> digits_value t acc v -> 0 <= v.
Proof.
  induction t as [|c t IH]; intros acc v Ha H; cbn [digits_value] in H; [lia|].
  destruct H as [d [[Hd _] H]]. eapply IH; [|exact H]. lia.
Qed.

Lemma hex_number_tohex : forall t v, hex_number t v -> v < 2^32 -> tohex t = v.
Proof.
  intros t v [N H] L. destruct (digits_value_take _ _ _ false H) as [E A].
  rewrite tohex_hex by assumption. rewrite E. destruct t; [congruence|].
  cbn [negb]. destruct (Z.gtb_spec v (2^32 - 1)); lia.
Qed.

Lemma hex_number_range : forall t v, hex_number t v -> 0 <= v.
Proof. intros t v [_ H]. eapply digits_value_nonneg; [|exact H]. lia. Qed.

Lemma hex_number_hex : forall t v, hex_number t v -> all_hex t.
Proof. intros t v [_ H]. eapply (digits_value_take _ _ _ false H). Qed.

Lemma hex_number_fun : forall t v w, hex_number t v -> hex_number t w -> v = w.
Proof.
  intros t v w [_ H] [_ H']. destruct (digits_value_take _ _ _ false H) as [E _].
  destruct (digits_value_take _ _ _ false H') as [E' _]. congruence.
Qed.

Lemma fullid_toheader : forall t v, hex_number t v -> v < 2^32 ->
  fullid (toheader t) = id_word t v.
Proof.
  intros t v H L. pose proof (hex_number_range _ _ H) as R.
  rewrite (toheader_word t v (hex_number_tohex t v H L)) by lia.
  rewrite fullid_sum by (unfold header_ok; cbn [h_id]; lia).
  cbn [h_id h_ext h_rtr h_err]. unfold id_word.
  assert (D : v = v mod 2^29 + (v / 2^29 mod 2) * 2^29 + (v / 2^30 mod 2) * 2^30 + (v / 2^31 mod 2) * 2^31) by lia.
  assert (B : forall x, b2z (x mod 2 =? 1) = x mod 2).
  { intro x. destruct (Z.eqb_spec (x mod 2) 1); cbn [b2z]; lia. }
  rewrite !B.
  replace ((Z.of_nat (List.length t) =? 8)) with (List.length t =? 8)%nat by lia.
  destruct ((List.length t =? 8)%nat && (2^11 <=? v mod 2^29)) eqn:C; cbn [andb].
  - rewrite orb_true_r. cbn [b2z]. destruct (Z.ltb_spec v (2^31)); lia.
  - rewrite orb_false_r. rewrite B. lia.
Qed.

Lemma split_delim_app : forall a d b, Forall (fun c => is_delim c = false) a -> is_delim d = true ->
  split_delim (a ++ d :: b) = Some (a, d, b).
Proof.
  induction a as [|x a IH]; intros d b H D; cbn [app split_delim].
  - rewrite D. reflexivity.
  - inversion H; subst. rewrite H2. rewrite IH by assumption. reflexivity.
Qed.

Lemma split_delim_none : forall a, Forall (fun c => is_delim c = false) a -> split_delim a = None.
Proof.
  induction a as [|x a IH]; intros H; [reflexivity|].
  inversion H; subst. cbn [split_delim]. rewrite H2, IH by assumption. reflexivity.
Qed.

Lemma hex_no_delim : forall t, all_hex t -> Forall (fun c => is_delim c = false) t.
Proof.
  intros t H. eapply Forall_impl; [|exact H]. cbv beta. intros c Hc.
  apply hex_cases in Hc. unfold is_delim. lia.
Qed.

Definition is_mask_delim (d : Z) (invert : bool) : Prop :=
  d = (if invert then 126 else 58).
Definition is_range_delim (d : Z) (invert : bool) : Prop :=
  d = (if invert then 95 else 45).

Lemma tofilter_mask : forall ta va tm vm (invert : bool),
  hex_number ta va -> va < 2^32 -> hex_number tm vm -> vm < 2^32 ->
  tofilter (ta ++ (if invert then str "~" else str ":") ++ tm)
  = FrameMaskFilter (id_word ta va) vm invert.
Proof.
  intros ta va tm vm invert Ha La Hm Lm. unfold tofilter.
  assert (E : exists d, (if invert then str "~" else str ":") ++ tm = d :: tm /\
              is_delim d = true /\ d = (if invert then 126 else 58)).
  { destruct invert; eexists; repeat split. }
  destruct E as (d & -> & D & Dv).
  rewrite split_delim_app by (try assumption; eapply hex_no_delim, hex_number_hex; eassumption).
  rewrite (fullid_toheader ta va) by assumption.
  rewrite (hex_number_tohex tm vm) by assumption.
  subst d. destruct invert; reflexivity.
Qed.

Lemma tofilter_range : forall ta va tb vb (invert : bool),
  hex_number ta va -> va < 2^32 -> hex_number tb vb -> vb < 2^32 ->
  tofilter (ta ++ (if invert then str "_" else str "-") ++ tb)
  = FrameRangeFilter (id_word ta va) vb invert.
Proof.
  intros ta va tb vb invert Ha La Hm Lm. unfold tofilter.
  assert (E : exists d, (if invert then str "_" else str "-") ++ tb = d :: tb /\
              is_delim d = true /\ d = (if invert then 95 else 45)).
  { destruct invert; eexists; repeat split. }
  destruct E as (d & -> & D & Dv).
  rewrite split_delim_app by (try assumption; eapply hex_no_delim, hex_number_hex; eassumption).
  rewrite (fullid_toheader ta va) by assumption.
  rewrite (hex_number_tohex tb vb) by assumption.
  subst d. destruct invert; reflexivity.
Qed.

Lemma tofilter_bare : forall ta va,
  hex_number ta va -> va < 2^32 ->
  tofilter ta = FrameMaskFilter (id_word ta va) (2^31 - 1) false.
Proof.
  intros ta va Ha La. unfold tofilter.
  rewrite split_delim_none by (eapply hex_no_delim, hex_number_hex; eassumption).
  rewrite (fullid_toheader ta va) by assumption. reflexivity.
Qed.

Lemma mask_text_pass : forall ta va tm vm (invert : bool) h,
  hex_number ta va -> va < 2^32 -> hex_number tm vm -> vm < 2^32 -> header_ok h ->
  pass (tofilter (ta ++ (if invert then str "~" else str ":") ++ tm)) h = true <->
  (if invert then ~ agree vm (filter_word h) (id_word ta va)
   else agree vm (filter_word h) (id_word ta va)).
Proof.
  intros. rewrite (tofilter_mask ta va tm vm) by assumption.
  apply mask_filter_pass. assumption.
Qed.

Lemma agree_relaxed : forall a b, agree (2^31 - 1) a b <-> a mod 2^31 = b mod 2^31.
Proof.
  intros. rewrite <- land_agree. rewrite (Z.land_comm _ a).
  rewrite !land_ones_mod by lia. reflexivity.
Qed.

Lemma bare_text_pass : forall ta va h,
  hex_number ta va -> va < 2^32 -> header_ok h ->
  pass (tofilter ta) h = true <-> filter_word h mod 2^31 = va mod 2^31.
Proof.
  intros ta va h H L O. rewrite (tofilter_bare ta va) by assumption.
  rewrite mask_filter_pass by assumption. rewrite agree_relaxed.
  pose proof (hex_number_range _ _ H).
  assert (E : id_word ta va mod 2^31 = va mod 2^31).
  { unfold id_word. destruct ((List.length ta =? 8)%nat && (2^11 <=? va mod 2^29) && (va <? 2^31)); lia. }
  rewrite E. reflexivity.
Qed.

Lemma range_text_pass : forall ta va tb vb (invert : bool) h,
  hex_number ta va -> va < 2^32 -> hex_number tb vb -> vb < 2^32 -> header_ok h ->
  pass (tofilter (ta ++ (if invert then str "_" else str "-") ++ tb)) h = true <->
  (if invert then ~ (id_word ta va <= filter_word h <= vb) else id_word ta va <= filter_word h <= vb).
Proof.
  intros. rewrite (tofilter_range ta va tb vb) by assumption.
  apply range_filter_pass. assumption.
Qed.

(** Standard identifiers: the text form means what it says. *)
Lemma range_text_standard : forall ta va tb vb h,
  hex_number ta va -> hex_number tb vb -> va < 2^11 -> vb < 2^11 -> header_ok h ->
  pass (tofilter (ta ++ str "-" ++ tb)) h = true <->
  (h_err h = false /\ h_rtr h = false /\ h_ext h = false /\ va <= h_id h <= vb).
Proof.
  intros ta va tb vb h Ha Hb La Lb O.
  pose proof (hex_number_range _ _ Ha).
  rewrite (range_text_pass ta va tb vb false) by (try assumption; lia).
  assert (E : id_word ta va = va).
  { unfold id_word. destruct (Z.leb_spec (2^11) (va mod 2^29)); [lia|].
    rewrite andb_false_r. reflexivity. }
  rewrite E. unfold filter_word, header_ok in *.
  destruct (h_err h), (h_rtr h), (h_ext h); cbn [b2z]; split; intros; repeat split;
    try lia; intuition discriminate.
Qed.

Lemma range_text_extended_refuted :
  exists ta va tb vb h,
    hex_number ta va /\ hex_number tb vb /\ List.length ta = 8%nat /\ List.length tb = 8%nat /\
    h_ext h = true /\ h_err h = false /\ h_rtr h = false /\ header_ok h /\
    va <= h_id h <= vb /\
    pass (tofilter (ta ++ str "-" ++ tb)) h = false.
Proof.
  exists (str "00001000"), 4096, (str "00002000"), 8192, (mkHeader 6000 true false false).
  assert (D0 : hex_digit 48 0) by (apply hex2dec_spec; reflexivity).
  assert (D1 : hex_digit 49 1) by (apply hex2dec_spec; reflexivity).
  assert (D2 : hex_digit 50 2) by (apply hex2dec_spec; reflexivity).
  split; [split; [discriminate|]|].
  { cbn [str list_ascii_of_string map].
    do 4 (exists 0; split; [exact D0|]). exists 1; split; [exact D1|].
    do 3 (exists 0; split; [exact D0|]). reflexivity. }
  split; [split; [discriminate|]|].
  { cbn [str list_ascii_of_string map].
    do 4 (exists 0; split; [exact D0|]). exists 2; split; [exact D2|].
    do 3 (exists 0; split; [exact D0|]). reflexivity. }
  repeat split; cbn; lia.
Qed.

(** ** Listener *)

Lemma filtered_callback_any : forall fl f,
  filtered_callback fl f = if existsb (fun x => pass x (f_hdr f)) fl then [f] else [].
Proof.
  induction fl as [|x fl IH]; intros f; [reflexivity|].
  cbn [filtered_callback existsb]. destruct (pass x (f_hdr f)); [reflexivity|]. apply IH.
Qed.

Lemma filtered_listener_spec : forall fl fs,
  filtered_listener fl fs = List.filter (fun f => existsb (fun x => pass x (f_hdr f)) fl) fs.
Proof.
  intros fl. unfold filtered_listener. induction fs as [|f fs IH]; [reflexivity|].
  cbn [flat_map List.filter]. rewrite filtered_callback_any, IH.
  destruct (existsb (fun x => pass x (f_hdr f)) fl); reflexivity.
Qed.

Lemma filtered_listener_selected : forall fl fs,
  selected (fun h => exists x, In x fl /\ pass x h = true) fs (filtered_listener fl fs).
Proof.
  intros. exists (fun f => existsb (fun x => pass x (f_hdr f)) fl). split.
  - intro f. apply existsb_exists.
  - apply filtered_listener_spec.
Qed.
