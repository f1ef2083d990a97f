(** Properties C04, C05, C06. *)
From Verif Require Import Base CanModel CanSpec CanProofs FilterModel FilterSpec FilterProofs.

(** C04. Mask filters, constructed directly and from text. *)
Theorem C04_mask_filter : forall id mask invert h, header_ok h ->
  pass (FrameMaskFilter id mask invert) h = true <->
  (if invert then ~ agree mask (filter_word h) id else agree mask (filter_word h) id).
Proof. exact mask_filter_pass. Qed.
Print Assumptions C04_mask_filter.

Theorem C04_mask_filter_text : forall ta va tm vm (invert : bool) h,
  hex_number ta va -> va < 2^32 -> hex_number tm vm -> vm < 2^32 -> header_ok h ->
  pass (tofilter (ta ++ (if invert then str "~" else str ":") ++ tm)) h = true <->
  (if invert then ~ agree vm (filter_word h) (id_word ta va)
   else agree vm (filter_word h) (id_word ta va)).
Proof. exact mask_text_pass. Qed.
Print Assumptions C04_mask_filter_text.

Theorem C04_bare_filter_text : forall ta va h,
  hex_number ta va -> va < 2^32 -> header_ok h ->
  pass (tofilter ta) h = true <-> filter_word h mod 2^31 = va mod 2^31.
Proof. exact bare_text_pass. Qed.
Print Assumptions C04_bare_filter_text.

(** A filter from a number: like the number as text, the extended flag is not looked at. With all
    bits in the mask exactly one header passes. *)
Theorem C04_number_filter : forall id h, header_ok h -> 0 <= id < 2^32 ->
  (pass (tofilter_id id) h = true <-> filter_word h mod 2^31 = id mod 2^31) /\
  (pass (FrameMaskFilter id MASK_ALL false) h = true <-> filter_word h = id).
Proof.
  intros id h H I. split.
  - unfold tofilter_id. rewrite mask_filter_pass by exact H. apply agree_relaxed.
  - unfold pass, FrameMaskFilter. rewrite key_word by exact H. unfold MASK_ALL.
    rewrite (Z.land_comm (2^32 - 1)), !land_ones_mod by lia. assert (0 <= filter_word h < 2^32) by (unfold filter_word, header_ok in *; destruct (h_err h), (h_rtr h), (h_ext h); cbn [b2z]; lia).
    rewrite !Z.mod_small by lia. destruct (Z.eqb_spec (filter_word h) id); cbn; split; intros; (congruence || reflexivity || discriminate).
Qed.
Print Assumptions C04_number_filter.

Example C04_example :
  let h := mkHeader 418 false false false in
  hex_number (str "1a2") 418 /\ hex_number (str "7f0") 2032 /\ header_ok h /\
  pass (tofilter (str "1a2:7f0")) h = true /\
  pass (tofilter (str "1a2~7f0")) h = false /\
  pass (tofilter (str "1a2")) (mkHeader 418 true false false) = true.
Proof.
  repeat split; try (cbn; lia); try discriminate.
  - exists 1; split; [apply hex2dec_spec; reflexivity|].
    exists 10; split; [apply hex2dec_spec; reflexivity|].
    exists 2; split; [apply hex2dec_spec; reflexivity|]. reflexivity.
  - exists 7; split; [apply hex2dec_spec; reflexivity|].
    exists 15; split; [apply hex2dec_spec; reflexivity|].
    exists 0; split; [apply hex2dec_spec; reflexivity|]. reflexivity.
Qed.

(** C05. Range filters. *)
Theorem C05_range_filter : forall lo hi invert h, header_ok h ->
  pass (FrameRangeFilter lo hi invert) h = true <->
  (if invert then ~ (lo <= filter_word h <= hi) else lo <= filter_word h <= hi).
Proof. exact range_filter_pass. Qed.
Print Assumptions C05_range_filter.

(** The text form compares the word of the first identifier with its extended
    flag, the second one without. *)
Theorem C05_range_text_partial : forall ta va tb vb (invert : bool) h,
  hex_number ta va -> va < 2^32 -> hex_number tb vb -> vb < 2^32 -> header_ok h ->
  pass (tofilter (ta ++ (if invert then str "_" else str "-") ++ tb)) h = true <->
  (if invert then ~ (id_word ta va <= filter_word h <= vb) else id_word ta va <= filter_word h <= vb).
Proof. exact range_text_pass. Qed.
Print Assumptions C05_range_text_partial.

(** For standard identifiers the text means what it says. *)
Theorem C05_range_text_standard_partial : forall ta va tb vb h,
  hex_number ta va -> hex_number tb vb -> va < 2^11 -> vb < 2^11 -> header_ok h ->
  pass (tofilter (ta ++ str "-" ++ tb)) h = true <->
  (h_err h = false /\ h_rtr h = false /\ h_ext h = false /\ va <= h_id h <= vb).
Proof. exact range_text_standard. Qed.
Print Assumptions C05_range_text_standard_partial.

(** Full statement for extended identifiers (8 digit texts): a frame between the
    two identifiers passes. It is false. *)
Theorem C05_range_text_extended_refuted :
  exists ta va tb vb h,
    hex_number ta va /\ hex_number tb vb /\ List.length ta = 8%nat /\ List.length tb = 8%nat /\
    h_ext h = true /\ h_err h = false /\ h_rtr h = false /\ header_ok h /\
    va <= h_id h <= vb /\
    pass (tofilter (ta ++ str "-" ++ tb)) h = false.
Proof. exact range_text_extended_refuted. Qed.
Print Assumptions C05_range_text_extended_refuted.

Example C05_example :
  pass (tofilter (str "100-1ff")) (mkHeader 256 false false false) = true /\
  pass (tofilter (str "100-1ff")) (mkHeader 511 false false false) = true /\
  pass (tofilter (str "100-1ff")) (mkHeader 512 false false false) = false /\
  pass (tofilter (str "100_1ff")) (mkHeader 512 false false false) = true.
Proof. repeat split. Qed.

(** C06. A filtered listener sees exactly the frames some filter passes, once,
    in order. *)
Theorem C06_filtered_listener : forall filters fs,
  selected (fun h => exists x, In x filters /\ pass x h = true) fs (filtered_listener filters fs).
Proof. exact filtered_listener_selected. Qed.
Print Assumptions C06_filtered_listener.

Example C06_example :
  let f i := mkFrame (mkHeader i false false false) 0 [] in
  filtered_listener [tofilter (str "100-1ff"); tofilter (str "180:7f0"); tofilter (str "500")]
                    [f 385; f 1280; f 640; f 385] = [f 385; f 1280; f 385].
Proof. reflexivity. Qed.
