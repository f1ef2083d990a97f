(** C23 object keys, C24 node-id relative values. *)
From Verif Require Import Base CanModel CanSpec CanProofs KeyModel KeySpec KeyProofs.

Theorem C23_round_trip : forall k, okey_ok k ->
  key_fromString (key_toString (mk_key k)) = mk_key k.
Proof. exact key_round_trip. Qed.
Print Assumptions C23_round_trip.

Theorem C23_distinct_hashes : forall k1 k2, okey_ok k1 -> okey_ok k2 ->
  mk_key k1 = mk_key k2 -> k1 = k2.
Proof. exact mk_key_inj. Qed.
Print Assumptions C23_distinct_hashes.

Theorem C23_distinct_texts : forall k1 k2, okey_ok k1 -> okey_ok k2 ->
  key_toString (mk_key k1) = key_toString (mk_key k2) -> k1 = k2.
Proof. exact key_text_inj. Qed.
Print Assumptions C23_distinct_texts.

Theorem C23_fields : forall k, okey_ok k ->
  key_get_index (mk_key k) = match k with KIndex i => i | KSub i _ => i end /\
  key_hasSub (mk_key k) = match k with KIndex _ => false | KSub _ _ => true end /\
  (forall i s, k = KSub i s -> key_sub_index (mk_key k) = s).
Proof. exact mk_key_fields. Qed.
Print Assumptions C23_fields.

(** Keys as users write them, in either case and with leading zeros. *)
Theorem C23_parse_sub : forall ti i ts s, digits 16 ti i -> digits 16 ts s ->
  i < 2^16 -> s < 2^8 -> key_fromString (ti ++ str "sub" ++ ts) = mk_key (KSub i s).
Proof. exact key_parse_sub. Qed.
Print Assumptions C23_parse_sub.

Theorem C23_parse_index : forall ti i, digits 16 ti i -> i < 2^16 ->
  key_fromString ti = mk_key (KIndex i).
Proof. exact key_parse_index. Qed.
Print Assumptions C23_parse_index.

(** Numbers that do not fit are not refused: those below 2^64 lose their leading
    digits, greater ones become the largest index or sub-index. (As the C library
    on the target does it; the standard leaves it open.) *)
Theorem C23_parse_wide : forall ti i ts s, digits 16 ti i -> digits 16 ts s ->
  let fit bits x := if x <? 2^64 then x mod 2^bits else 2^bits - 1 in
  key_fromString (ti ++ str "sub" ++ ts) = mk_key (KSub (fit 16 i) (fit 8 s)) /\
  key_fromString ti = mk_key (KIndex (fit 16 i)).
Proof.
  intros ti i ts s Hi Hs fit.
  assert (W : forall t x r bits, digits 16 t x -> stops r -> no_x r -> 0 < bits <= 64 -> scan_hex bits (t ++ r) = Some (fit bits x, r)).
  { intros t x r bits Hd Hst Hx Hb. pose proof (digits_nonneg 16 _ _ ltac:(lia) Hd).
    unfold fit. destruct (Z.ltb_spec x (2^64)) as [L|L]; [apply scan_hex_text; auto|].
    pose proof (digits_all_hex _ _ _ Hd) as Ha. pose proof (digits_nonempty _ _ _ Hd) as Hn.
    unfold scan_hex, scan_int. rewrite skip_space_hex, scan_sign_hex by assumption.
    change (16 =? 10) with false. cbv iota. rewrite scan_0x_none by assumption.
    change (16 =? 16) with true. cbv iota.
    rewrite (digits_scan_stop 16 t x r) by (assumption || lia).
    replace (x >? 2^64 - 1) with true by lia. f_equal. f_equal. symmetry.
    apply Z.mod_unique with (q := 2^(64 - bits) - 1).
    - left. pose proof (Z.pow_pos_nonneg 2 bits). lia.
    - replace 64 with (bits + (64 - bits)) at 1 by lia. rewrite Z.pow_add_r by lia. ring. }
  unfold key_fromString. split.
  - rewrite (W ti i); [|assumption|reflexivity|reflexivity|lia].
    change (match_lit (str "sub") (str "sub" ++ ts)) with (Some ts). cbv iota. rewrite <- (app_nil_r ts).
    rewrite (W ts s); [|assumption|exact Logic.I|exact Logic.I|lia]. reflexivity.
  - rewrite <- (app_nil_r ti). rewrite (W ti i); [|assumption|exact Logic.I|exact Logic.I|lia]. reflexivity.
Qed.
Print Assumptions C23_parse_wide.
Example C23_parse_wide_ex : key_fromString (str "16041sub101") = mk_key (KSub 0x6041 1) /\
  key_fromString (str "10000000000000000sub1") = mk_key (KSub 0xFFFF 1).
Proof. split; vm_compute; reflexivity. Qed.

(** Any text, malformed or with too many digits, gives some valid key. *)
Theorem C23_parse_total : forall t, exists k, okey_ok k /\ key_fromString t = mk_key k.
Proof.
  assert (B : forall n t x r, 0 < n -> scan_hex n t = Some (x, r) -> 0 <= x < 2^n).
  { intros n t x r Hn. unfold scan_hex. destruct (scan_int 16 t) as [[[neg v] any] r'].
    destruct any; [|discriminate]. intros H. injection H as <- _. apply Z.mod_pos_bound. apply Z.pow_pos_nonneg; lia. }
  intros t. unfold key_fromString.
  destruct (scan_hex 16 t) as [[i r]|] eqn:E; [|exists (KIndex 0); split; [cbn; lia|reflexivity]].
  apply B in E; [|lia]. destruct (match_lit (str "sub") r) as [r2|]; [|exists (KIndex i); split; [exact E|reflexivity]].
  destruct (scan_hex 8 r2) as [[s r3]|] eqn:E2; [|exists (KIndex i); split; [exact E|reflexivity]].
  apply B in E2; [|lia]. exists (KSub i s). split; [split; assumption|reflexivity].
Qed.
Print Assumptions C23_parse_total.

Example C23_ex1 : okey_ok (KSub 0x6040 0xA) /\ key_toString (mk_key (KSub 0x6040 0xA)) = str "6040suba"
  /\ key_fromString (str "6040sub0A") = mk_key (KSub 0x6040 0xA).
Proof. split; [cbn; lia|]. split; vm_compute; reflexivity. Qed.
Example C23_ex2 : okey_ok (KIndex 0x9000) /\ key_fromString (str "9000") = mk_key (KIndex 0x9000)
  /\ mk_key (KIndex 0x9000) <> mk_key (KSub 0x9000 0xFF).
Proof. split; [cbn; lia|]. split; [vm_compute; reflexivity|vm_compute; discriminate]. Qed.

(** '$NODEID+x' and 'x+$NODEID', in any capitalisation and spacing. *)
Theorem C24_nodeid_plus_number : forall T t x u y w0 word w1 w2 w3,
  int_type T -> numeral t x -> parsable T x -> nodeid_word word ->
  spaces w0 -> spaces w1 -> spaces w2 -> spaces w3 ->
  0 <= u < 256 -> in_type T y -> congruent T y (x + u) ->
  (i_signed T = true -> 4 <= i_size T -> in_type T (wrap T x + u)) ->
  apply_offset T (parse_int T (w0 ++ (word ++ w1 ++ [43] ++ w2 ++ t) ++ w3)) u = Ok y.
Proof.
  intros. rewrite parse_offset_right with (x := x) by assumption.
  apply offset_value; assumption.
Qed.
Print Assumptions C24_nodeid_plus_number.

Theorem C24_number_plus_nodeid : forall T t x u y w0 word w1 w2 w3,
  int_type T -> numeral t x -> parsable T x -> nodeid_word word ->
  spaces w0 -> spaces w1 -> spaces w2 -> spaces w3 ->
  0 <= u < 256 -> in_type T y -> congruent T y (x + u) ->
  (i_signed T = true -> 4 <= i_size T -> in_type T (wrap T x + u)) ->
  apply_offset T (parse_int T (w0 ++ (t ++ w1 ++ [43] ++ w2 ++ word) ++ w3)) u = Ok y.
Proof.
  intros. rewrite parse_offset_left with (x := x) by assumption.
  apply offset_value; assumption.
Qed.
Print Assumptions C24_number_plus_nodeid.

Theorem C24_bare_nodeid : forall T u w0 word w1,
  int_type T -> nodeid_word word -> spaces w0 -> spaces w1 ->
  0 <= u < 256 -> in_type T u ->
  apply_offset T (parse_int T (w0 ++ word ++ w1)) u = Ok u.
Proof.
  intros. rewrite bare_nodeid by assumption. apply offset_value; try assumption.
  - unfold congruent. replace (u - (0 + u)) with 0 by lia. apply Z.mod_0_l.
    destruct H as [E|[E|[E|[E|[]]]]]; rewrite <- E; discriminate.
  - intros _ _. rewrite wrap_in; [replace (0 + u) with u by lia; assumption|assumption|].
    unfold in_type in *. destruct (i_signed T); destruct H as [E|[E|[E|[E|[]]]]]; rewrite <- E in *; lia.
Qed.
Print Assumptions C24_bare_nodeid.

(** Other numbers do not depend on the node id. *)
Theorem C24_plain_number : forall T t x u y w0 w1,
  int_type T -> numeral t x -> parsable T x -> spaces w0 -> spaces w1 ->
  in_type T y -> congruent T y x ->
  apply_offset T (parse_int T (w0 ++ t ++ w1)) u = Ok y.
Proof.
  intros. rewrite parse_plain with (x := x) by assumption. cbn [apply_offset]. f_equal.
  destruct (in_type_wrap T x H) as [A B].
  apply (in_type_unique T _ _ x H A H4 B). assumption.
Qed.
Print Assumptions C24_plain_number.

Definition U32 := mkIty false 4.
Definition I8 := mkIty true 1.
Example C24_ex1 : apply_offset U32 (parse_int U32 (str " $NodeID + 0x180")) 5 = Ok 0x185.
Proof. vm_compute. reflexivity. Qed.
Example C24_ex2 : apply_offset U32 (parse_int U32 (str "384+$NODEID")) 127 = Ok 511.
Proof. vm_compute. reflexivity. Qed.
Example C24_ex3 : apply_offset I8 (parse_int I8 (str "$NODEID+-1")) 127 = Ok 126
  /\ apply_offset I8 (parse_int I8 (str "$NODEID+1")) 127 = Ok (-128).
Proof. split; vm_compute; reflexivity. Qed.
Example C24_ex_hyps :
  int_type U32 /\ numeral (str "0x180") 0x180 /\ parsable U32 0x180 /\ nodeid_word (str "$NodeID").
Proof.
  split; [cbn; tauto|]. split.
  - apply num_pos. change (str "0x180") with (str "0x" ++ str "180"). apply num_hex.
    change (str "180") with (([49] ++ [56]) ++ [48]). change 0x180 with ((1 * 16 + 8) * 16 + 0).
    repeat constructor; try lia; left; reflexivity.
  - split; [unfold parsable; cbn; lia|].
    change (str "$NodeID") with [36; 78; 111; 100; 101; 73; 68].
    unfold nodeid_word. change (str "$nodeid") with [36; 110; 111; 100; 101; 105; 100].
    repeat constructor; lia.
Qed.
