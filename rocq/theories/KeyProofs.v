(** Proofs about object keys and integer values in texts. *)
From Verif Require Import Base CanModel CanSpec CanProofs KeyModel KeySpec.

Lemma digits_scan : forall base t x, 0 < base <= 16 -> digits base t x ->
  forall r acc any,
    scan_digits base (t ++ r) acc any =
    scan_digits base r (acc * base ^ Z.of_nat (List.length t) + x) true.
Proof.
  intros base t x Hb H. induction H as [c d Hc Hd | t x c d Ht IH Hc Hd]; intros r acc any.
  - cbn [app List.length]. cbn [scan_digits].
    apply hex2dec_spec in Hc. rewrite Hc.
    replace (d <? base) with true by (symmetry; apply Z.ltb_lt; lia).
    f_equal. rewrite Z.pow_1_r. reflexivity.
  - rewrite <- app_assoc, IH. cbn [app]. cbn [scan_digits].
    apply hex2dec_spec in Hc. rewrite Hc.
    replace (d <? base) with true by (symmetry; apply Z.ltb_lt; lia).
    f_equal. rewrite app_length. cbn [List.length].
    rewrite Nat2Z.inj_add, Z.pow_add_r, Z.pow_1_r by lia. ring.
Qed.

(** A text that does not continue the number. *)
Definition stops (r : text) : Prop := match r with [] => True | c :: _ => is_hex c = false end.

Lemma scan_stop : forall base r acc any, stops r -> scan_digits base r acc any = (acc, any, r).
Proof.
  intros base [|c r] acc any H; [reflexivity|]. cbn [stops] in H. unfold is_hex in H.
  cbn [scan_digits]. destruct (hex2dec c); [discriminate|reflexivity].
Qed.

Lemma digits_scan_stop : forall base t x r, 0 < base <= 16 -> digits base t x -> stops r ->
  scan_digits base (t ++ r) 0 false = (x, true, r).
Proof.
  intros base t x r Hb Hd Hr. rewrite (digits_scan base t x Hb Hd).
  rewrite scan_stop by assumption. reflexivity.
Qed.

Lemma digits_all_hex : forall base t x, digits base t x -> all_hex t.
Proof.
  intros base t x H. unfold all_hex. induction H.
  - constructor; [|constructor]. apply hex2dec_spec in H. congruence.
  - apply Forall_app. split; [assumption|]. constructor; [|constructor].
    apply hex2dec_spec in H0. congruence.
Qed.

Lemma digits_nonempty : forall base t x, digits base t x -> t <> [].
Proof. intros base t x H. destruct H; [discriminate|]. destruct t; discriminate. Qed.

Lemma digits_nonneg : forall base t x, 0 < base -> digits base t x -> 0 <= x.
Proof.
  intros base t x Hb H. induction H as [c d Hc Hd | t x c d Ht IH Hc Hd].
  - apply hex2dec_spec, hex2dec_range in Hc. lia.
  - apply hex2dec_spec, hex2dec_range in Hc. nia.
Qed.

Lemma hex_not_x : forall c, hex2dec c <> None -> (c =? 120) || (c =? 88) = false.
Proof.
  intros c H. apply hex_cases in H. lia.
Qed.

Definition no_x (r : text) : Prop := match r with [] => True | c :: _ => (c =? 120) || (c =? 88) = false end.

Lemma scan_0x_none : forall t r, all_hex t -> t <> [] -> no_x r -> scan_0x (t ++ r) = None.
Proof.
  intros t r Ht Hn Hr. unfold scan_0x.
  destruct t as [|a t]; [congruence|]. cbn [app].
  assert (E : forall u, match u with
     | [] => True
     | x :: _ => (x =? 120) || (x =? 88) = false end ->
     match a :: u with
     | 48 :: x :: c :: t0 => if ((x =? 120) || (x =? 88)) && is_hex c then Some (c :: t0) else None
     | _ => None end = None).
  { intros u Hu. destruct (Z.eq_dec a 48) as [->|Hne].
    - destruct u as [|x [|c u]]; try reflexivity. rewrite Hu. reflexivity.
    - destruct a as [|p|p]; try reflexivity.
      do 6 (destruct p as [p|p|]; try reflexivity; try (exfalso; lia)). }
  apply E. destruct t as [|b t].
  - destruct r; [exact I|]. exact Hr.
  - cbn [app]. inversion Ht; subst. inversion H2; subst. apply hex_not_x. assumption.
Qed.

Lemma scan_0x_some : forall t, all_hex t -> t <> [] -> forall r,
  scan_0x (48 :: 120 :: t ++ r) = Some (t ++ r).
Proof.
  intros t Ht Hn r. destruct t as [|c t]; [congruence|]. cbn [app].
  unfold scan_0x. cbn [Z.eqb Pos.eqb orb andb].
  inversion Ht; subst. unfold is_hex. destruct (hex2dec c); [reflexivity|congruence].
Qed.

Lemma skip_space_hex : forall t r, all_hex t -> t <> [] -> skip_space (t ++ r) = t ++ r.
Proof.
  intros t r Ht Hn. destruct t as [|c t]; [congruence|]. cbn [app skip_space].
  inversion Ht; subst. rewrite hex_not_space by assumption. reflexivity.
Qed.

Lemma scan_sign_hex : forall t r, all_hex t -> t <> [] -> scan_sign (t ++ r) = (false, t ++ r).
Proof.
  intros t r Ht Hn. destruct t as [|c t]; [congruence|]. cbn [app]. inversion Ht; subst.
  apply hex_cases in H1. unfold scan_sign.
  destruct c as [|p|p]; try reflexivity.
  do 6 (destruct p as [p|p|]; try reflexivity; try (exfalso; lia)).
Qed.

Lemma scan_hex_text : forall t x r bits, digits 16 t x -> stops r -> no_x r ->
  0 <= x < 2^64 -> scan_hex bits (t ++ r) = Some (x mod 2^bits, r).
Proof.
  intros t x r bits Hd Hs Hx Hr.
  pose proof (digits_all_hex _ _ _ Hd) as Ha. pose proof (digits_nonempty _ _ _ Hd) as Hn.
  unfold scan_hex, scan_int. rewrite skip_space_hex, scan_sign_hex by assumption.
  change (16 =? 10) with false. cbv iota. rewrite scan_0x_none by assumption.
  change (16 =? 16) with true. cbv iota.
  rewrite (digits_scan_stop 16 t x r) by (assumption || lia).
  replace (x >? 2^64 - 1) with false by lia. reflexivity.
Qed.

(** Printing gives digits. *)
Lemma hex_digits_digits : forall fuel n lc, 0 <= n < 16 ^ Z.of_nat fuel -> (0 < fuel)%nat ->
  digits 16 (hex_digits fuel n lc []) n.
Proof.
  induction fuel as [|k IH]; intros n lc Hn Hf; [lia|].
  cbn [hex_digits].
  assert (Hd : hex_digit (dec2hex (n mod 16) lc) (n mod 16)).
  { apply hex2dec_spec, hex2dec_dec2hex. lia. }
  destruct (n / 16 =? 0) eqn:E.
  - replace n with (n mod 16) at 2 by lia. constructor; [assumption|lia].
  - rewrite hex_digits_acc.
    replace n with (n / 16 * 16 + n mod 16) at 3 by lia.
    apply digits_more; [|assumption|lia]. apply IH.
    + rewrite Nat2Z.inj_succ, Z.pow_succ_r in Hn by lia.
      split; [lia|]. apply Z.div_lt_upper_bound; lia.
    + destruct k; [|lia]. change (16 ^ Z.of_nat 1) with 16 in Hn. lia.
Qed.

Lemma print_hex_digits : forall n lc, 0 <= n < 2^32 -> digits 16 (print_hex n lc) n.
Proof. intros n lc H. apply hex_digits_digits; [|lia]. change (16 ^ Z.of_nat 8) with (2^32). lia. Qed.

(** ** Keys *)

Lemma key_low : forall i s, 0 <= i < 2^16 -> 0 <= s < 2^16 ->
  Z.lor (Z.shiftl i 16) s = i * 2^16 + s.
Proof.
  intros i s Hi Hs. rewrite Z.lor_comm, Z.shiftl_mul_pow2 by lia.
  rewrite lor_disjoint_add by lia. lia.
Qed.

Lemma size_index : forall i s, 0 <= i < 2^16 -> 0 <= s < 2^16 ->
  u16 (Z.shiftr (int_to_size (i * 2^16 + s)) 16) = i.
Proof.
  intros i s Hi Hs. unfold int_to_size, u16. rewrite Z.shiftr_div_pow2 by lia.
  change (2^31) with 2147483648. change (2^32) with 4294967296.
  change (2^64) with 18446744073709551616. change (2^16) with 65536 in *.
  destruct (i * 65536 + s <? 2147483648) eqn:E; lia.
Qed.

Lemma size_low : forall i s, 0 <= i < 2^16 -> 0 <= s < 2^16 ->
  Z.land (int_to_size (i * 2^16 + s)) 65535 = s.
Proof.
  intros i s Hi Hs. change 65535 with (2^16 - 1). rewrite land_ones_mod by lia.
  unfold int_to_size.
  change (2^31) with 2147483648. change (2^32) with 4294967296.
  change (2^64) with 18446744073709551616. change (2^16) with 65536 in *.
  destruct (i * 65536 + s <? 2147483648) eqn:E; lia.
Qed.

Lemma mk_key_eq : forall k, okey_ok k ->
  mk_key k = int_to_size (match k with KIndex i => i * 2^16 + 65535 | KSub i s => i * 2^16 + s end).
Proof.
  intros [i|i s] H; cbn [mk_key okey_ok] in *; unfold key_index, key_sub; rewrite key_low by lia; reflexivity.
Qed.

Lemma mk_key_fields : forall k, okey_ok k ->
  key_get_index (mk_key k) = match k with KIndex i => i | KSub i _ => i end /\
  key_hasSub (mk_key k) = match k with KIndex _ => false | KSub _ _ => true end /\
  (forall i s, k = KSub i s -> key_sub_index (mk_key k) = s).
Proof.
  intros k H. rewrite mk_key_eq by assumption. unfold key_get_index, key_hasSub, key_sub_index.
  destruct k as [i|i s]; cbn [okey_ok] in H.
  - rewrite size_index, size_low by lia. repeat split. discriminate.
  - rewrite size_index, size_low by lia. split; [reflexivity|]. split.
    + destruct (s =? 65535) eqn:E; [lia|reflexivity].
    + intros i0 s0 E. injection E as -> ->. unfold u8. apply Z.mod_small. lia.
Qed.

Lemma mk_key_inj : forall k1 k2, okey_ok k1 -> okey_ok k2 -> mk_key k1 = mk_key k2 -> k1 = k2.
Proof.
  intros k1 k2 H1 H2 E.
  destruct (mk_key_fields k1 H1) as (I1 & S1 & B1). destruct (mk_key_fields k2 H2) as (I2 & S2 & B2).
  rewrite E in I1, S1, B1. rewrite I2 in I1. rewrite S2 in S1.
  destruct k1 as [i1|i1 s1], k2 as [i2|i2 s2]; try discriminate; subst; [reflexivity|].
  f_equal. rewrite <- (B1 _ _ eq_refl). apply (B2 _ _ eq_refl).
Qed.

Lemma key_parse_sub : forall ti i ts s, digits 16 ti i -> digits 16 ts s ->
  i < 2^16 -> s < 2^8 -> key_fromString (ti ++ str "sub" ++ ts) = mk_key (KSub i s).
Proof.
  intros ti i ts s Hi Hs Bi Bs. unfold key_fromString.
  pose proof (digits_nonneg 16 _ _ ltac:(lia) Hi). pose proof (digits_nonneg 16 _ _ ltac:(lia) Hs).
  rewrite (scan_hex_text ti i); [|assumption|reflexivity|reflexivity|lia].
  rewrite Z.mod_small by lia. change (match_lit (str "sub") (str "sub" ++ ts)) with (Some ts).
  cbv iota. rewrite <- (app_nil_r ts).
  rewrite (scan_hex_text ts s); [|assumption|exact I|exact I|lia].
  rewrite Z.mod_small by lia. reflexivity.
Qed.

Lemma key_parse_index : forall ti i, digits 16 ti i -> i < 2^16 ->
  key_fromString ti = mk_key (KIndex i).
Proof.
  intros ti i Hi Bi. unfold key_fromString.
  pose proof (digits_nonneg 16 _ _ ltac:(lia) Hi).
  rewrite <- (app_nil_r ti).
  rewrite (scan_hex_text ti i); [|assumption|exact I|exact I|lia].
  rewrite Z.mod_small by lia. reflexivity.
Qed.

Lemma key_round_trip : forall k, okey_ok k -> key_fromString (key_toString (mk_key k)) = mk_key k.
Proof.
  intros k H. destruct (mk_key_fields k H) as (I1 & S1 & B1). unfold key_toString.
  rewrite I1, S1. destruct k as [i|i s]; cbn [okey_ok] in H.
  - rewrite app_nil_r. apply key_parse_index; [apply print_hex_digits|]; lia.
  - rewrite (B1 _ _ eq_refl). apply key_parse_sub; try apply print_hex_digits; lia.
Qed.

Lemma key_text_inj : forall k1 k2, okey_ok k1 -> okey_ok k2 ->
  key_toString (mk_key k1) = key_toString (mk_key k2) -> k1 = k2.
Proof.
  intros k1 k2 H1 H2 E. apply mk_key_inj; try assumption.
  rewrite <- (key_round_trip k1 H1), <- (key_round_trip k2 H2), E. reflexivity.
Qed.

(** ** Numerals *)

Lemma unsigned_numeral_nonneg : forall t x, unsigned_numeral t x -> 0 <= x.
Proof. intros t x H. destruct H; try lia; eapply digits_nonneg; try eassumption; lia. Qed.

(** A numeral is followed by nothing, white space or '+'. *)
Definition ends (r : text) : Prop :=
  match r with [] => True | c :: _ => is_space c = true \/ c = 43 end.

Lemma ends_stops : forall r, ends r -> stops r /\ no_x r.
Proof.
  intros [|c r] H; [split; exact I|]. cbn [ends stops no_x] in *. unfold is_hex, hex2dec, is_space in *.
  split.
  - destruct ((48 <=? c) && (c <=? 57)) eqn:A; [lia|].
    destruct ((97 <=? c) && (c <=? 102)) eqn:B; [lia|].
    destruct ((65 <=? c) && (c <=? 70)) eqn:D; [lia|]. reflexivity.
  - lia.
Qed.

Definition num_start (t : text) : Prop := match t with [] => False | c :: _ => 48 <= c <= 57 end.

Lemma digits10_start : forall t x, digits 10 t x -> num_start t.
Proof.
  intros t x H. induction H as [c d Hc Hd | t x c d Ht IH Hc Hd].
  - apply hex2dec_spec in Hc. cbn [num_start]. unfold hex2dec in Hc.
    repeat match type of Hc with context [if ?b then _ else _] => destruct b eqn:? end;
      try discriminate; injection Hc as <-; lia.
  - destruct t; [destruct IH|exact IH].
Qed.

Lemma numeral_start : forall t x, unsigned_numeral t x -> num_start t.
Proof.
  intros t x H. destruct H; cbn; try lia. eapply digits10_start; eassumption.
Qed.

Lemma num_start_space : forall t, num_start t -> skip_space t = t /\ scan_sign t = (false, t).
Proof.
  intros [|c t] H; [destruct H|]. cbn [num_start] in H. split.
  - cbn [skip_space]. unfold is_space.
    replace ((c =? 32) || (9 <=? c) && (c <=? 13)) with false by lia. reflexivity.
  - unfold scan_sign. destruct c as [|p|p]; try reflexivity.
    do 6 (destruct p as [p|p|]; try reflexivity; try (exfalso; lia)).
Qed.

Lemma scan_unsigned : forall t x r, unsigned_numeral t x -> ends r ->
  (match scan_0x (t ++ r) with
   | Some s2 => scan_digits 16 s2 0 false
   | None => if 0 =? 16 then scan_digits 16 (t ++ r) 0 false
             else match t ++ r with
                  | 48 :: _ => scan_digits 8 (t ++ r) 0 false
                  | _ => scan_digits 10 (t ++ r) 0 false
                  end
   end) = (x, true, r).
Proof.
  intros t x r H Hr. destruct (ends_stops r Hr) as [Hs Hx].
  change (0 =? 16) with false. cbv iota.
  destruct H as [|t x Hd Hh|t x Hd].
  - change (str "0") with [48]. rewrite scan_0x_none; [|repeat constructor; discriminate|discriminate|assumption].
    cbn [app].
    apply (digits_scan_stop 8 [48] 0 r); [lia| |assumption].
    constructor; [|lia]. apply hex2dec_spec. reflexivity.
  - rewrite scan_0x_none; [|eapply digits_all_hex; eassumption|eapply digits_nonempty; eassumption|assumption].
    pose proof (digits_scan_stop 10 t x r ltac:(lia) Hd Hs) as E.
    pose proof (digits10_start _ _ Hd) as Hst.
    destruct t as [|c t]; [destruct Hst|]. cbn [hd num_start app] in *.
    destruct c as [|p|p]; try assumption.
    do 6 (destruct p as [p|p|]; try assumption; try (exfalso; lia)).
  - change (str "0x" ++ t) with (48 :: 120 :: t). cbn [app].
    rewrite scan_0x_some; [|eapply digits_all_hex; eassumption|eapply digits_nonempty; eassumption].
    apply digits_scan_stop; [lia|assumption|assumption].
Qed.

Lemma skip_spaces : forall w t, spaces w -> skip_space (w ++ t) = skip_space t.
Proof.
  induction w as [|c w IH]; intros t H; [reflexivity|]. inversion H; subst. cbn [app skip_space].
  replace (is_space c) with true; [apply IH; assumption|].
  cbn [In] in H2. unfold is_space. destruct H2 as [<-|[<-|[<-|[<-|[<-|[<-|[]]]]]]]; reflexivity.
Qed.

Lemma scan_numeral : forall t x r, numeral t x -> ends r ->
  exists neg v, scan_int 0 (t ++ r) = (neg, v, true, r) /\ 0 <= v /\ x = (if neg then - v else v).
Proof.
  intros t x r H Hr. unfold scan_int. change (0 =? 10) with false. cbv iota.
  destruct H as [t x H|t x H].
  - exists false, x. pose proof (numeral_start _ _ H) as Hst.
    assert (Hst' : num_start (t ++ r)) by (destruct t; [destruct Hst|exact Hst]).
    destruct (num_start_space _ Hst') as [E1 E2]. rewrite E1, E2.
    rewrite (scan_unsigned t x r H Hr). split; [reflexivity|]. split; [|reflexivity].
    eapply unsigned_numeral_nonneg; eassumption.
  - exists true, x. change ((str "-" ++ t) ++ r) with (45 :: (t ++ r)).
    change (skip_space (45 :: t ++ r)) with (45 :: t ++ r).
    change (scan_sign (45 :: t ++ r)) with (true, t ++ r). cbv iota beta.
    rewrite (scan_unsigned t x r H Hr). split; [reflexivity|]. split; [|reflexivity].
    eapply unsigned_numeral_nonneg; eassumption.
Qed.

Lemma wrap_mod : forall T x y, x mod 2^(i_bits T) = y mod 2^(i_bits T) -> wrap T x = wrap T y.
Proof. intros T x y H. unfold wrap. rewrite H. reflexivity. Qed.

Lemma int_type_bits : forall T, int_type T -> In (i_bits T) [8; 16; 32; 64].
Proof. intros T [H|[H|[H|[H|[]]]]]; unfold i_bits; rewrite <- H; cbn; tauto. Qed.

Lemma mod64 : forall T x, int_type T -> (x mod 2^64) mod 2^(i_bits T) = x mod 2^(i_bits T).
Proof.
  intros T x H. apply int_type_bits in H.
  destruct H as [H|[H|[H|[H|[]]]]]; rewrite <- H.
  - change (2^64) with 18446744073709551616. change (2^8) with 256. lia.
  - change (2^64) with 18446744073709551616. change (2^16) with 65536. lia.
  - change (2^64) with 18446744073709551616. change (2^32) with 4294967296. lia.
  - apply Z.mod_mod. lia.
Qed.

Lemma int_from_numeral : forall T t x r, int_type T -> numeral t x -> ends r -> parsable T x ->
  int_from_string T (t ++ r) = wrap T x.
Proof.
  intros T t x r HT H Hr Hp. destruct (scan_numeral t x r H Hr) as (neg & v & E & Hv & Hx).
  unfold int_from_string, parsable in *. destruct (i_signed T) eqn:ES.
  - f_equal. unfold strtol. rewrite E. subst x. destruct neg; lia.
  - apply wrap_mod. unfold strtoul. rewrite E. subst x.
    replace (v >? 2^64 - 1) with false by (destruct neg; lia).
    destruct neg; [apply mod64; assumption|reflexivity].
Qed.

Lemma in_type_wrap : forall T x, int_type T -> in_type T (wrap T x) /\ congruent T (wrap T x) x.
Proof.
  intros T x HT. unfold in_type, congruent, wrap. fold (i_bits T).
  apply int_type_bits in HT.
  assert (E : 2 * 2^(i_bits T - 1) = 2^(i_bits T)).
  { destruct HT as [H|[H|[H|[H|[]]]]]; rewrite <- H; reflexivity. }
  assert (P : 0 < 2^(i_bits T - 1)) by (destruct HT as [H|[H|[H|[H|[]]]]]; rewrite <- H; reflexivity).
  pose proof (Z.mod_pos_bound x (2^(i_bits T)) ltac:(lia)).
  pose proof (Z.div_mod x (2^(i_bits T)) ltac:(lia)).
  set (m := x mod 2^(i_bits T)) in *. set (q := x / 2^(i_bits T)) in *.
  split.
  - destruct (i_signed T); cbn [andb]; [destruct (2^(i_bits T - 1) <=? m) eqn:L|]; lia.
  - assert (C : exists k, (if i_signed T && (2^(i_bits T - 1) <=? m) then m - 2^(i_bits T) else m) - x
                       = k * 2^(i_bits T)).
    { destruct (i_signed T && (2^(i_bits T - 1) <=? m)).
      - exists (- q - 1). lia.
      - exists (- q). lia. }
    destruct C as [k ->]. apply Z.mod_mul. lia.
Qed.

Lemma in_type_unique : forall T x y z, int_type T -> in_type T x -> in_type T y ->
  congruent T x z -> congruent T y z -> x = y.
Proof.
  intros T x y z HT Hx Hy Cx Cy. unfold in_type, congruent in *. fold (i_bits T) in *.
  apply int_type_bits in HT.
  assert (E : 2 * 2^(i_bits T - 1) = 2^(i_bits T)).
  { destruct HT as [H|[H|[H|[H|[]]]]]; rewrite <- H; reflexivity. }
  assert (P : 0 < 2^(i_bits T - 1)) by (destruct HT as [H|[H|[H|[H|[]]]]]; rewrite <- H; reflexivity).
  apply Z.mod_divide in Cx; [|lia]. apply Z.mod_divide in Cy; [|lia].
  destruct Cx as [a Ha], Cy as [b Hb].
  assert (D : x - y = (a - b) * 2^(i_bits T)) by lia.
  assert (R : - 2^(i_bits T) < x - y < 2^(i_bits T)) by (destruct (i_signed T); lia).
  set (M := 2^(i_bits T)) in *. clearbody M. clear - D R E P.
  assert (M > 0) by lia.
  assert (a - b = 0).
  { destruct (Z.eq_dec (a - b) 0) as [|N]; [assumption|].
    assert (C : a - b <= -1 \/ 1 <= a - b) by lia. destruct C; nia. }
  nia.
Qed.

Lemma wrap_in : forall T x, int_type T -> in_type T x -> wrap T x = x.
Proof.
  intros T x HT H. destruct (in_type_wrap T x HT) as [A B].
  apply (in_type_unique T _ _ x HT A H B). unfold congruent.
  replace (x - x) with 0 by lia. apply Z.mod_0_l.
  apply int_type_bits in HT. unfold i_bits in HT.
  destruct HT as [E|[E|[E|[E|[]]]]]; rewrite <- E; discriminate.
Qed.

(** ** trim *)

Lemma drop_space_all : forall w, spaces w -> drop_space_end w = [].
Proof.
  induction w as [|c w IH]; intros H; [reflexivity|]. inversion H; subst. cbn [drop_space_end].
  rewrite IH by assumption.
  cbn [In] in H2. unfold is_space. destruct H2 as [<-|[<-|[<-|[<-|[<-|[<-|[]]]]]]]; reflexivity.
Qed.

Lemma drop_space_app : forall t w c, spaces w -> is_space c = false ->
  drop_space_end ((t ++ [c]) ++ w) = t ++ [c].
Proof.
  induction t as [|a t IH]; intros w c Hw Hc.
  - cbn [app drop_space_end]. rewrite drop_space_all by assumption. rewrite Hc. reflexivity.
  - cbn [app drop_space_end]. rewrite IH by assumption.
    destruct (t ++ [c]) eqn:E; [destruct t; discriminate|reflexivity].
Qed.

(** A text whose first and last characters are not white space. *)
Definition trimmed (t : text) : Prop :=
  match t with [] => False | a :: _ => is_space a = false end /\
  exists u c, t = u ++ [c] /\ is_space c = false.

Lemma trim_trimmed : forall w1 t w2, spaces w1 -> spaces w2 -> trimmed t ->
  trim (w1 ++ t ++ w2) = t.
Proof.
  intros w1 t w2 H1 H2 [Ha (u & c & -> & Hc)]. unfold trim. rewrite skip_spaces by assumption.
  assert (E : skip_space ((u ++ [c]) ++ w2) = (u ++ [c]) ++ w2).
  { destruct u as [|a u]; cbn [app skip_space] in *; [rewrite Hc|rewrite Ha]; reflexivity. }
  rewrite E. apply drop_space_app; assumption.
Qed.

Lemma unsigned_numeral_chars : forall t x, unsigned_numeral t x ->
  Forall (fun c => 48 <= c <= 57 \/ 97 <= c <= 102 \/ 65 <= c <= 70 \/ c = 120) t.
Proof.
  intros t x H.
  assert (G : forall u, all_hex u -> Forall (fun c => 48 <= c <= 57 \/ 97 <= c <= 102 \/ 65 <= c <= 70 \/ c = 120) u).
  { intros u Hu. eapply Forall_impl; [|exact Hu]. intros a Ha. cbn beta in Ha.
    apply hex_cases in Ha. tauto. }
  destruct H.
  - change (str "0") with [48]. constructor; [lia|constructor].
  - apply G. eapply digits_all_hex; eassumption.
  - change (str "0x" ++ t) with (48 :: 120 :: t). constructor; [lia|]. constructor; [lia|].
    apply G. eapply digits_all_hex; eassumption.
Qed.

Definition num_char (c : Z) : Prop := 48 <= c <= 57 \/ 97 <= c <= 102 \/ 65 <= c <= 70 \/ c = 120 \/ c = 45.

Lemma numeral_chars : forall t x, numeral t x -> Forall num_char t /\ t <> [].
Proof.
  intros t x H. destruct H as [t x H|t x H]; pose proof (unsigned_numeral_chars _ _ H) as C;
    pose proof (numeral_start _ _ H) as S.
  - split; [|destruct t; [destruct S|discriminate]].
    eapply Forall_impl; [|exact C]. unfold num_char. intros; cbn beta in *; lia.
  - split; [|discriminate]. change (str "-" ++ t) with (45 :: t). constructor; [unfold num_char; lia|].
    eapply Forall_impl; [|exact C]. unfold num_char. intros; cbn beta in *; lia.
Qed.

Lemma num_char_trimmed : forall t, Forall num_char t -> t <> [] -> trimmed t.
Proof.
  intros t H Hn. assert (G : forall c, num_char c -> is_space c = false)
    by (unfold num_char, is_space; intros; lia).
  split.
  - destruct t; [congruence|]. inversion H; subst. apply G. assumption.
  - destruct (exists_last Hn) as (u & c & ->). exists u, c. split; [reflexivity|].
    apply Forall_app in H. destruct H as [_ H]. inversion H; subst. apply G. assumption.
Qed.

Lemma word_chars : forall w, nodeid_word w ->
  exists c1 c2 c3 c4 c5 c6, w = [36; c1; c2; c3; c4; c5; c6] /\
  (c1 = 110 \/ c1 = 78) /\ (c2 = 111 \/ c2 = 79) /\ (c3 = 100 \/ c3 = 68) /\
  (c4 = 101 \/ c4 = 69) /\ (c5 = 105 \/ c5 = 73) /\ (c6 = 100 \/ c6 = 68).
Proof.
  intros w H. unfold nodeid_word in H. change (str "$nodeid") with [36; 110; 111; 100; 101; 105; 100] in H.
  repeat match goal with X : Forall2 _ _ (_ :: _) |- _ => inversion X; clear X; subst end.
  match goal with X : Forall2 _ _ [] |- _ => inversion X; clear X; subst end.
  do 6 eexists. split.
  - match goal with |- ?a :: _ = _ => replace a with 36 by lia end. reflexivity.
  - repeat split; lia.
Qed.

Lemma word_istarts : forall w r, nodeid_word w -> istarts_with (w ++ r) (str "$NODEID") = true.
Proof.
  intros w r H. destruct (word_chars w H) as (c1&c2&c3&c4&c5&c6&->&H1&H2&H3&H4&H5&H6).
  destruct H1, H2, H3, H4, H5, H6; subst; reflexivity.
Qed.

Lemma word_iends : forall w r, nodeid_word w -> iends_with (r ++ w) (str "$NODEID") = true.
Proof.
  intros w r H. unfold iends_with. rewrite rev_app_distr.
  destruct (word_chars w H) as (c1&c2&c3&c4&c5&c6&->&H1&H2&H3&H4&H5&H6).
  destruct H1, H2, H3, H4, H5, H6; subst; reflexivity.
Qed.

Lemma word_trimmed : forall w, nodeid_word w ->
  (exists t, w = 36 :: t /\ List.length w = 7%nat) /\ exists u c, w = u ++ [c] /\ is_space c = false.
Proof.
  intros w H. destruct (word_chars w H) as (c1&c2&c3&c4&c5&c6&->&H1&H2&H3&H4&H5&H6). split.
  - eexists. split; reflexivity.
  - exists [36; c1; c2; c3; c4; c5], c6. split; [reflexivity|]. unfold is_space. destruct H6; subst; reflexivity.
Qed.

Lemma spaces_no_plus : forall w, spaces w -> ~ In 43 w.
Proof.
  intros w H Hin. unfold spaces in H. rewrite Forall_forall in H. specialize (H _ Hin).
  cbn [In] in H. lia.
Qed.

Lemma not_istarts : forall t, match t with [] => True | c :: _ => c <> 36 end ->
  istarts_with t (str "$NODEID") = false.
Proof.
  intros [|c t] H; [reflexivity|]. change (str "$NODEID") with (36 :: str "NODEID").
  cbn [istarts_with]. replace (lower 36 =? lower c) with false; [reflexivity|].
  symmetry. apply Z.eqb_neq. unfold lower.
  destruct ((65 <=? 36) && (36 <=? 90)) eqn:A; [lia|].
  destruct ((65 <=? c) && (c <=? 90)) eqn:B; lia.
Qed.

Lemma istarts_in : forall pre s c, istarts_with s pre = true -> In c pre -> lower c = c ->
  exists c', In c' s /\ lower c' = c.
Proof.
  induction pre as [|p pre IH]; intros s c H Hin Hl; [destruct Hin|].
  destruct s as [|a s]; [discriminate|]. cbn [istarts_with] in H. apply andb_prop in H.
  destruct H as [H1 H2]. destruct Hin as [->|Hin].
  - exists a. split; [left; reflexivity|]. apply Z.eqb_eq in H1. congruence.
  - destruct (IH s c H2 Hin Hl) as (c' & A & B). exists c'. split; [right; assumption|assumption].
Qed.

Lemma not_iends : forall t, ~ In 36 t -> iends_with t (str "$NODEID") = false.
Proof.
  intros t H. destruct (iends_with t (str "$NODEID")) eqn:E; [|reflexivity].
  exfalso. apply H. unfold iends_with in E.
  destruct (istarts_in _ _ 36 E) as (c & A & B); [cbn; tauto|reflexivity|].
  apply in_rev in A. unfold lower in B.
  destruct ((65 <=? c) && (c <=? 90)) eqn:L; [lia|]. subst c. assumption.
Qed.

Lemma parse_offset_right : forall T t x w0 word w1 w2 w3,
  int_type T -> numeral t x -> parsable T x -> nodeid_word word ->
  spaces w0 -> spaces w1 -> spaces w2 -> spaces w3 ->
  parse_int T (w0 ++ (word ++ w1 ++ [43] ++ w2 ++ t) ++ w3) = Offset (wrap T x).
Proof.
  intros T t x w0 word w1 w2 w3 HT Hn Hp Hw H0 H1 H2 H3.
  destruct (numeral_chars t x Hn) as [Hc Hne].
  pose proof (num_char_trimmed t Hc Hne) as [Ht1 Ht2].
  destruct (word_trimmed word Hw) as [(wt & Ew & Lw) _].
  unfold parse_int. rewrite trim_trimmed; [|assumption|assumption|].
  2:{ split.
      - rewrite Ew. reflexivity.
      - destruct Ht2 as (u & c & -> & Hcs). exists (word ++ w1 ++ [43] ++ w2 ++ u), c.
        split; [rewrite <- !app_assoc; reflexivity|assumption]. }
  rewrite word_istarts by assumption.
  replace (skipn 7 (word ++ w1 ++ [43] ++ w2 ++ t)) with (w1 ++ 43 :: (w2 ++ t)).
  2:{ rewrite skipn_app, skipn_all2 by lia. rewrite Lw. reflexivity. }
  unfold after_plus. rewrite split_at_app by (apply spaces_no_plus; assumption).
  f_equal. rewrite <- (app_nil_r t) at 1. rewrite trim_trimmed; [|assumption|constructor|split; assumption].
  rewrite <- (app_nil_r t). apply int_from_numeral; try assumption. exact I.
Qed.

Lemma parse_offset_left : forall T t x w0 word w1 w2 w3,
  int_type T -> numeral t x -> parsable T x -> nodeid_word word ->
  spaces w0 -> spaces w1 -> spaces w2 -> spaces w3 ->
  parse_int T (w0 ++ (t ++ w1 ++ [43] ++ w2 ++ word) ++ w3) = Offset (wrap T x).
Proof.
  intros T t x w0 word w1 w2 w3 HT Hn Hp Hw H0 H1 H2 H3.
  destruct (numeral_chars t x Hn) as [Hc Hne].
  pose proof (num_char_trimmed t Hc Hne) as [Ht1 Ht2].
  destruct (word_trimmed word Hw) as [_ (wu & wc & Ew & Hwc)].
  unfold parse_int. rewrite trim_trimmed; [|assumption|assumption|].
  2:{ split.
      - destruct t; [congruence|]. exact Ht1.
      - rewrite Ew. exists (t ++ w1 ++ [43] ++ w2 ++ wu), wc. split; [rewrite <- !app_assoc; reflexivity|assumption]. }
  rewrite not_istarts.
  2:{ destruct t as [|c t]; [congruence|]. cbn [app]. inversion Hc; subst. unfold num_char in *. lia. }
  replace (t ++ w1 ++ [43] ++ w2 ++ word) with ((t ++ w1 ++ [43] ++ w2) ++ word) by (rewrite <- !app_assoc; reflexivity).
  rewrite word_iends by assumption. f_equal.
  unfold upto_plus.
  replace ((t ++ w1 ++ [43] ++ w2) ++ word) with ((t ++ w1) ++ 43 :: (w2 ++ word)) by (rewrite <- !app_assoc; reflexivity).
  rewrite split_at_app.
  2:{ intro Hin. apply in_app_or in Hin. destruct Hin as [Hin|Hin].
      - rewrite Forall_forall in Hc. specialize (Hc _ Hin). unfold num_char in Hc. lia.
      - exact (spaces_no_plus _ H1 Hin). }
  replace ((t ++ w1) ++ [43]) with ([] ++ (t ++ w1 ++ [43]) ++ []) by (rewrite app_nil_r, <- app_assoc; reflexivity).
  rewrite trim_trimmed; [|constructor|constructor|].
  2:{ split; [destruct t; [congruence|exact Ht1]|].
      exists (t ++ w1), 43. split; [rewrite <- app_assoc; reflexivity|reflexivity]. }
  apply int_from_numeral; try assumption.
  destruct w1 as [|c w1]; [right; reflexivity|]. left.
  inversion H1; subst. cbn [In] in H5. unfold is_space.
  destruct H5 as [<-|[<-|[<-|[<-|[<-|[<-|[]]]]]]]; reflexivity.
Qed.

Lemma parse_plain : forall T t x w0 w1,
  int_type T -> numeral t x -> parsable T x -> spaces w0 -> spaces w1 ->
  parse_int T (w0 ++ t ++ w1) = Plain (wrap T x).
Proof.
  intros T t x w0 w1 HT Hn Hp H0 H1.
  destruct (numeral_chars t x Hn) as [Hc Hne].
  unfold parse_int. rewrite trim_trimmed; [|assumption|assumption|apply num_char_trimmed; assumption].
  rewrite not_istarts.
  2:{ destruct t as [|c t]; [congruence|]. inversion Hc; subst. unfold num_char in *. lia. }
  rewrite not_iends.
  2:{ intro Hin. rewrite Forall_forall in Hc. specialize (Hc _ Hin). unfold num_char in Hc. lia. }
  f_equal. rewrite <- (app_nil_r t). apply int_from_numeral; try assumption. exact I.
Qed.

Lemma bare_nodeid : forall T word w0 w1, int_type T -> nodeid_word word -> spaces w0 -> spaces w1 ->
  parse_int T (w0 ++ word ++ w1) = Offset (wrap T 0).
Proof.
  intros T word w0 w1 HT Hw H0 H1.
  destruct (word_trimmed word Hw) as [(wt & Ew & Lw) Hlast].
  unfold parse_int. rewrite trim_trimmed; [|assumption|assumption|].
  2:{ split; [rewrite Ew; reflexivity|assumption]. }
  rewrite <- (app_nil_r word), word_istarts by assumption. rewrite app_nil_r.
  rewrite skipn_all2 by lia. cbn [after_plus split_at].
  destruct (word_chars word Hw) as (c1&c2&c3&c4&c5&c6&->&G1&G2&G3&G4&G5&G6).
  f_equal. unfold int_from_string.
  assert (E : scan_int 0 (trim [36; c1; c2; c3; c4; c5; c6]) = (false, 0, false, [36; c1; c2; c3; c4; c5; c6])).
  { destruct G1, G2, G3, G4, G5, G6; subst; reflexivity. }
  unfold strtol, strtoul. rewrite E. destruct (i_signed T); reflexivity.
Qed.

Lemma offset_value : forall T x u y, int_type T -> 0 <= u < 256 ->
  in_type T y -> congruent T y (x + u) ->
  (i_signed T = true -> 4 <= i_size T -> in_type T (wrap T x + u)) ->
  apply_offset T (Offset (wrap T x)) u = Ok y.
Proof.
  intros T x u y HT Hu Hy Hc Hov. cbn [apply_offset]. unfold add_offset.
  replace (i_signed T && (4 <=? i_size T) && negb (u + wrap T x <? 2^(i_bits T - 1))) with false.
  2:{ destruct (i_signed T) eqn:S; [|reflexivity]. destruct (4 <=? i_size T) eqn:L; [|reflexivity].
      specialize (Hov eq_refl ltac:(lia)). unfold in_type in Hov. rewrite S in Hov. fold (i_bits T) in Hov.
      cbn [andb]. lia. }
  f_equal. destruct (in_type_wrap T (u + wrap T x) HT) as [A B].
  apply (in_type_unique T _ _ (x + u) HT A Hy); [|assumption].
  destruct (in_type_wrap T x HT) as [_ C].
  unfold congruent in *.
  assert (P : 2^(8 * i_size T) <> 0).
  { apply int_type_bits in HT. unfold i_bits in HT. destruct HT as [E|[E|[E|[E|[]]]]]; rewrite <- E; discriminate. }
  apply Z.mod_divide in B; [|assumption]. apply Z.mod_divide in C; [|assumption].
  apply Z.mod_divide; [assumption|].
  replace (wrap T (u + wrap T x) - (x + u)) with ((wrap T (u + wrap T x) - (u + wrap T x)) + (wrap T x - x)) by lia.
  apply Z.divide_add_r; assumption.
Qed.
