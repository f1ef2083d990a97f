From Verif Require Import Base CanModel CanSpec.

(** ** Hex digits *)

Lemma hex2dec_range : forall c v, hex2dec c = Some v -> 0 <= v < 16.
Proof.
  unfold hex2dec. intros c v.
  destruct ((48 <=? c) && (c <=? 57)) eqn:A.
  { intro H; inversion H; lia. }
  destruct ((97 <=? c) && (c <=? 102)) eqn:B.
  { intro H; inversion H; lia. }
  destruct ((65 <=? c) && (c <=? 70)) eqn:C.
  { intro H; inversion H; lia. }
  discriminate.
Qed.

Definition opt_eqb (a : option Z) (b : Z) : bool :=
  match a with Some x => x =? b | None => false end.

Lemma hex2dec_spec : forall c v, hex2dec c = Some v <-> hex_digit c v.
Proof.
  intros c v. split.
  - intro H. pose proof (hex2dec_range _ _ H) as R. split; [lia|].
    assert (Hc : (48 <= c <= 57 /\ v = c - 48) \/ (97 <= c <= 102 /\ v = c - 87)
                 \/ (65 <= c <= 70 /\ v = c - 55)).
    { unfold hex2dec in H.
      destruct ((48 <=? c) && (c <=? 57)) eqn:A; [inversion H; lia|].
      destruct ((97 <=? c) && (c <=? 102)) eqn:B; [inversion H; lia|].
      destruct ((65 <=? c) && (c <=? 70)) eqn:C; [inversion H; lia|discriminate]. }
    assert (T : forall x, 0 <= x < 16 ->
       (nth_error (str "0123456789abcdef") (Z.to_nat x) = Some (if x <? 10 then 48 + x else 87 + x)) /\
       (nth_error (str "0123456789ABCDEF") (Z.to_nat x) = Some (if x <? 10 then 48 + x else 55 + x))).
    { intros x Hx.
      pose proof (forall_range 16 (fun x =>
        opt_eqb (nth_error (str "0123456789abcdef") (Z.to_nat x)) (if x <? 10 then 48 + x else 87 + x) &&
        opt_eqb (nth_error (str "0123456789ABCDEF") (Z.to_nat x)) (if x <? 10 then 48 + x else 55 + x)) eq_refl x Hx) as E.
      cbv beta in E. apply andb_true_iff in E. destruct E as [E1 E2].
      destruct (nth_error (str "0123456789abcdef") (Z.to_nat x)); [|discriminate].
      destruct (nth_error (str "0123456789ABCDEF") (Z.to_nat x)); [|discriminate].
      unfold opt_eqb in *. split; f_equal; lia. }
    destruct (T v R) as [T1 T2]. rewrite T1, T2.
    destruct Hc as [[Hc ->]|[[Hc ->]|[Hc ->]]].
    + left. f_equal. destruct (Z.ltb_spec (c - 48) 10); lia.
    + left. f_equal. destruct (Z.ltb_spec (c - 87) 10); lia.
    + right. f_equal. destruct (Z.ltb_spec (c - 55) 10); lia.
  - intros [Hv H].
    assert (R : v < 16).
    { destruct H as [H|H]; assert (K := H);
      apply (f_equal (fun o => match o with Some _ => true | None => false end)) in K;
      destruct (Z.ltb_spec v 16); auto;
      rewrite (proj2 (nth_error_None _ _)) in H by (simpl; lia); discriminate. }
    pose proof (forall_range 16 (fun x =>
       match nth_error (str "0123456789abcdef") (Z.to_nat x) with Some c => opt_eqb (hex2dec c) x | None => false end &&
       match nth_error (str "0123456789ABCDEF") (Z.to_nat x) with Some c => opt_eqb (hex2dec c) x | None => false end)
       eq_refl v (conj Hv R)) as E.
    cbv beta in E. apply andb_true_iff in E. destruct E as [E1 E2].
    destruct H as [H|H]; rewrite H in *.
    + destruct (hex2dec c); [|discriminate]. unfold opt_eqb in *. f_equal. lia.
    + destruct (hex2dec c); [|discriminate]. unfold opt_eqb in *. f_equal. lia.
Qed.

Lemma hex2dec_dec2hex : forall d lc, 0 <= d < 16 -> hex2dec (dec2hex d lc) = Some d.
Proof.
  intros d lc Hd.
  pose proof (forall_range 16 (fun d => opt_eqb (hex2dec (dec2hex d true)) d
     && opt_eqb (hex2dec (dec2hex d false)) d) eq_refl d Hd) as E.
  cbv beta in E. apply andb_true_iff in E. destruct E as [E1 E2].
  destruct lc.
  - destruct (hex2dec (dec2hex d true)); [|discriminate]. unfold opt_eqb in *. f_equal. lia.
  - destruct (hex2dec (dec2hex d false)); [|discriminate]. unfold opt_eqb in *. f_equal. lia.
Qed.

Lemma nibbles : forall hi lo, 0 <= lo < 16 ->
  Z.lor (Z.shiftl hi 4) lo = 16 * hi + lo.
Proof.
  intros. rewrite shiftl_mul by lia. rewrite Z.lor_comm.
  rewrite (lor_disjoint_add 4) by lia. lia.
Qed.

(** ** Byte codec *)

Lemma byte2hex_pad : forall b lc, byte_ok b ->
  byte2hex b true lc = [dec2hex (b / 16) lc; dec2hex (b mod 16) lc].
Proof.
  intros b lc Hb. unfold byte2hex. rewrite orb_true_r.
  rewrite shiftr_div by lia. change 15 with (2^4 - 1).
  rewrite land_ones_mod by lia. reflexivity.
Qed.

Lemma hex2buffer_loop_buffer2hex : forall bs lc, bytes_ok bs ->
  hex2buffer_loop (buffer2hex bs lc) = Some bs.
Proof.
  induction bs as [|b bs IH]; intros lc H; [reflexivity|].
  inversion H; subst. cbn [buffer2hex]. rewrite byte2hex_pad by assumption.
  unfold byte_ok in *. cbn [app hex2buffer_loop].
  rewrite !hex2dec_dec2hex by lia. rewrite IH by assumption.
  rewrite nibbles by lia. f_equal. f_equal. lia.
Qed.

Lemma buffer2hex_length : forall bs lc, bytes_ok bs ->
  List.length (buffer2hex bs lc) = (2 * List.length bs)%nat.
Proof.
  induction bs as [|b bs IH]; intros lc H; [reflexivity|].
  inversion H; subst. cbn [buffer2hex]. rewrite byte2hex_pad by assumption.
  cbn [app List.length]. rewrite IH by assumption. lia.
Qed.

Lemma hex2buffer_buffer2hex : forall bs lc pad, bytes_ok bs ->
  hex2buffer (buffer2hex bs lc) pad = Some bs.
Proof.
  intros. unfold hex2buffer. rewrite buffer2hex_length by assumption.
  replace (Z.of_nat (2 * List.length bs) mod 2 =? 0) with true by lia.
  cbn [negb]. apply hex2buffer_loop_buffer2hex. assumption.
Qed.

Lemma list_ind2 : forall (A : Type) (P : list A -> Prop),
  P [] -> (forall a, P [a]) -> (forall a b l, P l -> P (a :: b :: l)) ->
  forall l, P l.
Proof.
  intros A P H0 H1 H2. fix F 1. intros [|a [|b l]].
  - exact H0.
  - apply H1.
  - apply H2, F.
Qed.

Lemma hex2buffer_loop_spec : forall t bs,
  (Z.of_nat (List.length t)) mod 2 = 0 ->
  hex2buffer_loop t = Some bs <-> hex_text t bs.
Proof.
  induction t as [|a|a b t IH] using list_ind2; intros bs E.
  - cbn. split; intro H; inversion H; constructor.
  - cbn in E. lia.
  - assert (E' : Z.of_nat (List.length t) mod 2 = 0) by (cbn [List.length] in E; lia).
    cbn [hex2buffer_loop]. split.
    + destruct (hex2dec a) as [hi|] eqn:Ha; [|discriminate].
      destruct (hex2dec b) as [lo|] eqn:Hb; [|discriminate].
      destruct (hex2buffer_loop t) as [out|] eqn:Ht; [|discriminate].
      rewrite nibbles by (eapply hex2dec_range; eauto).
      intro H. injection H as <-.
      constructor; [apply hex2dec_spec; assumption|apply hex2dec_spec; assumption|].
      apply IH; auto.
    + intro H. inversion H as [|? ? hi lo ? bs' Ha Hb Ht]; subst.
      apply hex2dec_spec in Ha. apply hex2dec_spec in Hb.
      rewrite Ha, Hb. apply IH in Ht; auto. rewrite Ht.
      rewrite nibbles by (eapply hex2dec_range; eauto). reflexivity.
Qed.

Lemma hex_text_even : forall t bs, hex_text t bs ->
  List.length t = (2 * List.length bs)%nat.
Proof. induction 1; cbn [List.length]; lia. Qed.

Lemma hex2buffer_strict : forall t bs,
  hex2buffer t false = Some bs <-> hex_text t bs.
Proof.
  intros. unfold hex2buffer.
  destruct (Z.eqb_spec (Z.of_nat (List.length t) mod 2) 0).
  - apply hex2buffer_loop_spec. assumption.
  - cbn [negb]. split; [discriminate|]. intro H. apply hex_text_even in H. lia.
Qed.

Lemma hex2buffer_padded : forall t bs,
  hex2buffer t true = Some bs <->
  (exists p, (p = t \/ (Z.odd (Z.of_nat (List.length t)) = true /\ p = str "0" ++ t)) /\ hex_text p bs).
Proof.
  intros. unfold hex2buffer.
  destruct (Z.eqb_spec (Z.of_nat (List.length t) mod 2) 0).
  - cbn [negb]. rewrite hex2buffer_loop_spec by assumption. split.
    + intro H. exists t. auto.
    + intros [p [[->|[O ->]] H]]; auto.
      rewrite Zodd_mod in O. apply Zeq_bool_eq in O. lia.
  - cbn [negb]. rewrite hex2buffer_loop_spec by (cbn [List.length]; lia). split.
    + intro H. exists (48 :: t). split; auto. right. split; auto.
      rewrite Zodd_mod. apply Zeq_is_eq_bool. lia.
    + intros [p [[->|[O ->]] H]]; [|exact H].
      apply hex_text_even in H. lia.
Qed.

(** ** Header words *)

Lemma fullid_sum : forall h, header_ok h ->
  fullid h = h_id h + b2z (h_err h) * 2^29 + b2z (h_rtr h) * 2^30 + b2z (h_ext h) * 2^31.
Proof.
  intros [i e r x] H. unfold header_ok in H. cbn [h_id] in H.
  unfold fullid, ERROR_MASK, RTR_MASK, EXTENDED_MASK. cbn [h_id h_ext h_rtr h_err].
  replace (if x then 2^29 else 0) with (b2z x * 2^29) by (destruct x; reflexivity).
  replace (if r then 2^30 else 0) with (b2z r * 2^30) by (destruct r; reflexivity).
  replace (if e then 2^31 else 0) with (b2z e * 2^31) by (destruct e; reflexivity).
  rewrite (lor_disjoint_add 29) by lia.
  rewrite (lor_disjoint_add 30) by (destruct x; cbn [b2z]; lia).
  rewrite (lor_disjoint_add 31) by (destruct x, r; cbn [b2z]; lia).
  reflexivity.
Qed.

Definition word (h : header) : Z := h_id h + b2z (h_err h) * 2^29 + b2z (h_rtr h) * 2^30.

Lemma fullid_noext : forall h, header_ok h ->
  Z.land (fullid h) (Z.ldiff (2^32 - 1) EXTENDED_MASK) = word h.
Proof.
  intros h H. change (Z.ldiff (2^32 - 1) EXTENDED_MASK) with (2^31 - 1).
  rewrite land_ones_mod by lia. rewrite fullid_sum by assumption.
  unfold header_ok in H. unfold word.
  destruct (h_err h), (h_rtr h), (h_ext h); cbn [b2z]; lia.
Qed.

Lemma word_range : forall h, header_ok h -> 0 <= word h < 2^31.
Proof.
  intros h H. unfold header_ok in H. unfold word.
  destruct (h_err h), (h_rtr h); cbn [b2z]; lia.
Qed.

(** ** Printing and reading hexadecimal numbers *)

Definition all_hex (t : text) : Prop := Forall (fun c => hex2dec c <> None) t.

Lemma hex_digits_hex : forall fuel n lc acc, 0 <= n -> all_hex acc -> all_hex (hex_digits fuel n lc acc).
Proof.
  induction fuel; intros n lc acc Hn H; cbn [hex_digits]; auto.
  assert (all_hex (dec2hex (n mod 16) lc :: acc)).
  { constructor; auto. rewrite hex2dec_dec2hex by lia. discriminate. }
  destruct (n / 16 =? 0); auto. apply IHfuel; [lia|auto].
Qed.

Lemma take_hex_digits : forall fuel n lc acc any,
  0 <= n < 16 ^ Z.of_nat fuel ->
  fuel <> O ->
  take_hex (hex_digits fuel n lc acc) 0 any = take_hex acc n true.
Proof.
  induction fuel; intros n lc acc any Hn Hf; [congruence|].
  cbn [hex_digits].
  destruct (Z.eqb_spec (n / 16) 0).
  - cbn [take_hex]. rewrite hex2dec_dec2hex by lia. f_equal. lia.
  - rewrite IHfuel.
    + cbn [take_hex]. rewrite hex2dec_dec2hex by lia. f_equal. lia.
    + rewrite Nat2Z.inj_succ, Z.pow_succ_r in Hn by lia. lia.
    + intro; subst. cbn in Hn. lia.
Qed.

Lemma hex_digits_len : forall fuel n lc acc,
  (List.length (hex_digits fuel n lc acc) <= List.length acc + fuel)%nat.
Proof.
  induction fuel; intros; cbn [hex_digits]; [lia|].
  destruct (n / 16 =? 0); cbn [List.length]; [lia|].
  etransitivity; [apply IHfuel|]. cbn [List.length]. lia.
Qed.

Lemma print_hex_len8 : forall n lc, (List.length (print_hex n lc) <= 8)%nat.
Proof. intros. unfold print_hex. etransitivity; [apply hex_digits_len|]. cbn. lia. Qed.

Lemma hex_digits_acc : forall fuel n lc acc,
  hex_digits fuel n lc acc = hex_digits fuel n lc [] ++ acc.
Proof.
  induction fuel; intros; cbn [hex_digits]; [reflexivity|].
  destruct (n / 16 =? 0); [reflexivity|].
  rewrite IHfuel. rewrite (IHfuel _ _ [_]). rewrite <- app_assoc. reflexivity.
Qed.

(** A number of at least 16^k has more than k digits. *)
Lemma hex_digits_long : forall fuel n lc acc k,
  (k < fuel)%nat -> 16 ^ Z.of_nat k <= n ->
  (k + 1 + List.length acc <= List.length (hex_digits fuel n lc acc))%nat.
Proof.
  induction fuel; intros n lc acc k Hk Hn; [lia|].
  cbn [hex_digits].
  destruct (Z.eqb_spec (n / 16) 0).
  - destruct k; [cbn [List.length]; lia|].
    rewrite Nat2Z.inj_succ, Z.pow_succ_r in Hn by lia.
    assert (0 < 16 ^ Z.of_nat k) by (apply Z.pow_pos_nonneg; lia). lia.
  - destruct k.
    + rewrite hex_digits_acc, app_length. cbn [List.length]. lia.
    + rewrite Nat2Z.inj_succ, Z.pow_succ_r in Hn by lia.
      specialize (IHfuel (n / 16) lc (dec2hex (n mod 16) lc :: acc) k).
      cbn [List.length] in IHfuel. lia.
Qed.

Lemma hex_not_space : forall c, hex2dec c <> None -> is_space c = false.
Proof.
  intros c H. unfold hex2dec in H. unfold is_space.
  destruct ((48 <=? c) && (c <=? 57)) eqn:A; [lia|].
  destruct ((97 <=? c) && (c <=? 102)) eqn:B; [lia|].
  destruct ((65 <=? c) && (c <=? 70)) eqn:C; [lia|congruence].
Qed.

Lemma hex_cases : forall c, hex2dec c <> None ->
  (48 <= c <= 57) \/ (97 <= c <= 102) \/ (65 <= c <= 70).
Proof.
  intros c H. unfold hex2dec in H.
  destruct ((48 <=? c) && (c <=? 57)) eqn:A; [lia|].
  destruct ((97 <=? c) && (c <=? 102)) eqn:B; [lia|].
  destruct ((65 <=? c) && (c <=? 70)) eqn:C; [lia|congruence].
Qed.

Lemma strip_0x_hex : forall t, all_hex t -> strip_0x t = t.
Proof.
  intros [|a [|x t]] H; try reflexivity.
  - unfold strip_0x. destruct a; try reflexivity.
    do 6 (destruct p; try reflexivity).
  - inversion H; subst. inversion H3; subst.
    destruct (Z.eq_dec a 48) as [->|N].
    + cbn [strip_0x]. apply hex_cases in H4.
      replace ((x =? 120) || (x =? 88)) with false by lia. reflexivity.
    + unfold strip_0x. destruct a; try reflexivity.
      do 6 (destruct p; try reflexivity). congruence.
Qed.

Lemma sign_hex : forall t, all_hex t ->
  (match t with
   | 45 :: r => (true, r)
   | 43 :: r => (false, r)
   | _ => (false, t)
   end) = (false, t).
Proof.
  intros [|a t] H; [reflexivity|]. inversion H; subst. apply hex_cases in H2.
  destruct a; try reflexivity.
  do 6 (destruct p; try reflexivity; try lia).
Qed.

Lemma tohex_hex : forall t, all_hex t ->
  tohex t = (let '(v, any) := take_hex t 0 false in
             if negb any then 0 else if v >? 2^32 - 1 then 2^32 - 1 else v).
Proof.
  intros t H. unfold tohex.
  assert (S : skip_space t = t).
  { destruct t; [reflexivity|]. inversion H; subst. cbn [skip_space].
    rewrite hex_not_space by assumption. reflexivity. }
  rewrite S, sign_hex by assumption. rewrite strip_0x_hex by assumption.
  destruct (take_hex t 0 false) as [v any]. reflexivity.
Qed.

Lemma take_hex_zeros : forall k t any,
  take_hex (repeat 48 k ++ t) 0 any = take_hex t 0 (any || negb (Nat.eqb k 0)).
Proof.
  induction k; intros; cbn [repeat app].
  - cbn. rewrite orb_false_r. reflexivity.
  - cbn [take_hex]. change (hex2dec 48) with (Some 0). cbn beta iota.
    rewrite IHk. f_equal. cbn. rewrite orb_true_r. reflexivity.
Qed.

Lemma print_hex_hex : forall n lc, 0 <= n -> all_hex (print_hex n lc).
Proof. intros. apply hex_digits_hex; [assumption|constructor]. Qed.

Lemma pad8_hex : forall t, all_hex t -> all_hex (pad8 t).
Proof.
  intros t H. apply Forall_app. split; auto.
  apply Forall_forall. intros x Hx. apply repeat_spec in Hx. subst. discriminate.
Qed.

Lemma tohex_print : forall n lc, 0 <= n < 2^32 -> tohex (print_hex n lc) = n.
Proof.
  intros n lc H. rewrite tohex_hex by (apply print_hex_hex; lia).
  unfold print_hex. rewrite take_hex_digits by (try lia; discriminate).
  cbn [take_hex negb]. destruct (Z.gtb_spec n (2^32 - 1)); lia.
Qed.

Lemma tohex_pad8 : forall n lc, 0 <= n < 2^32 -> tohex (pad8 (print_hex n lc)) = n.
Proof.
  intros n lc H. rewrite tohex_hex by (apply pad8_hex, print_hex_hex; lia).
  unfold pad8. rewrite take_hex_zeros. unfold print_hex.
  rewrite take_hex_digits by (try lia; discriminate).
  cbn [take_hex negb]. destruct (Z.gtb_spec n (2^32 - 1)); lia.
Qed.

Lemma pad8_length : forall t, (List.length t <= 8)%nat -> List.length (pad8 t) = 8%nat.
Proof. intros. unfold pad8. rewrite app_length, repeat_length. lia. Qed.

Lemma tostring_header_hex : forall h lc, header_ok h -> all_hex (tostring_header h lc).
Proof.
  intros h lc H. unfold tostring_header. rewrite fullid_noext by assumption.
  pose proof (word_range h H).
  destruct (h_ext h); [apply pad8_hex|]; apply print_hex_hex; lia.
Qed.

Lemma has_word : forall w n, 0 <= n -> has w (2^n) = ((w / 2^n) mod 2 =? 1).
Proof. intros. rewrite pow2_testbit_has, testbit_div by lia. reflexivity. Qed.

Lemma toheader_word : forall s w, tohex s = w -> 0 <= w < 2^32 ->
  toheader s = mkHeader (w mod 2^29)
     (((w / 2^31) mod 2 =? 1) || ((Z.of_nat (List.length s) =? 8) && (2^11 <=? w mod 2^29)))
     ((w / 2^30) mod 2 =? 1) ((w / 2^29) mod 2 =? 1).
Proof.
  intros s w E H. unfold toheader. rewrite E.
  unfold ID_MASK, EXTENDED_MASK, RTR_MASK, ERROR_MASK.
  rewrite land_ones_mod by lia. rewrite !has_word by lia.
  unfold Header. rewrite Z.mod_mod by lia. reflexivity.
Qed.

Lemma toheader_tostring : forall h lc, header_ok h ->
  (h_ext h = false -> h_id h < 2^11) ->
  toheader (tostring_header h lc) =
  mkHeader (h_id h) (h_ext h && (2^11 <=? h_id h)) (h_rtr h) (h_err h).
Proof.
  intros h lc H V. pose proof (word_range h H) as W.
  assert (L : h_ext h = true -> List.length (tostring_header h lc) = 8%nat).
  { intro E. unfold tostring_header. rewrite E. apply pad8_length, print_hex_len8. }
  assert (T : tohex (tostring_header h lc) = word h).
  { unfold tostring_header. rewrite fullid_noext by assumption.
    destruct (h_ext h); [apply tohex_pad8|apply tohex_print]; lia. }
  rewrite (toheader_word _ _ T) by lia.
  unfold header_ok in H. destruct h as [i e r x]; cbn [h_id h_ext h_rtr h_err] in *.
  unfold word in *; cbn [h_id h_ext h_rtr h_err] in *.
  assert (I : (i + b2z x * 2^29 + b2z r * 2^30) mod 2^29 = i)
    by (destruct x, r; cbn [b2z]; lia).
  rewrite I. f_equal.
  - replace (((i + b2z x * 2 ^ 29 + b2z r * 2 ^ 30) / 2 ^ 31) mod 2 =? 1) with false
      by (destruct x, r; cbn [b2z] in *; lia).
    rewrite orb_false_l. destruct e.
    + rewrite (L eq_refl). cbn. reflexivity.
    + specialize (V eq_refl). rewrite andb_false_l.
      destruct (Z.leb_spec (2^11) i); [lia|]. apply andb_false_r.
  - destruct x, r; cbn [b2z] in *; lia.
  - destruct x, r; cbn [b2z] in *; lia.
Qed.

(** ** Frames *)

Lemma split_at_app : forall c a b, ~ In c a -> split_at c (a ++ c :: b) = Some (a, b).
Proof.
  induction a as [|x a IH]; intros b H; cbn [app split_at].
  - rewrite Z.eqb_refl. reflexivity.
  - destruct (Z.eqb_spec x c); [subst; exfalso; apply H; left; reflexivity|].
    rewrite IH; [reflexivity|]. intro; apply H; right; assumption.
Qed.

Lemma split_at_spec : forall c s,
  match split_at c s with
  | Some (a, b) => s = a ++ c :: b /\ ~ In c a
  | None => ~ In c s
  end.
Proof.
  induction s as [|x s IH]; cbn [split_at]; [auto|].
  destruct (Z.eqb_spec x c).
  - subst. auto.
  - destruct (split_at c s) as [[a b]|].
    + destruct IH as [-> H]. split; [reflexivity|]. intros [|]; auto.
    + intros [|]; auto.
Qed.

Lemma all_hex_no_hash : forall t, all_hex t -> ~ In 35 t.
Proof.
  intros t H I. unfold all_hex in H. rewrite Forall_forall in H.
  specialize (H _ I). apply hex_cases in H. lia.
Qed.

Lemma firstn_overwrite : forall new old,
  firstn (List.length new) (overwrite new old) = new.
Proof.
  intros. unfold overwrite. rewrite firstn_app, firstn_all, Nat.sub_diag.
  cbn. apply app_nil_r.
Qed.

Lemma bytes_ok_firstn : forall n l, bytes_ok l -> bytes_ok (firstn n l).
Proof.
  intros n l H. apply Forall_forall. intros x Hx.
  unfold bytes_ok in H. rewrite Forall_forall in H. apply H.
  rewrite <- (firstn_skipn n l). apply in_or_app. auto.
Qed.

Lemma payload_length : forall f, valid_frame f ->
  Z.of_nat (List.length (payload f)) = f_dlc f.
Proof.
  intros f [[_ [D [L _]]] [V _]]. unfold payload. rewrite firstn_length. lia.
Qed.

Lemma toframe_tostring : forall f lc t junk,
  valid_frame f -> tostring_frame f lc = Ok t ->
  let g := toframe junk t in
  f_hdr g = mkHeader (h_id (f_hdr f)) (h_ext (f_hdr f) && (2^11 <=? h_id (f_hdr f)))
                     (h_rtr (f_hdr f)) (h_err (f_hdr f)) /\
  f_dlc g = f_dlc f /\ payload g = payload f.
Proof.
  intros f lc t junk V E. pose proof (payload_length f V) as PL.
  destruct V as [[H [D [L B]]] [V8 V11]].
  unfold tostring_frame in E. destruct (f_dlc f <=? 8) eqn:D8; [|discriminate].
  inversion E; subst t; clear E.
  unfold toframe. cbn [app].
  rewrite split_at_app by (apply all_hex_no_hash, tostring_header_hex; assumption).
  rewrite toheader_tostring by assumption.
  assert (HV : header_isValid (mkHeader (h_id (f_hdr f)) (h_ext (f_hdr f) && (2^11 <=? h_id (f_hdr f)))
                     (h_rtr (f_hdr f)) (h_err (f_hdr f))) = true).
  { unfold header_isValid. cbn [h_id h_ext]. unfold header_ok in H.
    destruct (Z.leb_spec (2^11) (h_id (f_hdr f))); destruct (h_ext (f_hdr f)); cbn [andb].
    - lia.
    - specialize (V11 eq_refl). lia.
    - lia.
    - lia. }
  rewrite HV. rewrite hex2buffer_buffer2hex by (apply bytes_ok_firstn; assumption).
  rewrite PL. destruct (Z.gtb_spec (f_dlc f) 8); [lia|].
  cbn [f_hdr f_dlc]. split; [reflexivity|]. split; [reflexivity|].
  unfold payload at 1. cbn [f_dlc f_data]. rewrite <- PL, Nat2Z.id.
  apply firstn_overwrite.
Qed.

Lemma frame_round_trip : forall f lc t junk,
  valid_frame f -> (h_ext (f_hdr f) = true -> 2^11 <= h_id (f_hdr f)) ->
  tostring_frame f lc = Ok t -> same_frame (toframe junk t) f.
Proof.
  intros f lc t junk V X E.
  destruct (toframe_tostring f lc t junk V E) as [A [B C]].
  split; [|split; assumption]. rewrite A.
  destruct (f_hdr f) as [i e r x]; cbn [h_id h_ext h_rtr h_err] in *.
  f_equal. destruct e; [|reflexivity]. specialize (X eq_refl). cbn [andb]. lia.
Qed.

Lemma frame_short_extended : forall f lc t junk,
  valid_frame f -> h_ext (f_hdr f) = true -> h_id (f_hdr f) < 2^11 ->
  tostring_frame f lc = Ok t ->
  let g := toframe junk t in
  h_id (f_hdr g) = h_id (f_hdr f) /\ h_ext (f_hdr g) = false /\
  f_dlc g = f_dlc f /\ payload g = payload f.
Proof.
  intros f lc t junk V X I E g.
  destruct (toframe_tostring f lc t junk V E) as [A [B C]].
  fold g in A, B, C. rewrite A. cbn [h_id h_ext]. rewrite X.
  destruct (Z.leb_spec (2^11) (h_id (f_hdr f))); [lia|]. auto.
Qed.

Lemma tostring_defined : forall f lc, valid_frame f -> exists t, tostring_frame f lc = Ok t.
Proof.
  intros f lc [_ [V _]]. unfold tostring_frame.
  destruct (Z.leb_spec (f_dlc f) 8); [eauto|lia].
Qed.

(** ** Malformed text *)

Lemma toframe_shape : forall junk s,
  frame_isValid (toframe junk s) = true ->
  exists pre post, s = pre ++ [35] ++ post /\ ~ In 35 pre /\
    ((hex_text post (payload (toframe junk s)) /\ (List.length (payload (toframe junk s)) <= 8)%nat)
     \/ (payload (toframe junk s) = [] /\ f_dlc (toframe junk s) = 0 /\ forall bs, ~ hex_text post bs)).
Proof.
  intros junk s. unfold toframe. pose proof (split_at_spec 35 s) as SP.
  destruct (split_at 35 s) as [[pre post]|]; [|cbn; discriminate].
  destruct SP as [-> NI].
  destruct (header_isValid (toheader pre)) eqn:HV.
  2:{ unfold frame_isValid. cbn [f_hdr f_dlc Frame]. rewrite HV. discriminate. }
  destruct (hex2buffer post false) as [buf|] eqn:HB.
  - destruct (Z.gtb_spec (Z.of_nat (List.length buf)) 8); [cbn; discriminate|].
    intros _. exists pre, post. split; [reflexivity|]. split; [assumption|].
    left. unfold payload. cbn [f_dlc f_data]. rewrite Nat2Z.id, firstn_overwrite.
    split; [apply hex2buffer_strict; assumption|lia].
  - intros _. exists pre, post. split; [reflexivity|]. split; [assumption|].
    right. unfold payload. cbn [f_dlc f_data Frame]. split; [reflexivity|]. split; [reflexivity|].
    intros bs Hbs. apply hex2buffer_strict in Hbs. congruence.
Qed.

Lemma toframe_accepts : forall junk pre post bs,
  ~ In 35 pre -> header_isValid (toheader pre) = true -> hex_text post bs ->
  (List.length bs <= 8)%nat ->
  let g := toframe junk (pre ++ [35] ++ post) in
  frame_isValid g = true /\ f_hdr g = toheader pre /\ payload g = bs.
Proof.
  intros junk pre post bs NI HV HT L g. unfold g, toframe. cbn [app].
  rewrite split_at_app by assumption. rewrite HV.
  apply hex2buffer_strict in HT. rewrite HT.
  destruct (Z.gtb_spec (Z.of_nat (List.length bs)) 8); [lia|].
  unfold frame_isValid, payload. cbn [f_hdr f_dlc f_data]. rewrite HV.
  rewrite Nat2Z.id, firstn_overwrite. repeat split. lia.
Qed.

Lemma bad_payload_accepted :
  exists t junk, ~ frame_text t /\ frame_isValid (toframe junk t) = true.
Proof.
  exists (str "123#0g"), (repeat 0 8). split; [|reflexivity].
  intros (pre & post & bs & E & NI & _ & _ & HT & _).
  pose proof (split_at_app 35 pre post NI) as SP.
  change (pre ++ 35 :: post) with (pre ++ [35] ++ post) in SP. rewrite <- E in SP.
  cbn in SP. inversion SP; subst. apply hex2buffer_strict in HT. discriminate.
Qed.

Lemma short_extended_lost :
  exists f t junk, valid_frame f /\ tostring_frame f true = Ok t /\
                   ~ same_frame (toframe junk t) f.
Proof.
  exists (mkFrame (mkHeader 291 true false false) 1 [17;0;0;0;0;0;0;0]).
  eexists. exists (repeat 0 8). split; [|split; [reflexivity|]].
  - repeat split; cbn; try lia. repeat constructor; cbn; lia.
  - intros [H _]. vm_compute in H. discriminate.
Qed.
