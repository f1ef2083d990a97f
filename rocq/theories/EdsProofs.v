(** Proofs about reading of EDS files. *)
From Verif Require Import Base CanModel CanSpec CanProofs KeyModel KeySpec KeyProofs StorageModel StorageProofs EdsModel EdsSpec.

(** ** Items by name *)

Lemma same_name_spec : forall a b, same_name a b = true <-> names_equal a b.
Proof. intros a b. apply bytes_eqb_spec. Qed.

Lemma child_equal : forall A (l : list (text * A)) k1 k2, names_equal k1 k2 -> child k1 l = child k2 l.
Proof.
  intros A l k1 k2 E. induction l as [|[k a] l IH]; [reflexivity|]. cbn [child].
  replace (same_name k1 k) with (same_name k2 k); [rewrite IH; reflexivity|].
  unfold same_name. rewrite E. reflexivity.
Qed.
Lemma child_has : forall A (l : list (text * A)) k a, unique l -> has l k a -> child k l = Some a.
Proof.
  intros A l k a. unfold unique, has. induction l as [|[k0 a0] l IH]; intros U (k' & I & E); [destruct I|].
  cbn [child]. cbn [map fst] in U. inversion U as [|? ? U1 U2]; subst. destruct I as [I|I].
  - injection I as -> ->. apply same_name_spec in E. rewrite E. reflexivity.
  - destruct (same_name k k0) eqn:Q; [|apply IH; [assumption|exists k'; auto]].
    exfalso. apply U1. apply same_name_spec in Q. unfold names_equal in *.
    rewrite <- Q, E. apply (in_map (fun x => map lower (fst x))) in I. exact I.
Qed.
Lemma child_lacks : forall A (l : list (text * A)) k, lacks l k -> child k l = None.
Proof.
  intros A l k. induction l as [|[k0 a0] l IH]; intros L; [reflexivity|]. cbn [child].
  destruct (same_name k k0) eqn:Q.
  - apply same_name_spec in Q. exfalso. apply (L k0 a0); [left; reflexivity|exact Q].
  - apply IH. intros k' a I. apply (L k' a). right. exact I.
Qed.
Lemma child_in : forall A (l : list (text * A)) k a, child k l = Some a -> has l k a.
Proof.
  intros A l k a. induction l as [|[k0 a0] l IH]; [discriminate|]. cbn [child].
  destruct (same_name k k0) eqn:Q; intros H.
  - injection H as <-. exists k0. split; [left; reflexivity|apply same_name_spec, Q].
  - destruct (IH H) as (k' & I & E). exists k'. split; [right; exact I|exact E].
Qed.

(** ** Numbers *)

Lemma digits_zero : forall base t, 1 < base -> digits base t 0 -> hd 0 t = 48.
Proof.
  intros base t Hb H. remember 0 as x eqn:E in H. revert E.
  induction H as [c d Hc Hd | t x c d Ht IH Hc Hd]; intros E.
  - apply hex2dec_spec in Hc. subst d. cbn [hd]. unfold hex2dec in Hc.
    repeat match type of Hc with context [if ?b then _ else _] => destruct b eqn:? end; try discriminate; injection Hc; lia.
  - pose proof (digits_nonneg base t x ltac:(lia) Ht). apply hex2dec_spec, hex2dec_range in Hc.
    assert (x = 0) by nia. pose proof (digits_nonempty _ _ _ Ht). destruct t; [congruence|]. cbn [app hd] in *. apply IH. lia.
Qed.
Lemma hex_lower : forall c1 c2 d, hex_digit c1 d -> hex_digit c2 d -> lower c1 = lower c2.
Proof.
  intros c1 c2 d H1 H2. apply hex2dec_spec in H1, H2. unfold hex2dec, lower in *.
  repeat match goal with H : context [if ?b then _ else _] |- _ => destruct b eqn:? end; try discriminate;
    repeat match goal with |- context [if ?b then _ else _] => destruct b eqn:? end; injection H1; injection H2; lia.
Qed.
Definition lead (t : text) : Prop := hd 0 t <> 48 \/ t = [48].
Lemma lead_app : forall t c, t <> [] -> lead (t ++ [c]) -> hd 0 t <> 48.
Proof.
  intros t c N [H|H]; destruct t as [|a t]; try congruence; [exact H|]. destruct t; discriminate.
Qed.
Lemma digits_unique : forall base t x, 1 < base -> digits base t x -> forall t', digits base t' x -> lead t -> lead t' ->
  map lower t = map lower t'.
Proof.
  intros base t x Hb H. induction H as [c d Hc Hd | t x c d Ht IH Hc Hd]; intros t' H' L L'.
  - inversion H' as [c' d' Hc' Hd' | t1 x1 c' d' Ht' Hc' Hd' E1 E2]; subst.
    + cbn [map]. f_equal. eapply hex_lower; eassumption.
    + exfalso. pose proof (digits_nonneg base _ _ ltac:(lia) Ht'). pose proof Hc' as R. apply hex2dec_spec, hex2dec_range in R.
      assert (x1 = 0) by nia. subst x1. apply (lead_app _ _ (digits_nonempty _ _ _ Ht') L').
      eapply digits_zero; [|exact Ht']; lia.
  - pose proof (digits_nonneg base _ _ ltac:(lia) Ht) as P. pose proof Hc as R. apply hex2dec_spec, hex2dec_range in R.
    pose proof (lead_app _ _ (digits_nonempty _ _ _ Ht) L) as L0.
    inversion H' as [c' d' Hc' Hd' E1 E2 | t1 x1 c' d' Ht' Hc' Hd' E1 E2].
    + exfalso. assert (x = 0) by nia. subst x. apply L0. eapply digits_zero; [|exact Ht]; lia.
    + subst t'. pose proof (digits_nonneg base _ _ ltac:(lia) Ht') as P'. pose proof Hc' as R'. apply hex2dec_spec, hex2dec_range in R'.
      assert (x1 = x) by nia. subst x1. assert (d' = d) by nia. subst d'.
      rewrite !map_app. f_equal.
      * apply IH; [exact Ht'|left; exact L0|left; exact (lead_app _ _ (digits_nonempty _ _ _ Ht') L')].
      * cbn [map]. f_equal. eapply hex_lower; eassumption.
Qed.

Lemma hexadecimal_lead : forall t x, hexadecimal t x -> digits 16 t x /\ lead t.
Proof. intros t x [H L]. exact (conj H L). Qed.
Lemma print_hex_lead : forall x, 0 <= x < 256 -> lead (print_hex x true).
Proof.
  intros x Hx. assert (E : (negb (hd 0 (print_hex x true) =? 48) || bytes_eqb (print_hex x true) [48]) = true).
  { apply (forall_range 256 (fun x => negb (hd 0 (print_hex x true) =? 48) || bytes_eqb (print_hex x true) [48])); [vm_compute; reflexivity|exact Hx]. }
  apply orb_true_iff in E. destruct E as [E|E]; [left; lia|right; apply bytes_eqb_spec; exact E].
Qed.
Lemma hex_name : forall t x, hexadecimal t x -> 0 <= x < 256 -> map lower t = map lower (print_hex x true).
Proof.
  intros t x H Hx. apply hexadecimal_lead in H. destruct H as [D L].
  apply (digits_unique 16 t x); [lia|exact D|apply print_hex_digits; lia|exact L|apply print_hex_lead; exact Hx].
Qed.

Lemma dec_digits_acc : forall fuel n acc, dec_digits fuel n acc = dec_digits fuel n [] ++ acc.
Proof.
  induction fuel as [|k IH]; intros n acc; [reflexivity|]. cbn [dec_digits].
  destruct (n / 10 =? 0); [reflexivity|]. rewrite IH, (IH _ [_]), <- app_assoc. reflexivity.
Qed.
Lemma dec_char : forall d, 0 <= d < 10 -> hex_digit (48 + d) d.
Proof.
  intros d H. apply hex2dec_spec. unfold hex2dec. replace ((48 <=? 48 + d) && (48 + d <=? 57)) with true by lia. f_equal. lia.
Qed.
Lemma dec_digits_digits : forall fuel n, 0 <= n < 10 ^ Z.of_nat fuel -> (0 < fuel)%nat ->
  digits 10 (dec_digits fuel n []) n /\ (0 < n -> hd 0 (dec_digits fuel n []) <> 48).
Proof.
  induction fuel as [|k IH]; intros n Hn Hf; [lia|]. cbn [dec_digits].
  destruct (n / 10 =? 0) eqn:E.
  - split; [|cbn [hd]; lia]. replace n with (n mod 10) at 2 by lia. constructor; [apply dec_char; lia|lia].
  - rewrite dec_digits_acc. rewrite Nat2Z.inj_succ, Z.pow_succ_r in Hn by lia.
    assert (Hk : (0 < k)%nat) by (destruct k; [change (10 ^ Z.of_nat 0) with 1 in Hn; lia|lia]).
    destruct (IH (n / 10)) as [D L]; [split; [lia|apply Z.div_lt_upper_bound; lia]|exact Hk|].
    split.
    + replace n with (n / 10 * 10 + n mod 10) at 3 by lia. apply digits_more; [exact D|apply dec_char; lia|lia].
    + intros _. pose proof (digits_nonempty _ _ _ D). destruct (dec_digits k (n / 10) []); [congruence|]. cbn [app hd] in *. apply L. lia.
Qed.
Lemma dec_name : forall t x, decimal t x -> 0 < x < 2^32 -> map lower t = map lower (print_dec x).
Proof.
  intros t x [D L] Hx. destruct (dec_digits_digits 20 x) as [D' L']; [change (10 ^ Z.of_nat 20) with 100000000000000000000; lia|lia|].
  apply (digits_unique 10 t x); [lia|exact D|exact D'|left; exact L|left; apply L'; lia].
Qed.

Lemma u16_type : int_type U16. Proof. cbn. auto. Qed.
Lemma u8_type : int_type U8. Proof. cbn. auto. Qed.
Lemma int_from_unsigned : forall T t x, int_type T -> i_signed T = false -> unsigned_numeral t x -> x < 2^(8 * i_size T) ->
  int_from_string T t = x.
Proof.
  intros T t x HT HS H L. pose proof (unsigned_numeral_nonneg _ _ H) as P.
  rewrite <- (app_nil_r t). rewrite (int_from_numeral T t x []); [|exact HT|apply num_pos; exact H|exact I|].
  - apply wrap_in; [exact HT|]. unfold in_type. rewrite HS. lia.
  - unfold parsable. rewrite HS. assert (2^(8 * i_size T) <= 2^64) by (apply Z.pow_le_mono_r; [lia|]; destruct HT as [E|[E|[E|[E|[]]]]]; rewrite <- E; lia). lia.
Qed.

Lemma int_from_hex : forall n x r, digits 16 n x -> x < 2^16 -> stops r -> int_from_string U16 (str "0x" ++ n ++ r) = x.
Proof.
  intros n x r D L R. pose proof (digits_nonneg 16 _ _ ltac:(lia) D) as P.
  unfold int_from_string. cbn [i_signed U16]. unfold strtoul, scan_int.
  change (str "0x" ++ n ++ r) with (48 :: 120 :: (n ++ r)).
  change (skip_space (48 :: 120 :: (n ++ r))) with (48 :: 120 :: (n ++ r)).
  change (scan_sign (48 :: 120 :: (n ++ r))) with (false, 48 :: 120 :: (n ++ r)). cbv iota beta.
  change (0 =? 10) with false. cbv iota.
  rewrite (scan_0x_some n (digits_all_hex _ _ _ D) (digits_nonempty _ _ _ D) r).
  rewrite (digits_scan_stop 16 n x r); [|lia|exact D|exact R].
  replace (x >? 2^64 - 1) with false by lia. apply wrap_in; [exact u16_type|]. unfold in_type. cbn [i_signed i_size U16].
  change (8 * 2) with 16. lia.
Qed.

(** ** Values *)

Section Reading.
Variable real : nat -> text -> option bytes.
Variable raw_string : text -> bytes.
Variable raw_offset : ity -> Z -> bytes.
Notation read_value := (read_value real raw_string raw_offset).
Notation read_var := (read_var real raw_string raw_offset).
Notation parse_sub := (parse_sub real raw_string raw_offset).
Notation parse_subs := (parse_subs real raw_string raw_offset).
Notation parse_object := (parse_object real raw_string raw_offset).
Notation parse_names := (parse_names real raw_string raw_offset).
Notation parse_objects := (parse_objects real raw_string raw_offset).
Notation from_file := (from_file real raw_string raw_offset).
Notation shows_var := (shows_var real).
Notation shows_option := (shows_option real).
Notation shows_value := (shows_value real).

Definition kind_ty (k : kind) : ty :=
  match k with Signed n => TInt (mkIty true n) | Unsigned n => TInt (mkIty false n) | Float n => TReal n | Octets => TStr end.

Lemma kind_type : forall c k, kind_of c = Some k -> type_of c = Some (kind_ty k) /\
  (forall T, integers k = Some T -> int_type T /\ kind_ty k = TInt T).
Proof.
  intros c k H.
  assert (E : In (c, k) [(2, Signed 1); (3, Signed 2); (4, Signed 4); (21, Signed 8); (5, Unsigned 1); (6, Unsigned 2); (7, Unsigned 4); (27, Unsigned 8);
                         (8, Float 4); (16, Float 8); (9, Octets); (10, Octets); (11, Octets); (15, Octets)]).
  { unfold kind_of in H. destruct c as [|p|p]; try discriminate.
    repeat match type of H with match ?q with _ => _ end = _ => destruct q; try discriminate H end; injection H as <-; cbn; auto 20. }
  cbn [In] in E.
  repeat (destruct E as [E|E];
    [injection E as <- <-; split; [reflexivity|]; intros T HT; first [discriminate HT|injection HT as <-; split; [cbn; auto|reflexivity]]|]).
  destruct E.
Qed.

Lemma of_le_bytes : forall n x, List.length (le_bytes n x) = n /\ Forall byte_ok (le_bytes n x) /\ of_le (le_bytes n x) = x mod 2^(8 * Z.of_nat n).
Proof.
  induction n as [|n IH]; intros x.
  - cbn. split; [reflexivity|]. split; [constructor|]. symmetry. apply Z.mod_1_r.
  - cbn [le_bytes List.length of_le]. destruct (IH (x / 256)) as (A & B & C). split; [lia|]. split.
    + constructor; [unfold byte_ok; lia|exact B].
    + rewrite C. replace (8 * Z.of_nat (S n)) with (8 + 8 * Z.of_nat n) by lia. rewrite Z.pow_add_r by lia.
      change (2^8) with 256. rewrite Z.rem_mul_r by lia. reflexivity.
Qed.

Lemma in_type_parsable : forall T x, int_type T -> in_type T x -> parsable T x.
Proof.
  intros [s n] x HT. unfold in_type, parsable. cbn [i_signed i_size]. unfold int_type in HT. cbn [i_size In] in HT.
  destruct HT as [<-|[<-|[<-|[<-|[]]]]]; destruct s; cbn -[Z.pow]; intros H;
    repeat match type of H with context [2 ^ ?e] => let v := eval compute in (2 ^ e) in change (2 ^ e) with v in H end;
    change (2^63) with 9223372036854775808; change (2^64) with 18446744073709551616; lia.
Qed.

Lemma read_value_none : forall c k, kind_of c = Some k -> exists h, read_value c None = Some h /\ stored raw_offset k None h.
Proof.
  intros c k K. destruct (kind_type c k K) as [E _]. unfold EdsModel.read_value. rewrite E.
  destruct k; cbn [kind_ty]; eexists; (split; [reflexivity|]); split; reflexivity.
Qed.

Lemma read_value_some : forall c k t v, kind_of c = Some k -> shows_value k t v ->
  exists h, read_value c (Some t) = Some h /\ stored raw_offset k (Some v) h.
Proof.
  intros c k t v K S. destruct (kind_type c k K) as [E F]. unfold EdsModel.read_value. rewrite E.
  destruct v as [x|x|b]; cbn [shows_value] in S.
  - destruct S as (T & w0 & n & w1 & ET & IT & N & W0 & W1 & ->). destruct (F T ET) as [HT ->].
    rewrite (parse_plain T n x w0 w1 HT N (in_type_parsable T x HT IT) W0 W1). rewrite (wrap_in T x HT IT).
    eexists. split; [reflexivity|]. cbn [stored].
    destruct (of_le_bytes (ty_size (TInt T)) x) as (A & B & C).
    assert (Q : Z.of_nat (ty_size (TInt T)) = i_size T) by (cbn [ty_size]; destruct HT as [H|[H|[H|[H|[]]]]]; rewrite <- H; reflexivity).
    exists T, (le_bytes (ty_size (TInt T)) x). split; [exact ET|]. split; [reflexivity|]. split; [lia|]. split; [exact B|].
    rewrite C, Q. reflexivity.
  - destruct S as (T & w0 & word & w1 & ET & IT & W0 & WD & W1 & C). destruct (F T ET) as [HT ->].
    assert (P : parse_int T t = Offset x).
    { destruct C as [[-> ->]|(w2 & w3 & n & W2 & W3 & N & [->| ->])].
      - rewrite (bare_nodeid T word w0 w1 HT WD W0 W1). rewrite (wrap_in T 0 HT IT). reflexivity.
      - change (str "+") with [43].
        replace (w0 ++ word ++ w1 ++ [43] ++ w2 ++ n ++ w3) with (w0 ++ (word ++ w1 ++ [43] ++ w2 ++ n) ++ w3) by (rewrite <- !app_assoc; reflexivity).
        rewrite (parse_offset_right T n x w0 word w1 w2 w3 HT N (in_type_parsable T x HT IT) WD W0 W1 W2 W3), (wrap_in T x HT IT). reflexivity.
      - change (str "+") with [43].
        replace (w0 ++ n ++ w1 ++ [43] ++ w2 ++ word ++ w3) with (w0 ++ (n ++ w1 ++ [43] ++ w2 ++ word) ++ w3) by (rewrite <- !app_assoc; reflexivity).
        rewrite (parse_offset_left T n x w0 word w1 w2 w3 HT N (in_type_parsable T x HT IT) WD W0 W1 W2 W3), (wrap_in T x HT IT). reflexivity. }
    rewrite P. eexists. split; [reflexivity|]. exists T. split; [exact ET|reflexivity].
  - destruct S as (n & -> & R). cbn [kind_ty]. rewrite R. eexists. split; [reflexivity|]. exists n. split; reflexivity.
Qed.

Lemma read_option : forall c k s key v, unique s -> kind_of c = Some k -> shows_option k s key v ->
  exists h, read_value c (child key s) = Some h /\ stored raw_offset k v h.
Proof.
  intros c k s key [v|] U K S; cbn [EdsSpec.shows_option] in S.
  - destruct S as (t & H & V). rewrite (child_has _ _ _ _ U H). eapply read_value_some; eassumption.
  - rewrite (child_lacks _ _ _ S). apply read_value_none. exact K.
Qed.

(** ** Variables *)

Lemma access_ok : forall t a, names_equal t (access_word a) ->
  set_access t = Some (can_read a, can_write a, match a with CONST => true | _ => false end).
Proof.
  intros t a E. unfold set_access. unfold names_equal in E. rewrite E. destruct a; reflexivity.
Qed.

Lemma number_child : forall s key x T, unique s -> shows_number s key x -> int_type T -> i_signed T = false -> x < 2^(8 * i_size T) ->
  exists t, child key s = Some t /\ int_from_string T t = x.
Proof.
  intros s key x T U (t & H & N) HT HS L. exists t. split; [eapply child_has; eassumption|].
  apply int_from_unsigned; assumption.
Qed.

Lemma start_entry_ok : forall s v name x, unique s -> shows_var s v -> int_from_string U16 name = x ->
  start_entry s name = Some (mkDentry (v_code v) x 0 0 None false false false (v_name v) no_value no_value).
Proof.
  intros s v name x U V E. destruct V as [C Sm _ _ _ (p & HP & HD) _]. unfold start_entry.
  rewrite (child_has _ _ _ _ U HP). rewrite E. f_equal. f_equal.
  - destruct C as [C|[C ->]].
    + destruct (number_child s _ _ U16 U C u16_type eq_refl Sm) as (t & -> & ->). reflexivity.
    + rewrite (child_lacks _ _ _ C). reflexivity.
  - destruct HD as [HD|[HD ->]]; [rewrite (child_has _ _ _ _ U HD)|rewrite (child_lacks _ _ _ HD)]; reflexivity.
Qed.

Lemma truth_ok : forall b t, truth_text b t -> get_bool t = Some b.
Proof.
  intros b t (w0 & w & w1 & S0 & S1 & -> & W). unfold get_bool. rewrite skip_spaces by exact S0.
  assert (E : skip_space w1 = []) by (rewrite <- (app_nil_r w1), skip_spaces by exact S1; reflexivity).
  assert (D : stops w1).
  { destruct w1 as [|c w1]; [exact Logic.I|]. inversion S1 as [|? ? H _]; subst. cbn in H.
    unfold stops. repeat (destruct H as [<-|H]; [reflexivity|]). destruct H. }
  assert (N : forall d x, hex_digit d x -> x < 10 -> is_space d = false -> d <> 45 -> d <> 43 ->
    scan_sign (skip_space ([d] ++ w1)) = (false, [d] ++ w1) /\ scan_digits 10 ([d] ++ w1) 0 false = (x, true, w1)).
  { intros d x Hd Lx Sp N1 N2. split; [|apply digits_scan_stop; [lia|apply digits_one; assumption|exact D]].
    cbn [app skip_space]. rewrite Sp. unfold scan_sign. destruct d as [|p|p]; try reflexivity.
    do 6 (destruct p as [p|p|]; try reflexivity; try congruence). }
  destruct b, W as [-> | ->].
  - destruct (N 49 1) as [N1 N2]; [apply hex2dec_spec; reflexivity|lia|reflexivity|lia|lia|]. change (str "1") with [49]. rewrite N1, N2. cbn. rewrite E. reflexivity.
  - change (str "true" ++ w1) with (116 :: 114 :: 117 :: 101 :: w1). cbn. change (bool_word (116 :: 114 :: 117 :: 101 :: w1)) with (Some (true, w1)). cbv beta iota. rewrite E. reflexivity.
  - destruct (N 48 0) as [N1 N2]; [apply hex2dec_spec; reflexivity|lia|reflexivity|lia|lia|]. change (str "0") with [48]. rewrite N1, N2. cbn. rewrite E. reflexivity.
  - change (str "false" ++ w1) with (102 :: 97 :: 108 :: 115 :: 101 :: w1). cbn. change (bool_word (102 :: 97 :: 108 :: 115 :: 101 :: w1)) with (Some (false, w1)). cbv beta iota. rewrite E. reflexivity.
Qed.

Lemma read_var_ok : forall s v e, unique s -> shows_var s v -> d_code e = v_code v -> d_desc e = v_name v ->
  exists e', read_var e s = Some e' /\ describes raw_offset (d_index e) (d_sub e) v e'.
Proof.
  intros s v e U V HC HN. destruct V as [_ _ [HT LT] (a & HA & NA) HM _ (k & K & SD & SI)].
  unfold EdsModel.read_var. destruct (number_child s _ _ U16 U HT u16_type eq_refl LT) as (t & -> & ->).
  rewrite (child_has _ _ _ _ U HA), (access_ok _ _ NA).
  destruct (read_option _ _ _ _ _ U K SD) as (hd & -> & SD'). destruct (read_option _ _ _ _ _ U K SI) as (hi & -> & SI').
  eexists. split; [reflexivity|]. unfold describes. cbn [d_code d_index d_sub d_type d_const d_readable d_writable d_mappable d_desc d_def d_init].
  repeat (split; [first [reflexivity|assumption]|]). split.
  - destruct HM as [(mt & HM & TM)|[HM EM]].
    + rewrite (child_has _ _ _ _ U HM), (truth_ok _ _ TM). reflexivity.
    + rewrite (child_lacks _ _ _ HM). symmetry. exact EM.
  - split; [exact HN|]. exists k. auto.
Qed.

(** ** Dictionaries *)

Lemma lookup_app : forall d1 d2 k, lookup (d1 ++ d2) k = match lookup d1 k with Some e => Some e | None => lookup d2 k end.
Proof.
  induction d1 as [|[k0 e0] d1 IH]; intros d2 k; [reflexivity|]. cbn [app lookup]. destruct (k =? k0); [reflexivity|apply IH].
Qed.
Definition entry_key (is_sub : bool) (e : dentry) : okey := if is_sub then KSub (d_index e) (d_sub e) else KIndex (d_index e).
Lemma lookup_insert : forall is_sub e d k, lookup (insert is_sub e d) k =
  match lookup d k with Some e' => Some e' | None => if k =? mk_key (entry_key is_sub e) then Some e else None end.
Proof.
  intros is_sub e d k. unfold insert. set (k0 := if is_sub then _ else _).
  assert (E : mk_key (entry_key is_sub e) = k0) by (unfold k0, entry_key; destruct is_sub; reflexivity). rewrite E.
  destruct (lookup d k0) as [e0|] eqn:L.
  - destruct (lookup d k) eqn:L2; [reflexivity|]. destruct (Z.eqb_spec k k0); [congruence|reflexivity].
  - rewrite lookup_app. destruct (lookup d k); [reflexivity|]. cbn [lookup]. destruct (k =? k0); reflexivity.
Qed.

Definition covers (d : dict) (objs : list (Z * obj)) : Prop :=
  forall k, okey_ok k ->
    match wanted objs k with
    | Some (i, s, v) => exists e, lookup d (mk_key k) = Some e /\ describes raw_offset i s v e
    | None => lookup d (mk_key k) = None
    end.

Lemma obj_at_app : forall l1 l2 i, obj_at (l1 ++ l2) i = match obj_at l1 i with Some o => Some o | None => obj_at l2 i end.
Proof.
  induction l1 as [|[x o] l1 IH]; intros l2 i; [reflexivity|]. cbn [app obj_at]. destruct (i =? x); [reflexivity|apply IH].
Qed.
Lemma obj_at_none : forall l i, ~ In i (map fst l) -> obj_at l i = None.
Proof.
  induction l as [|[x o] l IH]; intros i N; [reflexivity|]. cbn [obj_at map fst In] in *.
  destruct (Z.eqb_spec i x); [exfalso; apply N; left; congruence|apply IH; tauto].
Qed.

Lemma covers_var : forall d objs x v e, covers d objs -> ~ In x (map fst objs) -> 0 <= x < 2^16 ->
  describes raw_offset x 0 v e -> covers (insert false e d) (objs ++ [(x, OVar v)]).
Proof.
  intros d objs x v e C N Hx D k Hk. specialize (C k Hk). rewrite lookup_insert.
  assert (KE : entry_key false e = KIndex x) by (unfold entry_key; f_equal; destruct D as (_ & D & _); exact D). rewrite KE.
  destruct k as [i|i s]; cbn [wanted] in *; rewrite obj_at_app.
  - destruct (obj_at objs i) as [o|] eqn:O.
    + destruct o as [w|c l].
      * destruct C as (e' & L & D'). rewrite L. exists e'. auto.
      * rewrite C. destruct (Z.eqb_spec (mk_key (KIndex i)) (mk_key (KIndex x))) as [E|E]; [|reflexivity].
        apply mk_key_inj in E; [|exact Hk|exact Hx]. injection E as ->. rewrite (obj_at_none _ _ N) in O. discriminate.
    + cbn [obj_at]. rewrite C. destruct (Z.eqb_spec i x) as [->|NE].
      * rewrite Z.eqb_refl. exists e. auto.
      * destruct (Z.eqb_spec (mk_key (KIndex i)) (mk_key (KIndex x))) as [E|E]; [|reflexivity].
        apply mk_key_inj in E; [|exact Hk|exact Hx]. congruence.
  - assert (NE : (mk_key (KSub i s) =? mk_key (KIndex x)) = false).
    { apply Z.eqb_neq. intros E. apply mk_key_inj in E; [discriminate|exact Hk|exact Hx]. }
    rewrite NE. destruct (obj_at objs i) as [o|] eqn:O.
    + destruct o as [w|c l]; [rewrite C; reflexivity|]. destruct (nth_error l (Z.to_nat s)); [|rewrite C; reflexivity].
      destruct C as (e' & L & D'). rewrite L. exists e'. auto.
    + cbn [obj_at]. rewrite C. destruct (i =? x); reflexivity.
Qed.

Lemma covers_nil : forall d objs x code, covers d objs -> covers d (objs ++ [(x, OSubs code [])]).
Proof.
  intros d objs x code C k Hk. specialize (C k Hk). destruct k as [i|i s]; cbn [wanted] in *; rewrite obj_at_app;
    destruct (obj_at objs i); try exact C; cbn [obj_at]; destruct (i =? x); try exact C.
  destruct (Z.to_nat s); exact C.
Qed.

Lemma covers_sub : forall d objs x code l v e, covers d (objs ++ [(x, OSubs code l)]) -> ~ In x (map fst objs) -> 0 <= x < 2^16 ->
  Z.of_nat (List.length l) < 256 -> describes raw_offset x (Z.of_nat (List.length l)) v e ->
  covers (insert true e d) (objs ++ [(x, OSubs code (l ++ [v]))]).
Proof.
  intros d objs x code l v e C N Hx Hl D k Hk. specialize (C k Hk). rewrite lookup_insert.
  assert (KE : entry_key true e = KSub x (Z.of_nat (List.length l))).
  { unfold entry_key. destruct D as (_ & D1 & D2 & _). congruence. }
  assert (KO : okey_ok (KSub x (Z.of_nat (List.length l)))) by (cbn; lia).
  rewrite KE. destruct k as [i|i s]; cbn [wanted] in *; rewrite obj_at_app in *.
  - assert (NE : (mk_key (KIndex i) =? mk_key (KSub x (Z.of_nat (List.length l)))) = false).
    { apply Z.eqb_neq. intros E. apply mk_key_inj in E; [discriminate|exact Hk|exact KO]. }
    rewrite NE. destruct (obj_at objs i) as [o|] eqn:O.
    + destruct o as [w|c l']; [|rewrite C; reflexivity]. destruct C as (e' & L & D'). rewrite L. exists e'. auto.
    + cbn [obj_at] in *. destruct (i =? x); rewrite C; reflexivity.
  - destruct (Z.eqb_spec (mk_key (KSub i s)) (mk_key (KSub x (Z.of_nat (List.length l))))) as [E|E].
    + apply mk_key_inj in E; [|exact Hk|exact KO]. injection E as -> ->.
      rewrite (obj_at_none _ _ N) in *. cbn [obj_at] in *. rewrite Z.eqb_refl in *. rewrite Nat2Z.id in *.
      rewrite (proj2 (nth_error_None l (List.length l))) in C by lia. rewrite C.
      rewrite nth_error_app2, Nat.sub_diag by lia. cbn [nth_error]. exists e. auto.
    + destruct (obj_at objs i) as [o|] eqn:O.
      * destruct o as [w|c l']; [rewrite C; reflexivity|]. destruct (nth_error l' (Z.to_nat s)); [|rewrite C; reflexivity].
        destruct C as (e' & L & D'). rewrite L. exists e'. auto.
      * cbn [obj_at] in *. destruct (Z.eqb_spec i x) as [->|NX]; [|rewrite C; reflexivity].
        assert (NS : Z.to_nat s <> List.length l).
        { intros H. apply E. f_equal. f_equal. cbn in Hk. lia. }
        destruct (nth_error l (Z.to_nat s)) as [w|] eqn:W.
        -- rewrite nth_error_app1 by (apply nth_error_Some; congruence). rewrite W.
           destruct C as (e' & L & D'). rewrite L. exists e'. auto.
        -- assert (Z.to_nat s >= List.length l)%nat by (apply nth_error_None; exact W).
           rewrite (proj2 (nth_error_None _ _)) by (rewrite app_length; cbn; lia). rewrite C. reflexivity.
Qed.

(** ** Objects *)

Lemma section_of : forall n r pt, object_section pt (str "0x" ++ n ++ r) = Some (child (n ++ r) pt).
Proof. reflexivity. Qed.
Lemma section_of' : forall n pt, object_section pt (str "0x" ++ n) = Some (child n pt).
Proof. reflexivity. Qed.

Lemma wf_section : forall pt k s, well_formed pt -> has pt k s -> child k pt = Some s /\ unique s.
Proof.
  intros pt k s [U F] H. split; [apply child_has; assumption|]. destruct H as (k' & I & _). eapply F; exact I.
Qed.

Lemma parse_sub_ok : forall pt n x i v d objs code l s t, well_formed pt -> digits 16 n x -> x < 2^16 ->
  ~ In x (map fst objs) -> i = Z.of_nat (List.length l) -> i < 255 -> hexadecimal t i -> has pt (n ++ str "sub" ++ t) s -> shows_var s v ->
  covers d (objs ++ [(x, OSubs code l)]) ->
  exists d', parse_sub pt ((str "0x" ++ n) ++ str "sub" ++ print_hex i true) i d = Some d' /\ covers d' (objs ++ [(x, OSubs code (l ++ [v]))]).
Proof.
  intros pt n x i v d objs code l s t W D L N Hi Li T H V C.
  pose proof (digits_nonneg 16 _ _ ltac:(lia) D) as P.
  unfold EdsModel.parse_sub. rewrite <- app_assoc, section_of.
  rewrite (child_equal _ pt (n ++ str "sub" ++ print_hex i true) (n ++ str "sub" ++ t)).
  2:{ unfold names_equal. rewrite !map_app. do 2 f_equal. symmetry. apply hex_name; [exact T|lia]. }
  destruct (wf_section _ _ _ W H) as [-> U].
  rewrite (start_entry_ok s v _ x U V).
  2:{ apply int_from_hex; [exact D|exact L|reflexivity]. }
  destruct (read_var_ok s v (with_sub (mkDentry (v_code v) x 0 0 None false false false (v_name v) no_value no_value) i) U V eq_refl eq_refl) as (e & -> & DE).
  eexists. split; [reflexivity|]. apply covers_sub; try assumption; try lia. subst i. exact DE.
Qed.

Lemma parse_subs_ok : forall pt n x code objs, well_formed pt -> digits 16 n x -> x < 2^16 -> ~ In x (map fst objs) ->
  forall rest l d, Z.of_nat (List.length (l ++ rest)) < 256 ->
  (forall i v, nth_error (l ++ rest) i = Some v ->
      exists t s, hexadecimal t (Z.of_nat i) /\ has pt (n ++ str "sub" ++ t) s /\ shows_var s v) ->
  covers d (objs ++ [(x, OSubs code l)]) ->
  exists d', parse_subs pt (str "0x" ++ n) (Z.of_nat (List.length l)) (List.length rest) d = Some d' /\
    covers d' (objs ++ [(x, OSubs code (l ++ rest))]).
Proof.
  intros pt n x code objs W D L N. induction rest as [|v rest IH]; intros l d Len V C.
  - exists d. rewrite app_nil_r. split; [reflexivity|exact C].
  - cbn [EdsModel.parse_subs List.length]. rewrite app_length in Len. cbn [List.length] in Len.
    destruct (V (List.length l) v) as (t & s & T & H & SV); [rewrite nth_error_app2, Nat.sub_diag by lia; reflexivity|].
    destruct (parse_sub_ok pt n x (Z.of_nat (List.length l)) v d objs code l s t W D L N eq_refl ltac:(lia) T H SV C) as (d1 & -> & C1).
    replace (Z.of_nat (List.length l) + 1) with (Z.of_nat (List.length (l ++ [v]))) by (rewrite app_length; cbn [List.length]; lia).
    replace (l ++ v :: rest) with ((l ++ [v]) ++ rest) in * by (rewrite <- app_assoc; reflexivity).
    apply IH; [|exact V|exact C1]. rewrite !app_length in *. cbn [List.length] in *. lia.
Qed.

Lemma parse_object_ok : forall pt n x o d objs, well_formed pt -> digits 16 n x -> x < 2^16 -> ~ In x (map fst objs) ->
  shows_obj real pt n o -> covers d objs ->
  exists d', parse_object pt (str "0x" ++ n) d = Some d' /\ covers d' (objs ++ [(x, o)]).
Proof.
  intros pt n x o d objs W D L N S C. pose proof (digits_nonneg 16 _ _ ltac:(lia) D) as P.
  unfold EdsModel.parse_object. rewrite section_of'.
  assert (EX : int_from_string U16 (str "0x" ++ n) = x).
  { rewrite <- (app_nil_r n). apply int_from_hex; [exact D|exact L|exact I]. }
  destruct o as [v|code l]; cbn [shows_obj] in S.
  - destruct S as (HC & s & H & V). destruct (wf_section _ _ _ W H) as [-> U].
    rewrite (start_entry_ok s v _ x U V EX). cbn [d_code].
    replace ((v_code v =? 7) || (v_code v =? 2)) with true by lia.
    destruct (read_var_ok s v (mkDentry (v_code v) x 0 0 None false false false (v_name v) no_value no_value) U V eq_refl eq_refl) as (e & -> & DE).
    eexists. split; [reflexivity|]. apply covers_var; try assumption. lia.
  - destruct S as (HC & (s & p & H & HO & HP & HK & HS) & Len & V). destruct (wf_section _ _ _ W H) as [-> U].
    unfold start_entry. rewrite (child_has _ _ _ _ U HP).
    destruct (number_child s _ _ U16 U HO u16_type eq_refl) as (t & -> & ->); [cbn -[Z.pow]; change (2^16) with 65536; lia|].
    cbn [d_code]. replace ((code =? 7) || (code =? 2)) with false by lia. replace ((code =? 8) || (code =? 9)) with true by lia.
    rewrite (child_lacks _ _ _ HK). change (int_from_string U8 []) with 0. cbn [Z.eqb negb].
    destruct (number_child s _ _ U8 U HS u8_type eq_refl) as (t2 & -> & ->); [cbn -[Z.pow]; change (2^8) with 256; lia|].
    rewrite Nat2Z.id. change 0 with (Z.of_nat (@List.length var [])).
    apply (parse_subs_ok pt n x code objs W D L N l []); [cbn [app]; lia|exact V|apply covers_nil; exact C].
Qed.

Lemma parse_names_ok : forall pt (s : section), well_formed pt -> unique s -> forall rest pre objs d,
  NoDup (map fst (objs ++ rest)) -> Z.of_nat (List.length (pre ++ rest)) < 2^16 ->
  (forall i x o, nth_error (pre ++ rest) i = Some (x, o) ->
      exists t n, decimal t (Z.of_nat i + 1) /\ has s t (str "0x" ++ n) /\ digits 16 n x /\ x < 2^16 /\ shows_obj real pt n o) ->
  covers d objs ->
  exists d', parse_names pt s (Z.of_nat (List.length pre)) (List.length rest) d = Some d' /\ covers d' (objs ++ rest).
Proof.
  intros pt s W U. induction rest as [|[x o] rest IH]; intros pre objs d ND Len V C.
  - exists d. rewrite app_nil_r. split; [reflexivity|exact C].
  - cbn [EdsModel.parse_names List.length].
    destruct (V (List.length pre) x o) as (t & n & T & H & D & L & SO); [rewrite nth_error_app2, Nat.sub_diag by lia; reflexivity|].
    rewrite app_length in Len. cbn [List.length] in Len.
    rewrite (child_equal text s (print_dec (Z.of_nat (List.length pre) + 1)) t).
    2:{ unfold names_equal. symmetry. apply dec_name; [exact T|]. change (2^16) with 65536 in Len. lia. }
    rewrite (child_has _ _ _ _ U H).
    assert (N : ~ In x (map fst objs)).
    { rewrite map_app in ND. cbn [map fst] in ND. apply NoDup_remove_2 in ND. intros I. apply ND. apply in_or_app. left. exact I. }
    destruct (parse_object_ok pt n x o d objs W D L N SO C) as (d1 & -> & C1).
    replace (Z.of_nat (List.length pre) + 1) with (Z.of_nat (List.length (pre ++ [(x, o)]))) by (rewrite app_length; cbn [List.length]; lia).
    replace (objs ++ (x, o) :: rest) with ((objs ++ [(x, o)]) ++ rest) in * by (rewrite <- app_assoc; reflexivity).
    replace (pre ++ (x, o) :: rest) with ((pre ++ [(x, o)]) ++ rest) in * by (rewrite <- app_assoc; reflexivity).
    apply IH; try assumption. rewrite !app_length in *. cbn [List.length] in *. lia.
Qed.

Lemma parse_objects_ok : forall pt g l objs d, well_formed pt -> shows_group real pt g l -> NoDup (map fst (objs ++ l)) ->
  covers d objs -> exists d', parse_objects pt g d = Some d' /\ covers d' (objs ++ l).
Proof.
  intros pt g l objs d W S ND C. unfold EdsModel.parse_objects. destruct S as [[K ->]|(s & H & HS & Len & V)].
  - rewrite (child_lacks _ _ _ K). exists d. rewrite app_nil_r. auto.
  - destruct (wf_section _ _ _ W H) as [-> U].
    destruct (number_child s _ _ U16 U HS u16_type eq_refl) as (t & -> & ->); [exact Len|]. rewrite Nat2Z.id.
    change 0 with (Z.of_nat (@List.length (Z * obj) [])).
    apply (parse_names_ok pt s W U l [] objs d ND); [exact Len|exact V|exact C].
Qed.

Lemma match_lit_spec : forall lit s r, match_lit lit s = Some r -> s = lit ++ r.
Proof.
  induction lit as [|l lit IH]; intros s r H; [injection H as <-; reflexivity|]. destruct s as [|c s]; [discriminate|].
  cbn [match_lit] in H. destruct (Z.eqb_spec l c) as [->|]; [|discriminate]. cbn [app]. f_equal. apply IH. exact H.
Qed.
Lemma flags_fine : forall prefix s, (forall k t, In (k, t) s -> forall r, k = prefix ++ r -> exists b, truth_text b t) -> flags_ok prefix s = true.
Proof.
  intros prefix s H. apply forallb_forall. intros [k t] I. cbn [fst snd].
  destruct (match_lit prefix k) as [r|] eqn:M; [|reflexivity].
  destruct (H k t I r (match_lit_spec _ _ _ M)) as [b B]. rewrite (truth_ok _ _ B). reflexivity.
Qed.

Lemma nodup_front : forall A (l1 l2 : list A), NoDup (l1 ++ l2) -> NoDup l1.
Proof.
  induction l1 as [|a l1 IH]; intros l2 H; [constructor|]. cbn [app] in H. inversion H as [|? ? N D]; subst.
  constructor; [intros I; apply N, in_or_app; left; exact I|eapply IH; exact D].
Qed.
Definition groups_read (pt : ini) (objs : list (Z * obj)) : Prop :=
  exists d1 d2 d, parse_objects pt (str "MandatoryObjects") [] = Some d1 /\ parse_objects pt (str "OptionalObjects") d1 = Some d2 /\
    parse_objects pt (str "ManufacturerObjects") d2 = Some d /\ covers d objs.
Lemma groups_ok : forall pt objs, shows_file real pt objs -> NoDup (map fst objs) -> groups_read pt objs.
Proof.
  intros pt objs (W & _ & _ & l1 & l2 & l3 & -> & S1 & S2 & S3) ND.
  assert (C0 : covers [] []) by (intros k Hk; destruct k; reflexivity).
  rewrite app_assoc in ND. assert (ND12 : NoDup (map fst (l1 ++ l2))) by (rewrite map_app in ND; eapply nodup_front; exact ND).
  assert (ND1 : NoDup (map fst ([] ++ l1))) by (rewrite map_app in ND12; eapply nodup_front; exact ND12).
  destruct (parse_objects_ok pt _ l1 [] [] W S1 ND1 C0) as (d1 & E1 & C1). cbn [app] in C1.
  destruct (parse_objects_ok pt _ l2 l1 d1 W S2 ND12 C1) as (d2 & E2 & C2).
  destruct (parse_objects_ok pt _ l3 (l1 ++ l2) d2 W S3 ND C2) as (d3 & E3 & C3).
  exists d1, d2, d3. rewrite app_assoc. auto.
Qed.
Lemma from_file_covers : forall pt objs ov pt' objs', shows_file real pt objs -> apply_overlay ov pt = Some pt' -> groups_read pt' objs' ->
  exists i d, from_file pt ov = Some (i, d) /\ covers d objs'.
Proof.
  intros pt objs ov pt' objs' (W & (di & HD & BD) & DU & _) A (d1 & d2 & d & E1 & E2 & E3 & C).
  unfold EdsModel.from_file. destruct (wf_section _ _ _ W HD) as [-> _].
  rewrite (flags_fine _ _ BD). cbn [andb].
  assert (F : match child (str "DummyUsage") pt with Some s => flags_ok (str "Dummy") s | None => true end = true).
  { destruct (child (str "DummyUsage") pt) as [s|] eqn:E; [|reflexivity]. apply flags_fine. apply DU. apply child_in. exact E. }
  rewrite F, A, E1, E2, E3. do 2 eexists. split; [reflexivity|exact C].
Qed.
Lemma from_file_ok : forall pt objs, shows_file real pt objs -> NoDup (map fst objs) ->
  exists i d, from_file pt [] = Some (i, d) /\ covers d objs.
Proof.
  intros pt objs S ND. eapply from_file_covers; [exact S|reflexivity|apply groups_ok; assumption].
Qed.

(** ** Overlays *)

Lemma names_sym : forall a b, names_equal a b -> names_equal b a.
Proof. unfold names_equal. congruence. Qed.
Lemma names_trans : forall a b c, names_equal a b -> names_equal b c -> names_equal a c.
Proof. unfold names_equal. congruence. Qed.
Lemma same_name_neq : forall a b, same_name a b = false <-> ~ names_equal a b.
Proof.
  intros a b. split; intros H.
  - intros E. apply same_name_spec in E. congruence.
  - destruct (same_name a b) eqn:E; [|reflexivity]. apply same_name_spec in E. contradiction.
Qed.
Lemma has_equal : forall A (l : list (text * A)) k1 k2 a, names_equal k1 k2 -> has l k2 a -> has l k1 a.
Proof. intros A l k1 k2 a E (k' & I & E'). exists k'. split; [exact I|eapply names_trans; eassumption]. Qed.

Lemma put_names : forall k v s, map (fun x => map lower (fst x)) (put k v s) = map (fun x => map lower (fst x)) s \/
  (lacks s k /\ map (fun x => map lower (fst x)) (put k v s) = map (fun x => map lower (fst x)) s ++ [map lower k]).
Proof.
  intros k v s. induction s as [|[k' v'] s IH]; cbn [put].
  - right. split; [intros ? ? []|reflexivity].
  - destruct (same_name k k') eqn:E; [left; reflexivity|]. cbn [map fst app]. destruct IH as [->|[L ->]]; [left; reflexivity|].
    right. split; [|reflexivity]. intros k0 a [I|I].
    + injection I as <- <-. apply same_name_neq. exact E.
    + eapply L; exact I.
Qed.
Lemma put_unique : forall k v s, unique s -> unique (put k v s).
Proof.
  intros k v s U. unfold unique in *. destruct (put_names k v s) as [->|[L ->]]; [exact U|].
  rewrite <- (rev_involutive (_ ++ _)). apply NoDup_rev. rewrite rev_app_distr. cbn [rev app]. constructor; [|apply NoDup_rev; exact U].
  intros I. apply in_rev in I. apply in_map_iff in I. destruct I as ([k' a] & E & I). apply (L k' a I). symmetry. exact E.
Qed.
Lemma put_has : forall k v s, has (put k v s) k v.
Proof.
  intros k v s. induction s as [|[k' v'] s (k0 & I & E)]; cbn [put].
  - exists k. split; [left; reflexivity|reflexivity].
  - destruct (same_name k k') eqn:Q; [exists k'; split; [left; reflexivity|apply same_name_spec; exact Q]|].
    exists k0. split; [right; exact I|exact E].
Qed.
Lemma put_other : forall k v s k' v', ~ names_equal k' k -> (has (put k v s) k' v' <-> has s k' v').
Proof.
  intros k v s k' v' N. induction s as [|[k0 v0] s IH]; cbn [put].
  - split; intros (k1 & I & E); [|destruct I]. destruct I as [I|[]]. injection I as <- <-. contradiction.
  - destruct (same_name k k0) eqn:Q.
    + apply same_name_spec in Q. split; intros (k1 & [I|I] & E).
      * injection I as <- <-. exfalso. apply N. eapply names_trans; [exact E|apply names_sym; exact Q].
      * exists k1. split; [right; exact I|exact E].
      * injection I as <- <-. exfalso. apply N. eapply names_trans; [exact E|apply names_sym; exact Q].
      * exists k1. split; [right; exact I|exact E].
    + split; intros (k1 & [I|I] & E); try (exists k1; split; [left; exact I|exact E]).
      * destruct (proj1 IH) as (k2 & I2 & E2); [exists k1; split; [exact I|exact E]|]. exists k2. split; [right; exact I2|exact E2].
      * destruct (proj2 IH) as (k2 & I2 & E2); [exists k1; split; [exact I|exact E]|]. exists k2. split; [right; exact I2|exact E2].
Qed.
Lemma lacks_has : forall A (l : list (text * A)) k, lacks l k <-> (forall a, ~ has l k a).
Proof.
  intros A l k. split.
  - intros L a (k' & I & E). exact (L k' a I E).
  - intros H k' a I E. apply (H a). exists k'. auto.
Qed.
Lemma put_lacks : forall k v s k', ~ names_equal k' k -> lacks s k' -> lacks (put k v s) k'.
Proof.
  intros k v s k' N L. apply lacks_has. intros a H. apply put_other in H; [|exact N]. revert H. apply lacks_has. exact L.
Qed.

Lemma set_ok : forall name t pt s, has pt name s -> exists pt', set_parameter name t pt = Some pt' /\ map fst pt' = map fst pt /\
  (unique pt -> forall k s', In (k, s') pt -> In (k, if same_name name k then put (str "ParameterValue") t s' else s') pt') /\
  (forall k s', In (k, s') pt' -> exists s0, In (k, s0) pt /\ (s' = s0 \/ s' = put (str "ParameterValue") t s0)).
Proof.
  intros name t pt s. induction pt as [|[n s1] pt IH]; intros (k & I & E); [destruct I|]. cbn [set_parameter].
  destruct (same_name name n) eqn:Q.
  - eexists. split; [reflexivity|]. split; [reflexivity|]. split.
    + intros U k0 s' [H|H].
      * injection H as <- <-. rewrite Q. left. reflexivity.
      * destruct (same_name name k0) eqn:Q2; [|right; exact H]. exfalso. unfold unique in U. cbn [map fst] in U. inversion U as [|? ? N _]; subst.
        apply N. apply same_name_spec in Q, Q2. unfold names_equal in *. rewrite <- Q, Q2. apply (in_map (fun x => map lower (fst x)) _ _ H).
    + intros k0 s' [H|H].
      * injection H as <- <-. exists s1. split; [left; reflexivity|right; reflexivity].
      * exists s'. split; [right; exact H|left; reflexivity].
  - destruct I as [I|I].
    { injection I as -> ->. apply same_name_spec in E. congruence. }
    destruct IH as (pt' & -> & F & P1 & P2); [exists k; auto|]. eexists. split; [reflexivity|]. split; [cbn [map fst]; f_equal; exact F|]. split.
    + intros U k0 s' [H|H].
      * injection H as <- <-. rewrite Q. left. reflexivity.
      * right. apply P1; [|exact H]. unfold unique in *. cbn [map] in U. inversion U; assumption.
    + intros k0 s' [H|H].
      * injection H as <- <-. exists s1. split; [left; reflexivity|left; reflexivity].
      * destruct (P2 k0 s' H) as (s0 & I0 & E0). exists s0. split; [right; exact I0|exact E0].
Qed.
Lemma same_name_equal : forall a b c, names_equal b c -> same_name a b = same_name a c.
Proof. intros a b c E. unfold same_name. rewrite E. reflexivity. Qed.
Lemma set_has : forall name t pt pt' s, unique pt -> has pt name s -> set_parameter name t pt = Some pt' ->
  forall k s', has pt k s' -> has pt' k (if same_name name k then put (str "ParameterValue") t s' else s').
Proof.
  intros name t pt pt' s U H E k s' (k' & I & N). destruct (set_ok name t pt s H) as (pt0 & E0 & _ & P & _).
  rewrite E in E0. injection E0 as <-. exists k'. split; [|exact N]. rewrite (same_name_equal name k k' N). apply P; assumption.
Qed.
Lemma set_lacks : forall name t pt pt' k, set_parameter name t pt = Some pt' -> lacks pt k -> lacks pt' k.
Proof.
  intros name t pt. induction pt as [|[n s1] pt IH]; intros pt' k E L; [discriminate|]. cbn [set_parameter] in E.
  destruct (same_name name n).
  - injection E as <-. intros k' a [I|I].
    + injection I as <- <-. eapply L. left. reflexivity.
    + eapply L. right. exact I.
  - destruct (set_parameter name t pt) as [pt1|]; [|discriminate]. injection E as <-. intros k' a [I|I].
    + eapply L. left. exact I.
    + eapply (IH pt1); [reflexivity| |exact I]. intros k2 a2 I2. eapply L. right. exact I2.
Qed.
Lemma set_well_formed : forall name t pt pt' s, well_formed pt -> has pt name s -> set_parameter name t pt = Some pt' ->
  well_formed pt' /\ (no_leading_zero pt -> no_leading_zero pt').
Proof.
  intros name t pt pt' s [U F] H E. destruct (set_ok name t pt s H) as (pt0 & E0 & N & _ & P). rewrite E in E0. injection E0 as <-.
  split; [split|].
  - unfold unique in *. assert (Q : forall l : ini, map (fun x => map lower (fst x)) l = map (map lower) (map fst l)) by (intros l; rewrite map_map; reflexivity).
    rewrite Q in *. rewrite N. exact U.
  - intros k s' I. destruct (P k s' I) as (s0 & I0 & [->| ->]); [eapply F; exact I0|apply put_unique; eapply F; exact I0].
  - intros Z k s' I. destruct (P k s' I) as (s0 & I0 & _). eapply Z; exact I0.
Qed.

(** Names of sections. *)
Definition is_hex (c : Z) : bool := match hex2dec c with Some _ => true | None => false end.
Definition first_other (t : text) : option Z := List.find (fun c => negb (is_hex c)) (map lower t).
Lemma lower_hex : forall c d, hex_digit c d -> hex_digit (lower c) d.
Proof.
  intros c d H. apply hex2dec_spec in H. apply hex2dec_spec. unfold lower. destruct ((65 <=? c) && (c <=? 90)) eqn:L; [|exact H]. unfold hex2dec in *.
  repeat match goal with H : context [if ?b then _ else _] |- _ => destruct b eqn:? end; try discriminate;
    repeat match goal with |- context [if ?b then _ else _] => destruct b eqn:? end; try lia; injection H as <-; f_equal; lia.
Qed.
Lemma first_other_app : forall base n x r, digits base n x -> first_other (n ++ r) = first_other r.
Proof.
  intros base n x r D. revert r. induction D as [c d Hc Hd | t x c d Ht IH Hc Hd]; intros r.
  - unfold first_other. cbn [app map List.find]. unfold is_hex. apply lower_hex, hex2dec_spec in Hc. rewrite Hc. reflexivity.
  - rewrite <- app_assoc, IH. unfold first_other. cbn [app map List.find]. unfold is_hex. apply lower_hex, hex2dec_spec in Hc. rewrite Hc. reflexivity.
Qed.
Lemma first_other_equal : forall a b, names_equal a b -> first_other a = first_other b.
Proof. intros a b E. unfold first_other. rewrite E. reflexivity. Qed.
Lemma other_hex : forall n x, digits 16 n x -> first_other n = None.
Proof. intros n x D. rewrite <- (app_nil_r n). rewrite (first_other_app 16 n x [] D). reflexivity. Qed.
Lemma other_sub : forall n x t, digits 16 n x -> first_other (n ++ str "sub" ++ t) = Some 115.
Proof. intros n x t D. rewrite (first_other_app 16 n x _ D). reflexivity. Qed.

Lemma digits_value : forall base t x, digits base t x -> forall t' x', digits base t' x' -> map lower t = map lower t' -> x = x'.
Proof.
  intros base t x D. induction D as [c d Hc Hd | t x c d Ht IH Hc Hd]; intros t' x' D' E.
  - inversion D' as [c' d' Hc' Hd' | t1 x1 c' d' Ht' Hc' Hd']; subst.
    + cbn [map] in E. injection E as E. apply lower_hex in Hc, Hc'. rewrite E in Hc. apply hex2dec_spec in Hc, Hc'. congruence.
    + rewrite map_app in E. cbn [map] in E. pose proof (digits_nonempty _ _ _ Ht') as N. destruct t1 as [|a [|b t1]]; [congruence|discriminate|discriminate].
  - inversion D' as [c' d' Hc' Hd' E1 E2 | t1 x1 c' d' Ht' Hc' Hd' E1 E2].
    + subst t'. rewrite map_app in E. cbn [map] in E. pose proof (digits_nonempty _ _ _ Ht) as N. destruct t as [|a [|b t]]; [congruence|discriminate|discriminate].
    + subst t'. rewrite !map_app in E. cbn [map] in E. apply app_inj_tail in E. destruct E as [E1 EC].
      rewrite (IH t1 x1 Ht' E1). f_equal. apply lower_hex in Hc, Hc'. rewrite EC in Hc. apply hex2dec_spec in Hc, Hc'. congruence.
Qed.

Lemma split_sub : forall n t n' t', Forall (fun c => is_hex c = true) n -> Forall (fun c => is_hex c = true) n' ->
  n ++ 115 :: t = n' ++ 115 :: t' -> n = n' /\ t = t'.
Proof.
  induction n as [|a n IH]; intros t n' t' H H' E; destruct n' as [|a' n'].
  - injection E as ->. auto.
  - injection E as E1 E2. subst a'. inversion H' as [|? ? HA]. cbv in HA. discriminate.
  - injection E as E1 E2. subst a. inversion H as [|? ? HA]. cbv in HA. discriminate.
  - injection E as E1 E2. subst a'. inversion H; inversion H'; subst. destruct (IH t n' t') as [-> ->]; auto.
Qed.
Lemma digits_lower_hex : forall base n x, digits base n x -> Forall (fun c => is_hex c = true) (map lower n).
Proof.
  intros base n x D. induction D as [c d Hc Hd | t x c d Ht IH Hc Hd].
  - cbn [map]. repeat constructor. unfold is_hex. apply lower_hex, hex2dec_spec in Hc. rewrite Hc. reflexivity.
  - rewrite map_app. apply Forall_app. split; [exact IH|]. cbn [map]. repeat constructor. unfold is_hex. apply lower_hex, hex2dec_spec in Hc. rewrite Hc. reflexivity.
Qed.
Lemma sub_names : forall n x t i n' x' t' i', digits 16 n x -> digits 16 n' x' -> digits 16 t i -> digits 16 t' i' ->
  names_equal (n ++ str "sub" ++ t) (n' ++ str "sub" ++ t') -> x = x' /\ i = i'.
Proof.
  intros n x t i n' x' t' i' D D' DT DT' E. unfold names_equal in E. rewrite !map_app in E.
  change (map lower (str "sub")) with (115 :: [117; 98]) in E. cbn [app] in E.
  apply split_sub in E; [|eapply digits_lower_hex; eassumption|eapply digits_lower_hex; eassumption].
  destruct E as [E1 E2]. injection E2 as E2. split; [eapply digits_value; eassumption|eapply (digits_value 16 t i DT t' i'); eassumption].
Qed.
Lemma sub_names' : forall n t n' t' x i, hexadecimal n x -> hexadecimal n' x -> hexadecimal t i -> hexadecimal t' i ->
  names_equal (n ++ str "sub" ++ t) (n' ++ str "sub" ++ t').
Proof.
  intros n t n' t' x i [D L] [D' L'] [DT LT] [DT' LT']. unfold names_equal. rewrite !map_app.
  rewrite (digits_unique 16 n x ltac:(lia) D n' D' L L'), (digits_unique 16 t i ltac:(lia) DT t' DT' LT LT'). reflexivity.
Qed.

Lemma name_kind : forall name k, section_name name k -> first_other name = None \/ first_other name = Some 115.
Proof.
  intros name [i|i s] H; cbn [section_name] in H.
  - left. apply (other_hex name i). apply H.
  - right. destruct H as (n & t & [D _] & _ & E). rewrite (first_other_equal _ _ E). eapply other_sub; exact D.
Qed.
Lemma name_not : forall name k g, section_name name k -> first_other g <> None -> first_other g <> Some 115 -> same_name name g = false.
Proof.
  intros name k g H N1 N2. apply same_name_neq. intros E. apply first_other_equal in E. destruct (name_kind name k H) as [K|K]; congruence.
Qed.

Lemma zero_lower : forall c, lower c = 48 <-> c = 48.
Proof. intros c. unfold lower. destruct ((65 <=? c) && (c <=? 90)) eqn:E; split; intros H; lia. Qed.
Lemma has_lead : forall pt n s, no_leading_zero pt -> has pt n s -> hd 0 n <> 48.
Proof.
  intros pt n s Z (k & I & E). specialize (Z k s I). destruct n as [|c n]; [cbn; lia|]. destruct k as [|c' k]; [discriminate|].
  cbn [hd] in *. unfold names_equal in E. cbn [map] in E. injection E as E _. intros ->. apply Z. apply zero_lower. rewrite <- E. reflexivity.
Qed.
Lemma sub_lead : forall n x t, digits 16 n x -> hd 0 (n ++ str "sub" ++ t) <> 48 -> hexadecimal n x.
Proof.
  intros n x t D H. pose proof (digits_nonempty _ _ _ D). destruct n as [|c n]; [congruence|]. split; [exact D|left; exact H].
Qed.

(** Values set in a section. *)
Lemma not_value : forall k, same_name k (str "ParameterValue") = false -> ~ names_equal k (str "ParameterValue").
Proof. intros k H. apply same_name_neq. exact H. Qed.
Lemma set_option_other : forall k s t key v, same_name key (str "ParameterValue") = false -> shows_option k s key v ->
  shows_option k (put (str "ParameterValue") t s) key v.
Proof.
  intros k s t key v N H. destruct v as [v|]; cbn [EdsSpec.shows_option] in *.
  - destruct H as (t0 & H & V). exists t0. split; [apply put_other; [apply not_value; exact N|exact H]|exact V].
  - apply put_lacks; [apply not_value; exact N|exact H].
Qed.
Lemma set_number : forall s t key x, same_name key (str "ParameterValue") = false -> shows_number s key x ->
  shows_number (put (str "ParameterValue") t s) key x.
Proof.
  intros s t key x N (t0 & H & V). exists t0. split; [apply put_other; [apply not_value; exact N|exact H]|exact V].
Qed.
Lemma set_var : forall s v t x k, shows_var s v -> kind_of (v_type v) = Some k -> shows_value k t x ->
  shows_var (put (str "ParameterValue") t s) (with_init v x).
Proof.
  intros s v t x k V K X. destruct V as [C Sm [T LT] (a & HA & NA) M (p & HP & HD) (k' & K' & SD & _)].
  assert (k' = k) by congruence. subst k'.
  assert (O : forall key v', same_name key (str "ParameterValue") = false -> has s key v' -> has (put (str "ParameterValue") t s) key v').
  { intros key v' N. apply put_other. apply not_value. exact N. }
  assert (L : forall key, same_name key (str "ParameterValue") = false -> lacks s key -> lacks (put (str "ParameterValue") t s) key).
  { intros key N. apply put_lacks. apply not_value. exact N. }
  constructor; cbn [with_init v_code v_type v_access v_map v_name v_def v_init].
  - destruct C as [C|[C E]]; [left; apply set_number; [reflexivity|exact C]|right; split; [apply L; [reflexivity|exact C]|exact E]].
  - exact Sm.
  - split; [apply set_number; [reflexivity|exact T]|exact LT].
  - exists a. split; [apply O; [reflexivity|exact HA]|exact NA].
  - destruct M as [(mt & M & TM)|[M EM]]; [left; exists mt; split; [apply O; [reflexivity|exact M]|exact TM]|right; split; [apply L; [reflexivity|exact M]|exact EM]].
  - exists p. split; [apply O; [reflexivity|exact HP]|].
    destruct HD as [HD|[HD E]]; [left; apply O; [reflexivity|exact HD]|right; split; [apply L; [reflexivity|exact HD]|exact E]].
  - exists k. split; [exact K|]. split; [apply set_option_other; [reflexivity|exact SD]|].
    cbn [EdsSpec.shows_option]. exists t. split; [apply put_has|exact X].
Qed.

Lemma change_length : forall A (f : A -> A) n l, List.length (change_at f n l) = List.length l.
Proof. intros A f n l. revert n. induction l as [|a l IH]; intros [|n]; cbn; auto. Qed.
Lemma change_nth : forall A (f : A -> A) n l i, nth_error (change_at f n l) i =
  match nth_error l i with Some a => Some (if (i =? n)%nat then f a else a) | None => None end.
Proof.
  intros A f n l. revert n. induction l as [|a l IH]; intros [|n] [|i]; cbn; try reflexivity.
  - destruct (nth_error l i); reflexivity.
  - apply IH.
Qed.

Lemma obj_at_in : forall objs x o, NoDup (map fst objs) -> In (x, o) objs -> obj_at objs x = Some o.
Proof.
  induction objs as [|[y o'] objs IH]; intros x o ND I; [destruct I|]. cbn [map fst] in ND. inversion ND as [|? ? N D]; subst.
  cbn [obj_at]. destruct I as [I|I].
  - injection I as -> ->. rewrite Z.eqb_refl. reflexivity.
  - destruct (Z.eqb_spec x y) as [->|]; [|apply IH; assumption]. exfalso. apply N. apply (in_map fst) in I. exact I.
Qed.
Lemma configure_fst : forall k x io, fst (configure k x io) = fst io.
Proof.
  intros k x [i o]. unfold configure. destruct k, o; try reflexivity; destruct (i =? i0); reflexivity.
Qed.

Section Overlay.
Variables (pt pt' : ini) (name t : text) (sec : section) (k : okey) (x : value) (objs : list (Z * obj)) (i s : Z) (v : var) (kd : kind).
Hypothesis W : well_formed pt.
Hypothesis LZ : no_leading_zero pt.
Hypothesis ND : NoDup (map fst objs).
Hypothesis OK : okey_ok k.
Hypothesis SN : section_name name k.
Hypothesis HW : wanted objs k = Some (i, s, v).
Hypothesis KD : kind_of (v_type v) = Some kd.
Hypothesis SV : shows_value kd t x.
Hypothesis HS : has pt name sec.
Hypothesis HE : set_parameter name t pt = Some pt'.

Lemma has_kept : forall n s', has pt n s' -> same_name name n = false -> has pt' n s'.
Proof.
  intros n s' H N. pose proof (set_has name t pt pt' sec (proj1 W) HS HE n s' H) as P. rewrite N in P. exact P.
Qed.
Lemma has_set : forall n s', has pt n s' -> same_name name n = true -> has pt' n (put (str "ParameterValue") t s').
Proof.
  intros n s' H N. pose proof (set_has name t pt pt' sec (proj1 W) HS HE n s' H) as P. rewrite N in P. exact P.
Qed.

Lemma shows_obj_set : forall n x0 o, In (x0, o) objs -> digits 16 n x0 -> shows_obj real pt n o ->
  shows_obj real pt' n (snd (configure k x (x0, o))).
Proof.
  intros n x0 o I D S. pose proof (obj_at_in objs x0 o ND I) as AT. destruct o as [w|code l]; cbn [shows_obj] in S.
  - destruct S as (C & s0 & H & V). pose proof (has_lead _ _ _ LZ H) as L.
    destruct k as [j|j j2]; cbn [section_name] in SN; cbn [configure].
    + destruct (Z.eqb_spec x0 j) as [E|NE].
      * subst j. cbn [snd shows_obj with_init v_code]. split; [exact C|]. cbn [wanted] in HW. rewrite AT in HW. injection HW as <- <- <-.
        exists (put (str "ParameterValue") t s0). split; [|eapply set_var; eassumption]. apply has_set; [exact H|].
        apply same_name_spec. destruct SN as [D' L']. apply (digits_unique 16 name x0); [lia|exact D'|exact D|exact L'|left; exact L].
      * cbn [snd shows_obj]. split; [exact C|]. exists s0. split; [|exact V]. apply has_kept; [exact H|].
        apply same_name_neq. intros E. apply NE. symmetry. eapply (digits_value 16 name j); [apply SN|exact D|exact E].
    + cbn [snd shows_obj]. split; [exact C|]. exists s0. split; [|exact V]. apply has_kept; [exact H|].
      destruct SN as (n' & t' & [D' _] & _ & E'). apply same_name_neq. intros E.
      pose proof (other_sub n' j t' D') as O1. rewrite <- (first_other_equal _ _ E'), (first_other_equal _ _ E), (other_hex n x0 D) in O1. discriminate.
  - destruct S as (C & (s0 & p & H & HO & HP & HK & HN) & Len & V). pose proof (has_lead _ _ _ LZ H) as L.
    assert (HX : hexadecimal n x0) by (split; [exact D|left; exact L]).
    destruct k as [j|j j2]; cbn [section_name] in SN; cbn [configure].
    + assert (NE : same_name name n = false).
      { apply same_name_neq. intros E. assert (j = x0) by (eapply (digits_value 16 name j); [apply SN|exact D|exact E]). subst j.
        cbn [wanted] in HW. rewrite AT in HW. discriminate. }
      cbn [snd shows_obj]. split; [exact C|]. split; [exists s0, p; auto using has_kept|]. split; [exact Len|].
      intros a w NT. destruct (V a w NT) as (t0 & s1 & T0 & H1 & V1). exists t0, s1. split; [exact T0|]. split; [|exact V1].
      apply has_kept; [exact H1|]. apply same_name_neq. intros E. apply first_other_equal in E.
      rewrite (other_sub n x0 t0 D), (other_hex name j (proj1 SN)) in E. discriminate.
    + destruct SN as (n' & t' & HX' & HT' & E').
      assert (NE : same_name name n = false).
      { apply same_name_neq. intros E. pose proof (other_sub n' j t' (proj1 HX')) as O1.
        rewrite <- (first_other_equal _ _ E'), (first_other_equal _ _ E), (other_hex n x0 D) in O1. discriminate. }
      destruct (Z.eqb_spec x0 j) as [E|NX].
      * subst j. cbn [snd shows_obj]. split; [exact C|]. rewrite change_length. split; [exists s0, p; auto using has_kept|]. split; [exact Len|].
        intros a w NT. rewrite change_nth in NT. destruct (nth_error l a) as [w0|] eqn:N0; [|discriminate].
        destruct (V a w0 N0) as (t0 & s1 & T0 & H1 & V1). destruct (Nat.eqb_spec a (Z.to_nat j2)) as [EA|NA].
        -- cbn [wanted] in HW. rewrite AT in HW. rewrite <- EA, N0 in HW.
           assert (w = with_init v x) by congruence. assert (w0 = v) by congruence. subst w w0. cbn in OK.
           exists t0, (put (str "ParameterValue") t s1). split; [exact T0|]. split; [|eapply set_var; eassumption].
           apply has_set; [exact H1|]. apply same_name_spec. eapply names_trans; [exact E'|].
           assert (Z.of_nat a = j2) by lia. apply (sub_names' n' t' n t0 x0 j2); [exact HX'|exact HX|exact HT'|congruence].
        -- assert (w = w0) by congruence. subst w. exists t0, s1. split; [exact T0|]. split; [|exact V1].
           apply has_kept; [exact H1|]. apply same_name_neq. intros E. cbn in OK.
           assert (x0 = x0 /\ j2 = Z.of_nat a); [|lia]. eapply (sub_names n' x0 t' j2 n x0 t0 (Z.of_nat a)); [apply HX'|exact D|apply HT'|apply T0|].
           eapply names_trans; [apply names_sym; exact E'|exact E].
      * cbn [snd shows_obj]. split; [exact C|]. split; [exists s0, p; auto using has_kept|]. split; [exact Len|].
        intros a w N0. destruct (V a w N0) as (t0 & s1 & T0 & H1 & V1). exists t0, s1. split; [exact T0|]. split; [|exact V1].
        apply has_kept; [exact H1|]. apply same_name_neq. intros E.
        assert (j = x0 /\ j2 = Z.of_nat a); [|lia]. eapply (sub_names n' j t' j2 n x0 t0 (Z.of_nat a)); [apply HX'|exact D|apply HT'|apply T0|].
        eapply names_trans; [apply names_sym; exact E'|exact E].
Qed.

Lemma shows_group_set : forall g l, (forall y, In y l -> In y objs) -> same_name name g = false -> shows_group real pt g l ->
  shows_group real pt' g (map (configure k x) l).
Proof.
  intros g l Sub NG [[L ->]|(s0 & H & HN & Len & V)].
  - left. split; [eapply set_lacks; eassumption|reflexivity].
  - right. exists s0. rewrite List.map_length. split; [apply has_kept; assumption|]. split; [exact HN|]. split; [exact Len|].
    intros a y o N. rewrite nth_error_map in N. destruct (nth_error l a) as [[y0 o0]|] eqn:N0; [|discriminate]. cbn [option_map] in N.
    destruct (V a y0 o0 N0) as (t0 & n & T0 & H0 & D & Ly & SO). injection N as N.
    pose proof (configure_fst k x (y0, o0)) as F. rewrite N in F. cbn [fst] in F. subst y0.
    exists t0, n. split; [exact T0|]. split; [exact H0|]. split; [exact D|]. split; [exact Ly|].
    replace o with (snd (configure k x (y, o0))) by (rewrite N; reflexivity). apply shows_obj_set; [|exact D|exact SO].
    apply Sub. eapply nth_error_In. exact N0.
Qed.

Lemma shows_file_set : shows_file real pt objs -> shows_file real pt' (map (configure k x) objs).
Proof.
  intros (_ & (di & HD & BD) & DU & l1 & l2 & l3 & EQ & S1 & S2 & S3).
  assert (NG : forall g, first_other g <> None -> first_other g <> Some 115 -> same_name name g = false).
  { intros g. eapply name_not. exact SN. }
  split; [apply (set_well_formed name t pt pt' sec W HS HE)|]. split; [|split].
  - exists di. split; [|exact BD]. apply has_kept; [exact HD|]. apply NG; vm_compute; discriminate.
  - intros s0 H k0 t0 I r E. destruct (child (str "DummyUsage") pt) as [s1|] eqn:CH.
    + apply child_in in CH. pose proof (has_kept (str "DummyUsage") s1 CH (NG (str "DummyUsage") ltac:(vm_compute; discriminate) ltac:(vm_compute; discriminate))) as H1.
      assert (s0 = s1).
      { destruct (set_well_formed name t pt pt' sec W HS HE) as [[U _] _].
        pose proof (child_has _ _ _ _ U H). pose proof (child_has _ _ _ _ U H1). congruence. }
      subst s1. eapply DU; eassumption.
    + exfalso. destruct (set_ok name t pt sec HS) as (pt0 & E0 & N & _ & P). rewrite HE in E0. injection E0 as <-.
      destruct H as (k1 & I1 & E1). destruct (P k1 s0 I1) as (s2 & I2 & _).
      assert (H2 : has pt (str "DummyUsage") s2) by (exists k1; auto). rewrite (child_has _ _ _ _ (proj1 W) H2) in CH. discriminate.
  - exists (map (configure k x) l1), (map (configure k x) l2), (map (configure k x) l3). split; [rewrite EQ, !map_app; reflexivity|].
    split; [|split]; apply shows_group_set; try assumption; try (apply NG; vm_compute; discriminate); intros y I; rewrite EQ; apply in_or_app; auto;
      right; apply in_or_app; auto.
Qed.
End Overlay.

Lemma obj_at_find : forall objs i o, obj_at objs i = Some o -> In (i, o) objs.
Proof.
  induction objs as [|[y o'] objs IH]; intros i o H; [discriminate|]. cbn [obj_at] in H. destruct (Z.eqb_spec i y) as [->|].
  - injection H as <-. left. reflexivity.
  - right. apply IH. exact H.
Qed.
Lemma shown_in : forall pt objs x o, shows_file real pt objs -> In (x, o) objs -> exists n, digits 16 n x /\ shows_obj real pt n o.
Proof.
  intros pt objs x o (_ & _ & _ & l1 & l2 & l3 & -> & S1 & S2 & S3) I.
  assert (G : forall g l, shows_group real pt g l -> In (x, o) l -> exists n, digits 16 n x /\ shows_obj real pt n o).
  { intros g l [[_ ->]|(s0 & _ & _ & _ & V)] IL; [destruct IL|]. apply In_nth_error in IL. destruct IL as (a & N).
    destruct (V a x o N) as (t & n & _ & _ & D & _ & S). exists n. auto. }
  apply in_app_or in I. destruct I as [I|I]; [exact (G _ _ S1 I)|]. apply in_app_or in I. destruct I as [I|I]; [exact (G _ _ S2 I)|exact (G _ _ S3 I)].
Qed.
Lemma section_exists : forall pt objs name k i s v, shows_file real pt objs -> no_leading_zero pt -> okey_ok k -> section_name name k ->
  wanted objs k = Some (i, s, v) -> exists sec, has pt name sec.
Proof.
  intros pt objs name k i s v S LZ OK SN HW. destruct k as [j|j j2]; cbn [wanted section_name] in *.
  - destruct (obj_at objs j) as [[w|c l]|] eqn:AT; try discriminate. destruct (shown_in pt objs j _ S (obj_at_find _ _ _ AT)) as (n & D & (_ & s0 & H & _)).
    exists s0. eapply has_equal; [|exact H]. destruct SN as [D' L'].
    apply (digits_unique 16 name j); [lia|exact D'|exact D|exact L'|left; eapply has_lead; eassumption].
  - destruct (obj_at objs j) as [[w|c l]|] eqn:AT; try discriminate. destruct (nth_error l (Z.to_nat j2)) as [w|] eqn:NT; [|discriminate].
    destruct (shown_in pt objs j _ S (obj_at_find _ _ _ AT)) as (n & D & (_ & (s0 & p & H & _) & _ & V)).
    destruct (V _ _ NT) as (t0 & s1 & T0 & H1 & _). destruct SN as (n' & t' & HX & HT & E). exists s1. eapply has_equal; [|exact H1].
    eapply names_trans; [exact E|]. cbn in OK. replace (Z.of_nat (Z.to_nat j2)) with j2 in T0 by lia.
    eapply sub_names'; [exact HX| |exact HT|exact T0]. split; [exact D|left; eapply has_lead; eassumption].
Qed.

Lemma overlay_shows : forall objs ov objs', overlays real objs ov objs' -> forall pt, shows_file real pt objs -> NoDup (map fst objs) ->
  no_leading_zero pt -> exists pt', apply_overlay ov pt = Some pt' /\ shows_file real pt' objs' /\ NoDup (map fst objs').
Proof.
  intros objs ov objs' O. induction O as [objs|objs name t ov objs' k x i s v kd OK SN HW KD SV O IH]; intros pt S ND LZ.
  - exists pt. auto.
  - destruct (section_exists pt objs name k i s v S LZ OK SN HW) as (sec & HS).
    destruct (set_ok name t pt sec HS) as (pt1 & HE & _). cbn [apply_overlay]. rewrite HE.
    pose proof (proj1 S) as W.
    apply IH.
    + eapply (shows_file_set pt pt1 name t sec k x objs); eassumption.
    + rewrite map_map. erewrite map_ext; [exact ND|]. intros a. apply configure_fst.
    + apply (set_well_formed name t pt pt1 sec W HS HE). exact LZ.
Qed.

Lemma from_file_overlay : forall pt objs ov objs', shows_file real pt objs -> NoDup (map fst objs) -> no_leading_zero pt ->
  overlays real objs ov objs' -> exists i d, from_file pt ov = Some (i, d) /\ covers d objs'.
Proof.
  intros pt objs ov objs' S ND LZ O. destruct (overlay_shows objs ov objs' O pt S ND LZ) as (pt' & A & S' & ND').
  eapply from_file_covers; [exact S|exact A|apply groups_ok; assumption].
Qed.

Lemma set_missing : forall name t pt, lacks pt name -> set_parameter name t pt = None.
Proof.
  intros name t pt. induction pt as [|[n s] pt IH]; intros L; [reflexivity|]. cbn [set_parameter].
  destruct (same_name name n) eqn:E.
  - exfalso. apply same_name_spec in E. exact (L n s (or_introl eq_refl) E).
  - rewrite IH; [reflexivity|]. intros k a I. apply (L k a). right. exact I.
Qed.
Lemma overlay_missing : forall ov pt name t, In (name, t) ov -> lacks pt name -> apply_overlay ov pt = None.
Proof.
  induction ov as [|[n v] ov IH]; intros pt name t I L; [destruct I|]. cbn [apply_overlay].
  destruct (set_parameter n v pt) as [pt1|] eqn:E; [|reflexivity]. destruct I as [I|I].
  - injection I as -> ->. rewrite (set_missing name t pt L) in E. discriminate.
  - eapply IH; [exact I|]. eapply set_lacks; eassumption.
Qed.
Lemma from_file_missing : forall pt ov name t, In (name, t) ov -> lacks pt name -> from_file pt ov = None.
Proof.
  intros pt ov name t I L. unfold EdsModel.from_file. rewrite (overlay_missing ov pt name t I L).
  destruct (child (str "DeviceInfo") pt); [|reflexivity]. destruct (flags_ok _ _ && _); reflexivity.
Qed.

(** ** Compact objects *)
Definition element (e : dentry) (name : text) (init : hold) (i : Z) : dentry :=
  mkDentry 7 (d_index e) i (d_type e) None (d_readable e) (d_writable e) (d_mappable e) name (d_def e) init.
Lemma lookup_compact : forall e name init x n i d k, d_index e = x -> 0 <= x < 2^16 -> 0 <= i -> i + Z.of_nat n <= 256 -> okey_ok k ->
  lookup (compact_subs e name init i n d) (mk_key k) =
  match lookup d (mk_key k) with
  | Some e' => Some e'
  | None => match k with
            | KSub x' j => if (x' =? x) && (i <=? j) && (j <? i + Z.of_nat n) then Some (element e name init j) else None
            | KIndex _ => None
            end
  end.
Proof.
  intros e name init x n. induction n as [|n IH]; intros i d k Ex Hx Hi Hn Hk.
  - cbn [compact_subs]. destruct (lookup d (mk_key k)); [reflexivity|]. destruct k as [j|x' j]; [reflexivity|].
    replace (j <? i + Z.of_nat 0) with (negb (i <=? j)) by lia. destruct (i <=? j); rewrite ?andb_false_r; reflexivity.
  - cbn [compact_subs]. rewrite (IH (i + 1)) by (try assumption; lia). rewrite lookup_insert. fold (element e name init i).
    destruct (lookup d (mk_key k)); [reflexivity|].
    assert (KO : okey_ok (KSub x i)) by (cbn; lia).
    change (entry_key true (element e name init i)) with (KSub (d_index e) i). rewrite Ex.
    destruct (Z.eqb_spec (mk_key k) (mk_key (KSub x i))) as [Q|Q].
    + apply mk_key_inj in Q; [|exact Hk|exact KO]. subst k. rewrite Z.eqb_refl.
      replace (i <=? i) with true by lia. replace (i <? i + Z.of_nat (S n)) with true by lia. reflexivity.
    + destruct k as [j|x' j]; [reflexivity|].
      assert (NE : x' <> x \/ j <> i) by (destruct (Z.eq_dec x' x), (Z.eq_dec j i); try tauto; subst; contradiction).
      replace ((x' =? x) && (i + 1 <=? j) && (j <? i + 1 + Z.of_nat n)) with ((x' =? x) && (i <=? j) && (j <? i + Z.of_nat (S n))); [reflexivity|].
      destruct (Z.eqb_spec x' x); [|reflexivity]. cbn [andb]. lia.
Qed.
Lemma parse_compact : forall pt n x s v m d, well_formed pt -> digits 16 n x -> x < 2^16 -> has pt n s ->
  shows_var s v -> v_code v = 8 \/ v_code v = 9 -> shows_number s (str "CompactSubObj") m -> 0 < m < 256 ->
  exists d', parse_object pt (str "0x" ++ n) d = Some d' /\ forall k, okey_ok k ->
    match lookup d (mk_key k), k with
    | Some e, _ => lookup d' (mk_key k) = Some e
    | None, KSub i 0 => if i =? x then exists e, lookup d' (mk_key k) = Some e /\ describes_nr x m e else lookup d' (mk_key k) = None
    | None, KSub i j => if (i =? x) && (j <? m) then exists e, lookup d' (mk_key k) = Some e /\ describes_element raw_offset x j v e
                        else lookup d' (mk_key k) = None
    | None, KIndex _ => lookup d' (mk_key k) = None
    end.
Proof.
  intros pt n x s v m d W D L H V HC HK Hm. pose proof (digits_nonneg 16 _ _ ltac:(lia) D) as P.
  unfold EdsModel.parse_object. rewrite section_of'.
  assert (EX : int_from_string U16 (str "0x" ++ n) = x).
  { rewrite <- (app_nil_r n). apply int_from_hex; [exact D|exact L|exact I]. }
  destruct (wf_section _ _ _ W H) as [-> U]. rewrite (start_entry_ok s v _ x U V EX). cbn [d_code].
  replace ((v_code v =? 7) || (v_code v =? 2)) with false by lia. replace ((v_code v =? 8) || (v_code v =? 9)) with true by lia.
  destruct (number_child s _ _ U8 U HK u8_type eq_refl) as (t & -> & ->); [cbn -[Z.pow]; change (2^8) with 256; lia|].
  replace (negb (m =? 0)) with true by lia.
  destruct (read_var_ok s v (mkDentry (v_code v) x 0 0 None false false false (v_name v) no_value no_value) U V eq_refl eq_refl) as (e & -> & DE).
  destruct DE as (_ & DI & _ & DT & _ & DR & DW & DM & _ & kd & KD & SD & _). cbn [d_index d_sub] in *.
  destruct (read_value_none (d_type e) kd) as (hi & -> & SI); [rewrite DT; exact KD|].
  eexists. split; [reflexivity|]. intros k Hk.
  rewrite (lookup_compact _ _ _ x) by (try assumption; lia). rewrite lookup_insert.
  destruct (lookup d (mk_key k)) as [e0|]; [reflexivity|].
  unfold entry_key. cbn [d_index d_sub].
  assert (K0 : okey_ok (KSub x 0)) by (cbn; lia).
  destruct (Z.eqb_spec (mk_key k) (mk_key (KSub x 0))) as [Q|Q].
  - apply mk_key_inj in Q; [|exact Hk|exact K0]. subst k. rewrite Z.eqb_refl. eexists. split; [reflexivity|].
    unfold describes_nr. cbn. repeat split; reflexivity.
  - destruct k as [j|i j]; [reflexivity|]. cbn in Hk.
    assert (NE : i <> x \/ j <> 0) by (destruct (Z.eq_dec i x), (Z.eq_dec j 0); try tauto; subst; contradiction).
    assert (G : if (i =? x) && (1 <=? j) && (j <? m) then exists e0,
                  (if (i =? x) && (1 <=? j) && (j <? 1 + Z.of_nat (Z.to_nat (m - 1))) then Some (element e (str "0x" ++ n) hi j) else None) = Some e0 /\ describes_element raw_offset x j v e0
                else (if (i =? x) && (1 <=? j) && (j <? 1 + Z.of_nat (Z.to_nat (m - 1))) then Some (element e (str "0x" ++ n) hi j) else None) = None).
    { replace (1 + Z.of_nat (Z.to_nat (m - 1))) with m by lia. destruct ((i =? x) && (1 <=? j) && (j <? m)); [|reflexivity].
      eexists. split; [reflexivity|]. unfold describes_element, element. cbn [d_code d_index d_sub d_type d_readable d_writable d_mappable d_def d_init].
      do 4 (split; [first [assumption|reflexivity]|]). split; [split; assumption|]. split; [assumption|]. exists kd. auto. }
    destruct j as [|j|j]; [|replace (1 <=? Z.pos j) with true in * by lia; rewrite andb_true_r in *; exact G|lia].
    destruct (Z.eqb_spec i x) as [->|]; [exfalso; destruct NE as [X|X]; apply X; reflexivity|].
    cbn [andb]. reflexivity.
Qed.
(** ** Objects with missing sub-objects *)
Lemma parse_subs_gaps : forall pt n x sub, well_formed pt -> digits 16 n x -> x < 2^16 -> forall m i d, 0 <= i -> i + Z.of_nat m < 256 ->
  (forall j, i <= j < i + Z.of_nat m -> shown_sub real pt n sub j) ->
  exists d', parse_subs pt (str "0x" ++ n) i m d = Some d' /\ forall k, okey_ok k ->
    match lookup d (mk_key k), k with
    | Some e, _ => lookup d' (mk_key k) = Some e
    | None, KSub y j => if (y =? x) && (i <=? j) && (j <? i + Z.of_nat m) then
                          match sub j with
                          | Some v => exists e, lookup d' (mk_key k) = Some e /\ describes raw_offset x j v e
                          | None => lookup d' (mk_key k) = None
                          end
                        else lookup d' (mk_key k) = None
    | None, KIndex _ => lookup d' (mk_key k) = None
    end.
Proof.
  intros pt n x sub W D L. pose proof (digits_nonneg 16 _ _ ltac:(lia) D) as P. induction m as [|m IH]; intros i d Hi Hm V.
  - exists d. split; [reflexivity|]. intros k Hk. destruct (lookup d (mk_key k)); [reflexivity|]. destruct k as [j|y j]; [reflexivity|].
    replace ((y =? x) && (i <=? j) && (j <? i + Z.of_nat 0)) with false; [reflexivity|]. destruct (y =? x); cbn [andb]; lia.
  - cbn [EdsModel.parse_subs]. 
    assert (ST : exists d1, EdsModel.parse_sub real raw_string raw_offset pt ((str "0x" ++ n) ++ str "sub" ++ print_hex i true) i d = Some d1 /\
                   match sub i with None => d1 = d | Some v => exists e, d1 = insert true e d /\ describes raw_offset x i v e end).
    { pose proof (V i ltac:(lia)) as Vi. unfold shown_sub in Vi. unfold EdsModel.parse_sub. rewrite <- app_assoc, section_of.
      assert (NM : forall t, hexadecimal t i -> child (n ++ str "sub" ++ print_hex i true) pt = child (n ++ str "sub" ++ t) pt).
      { intros t T. apply child_equal. unfold names_equal. rewrite !map_app. do 2 f_equal. symmetry. apply hex_name; [exact T|lia]. }
      destruct (sub i) as [v|].
      - destruct Vi as (t & s & T & H & SV). rewrite (NM t T). destruct (wf_section _ _ _ W H) as [-> U].
        rewrite (start_entry_ok s v _ x U SV) by (apply int_from_hex; [exact D|exact L|reflexivity]).
        destruct (read_var_ok s v (with_sub (mkDentry (v_code v) x 0 0 None false false false (v_name v) no_value no_value) i) U SV eq_refl eq_refl) as (e & -> & DE).
        eexists. split; [reflexivity|]. exists e. split; [reflexivity|exact DE].
      - destruct Vi as (t & T & LK). rewrite (NM t T), (child_lacks _ _ _ LK). eexists. split; reflexivity. }
    destruct ST as (d1 & -> & ST). destruct (IH (i + 1) d1 ltac:(lia) ltac:(lia) ltac:(intros j Hj; apply V; lia)) as (d' & -> & G).
    exists d'. split; [reflexivity|]. intros k Hk. specialize (G k Hk).
    assert (KO : okey_ok (KSub x i)) by (cbn; lia).
    assert (L1 : lookup d1 (mk_key k) = match lookup d (mk_key k) with Some e => Some e | None =>
                   match sub i with Some v => if mk_key k =? mk_key (KSub x i) then lookup d1 (mk_key k) else None | None => None end end).
    { destruct (sub i) as [v|]; [|subst d1; destruct (lookup d (mk_key k)); reflexivity]. destruct ST as (e & -> & DE). rewrite lookup_insert.
      destruct (lookup d (mk_key k)); [reflexivity|]. assert (KE : entry_key true e = KSub x i) by (unfold entry_key; destruct DE as (_ & D1 & D2 & _); congruence).
      rewrite KE. destruct (mk_key k =? mk_key (KSub x i)); reflexivity. }
    destruct (lookup d (mk_key k)) as [e0|] eqn:LD; [rewrite L1 in G; exact G|].
    destruct (Z.eqb_spec (mk_key k) (mk_key (KSub x i))) as [Q|Q].
    + apply mk_key_inj in Q; [|exact Hk|exact KO]. subst k. rewrite Z.eqb_refl. replace (i <=? i) with true by lia. replace (i <? i + Z.of_nat (S m)) with true by lia. cbn [andb].
      destruct (sub i) as [v|].
      * destruct ST as (e & -> & DE). rewrite lookup_insert, LD in G. assert (KE : entry_key true e = KSub x i) by (unfold entry_key; destruct DE as (_ & D1 & D2 & _); congruence).
        rewrite KE, Z.eqb_refl in G. exists e. auto.
      * subst d1. rewrite LD in G. replace (i + 1 <=? i) with false in G by lia. rewrite andb_false_r in G. cbn [andb] in G. exact G.
    + assert (LN : lookup d1 (mk_key k) = None) by (rewrite L1; destruct (sub i); reflexivity). rewrite LN in G. destruct k as [j|y j]; [exact G|].
      assert (NE : y <> x \/ j <> i) by (destruct (Z.eq_dec y x), (Z.eq_dec j i); try tauto; subst; contradiction).
      replace ((y =? x) && (i <=? j) && (j <? i + Z.of_nat (S m))) with ((y =? x) && (i + 1 <=? j) && (j <? i + 1 + Z.of_nat m)); [exact G|].
      destruct (Z.eqb_spec y x); [|reflexivity]. cbn [andb]. lia.
Qed.
Lemma parse_gaps : forall pt n x s p code m sub d, well_formed pt -> digits 16 n x -> x < 2^16 -> has pt n s ->
  code = 8 \/ code = 9 -> shows_number s (str "ObjectType") code -> has s (str "ParameterName") p -> lacks s (str "CompactSubObj") ->
  shows_number s (str "SubNumber") m -> 0 <= m < 256 -> (forall j, 0 <= j < m -> shown_sub real pt n sub j) ->
  exists d', parse_object pt (str "0x" ++ n) d = Some d' /\ forall k, okey_ok k ->
    match lookup d (mk_key k), k with
    | Some e, _ => lookup d' (mk_key k) = Some e
    | None, KSub y j => if (y =? x) && (j <? m) then
                          match sub j with
                          | Some v => exists e, lookup d' (mk_key k) = Some e /\ describes raw_offset x j v e
                          | None => lookup d' (mk_key k) = None
                          end
                        else lookup d' (mk_key k) = None
    | None, KIndex _ => lookup d' (mk_key k) = None
    end.
Proof.
  intros pt n x s p code m sub d W D L H HC HO HP HK HS Hm V. unfold EdsModel.parse_object. rewrite section_of'.
  destruct (wf_section _ _ _ W H) as [-> U]. unfold start_entry. rewrite (child_has _ _ _ _ U HP).
  destruct (number_child s _ _ U16 U HO u16_type eq_refl) as (t & -> & ->); [cbn -[Z.pow]; change (2^16) with 65536; lia|].
  cbn [d_code]. replace ((code =? 7) || (code =? 2)) with false by lia. replace ((code =? 8) || (code =? 9)) with true by lia.
  rewrite (child_lacks _ _ _ HK). change (int_from_string U8 []) with 0. cbn [Z.eqb negb].
  destruct (number_child s _ _ U8 U HS u8_type eq_refl) as (t2 & -> & ->); [cbn -[Z.pow]; change (2^8) with 256; lia|].
  destruct (parse_subs_gaps pt n x sub W D L (Z.to_nat m) 0 d ltac:(lia) ltac:(lia)) as (d' & -> & G); [intros j Hj; apply V; lia|].
  exists d'. split; [reflexivity|]. intros k Hk. specialize (G k Hk). destruct (lookup d (mk_key k)); [exact G|]. destruct k as [j|y j]; [exact G|]. cbn in Hk.
  replace ((y =? x) && (0 <=? j) && (j <? 0 + Z.of_nat (Z.to_nat m))) with ((y =? x) && (j <? m)) in G; [exact G|]. destruct (y =? x); cbn [andb]; lia.
Qed.
End Reading.

(** ** Device information *)

Lemma info_read : forall di key bits x, unique di -> info_number di key bits x -> read_unsigned bits key di = x.
Proof.
  intros di key bits x U [(t & w0 & n & w1 & H & S0 & S1 & -> & D & L)|[H ->]]; unfold read_unsigned.
  - rewrite (child_has _ _ _ _ U H). unfold get_unsigned. rewrite skip_spaces by exact S0.
    assert (E : skip_space w1 = []) by (rewrite <- (app_nil_r w1), skip_spaces by exact S1; reflexivity).
    assert (T : stops w1).
    { destruct w1 as [|c w1]; [exact Logic.I|]. inversion S1 as [|? ? K _]; subst. cbn in K.
      unfold stops. repeat (destruct K as [<-|K]; [reflexivity|]). destruct K. }
    rewrite (skip_space_hex n w1), (scan_sign_hex n w1) by (solve [eapply digits_all_hex; exact D|eapply digits_nonempty; exact D]).
    rewrite (digits_scan_stop 10 n x w1); [|lia|exact D|exact T]. cbn [andb].
    replace (x <? 2^bits) with true by (symmetry; apply Z.ltb_lt; exact L). rewrite E. reflexivity.
  - rewrite (child_lacks _ _ _ H). reflexivity.
Qed.
