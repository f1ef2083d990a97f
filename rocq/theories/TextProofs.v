(** Proofs about access by text. *)
From Verif Require Import Base CanModel CanSpec CanProofs KeyModel KeySpec KeyProofs StorageModel StorageProofs EdsModel EdsSpec EdsProofs TextModel TextSpec.

Lemma ity_eqb_refl : forall T, ity_eqb T T = true.
Proof. intros T. unfold ity_eqb. rewrite Bool.eqb_reflx, Z.eqb_refl. reflexivity. Qed.

Lemma of_le_bound : forall b, Forall byte_ok b -> 0 <= of_le b < 2^(8 * Z.of_nat (List.length b)).
Proof.
  induction b as [|x b IH]; intros H; [cbn; lia|]. inversion H as [|? ? H1 H2]; subst. cbn [of_le List.length].
  specialize (IH H2). unfold byte_ok in H1. replace (8 * Z.of_nat (S (List.length b))) with (8 + 8 * Z.of_nat (List.length b)) by lia.
  rewrite Z.pow_add_r by lia. change (2^8) with 256. nia.
Qed.
Lemma of_le_inj : forall a b, List.length a = List.length b -> Forall byte_ok a -> Forall byte_ok b -> of_le a = of_le b -> a = b.
Proof.
  induction a as [|x a IH]; intros [|y b] L HA HB E; try discriminate; [reflexivity|]. inversion HA as [|? ? A1 A2]; inversion HB as [|? ? B1 B2]; subst.
  cbn [of_le List.length] in *. unfold byte_ok in *. assert (x = y) by lia. f_equal; [assumption|]. apply IH; try assumption; lia.
Qed.
Lemma holds_unique : forall T a b x, holds T a x -> holds T b x -> a = b.
Proof.
  intros T a b x (_ & LA & BA & EA) (_ & LB & BB & EB). apply of_le_inj; try assumption; [lia|congruence].
Qed.

Lemma size_pow : forall T, int_type T -> 0 < 2^(8 * i_size T - 1) /\ 2^(8 * i_size T) = 2 * 2^(8 * i_size T - 1) /\ 2^(8 * i_size T) <= 2^64.
Proof.
  intros T H. unfold int_type in H. cbn [In] in H.
  repeat (destruct H as [H|H]; [rewrite <- H; cbn -[Z.pow]; repeat match goal with |- context [2 ^ ?e] => let v := eval compute in (2 ^ e) in change (2 ^ e) with v end; lia|]).
  destruct H.
Qed.
Lemma int_of_holds : forall T b, int_type T -> Z.of_nat (List.length b) = i_size T -> Forall byte_ok b -> holds T b (int_of T b).
Proof.
  intros T b HT L B. destruct (size_pow T HT) as (P & E & _). pose proof (of_le_bound b B) as R. rewrite L in R.
  unfold holds, int_of. rewrite (Z.mod_small (of_le b)) by lia. destruct (i_signed T) eqn:S; cbn [andb].
  - destruct (Z.leb_spec (2^(8 * i_size T - 1)) (of_le b)); (split; [unfold in_type; rewrite S; lia|]); repeat (split; [assumption|]).
    + replace (of_le b - 2^(8 * i_size T)) with (of_le b + (-1) * 2^(8 * i_size T)) by lia. rewrite Z.mod_add by lia. symmetry. apply Z.mod_small. lia.
    + symmetry. apply Z.mod_small. lia.
  - split; [unfold in_type; rewrite S; lia|]. repeat (split; [assumption|]). symmetry. apply Z.mod_small. lia.
Qed.

Lemma print_dec_usual : forall x, 0 < x <= 2^64 -> digits 10 (print_dec x) x /\ hd 0 (print_dec x) <> 48.
Proof.
  intros x H. destruct (dec_digits_digits 20 x) as [D L]; [|lia|].
  - change (10 ^ Z.of_nat 20) with 100000000000000000000. change (2^64) with 18446744073709551616 in H. lia.
  - split; [exact D|]. apply L. lia.
Qed.

Lemma usual_numeral : forall t x, usual_text t x -> numeral t x.
Proof.
  intros t x [[-> ->]|[(P & D & L)|(P & t' & -> & D & L)]].
  - apply num_pos, num_zero.
  - apply num_pos, num_dec; assumption.
  - replace x with (- - x) by lia. apply num_neg, num_dec; assumption.
Qed.

Section Texts.
Variable real : nat -> text -> option bytes.
Variable raw_string : text -> bytes.
Variable raw_offset : ity -> Z -> bytes.
Variable show_real : nat -> bytes -> text.
Notation text_read := (text_read show_real).
Notation text_write := (text_write real raw_string raw_offset).

Lemma write_ok : forall dt kd T t x e c cached wr, kind_of dt = Some kd -> integers kd = Some T -> c_type c = TInt T ->
  shows_value real kd t (Number x) ->
  exists b, holds T b x /\ text_write dt e c cached t wr = done (step e (if cached then OSetCached b wr else OSet b wr) c).
Proof.
  intros dt kd T t x e c cached wr K I C S. destruct (kind_type dt kd K) as [E F]. destruct (F T I) as [HT KT].
  destruct (read_value_some real raw_string raw_offset dt kd t (Number x) K S) as (h & RH & (T' & b & I' & -> & L & B & V)).
  assert (T' = T) by congruence. subst T'. exists b. split.
  - destruct S as (T' & _ & _ & _ & I2 & IT & _). assert (T' = T) by congruence. subst T'. repeat split; assumption.
  - unfold TextModel.text_write. rewrite E, KT, C. cbn [ty_eqb]. rewrite ity_eqb_refl, RH. cbn [hold_get h_type h_data ty_eqb].
    rewrite ity_eqb_refl. unfold done. destruct (step e _ c) as [[[c1 ev] [v| |x0]]|]; reflexivity.
Qed.

Lemma nodeid_refused : forall dt kd T t x e c cached wr, kind_of dt = Some kd -> integers kd = Some T -> c_type c = TInt T ->
  shows_value real kd t (NodeIdPlus x) -> text_write dt e c cached t wr = Ok (c, [], TFail).
Proof.
  intros dt kd T t x e c cached wr K I C S. destruct (kind_type dt kd K) as [E F]. destruct (F T I) as [HT KT].
  destruct (read_value_some real raw_string raw_offset dt kd t (NodeIdPlus x) K S) as (h & RH & (T' & I' & ->)).
  unfold TextModel.text_write. rewrite E, KT, C. cbn [ty_eqb]. rewrite ity_eqb_refl, RH. reflexivity.
Qed.

Lemma read_ok : forall dt kd T e c cached rd c1 ev b, kind_of dt = Some kd -> integers kd = Some T -> i_size T <> 1 -> c_type c = TInt T ->
  step e (OGet cached rd) c = Ok (c1, ev, RVal b) -> Z.of_nat (List.length b) = i_size T -> Forall byte_ok b ->
  exists x t, holds T b x /\ usual_text t x /\ text_read dt e c cached rd = Ok (c1, ev, TText t).
Proof.
  intros dt kd T e c cached rd c1 ev b K I N C S L B. destruct (kind_type dt kd K) as [E F]. destruct (F T I) as [HT KT].
  pose proof (int_of_holds T b HT L B) as H. destruct (size_pow T HT) as (P & P2 & P3).
  unfold TextModel.text_read. rewrite E, KT, C. cbn [ty_eqb]. rewrite ity_eqb_refl, S. cbn [format_value].
  replace (i_size T =? 1) with false by lia. do 2 eexists. split; [exact H|]. split; [|reflexivity].
  destruct H as [IT _]. unfold in_type in IT. set (x := int_of T b) in *. unfold usual_text.
  assert (BX : - 2^64 <= x <= 2^64) by (destruct (i_signed T); lia).
  destruct (Z.ltb_spec x 0).
  - right. right. split; [lia|]. exists (print_dec (- x)). split; [reflexivity|]. apply print_dec_usual. lia.
  - destruct (Z.eqb_spec x 0) as [->|]; [left; split; reflexivity|]. right. left. split; [lia|]. apply print_dec_usual. lia.
Qed.

Lemma read_failed : forall dt kd T e c cached rd c1 ev x, kind_of dt = Some kd -> integers kd = Some T -> c_type c = TInt T ->
  step e (OGet cached rd) c = Ok (c1, ev, RThrow x) -> text_read dt e c cached rd = Ok (c1, ev, TFail).
Proof.
  intros dt kd T e c cached rd c1 ev x K I C S. destruct (kind_type dt kd K) as [E F]. destruct (F T I) as [HT KT].
  unfold TextModel.text_read. rewrite E, KT, C. cbn [ty_eqb]. rewrite ity_eqb_refl, S. reflexivity.
Qed.

Lemma write_back : forall dt kd T e c cached rd c1 ev b t e2 c2 cached2 wr, kind_of dt = Some kd -> integers kd = Some T -> i_size T <> 1 ->
  c_type c = TInt T -> step e (OGet cached rd) c = Ok (c1, ev, RVal b) -> Z.of_nat (List.length b) = i_size T -> Forall byte_ok b ->
  text_read dt e c cached rd = Ok (c1, ev, TText t) -> c_type c2 = TInt T ->
  text_write dt e2 c2 cached2 t wr = done (step e2 (if cached2 then OSetCached b wr else OSet b wr) c2).
Proof.
  intros dt kd T e c cached rd c1 ev b t e2 c2 cached2 wr K I N C S L B R C2.
  destruct (read_ok dt kd T e c cached rd c1 ev b K I N C S L B) as (x & t0 & H & U & R0). assert (t0 = t) by congruence. subst t0.
  destruct (write_ok dt kd T t x e2 c2 cached2 wr K I C2) as (b' & H' & W).
  - exists T, [], t, []. pose proof (proj1 H) as IT. split; [exact I|]. split; [exact IT|]. split; [apply usual_numeral; exact U|].
    split; [constructor|]. split; [constructor|]. cbn [app]. rewrite app_nil_r. reflexivity.
  - rewrite (holds_unique T b b' x H H'). exact W.
Qed.
End Texts.
