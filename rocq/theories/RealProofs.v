(** Comparison of floating point numbers by their object representation. *)
From Coq Require Import SpecFloat.
From Verif Require Import Base StorageModel StorageSpec.

Lemma eq_fields : forall mant expo x y, 0 < mant -> 2 <= expo -> 0 <= x < 2^(mant+expo+1) -> 0 <= y < 2^(mant+expo+1) ->
  SFeqb (ieee_fields mant expo x) (ieee_fields mant expo y) =
  negb (((x / 2^mant) mod 2^expo =? 2^expo - 1) && negb (x mod 2^mant =? 0)) &&
  negb (((y / 2^mant) mod 2^expo =? 2^expo - 1) && negb (y mod 2^mant =? 0)) &&
  ((x =? y) || ((x mod 2^(mant+expo) =? 0) && (y mod 2^(mant+expo) =? 0))).
Proof.
  intros mant expo x y Hm He Hx Hy.
  assert (P1 : 0 < 2^mant) by (apply Z.pow_pos_nonneg; lia). assert (P2 : 4 <= 2^expo) by (change 4 with (2^2); apply Z.pow_le_mono_r; lia).
  replace (2^(mant+expo+1)) with (2^mant * 2^expo * 2) in * by (rewrite !Z.pow_add_r by lia; lia).
  unfold ieee_fields. replace (2^(mant+expo)) with (2^mant * 2^expo) in * by (rewrite Z.pow_add_r by lia; lia).
  set (A := 2^mant) in *. set (B := 2^expo) in *. set (emin := 2 - 2^(expo-1) - mant). clearbody A B emin.
  assert (D : forall z, 0 <= z < A * B * 2 -> exists s e m, z = (s * B + e) * A + m /\ 0 <= s < 2 /\ 0 <= e < B /\ 0 <= m < A /\
    z mod A = m /\ (z / A) mod B = e /\ z / (A * B) = s /\ (z mod (A * B) =? 0) = ((e =? 0) && (m =? 0))).
  { intros z Hz. exists (z / A / B), ((z / A) mod B), (z mod A).
    pose proof (Z.div_mod z A ltac:(lia)) as D1. pose proof (Z.div_mod (z / A) B ltac:(lia)) as D2.
    pose proof (Z.mod_pos_bound z A ltac:(lia)) as M1. pose proof (Z.mod_pos_bound (z / A) B ltac:(lia)) as M2.
    assert (Q1 : 0 <= z / A < B * 2) by (split; [apply Z.div_pos; lia|apply Z.div_lt_upper_bound; lia]).
    assert (Q2 : 0 <= z / A / B < 2) by (split; [apply Z.div_pos; lia|apply Z.div_lt_upper_bound; lia]).
    split; [nia|]. split; [exact Q2|]. split; [exact M2|]. split; [exact M1|]. split; [reflexivity|]. split; [reflexivity|].
    split; [symmetry; apply Z.div_div; lia|]. rewrite Z.rem_mul_r by lia.
    destruct (Z.eqb_spec ((z / A) mod B) 0) as [E1|E1]; destruct (Z.eqb_spec (z mod A) 0) as [E2|E2]; cbn; nia. }
  destruct (D x Hx) as (s & e & m & Ex & Hs & He1 & Hm1 & -> & -> & -> & ->).
  destruct (D y Hy) as (s' & e' & m' & Ey & Hs' & He1' & Hm1' & -> & -> & -> & ->).
  assert (XY : (x =? y) = ((s =? s') && (e =? e') && (m =? m'))).
  { destruct (Z.eqb_spec s s') as [->|N1]; [destruct (Z.eqb_spec e e') as [->|N2]; [destruct (Z.eqb_spec m m') as [->|N3]|]|]; cbn; try (apply Z.eqb_eq; congruence); apply Z.eqb_neq; intros X; subst x y.
    - apply N3. nia.
    - assert (m = m') by (apply (f_equal (fun z => z mod A)) in X; rewrite !(Z.add_comm (_ * A)), !Z_mod_plus_full, !Z.mod_small in X by lia; exact X). nia.
    - assert (m = m') by (apply (f_equal (fun z => z mod A)) in X; rewrite !(Z.add_comm (_ * A)), !Z_mod_plus_full, !Z.mod_small in X by lia; exact X).
      assert (s * B + e = s' * B + e') by nia.
      assert (e = e') by (apply (f_equal (fun z => z mod B)) in H0; rewrite !(Z.add_comm (_ * B)), !Z_mod_plus_full, !Z.mod_small in H0 by lia; exact H0). nia. }
  rewrite XY. clear D XY Ex Ey Hx Hy.
  assert (S1 : exists b, Z.odd s = b /\ s = Z.b2z b) by (assert (s = 0 \/ s = 1) as [->| ->] by lia; [exists false|exists true]; auto).
  assert (S2 : exists b, Z.odd s' = b /\ s' = Z.b2z b) by (assert (s' = 0 \/ s' = 1) as [->| ->] by lia; [exists false|exists true]; auto).
  destruct S1 as [b [-> ->]]. destruct S2 as [b' [-> ->]].
  assert (BB : (Z.b2z b =? Z.b2z b') = Bool.eqb b b') by (destruct b, b'; reflexivity). rewrite BB. clear Hs Hs' BB.
  assert (F : forall sg e m, 0 <= e < B -> 0 <= m < A ->
     let r := (if e =? 0 then match m with Z.pos p => S754_finite sg p emin | _ => S754_zero sg end
               else if e =? B - 1 then if m =? 0 then S754_infinity sg else S754_nan
               else match A + m with Z.pos p => S754_finite sg p (emin + e - 1) | _ => S754_nan end) in
     (e = 0 /\ m = 0 /\ r = S754_zero sg) \/ (e = 0 /\ m <> 0 /\ exists p, Z.pos p = m /\ r = S754_finite sg p emin) \/
     (e = B - 1 /\ m = 0 /\ r = S754_infinity sg) \/ (e = B - 1 /\ m <> 0 /\ r = S754_nan) \/
     (e <> 0 /\ e <> B - 1 /\ exists p, Z.pos p = A + m /\ r = S754_finite sg p (emin + e - 1))).
  { clear - P1 P2. intros sg e m He Hm r. subst r. destruct (Z.eqb_spec e 0) as [->|N].
    - destruct m as [|p|p]; [left; auto|right; left; split; [reflexivity|]; split; [lia|exists p; auto]|lia].
    - destruct (Z.eqb_spec e (B - 1)) as [->|N2].
      + destruct (Z.eqb_spec m 0) as [->|N3]; [right; right; left; auto|right; right; right; left; auto].
      + right; right; right; right. split; [exact N|]. split; [exact N2|]. destruct (A + m) as [|p|p] eqn:E; [lia|exists p; auto|lia]. }
  pose proof (F b e m He1 Hm1) as Fx. pose proof (F b' e' m' He1' Hm1') as Fy. cbv zeta in Fx, Fy. clear F.
  unfold SFeqb.
  destruct Fx as [(X1 & X2 & ->)|[(X1 & X2 & p & X3 & ->)|[(X1 & X2 & ->)|[(X1 & X2 & ->)|(X1 & X2 & p & X3 & ->)]]]];
  destruct Fy as [(Y1 & Y2 & ->)|[(Y1 & Y2 & q & Y3 & ->)|[(Y1 & Y2 & ->)|[(Y1 & Y2 & ->)|(Y1 & Y2 & q & Y3 & ->)]]]];
  cbn [SFcompare]; try (destruct b, b'; cbn; symmetry; lia).
  all: destruct b, b'; cbn [Bool.eqb]; try (cbn; symmetry; lia).
  all: try (destruct (Z.compare_spec emin emin); try lia); try (match goal with |- context [Z.compare ?u ?v] => destruct (Z.compare_spec u v) end);
    try (cbn; symmetry; lia);
    repeat match goal with |- context [Pos.compare_cont Eq ?u ?v] => change (Pos.compare_cont Eq u v) with (Pos.compare u v) end;
    destruct (Pos.compare_spec p q); cbn; symmetry; lia.
Qed.

Lemma le_number_bound : forall v, Forall (fun b => 0 <= b < 256) v -> 0 <= le_number v < 2^(8 * Z.of_nat (List.length v)).
Proof.
  induction 1 as [|b t H F IH].
  - vm_compute. split; congruence.
  - cbn [le_number fold_right List.length]. fold (le_number t). rewrite Nat2Z.inj_succ, Z.mul_succ_r, Z.pow_add_r by lia. change (2^8) with 256. nia.
Qed.

Lemma of_le_number : forall v, of_le v = le_number v.
Proof. induction v as [|b t IH]; [reflexivity|]. cbn. rewrite IH. reflexivity. Qed.

Lemma real_equality : forall n a b, n = 4%nat \/ n = 8%nat -> List.length a = n -> List.length b = n ->
  Forall (fun x => 0 <= x < 256) a -> Forall (fun x => 0 <= x < 256) b ->
  val_eqb (TReal n) a b = SFeqb (real_of n a) (real_of n b).
Proof.
  intros n a b N La Lb Fa Fb. unfold val_eqb, real_eqb, real_nan, real_zero. rewrite !of_le_number.
  pose proof (le_number_bound a Fa) as Ba. pose proof (le_number_bound b Fb) as Bb. rewrite La in Ba. rewrite Lb in Bb.
  destruct N as [-> | ->]; unfold real_of.
  - rewrite (eq_fields 23 8 (le_number a) (le_number b)); [reflexivity|lia|lia|exact Ba|exact Bb].
  - rewrite (eq_fields 52 11 (le_number a) (le_number b)); [reflexivity|lia|lia|exact Ba|exact Bb].
Qed.
