(** Rounding errors of IEEE doubles (Coq's SpecFloat with 53 bits): products and quotients are correct up
    to the relative error 2^-53, in the middle of the range. *)
From Coq Require Import ZArith QArith Qabs Qround Qpower Lqa Lia Bool.
From Coq Require Import Floats.SpecFloat.
Local Open Scope Q_scope.

(** ** Powers of two *)
Definition p2 (e : Z) : Q := Qpower (2 # 1) e.
Lemma p2_add a b : p2 (a + b) == p2 a * p2 b.
Proof. unfold p2. apply Qpower_plus. intros E. discriminate E. Qed.
Lemma p2_nat n : (0 <= n)%Z -> p2 n == inject_Z (2 ^ n).
Proof. intros H. unfold p2. symmetry. apply (Zpower_Qpower 2 n H). Qed.
Lemma p2_pos e : 0 < p2 e.
Proof.
  destruct (Z.le_gt_cases 0 e) as [H|H].
  - rewrite p2_nat by exact H. unfold Qlt. cbn. rewrite Z.mul_1_r. apply Z.pow_pos_nonneg; lia.
  - assert (P : 0 < p2 (- e)). { rewrite p2_nat by lia. unfold Qlt. cbn. rewrite Z.mul_1_r. apply Z.pow_pos_nonneg; lia. }
    assert (E : p2 (-e) * p2 e == 1). { rewrite <- p2_add. replace (- e + e)%Z with 0%Z by lia. reflexivity. }
    destruct (Qlt_le_dec 0 (p2 e)) as [L|L]; [exact L|]. exfalso.
    assert (p2 (-e) * p2 e <= 0). { setoid_replace 0 with (p2 (-e) * 0) by ring. apply Qmult_le_l; assumption. }
    lra.
Qed.
Lemma p2_le a b : (a <= b)%Z -> p2 a <= p2 b.
Proof.
  intros H. replace b with (a + (b - a))%Z by lia. rewrite p2_add. rewrite (p2_nat (b - a)) by lia. pose proof (p2_pos a) as P.
  assert (O : 1 <= inject_Z (2 ^ (b - a))). { change 1 with (inject_Z 1). rewrite <- Zle_Qle. assert (0 < 2 ^ (b - a))%Z by (apply Z.pow_pos_nonneg; lia). lia. }
  setoid_replace (p2 a) with (p2 a * 1) at 1 by ring. apply Qmult_le_l; assumption.
Qed.
Lemma p2_cancel a b : p2 a <= p2 b -> (a <= b)%Z.
Proof.
  intros H. destruct (Z.le_gt_cases a b) as [L|L]; [exact L|]. exfalso. assert (X : p2 (b + 1) <= p2 a) by (apply p2_le; lia).
  rewrite p2_add in X. change (p2 1) with 2 in X. pose proof (p2_pos b). lra.
Qed.

(** ** Digits *)
Lemma digits_bounds m : (2 ^ (Zpos (digits2_pos m) - 1) <= Zpos m < 2 ^ Zpos (digits2_pos m))%Z.
Proof.
  induction m as [m IH|m IH|]; cbn [digits2_pos]; [| |cbn; lia].
  - rewrite Pos2Z.inj_succ. replace (Z.succ (Zpos (digits2_pos m)) - 1)%Z with (Z.succ (Zpos (digits2_pos m) - 1)) by lia.
    rewrite !Z.pow_succ_r by lia. change (Zpos m~1) with (2 * Zpos m + 1)%Z. lia.
  - rewrite Pos2Z.inj_succ. replace (Z.succ (Zpos (digits2_pos m)) - 1)%Z with (Z.succ (Zpos (digits2_pos m) - 1)) by lia.
    rewrite !Z.pow_succ_r by lia. change (Zpos m~0) with (2 * Zpos m)%Z. lia.
Qed.
Lemma digits_unique m d : (2 ^ (d - 1) <= Zpos m < 2 ^ d)%Z -> (1 <= d)%Z -> Zpos (digits2_pos m) = d.
Proof.
  intros [A B] D. pose proof (digits_bounds m) as [P R].
  assert (Zpos (digits2_pos m) - 1 < d)%Z by (apply (Z.pow_lt_mono_r_iff 2); lia).
  assert (d - 1 < Zpos (digits2_pos m))%Z by (apply (Z.pow_lt_mono_r_iff 2); lia). lia.
Qed.

(** ** Locations *)
(** The number [x] lies at [l] from the integer [m] *)
Definition at_loc (l : location) (m : Z) (x : Q) : Prop :=
  match l with
  | loc_Exact => x == inject_Z m
  | loc_Inexact Lt => inject_Z m < x /\ x < inject_Z m + (1 # 2)
  | loc_Inexact Eq => x == inject_Z m + (1 # 2)
  | loc_Inexact Gt => inject_Z m + (1 # 2) < x /\ x < inject_Z m + 1
  end.
Definition rep (r : shr_record) (x : Q) : Prop := at_loc (loc_of_shr_record r) (shr_m r) x.
Lemma rep_of_loc m l x : at_loc l m x -> rep (shr_record_of_loc m l) x /\ shr_m (shr_record_of_loc m l) = m /\ loc_of_shr_record (shr_record_of_loc m l) = l.
Proof. destruct l as [|[| |]]; intros H; repeat split; apply H. Qed.
Lemma inject_double p : inject_Z (Zpos p~0) == 2 * inject_Z (Zpos p).
Proof. change (Zpos p~0) with (2 * Zpos p)%Z. rewrite inject_Z_mult. reflexivity. Qed.
Lemma inject_double1 p : inject_Z (Zpos p~1) == 2 * inject_Z (Zpos p) + 1.
Proof. change (Zpos p~1) with (2 * Zpos p + 1)%Z. rewrite inject_Z_plus, inject_Z_mult. reflexivity. Qed.
Lemma shr_1_rep r x : (0 <= shr_m r)%Z -> rep r x -> rep (shr_1 r) (x * (1 # 2)) /\ (0 <= shr_m (shr_1 r))%Z.
Proof.
  destruct r as [m r s]. cbn [shr_m]. intros P H. unfold rep in *. cbn [shr_m] in H.
  destruct m as [|[p|p|]|p]; [| | | |lia].
  - destruct r, s; cbn in *; split; try lia; change (inject_Z 0) with 0 in *; lra.
  - pose proof (inject_double1 p) as D. destruct r, s; cbn in *; split; try lia; lra.
  - pose proof (inject_double p) as D. destruct r, s; cbn in *; split; try lia; lra.
  - destruct r, s; cbn in *; split; try lia; change (inject_Z 1) with 1 in *; change (inject_Z 0) with 0 in *; lra.
Qed.
Lemma iter_rep p : forall r x, (0 <= shr_m r)%Z -> rep r x -> rep (iter_pos shr_1 p r) (x * p2 (Zneg p)) /\ (0 <= shr_m (iter_pos shr_1 p r))%Z.
Proof.
  assert (T : forall r x y, rep r x -> x == y -> rep r y).
  { intros r x y H E. unfold rep, at_loc in *. destruct (loc_of_shr_record r) as [|[| |]]; rewrite <- E; exact H. }
  induction p as [p IH|p IH|]; intros r x P H; cbn [iter_pos].
  - destruct (shr_1_rep r x P H) as [H1 P1]. destruct (IH _ _ P1 H1) as [H2 P2]. destruct (IH _ _ P2 H2) as [H3 P3]. split; [|exact P3].
    apply (T _ _ _ H3). replace (Zneg p~1) with (Zneg p + Zneg p + -1)%Z by lia. rewrite !p2_add. change (p2 (-1)) with (1 # 2). ring.
  - destruct (IH _ _ P H) as [H2 P2]. destruct (IH _ _ P2 H2) as [H3 P3]. split; [|exact P3].
    apply (T _ _ _ H3). replace (Zneg p~0) with (Zneg p + Zneg p)%Z by lia. rewrite !p2_add. ring.
  - destruct (shr_1_rep r x P H) as [H1 P1]. split; [|exact P1]. exact H1.
Qed.
Lemma shr_rep r e n x : (0 <= shr_m r)%Z -> rep r x ->
  let (r', e') := shr r e n in e' = (e + Z.max 0 n)%Z /\ rep r' (x * p2 (- Z.max 0 n)) /\ (0 <= shr_m r')%Z /\ ((n <= 0)%Z -> r' = r).
Proof.
  intros P H. destruct n as [|p|p]; cbn [shr].
  - split; [lia|]. split; [|split; [exact P|reflexivity]]. change (p2 (- Z.max 0 0)) with 1.
    unfold rep, at_loc in *. destruct (loc_of_shr_record r) as [|[| |]]; rewrite Qmult_1_r; exact H.
  - split; [lia|]. destruct (iter_rep p r x P H) as [A B]. split; [exact A|]. split; [exact B|lia].
  - split; [lia|]. split; [|split; [exact P|reflexivity]]. change (p2 (- Z.max 0 (Zneg p))) with 1.
    unfold rep, at_loc in *. destruct (loc_of_shr_record r) as [|[| |]]; rewrite Qmult_1_r; exact H.
Qed.
(** Rounding is off by at most one half, and does not leave the neighbouring integers *)
Lemma round_near m l x : at_loc l m x -> Qabs (inject_Z (round_nearest_even m l) - x) <= 1 # 2 /\
  (m <= round_nearest_even m l <= m + 1)%Z /\ (l = loc_Exact -> round_nearest_even m l = m) /\ inject_Z m <= x < inject_Z m + 1.
Proof.
  assert (I : inject_Z (m + 1) == inject_Z m + 1) by (rewrite inject_Z_plus; reflexivity).
  destruct l as [|[| |]]; cbn [at_loc round_nearest_even]; intros H.
  - split; [apply Qabs_case; lra|]. split; [lia|]. split; [auto|]. lra.
  - destruct (Z.even m); (split; [apply Qabs_case; rewrite ?I; lra|]; split; [lia|]; split; [discriminate|lra]).
  - split; [apply Qabs_case; lra|]. split; [lia|]. split; [discriminate|]. lra.
  - split; [apply Qabs_case; rewrite ?I; lra|]. split; [lia|]. split; [discriminate|]. lra.
Qed.

(** ** Rounding to 53 bits *)
Lemma fexp_mid d : (-1000 <= d)%Z -> fexp 53 1024 d = (d - 53)%Z.
Proof. intros H. unfold fexp, emin. lia. Qed.
Lemma qle_div a b e : a <= b * p2 e -> a * p2 (- e) <= b.
Proof.
  intros H. pose proof (p2_pos (- e)) as P. assert (E : p2 e * p2 (- e) == 1) by (rewrite <- p2_add; replace (e + - e)%Z with 0%Z by lia; reflexivity).
  assert (X : a * p2 (- e) <= b * p2 e * p2 (- e)) by (apply Qmult_le_r; assumption). rewrite <- Qmult_assoc, E, Qmult_1_r in X. exact X.
Qed.
Definition u : Q := p2 (-53).
Lemma shr_fexp_eq m e l : (0 < m)%Z -> (-1000 <= Zdigits2 m + e)%Z -> shr_fexp 53 1024 m e l = shr (shr_record_of_loc m l) e (Zdigits2 m - 53).
Proof. intros P R. unfold shr_fexp. rewrite fexp_mid by exact R. f_equal. lia. Qed.
Lemma top_shift : forall e, shr_fexp 53 1024 (2 ^ 53) e loc_Exact = shr (shr_record_of_loc (2 ^ 53) loc_Exact) e (fexp 53 1024 (54 + e) - e).
Proof. reflexivity. Qed.
Lemma round_ok s m e l x : (0 < m)%Z -> at_loc l m x -> (l = loc_Exact \/ (53 <= Zdigits2 m)%Z) -> (-1000 <= Zdigits2 m + e <= 900)%Z ->
  exists m' e', binary_round_aux 53 1024 s m e l = S754_finite s m' e' /\ Qabs (inject_Z (Zpos m') * p2 e' - x * p2 e) <= u * (x * p2 e) /\
    (l = loc_Exact -> (Zdigits2 m <= 53)%Z -> m = Zpos m' /\ e = e') /\ (Zpos m' < 2 ^ 53)%Z.
Proof.
  intros P A L R. unfold binary_round_aux. rewrite shr_fexp_eq by lia.
  destruct (rep_of_loc m l x A) as (A1 & A2 & A3). assert (P0 : (0 <= shr_m (shr_record_of_loc m l))%Z) by (rewrite A2; lia).
  pose proof (shr_rep (shr_record_of_loc m l) e (Zdigits2 m - 53) x P0 A1) as SR.
  destruct (shr (shr_record_of_loc m l) e (Zdigits2 m - 53)) as [r e1]. destruct SR as (E1 & R1 & P1 & S1).
  destruct m as [|mp|mp]; [lia| |lia]. cbn [Zdigits2] in *. pose proof (digits_bounds mp) as [D1 D2].
  set (d := Zpos (digits2_pos mp)) in *. assert (Dp : (1 <= d)%Z) by (unfold d; lia).
  pose proof (p2_pos e) as PE. assert (UP : 0 < u) by apply p2_pos.
  assert (XP : 0 < x). { destruct (round_near _ _ _ A) as (_ & _ & _ & Y). assert (1 <= inject_Z (Zpos mp)) by (change 1 with (inject_Z 1); rewrite <- Zle_Qle; lia). lra. }
  destruct (Z.le_gt_cases (d - 53) 0) as [N|N]; [destruct (Z.eq_dec d 53) as [D53|D53]|].
  2:{ (* fewer than 53 digits: exact *)
    assert (EX : l = loc_Exact) by (destruct L as [L|L]; [exact L|lia]). subst l. rewrite (S1 N). cbn [shr_record_of_loc shr_m loc_of_shr_record round_nearest_even].
    assert (e1 = e) as -> by lia. rewrite shr_fexp_eq by (cbn [Zdigits2]; fold d; lia). cbn [Zdigits2]. fold d.
    assert (SH : shr (shr_record_of_loc (Zpos mp) loc_Exact) e (d - 53) = (shr_record_of_loc (Zpos mp) loc_Exact, e)) by (destruct (d - 53)%Z; [reflexivity|lia|reflexivity]).
    rewrite SH. cbn [shr_record_of_loc shr_m]. rewrite (proj2 (Z.leb_le _ _)) by lia. exists mp, e. split; [reflexivity|]. split; [|split; [auto|apply Z.lt_le_trans with (2 ^ d)%Z; [exact D2|apply Z.pow_le_mono_r; lia]]].
    cbn in A. rewrite A. setoid_replace (inject_Z (Zpos mp) * p2 e - inject_Z (Zpos mp) * p2 e) with 0 by ring. rewrite <- A. cbn [Qabs Z.abs].
    apply Qmult_le_0_compat; [lra|]. apply Qmult_le_0_compat; lra. }
  all: cut (exists m' e', (let '(mrs'', e'') := shr_fexp 53 1024 (round_nearest_even (shr_m r) (loc_of_shr_record r)) e1 loc_Exact in
        match shr_m mrs'' with Z0 => S754_zero s | Zpos m => if (e'' <=? 1024 - 53)%Z then S754_finite s m e'' else S754_infinity s | Zneg _ => S754_nan end)
        = S754_finite s m' e' /\ Qabs (inject_Z (Zpos m') * p2 e' - x * p2 e) <= u * (x * p2 e) /\ ((d = 53)%Z -> l = loc_Exact -> Zpos mp = Zpos m' /\ e = e') /\ (Zpos m' < 2 ^ 53)%Z).
  1,3: intros (m' & e' & C1 & C2 & C3 & C4); exists m', e'; split; [exact C1|]; split; [exact C2|]; split; [|exact C4]; intros EX DD; apply C3; [lia|exact EX].
  all: set (n := (d - 53)%Z) in *; assert (E1' : e1 = (e + n)%Z) by lia; replace (Z.max 0 n) with n in R1 by lia;
    set (y := x * p2 (- n)) in *; destruct (round_near _ _ _ R1) as (Y1 & Y2 & Y3 & Y4); set (M := round_nearest_even (shr_m r) (loc_of_shr_record r)) in *;
    assert (XB : inject_Z (2 ^ (d - 1)) <= x /\ x < inject_Z (2 ^ d)) by
      (destruct (round_near _ _ _ A) as (_ & _ & _ & B1 & B2); split; [apply Qle_trans with (inject_Z (Zpos mp)); [rewrite <- Zle_Qle; lia|exact B1]|];
       apply Qlt_le_trans with (inject_Z (Zpos mp) + 1); [exact B2|]; change 1 with (inject_Z 1); rewrite <- inject_Z_plus, <- Zle_Qle; lia);
    rewrite <- !p2_nat in XB by lia;
    assert (PN : p2 n * p2 (- n) == 1) by (rewrite <- p2_add; replace (n + - n)%Z with 0%Z by lia; reflexivity);
    pose proof (p2_pos n) as PNp; pose proof (p2_pos (- n)) as PNn;
    assert (YB : inject_Z (2 ^ 52) <= y /\ y < inject_Z (2 ^ 53)) by
      (rewrite <- !p2_nat by lia; unfold y; replace 52%Z with ((d - 1) + - n)%Z by lia; replace 53%Z with (d + - n)%Z at 1 by lia;
       rewrite (p2_add (d - 1) (- n)), (p2_add d (- n)); destruct XB as [XB1 XB2]; split; [apply Qmult_le_r; assumption|apply Qmult_lt_r; assumption]);
    assert (MB : (2 ^ 52 <= shr_m r < 2 ^ 53)%Z) by
      (split; [apply Z.lt_succ_r; rewrite Zlt_Qlt; unfold Z.succ; rewrite inject_Z_plus; change (inject_Z 1) with 1; lra|rewrite Zlt_Qlt; lra]);
    assert (XY : x == y * p2 n) by (unfold y; rewrite <- Qmult_assoc, (Qmult_comm (p2 (- n))), PN; ring);
    assert (ERR : Qabs (inject_Z M * p2 e1 - x * p2 e) <= u * (x * p2 e)).
  1,3: assert (EQ : inject_Z M * p2 e1 - x * p2 e == (inject_Z M - y) * p2 e1) by (rewrite XY, E1', p2_add; ring);
    assert (EQ2 : u * (x * p2 e) == u * y * p2 e1) by (rewrite XY, E1', p2_add; ring);
    rewrite EQ, EQ2, Qabs_Qmult, (Qabs_pos (p2 e1)) by (apply Qlt_le_weak, p2_pos); apply Qmult_le_compat_r; [|apply Qlt_le_weak, p2_pos];
    apply Qle_trans with (1 # 2); [exact Y1|]; assert (UE : u * inject_Z (2 ^ 52) == 1 # 2) by reflexivity; rewrite <- UE; apply Qmult_le_l; [exact UP|apply YB].
  all: assert (MM : (M = 2 ^ 53 \/ 2 ^ 52 <= M < 2 ^ 53)%Z) by lia; destruct MM as [MM|MM].
  1,3: rewrite MM, top_shift, fexp_mid by lia; replace (54 + e1 - 53 - e1)%Z with 1%Z by lia; cbn [shr];
    change (shr_m (iter_pos shr_1 1 (shr_record_of_loc (2 ^ 53) loc_Exact))) with (Zpos (2 ^ 52)%positive);
    rewrite (proj2 (Z.leb_le _ _)) by lia; exists (2 ^ 52)%positive, (e1 + 1)%Z; split; [reflexivity|]; split;
    [assert (Q2 : inject_Z (Zpos (2 ^ 52)) * p2 (e1 + 1) == inject_Z M * p2 e1) by
       (rewrite p2_add, MM; change (p2 1) with 2; setoid_replace (inject_Z (2 ^ 53)) with (inject_Z (Zpos (2 ^ 52)) * 2) by reflexivity; ring);
     rewrite Q2; exact ERR|split; [intros DD EX|reflexivity]].
  1: exfalso; subst l; unfold M in MM; rewrite (S1 N) in MM, MB; cbn in MM, MB; lia.
  1: lia.
  all: destruct M as [|Mp|Mp] eqn:EM; [lia| |lia]; assert (DM : Zpos (digits2_pos Mp) = 53%Z) by (apply digits_unique; lia);
    rewrite shr_fexp_eq by (cbn [Zdigits2]; lia); cbn [Zdigits2]; rewrite DM;
    change (53 - 53)%Z with 0%Z; cbn [shr shr_record_of_loc shr_m]; rewrite (proj2 (Z.leb_le _ _)) by lia; exists Mp, e1; split; [reflexivity|]; split; [exact ERR|]; split; [|lia].
  - intros DD EX. subst l. unfold M in EM. rewrite (S1 N) in EM. cbn in EM. split; [congruence|lia].
  - intros DD. lia.
Qed.

(** ** Finite numbers and their magnitude *)
Definition short (x : spec_float) : Prop := match x with S754_finite _ m _ => (Zpos m < 2 ^ 53)%Z | _ => True end.
Definition fin (x : spec_float) (s : bool) (v : Q) : Prop := exists m e, x = S754_finite s m e /\ v == inject_Z (Zpos m) * p2 e.
Lemma fin_pos x s v : fin x s v -> 0 < v.
Proof. intros (m & e & _ & E). rewrite E. pose proof (p2_pos e). assert (0 < inject_Z (Zpos m)) by (change 0 with (inject_Z 0); rewrite <- Zlt_Qlt; lia). apply Qmult_lt_0_compat; assumption. Qed.
Lemma mag m e : let k := (Zpos (digits2_pos m) + e)%Z in p2 (k - 1) <= inject_Z (Zpos m) * p2 e /\ inject_Z (Zpos m) * p2 e < p2 k.
Proof.
  pose proof (digits_bounds m) as [A B]. cbn zeta. set (d := Zpos (digits2_pos m)) in *. assert (1 <= d)%Z by (unfold d; lia). replace (d + e - 1)%Z with ((d - 1) + e)%Z by lia.
  rewrite !p2_add. rewrite (p2_nat (d - 1)) by lia. rewrite (p2_nat d) by lia. pose proof (p2_pos e).
  split; [apply Qmult_le_r; [assumption|rewrite <- Zle_Qle; exact A]|apply Qmult_lt_r; [assumption|rewrite <- Zlt_Qlt; exact B]].
Qed.
Lemma mag_range m e a b : p2 a <= inject_Z (Zpos m) * p2 e -> inject_Z (Zpos m) * p2 e <= p2 b -> (a < Zpos (digits2_pos m) + e <= b + 1)%Z.
Proof.
  intros A B. pose proof (mag m e) as [M1 M2]. cbn zeta in *. set (k := (Zpos (digits2_pos m) + e)%Z) in *. split.
  - destruct (Z.lt_ge_cases a k) as [L|L]; [exact L|]. exfalso. pose proof (p2_le _ _ L). lra.
  - assert (k - 1 <= b)%Z by (apply p2_cancel; lra). lia.
Qed.
Lemma mul_ok x y sx sy vx vy : fin x sx vx -> fin y sy vy -> p2 (-900) <= vx * vy -> vx * vy <= p2 800 ->
  exists v, fin (SFmul 53 1024 x y) (xorb sx sy) v /\ Qabs (v - vx * vy) <= u * (vx * vy) /\ short (SFmul 53 1024 x y).
Proof.
  intros (mx & ex & -> & EX) (my & ey & -> & EY) LO HI. cbn [SFmul].
  assert (V : vx * vy == inject_Z (Zpos (mx * my)) * p2 (ex + ey)) by (rewrite EX, EY, Pos2Z.inj_mul, inject_Z_mult, p2_add; ring).
  rewrite V in LO, HI. pose proof (mag_range _ _ _ _ LO HI) as M.
  destruct (round_ok (xorb sx sy) (Zpos (mx * my)) (ex + ey) loc_Exact (inject_Z (Zpos (mx * my)))) as (m' & e' & R1 & R2 & _ & R3).
  - lia.
  - cbn. reflexivity.
  - left. reflexivity.
  - cbn [Zdigits2]. lia.
  - rewrite R1. exists (inject_Z (Zpos m') * p2 e'). split; [exists m', e'; split; reflexivity|]. rewrite V. split; [exact R2|exact R3].
Qed.
Lemma location m2 r q x : (0 < m2)%Z -> (0 <= r < m2)%Z -> x * inject_Z m2 == inject_Z (q * m2 + r) -> at_loc (new_location m2 r) q x.
Proof.
  intros P R E. rewrite inject_Z_plus, inject_Z_mult in E. assert (MP : 0 < inject_Z m2) by (change 0 with (inject_Z 0); rewrite <- Zlt_Qlt; exact P).
  assert (K : forall c : Q, (x - inject_Z q - c) * inject_Z m2 == inject_Z r - c * inject_Z m2) by (intros c; setoid_replace ((x - inject_Z q - c) * inject_Z m2) with (x * inject_Z m2 - inject_Z q * inject_Z m2 - c * inject_Z m2) by ring; rewrite E; ring).
  assert (POS : forall c : Q, c * inject_Z m2 < inject_Z r -> inject_Z q + c < x).
  { intros c H. pose proof (K c) as Kc. assert (0 < x - inject_Z q - c); [|lra]. apply (Qmult_lt_r 0 (x - inject_Z q - c) (inject_Z m2) MP). rewrite Kc. lra. }
  assert (NEG : forall c : Q, inject_Z r < c * inject_Z m2 -> x < inject_Z q + c).
  { intros c H. pose proof (K c) as Kc. assert (x - inject_Z q - c < 0); [|lra]. apply (Qmult_lt_r (x - inject_Z q - c) 0 (inject_Z m2) MP). rewrite Kc. lra. }
  assert (ZER : forall c : Q, inject_Z r == c * inject_Z m2 -> x == inject_Z q + c).
  { intros c H. pose proof (K c) as Kc. assert (x - inject_Z q - c == 0); [|lra]. apply (Qmult_inj_r _ _ (inject_Z m2)); [lra|]. rewrite Kc. lra. }
  assert (T : forall a b : Z, (a < b)%Z -> inject_Z a < inject_Z b) by (intros a b H; rewrite <- Zlt_Qlt; exact H).
  assert (L1 : x < inject_Z q + 1) by (apply NEG; setoid_replace (1 * inject_Z m2) with (inject_Z m2) by ring; apply T; lia).
  assert (W : inject_Z (2 * r) == 2 * inject_Z r) by (rewrite inject_Z_mult; reflexivity).
  unfold new_location, new_location_even, new_location_odd. destruct (Z.even m2) eqn:EV.
  - destruct (Zeq_bool r 0) eqn:Z0.
    + apply Zeq_bool_eq in Z0. subst r. cbn [at_loc]. assert (X := ZER 0). rewrite X; [ring|]. cbn. ring.
    + apply Zeq_bool_neq in Z0. assert (0 < inject_Z r) by (change 0 with (inject_Z 0); apply T; lia).
      destruct (2 * r ?= m2)%Z eqn:C; cbn [at_loc].
      * apply Z.compare_eq in C. apply ZER. assert (inject_Z m2 == 2 * inject_Z r) by (rewrite <- W, C; reflexivity). lra.
      * assert (C' : (2 * r < m2)%Z) by exact C. apply T in C'. split; [assert (Y := POS 0); lra|apply NEG; lra].
      * apply Z.gt_lt_iff in C. apply T in C. split; [apply POS; lra|exact L1].
  - destruct (Zeq_bool r 0) eqn:Z0.
    + apply Zeq_bool_eq in Z0. subst r. cbn [at_loc]. assert (X := ZER 0). rewrite X; [ring|]. cbn. ring.
    + apply Zeq_bool_neq in Z0. assert (0 < inject_Z r) by (change 0 with (inject_Z 0); apply T; lia).
      assert (OD : (2 * r <> m2)%Z) by (intros H1; rewrite <- H1 in EV; rewrite Z.even_mul in EV; discriminate EV).
      destruct (2 * r + 1 ?= m2)%Z eqn:C; cbn [at_loc].
      * apply Z.compare_eq in C. assert (C' : (2 * r < m2)%Z) by lia. apply T in C'. split; [assert (Y := POS 0); lra|apply NEG; lra].
      * assert (C' : (2 * r + 1 < m2)%Z) by exact C. assert (C2 : (2 * r < m2)%Z) by lia. apply T in C2. split; [assert (Y := POS 0); lra|apply NEG; lra].
      * apply Z.gt_lt_iff in C. assert (C2 : (m2 < 2 * r)%Z) by lia. apply T in C2. split; [apply POS; lra|exact L1].
Qed.
Lemma div_ok x y sx sy vx vy : fin x sx vx -> fin y sy vy -> p2 (-900) <= vx / vy -> vx / vy <= p2 800 ->
  exists v, fin (SFdiv 53 1024 x y) (xorb sx sy) v /\ Qabs (v - vx / vy) <= u * (vx / vy) /\ short (SFdiv 53 1024 x y).
Proof.
  intros FX FY LO HI. pose proof (fin_pos _ _ _ FX) as PX. pose proof (fin_pos _ _ _ FY) as PY.
  destruct FX as (m1 & e1 & -> & EX). destruct FY as (m2 & e2 & -> & EY). cbn [SFdiv].
  pose proof (mag m1 e1) as [M1 M2]. pose proof (mag m2 e2) as [M3 M4]. cbn zeta in *. rewrite <- EX in M1, M2. rewrite <- EY in M3, M4.
  unfold SFdiv_core_binary. cbn [Zdigits2]. pose proof (digits_bounds m1) as [B1 B2]. pose proof (digits_bounds m2) as [B3 B4].
  set (d1 := Zpos (digits2_pos m1)) in *. set (d2 := Zpos (digits2_pos m2)) in *. assert (1 <= d1)%Z by (unfold d1; lia). assert (1 <= d2)%Z by (unfold d2; lia).
  set (K := (d1 + e1 - (d2 + e2))%Z) in *.
  assert (VV : vx / vy * vy == vx) by (field; lra).
  assert (KR : (-902 <= K <= 802)%Z).
  { split.
    - assert (Y : p2 (-900) * p2 (d2 + e2 - 1) <= vx). { rewrite <- VV. apply Qle_trans with (p2 (-900) * vy); [apply Qmult_le_l; [apply p2_pos|exact M3]|apply Qmult_le_r; assumption]. }
      rewrite <- p2_add in Y. assert (-900 + (d2 + e2 - 1) <= d1 + e1)%Z by (apply p2_cancel; lra). unfold K. lia.
    - assert (Y : vx <= p2 800 * p2 (d2 + e2)). { rewrite <- VV. apply Qle_trans with (p2 800 * vy); [apply Qmult_le_r; assumption|apply Qmult_le_l; [apply p2_pos|lra]]. }
      rewrite <- p2_add in Y. assert (d1 + e1 - 1 <= 800 + (d2 + e2))%Z by (apply p2_cancel; lra). unfold K. lia. }
  rewrite fexp_mid by lia. set (e' := Z.min (K - 53) (e1 - e2)). set (s := (e1 - e2 - e')%Z). assert (S0 : (0 <= s)%Z) by (unfold s, e'; lia).
  assert (MS : (match s with Z0 => Zpos m1 | Zpos _ => Z.shiftl (Zpos m1) s | Zneg _ => 0 end = Zpos m1 * 2 ^ s)%Z).
  { destruct s as [|p|p]; [rewrite Z.mul_1_r; reflexivity|rewrite Z.shiftl_mul_pow2 by lia; reflexivity|lia]. }
  rewrite MS. set (m' := (Zpos m1 * 2 ^ s)%Z) in *. unfold Z.div_eucl. fold (Z.div_eucl m' (Zpos m2)).
  destruct (Z.div_eucl m' (Zpos m2)) as [q r] eqn:DE. pose proof (Z_div_mod m' (Zpos m2) ltac:(lia)) as DM. rewrite DE in DM. destruct DM as [DM1 DM2].
  assert (SP : (0 < 2 ^ s)%Z) by (apply Z.pow_pos_nonneg; lia).
  assert (SS : (53 - d1 + d2 <= s)%Z) by (unfold s, e', K; lia).
  assert (MLO : (2 ^ (d1 - 1 + s) <= m')%Z) by (rewrite Z.pow_add_r by lia; unfold m'; apply Z.mul_le_mono_nonneg_r; lia).
  assert (MHI : (m' < 2 ^ (d1 + s))%Z) by (rewrite Z.pow_add_r by lia; unfold m'; apply Z.mul_lt_mono_pos_r; lia).
  assert (QLO : (2 ^ (d1 - 1 + s - d2) <= q)%Z).
  { apply Z.lt_succ_r. apply (Z.mul_lt_mono_pos_r (2 ^ d2)); [apply Z.pow_pos_nonneg; lia|]. rewrite <- Z.pow_add_r by lia. replace (d1 - 1 + s - d2 + d2)%Z with (d1 - 1 + s)%Z by lia.
    apply Z.le_lt_trans with m'; [exact MLO|]. assert (MP : (0 < m')%Z) by (assert (0 < 2 ^ (d1 - 1 + s))%Z by (apply Z.pow_pos_nonneg; lia); lia). assert (Q0 : (0 <= q)%Z) by (clear - DM1 DM2 MP; nia). clear - DM1 DM2 Q0 B4. nia. }
  assert (QHI : (q < 2 ^ (d1 + s - d2 + 1))%Z).
  { apply (Z.mul_lt_mono_pos_r (2 ^ (d2 - 1))); [apply Z.pow_pos_nonneg; lia|]. rewrite <- Z.pow_add_r by lia. replace (d1 + s - d2 + 1 + (d2 - 1))%Z with (d1 + s)%Z by lia.
    apply Z.le_lt_trans with m'; [|exact MHI]. assert (0 < 2 ^ (d1 - 1 + s - d2))%Z by (apply Z.pow_pos_nonneg; lia). assert (Q0 : (0 <= q)%Z) by lia. clear - DM1 DM2 Q0 B3. nia. }
  assert (Q52 : (2 ^ 52 <= 2 ^ (d1 - 1 + s - d2))%Z) by (apply Z.pow_le_mono_r; lia).
  destruct q as [|qp|qp]; [lia| |lia]. pose proof (digits_bounds qp) as [B5 B6]. set (dq := Zpos (digits2_pos qp)) in *.
  assert (DQ1 : (d1 - 1 + s - d2 < dq)%Z) by (apply (Z.pow_lt_mono_r_iff 2); [lia|unfold dq; lia|apply Z.le_lt_trans with (Zpos qp); [exact QLO|exact B6]]).
  assert (DQ2 : (dq - 1 < d1 + s - d2 + 1)%Z) by (apply (Z.pow_lt_mono_r_iff 2); [lia|lia|apply Z.le_lt_trans with (Zpos qp); [exact B5|exact QHI]]).
  assert (XQ : vx / vy == inject_Z m' / inject_Z (Zpos m2) * p2 e').
  { pose proof (p2_pos e2) as P2. pose proof (p2_pos e') as P3. assert (I2 : 0 < inject_Z (Zpos m2)) by (change 0 with (inject_Z 0); rewrite <- Zlt_Qlt; lia).
    assert (E3 : p2 e1 == p2 s * p2 e' * p2 e2) by (rewrite <- !p2_add; replace (s + e' + e2)%Z with e1 by (unfold s; lia); reflexivity).
    rewrite EX, EY. unfold m'. rewrite inject_Z_mult, <- (p2_nat s) by lia. rewrite E3. field. split; lra. }
  destruct (round_ok (xorb sx sy) (Zpos qp) e' (new_location (Zpos m2) r) (inject_Z m' / inject_Z (Zpos m2))) as (mm & ee & R1 & R2 & _ & R3).
  - lia.
  - apply location; [lia|lia|]. replace (Zpos qp * Zpos m2 + r)%Z with m' by (rewrite DM1; ring). field. intros C. discriminate C.
  - right. cbn [Zdigits2]. fold dq. lia.
  - cbn [Zdigits2]. fold dq. unfold s in *. lia.
  - cbn [Z.mul] in R1. rewrite R1. exists (inject_Z (Zpos mm) * p2 ee). split; [exists mm, ee; split; reflexivity|]. rewrite XQ. split; [exact R2|exact R3].
Qed.

(** ** Integers and sums *)
Lemma round_binary s m e : (-1000 <= Zpos (digits2_pos m) + e <= 899)%Z ->
  exists m' e', binary_round 53 1024 s m e = S754_finite s m' e' /\ Qabs (inject_Z (Zpos m') * p2 e' - inject_Z (Zpos m) * p2 e) <= u * (inject_Z (Zpos m) * p2 e) /\
    ((Zpos m < 2 ^ 53)%Z -> inject_Z (Zpos m') * p2 e' == inject_Z (Zpos m) * p2 e) /\ (Zpos m' < 2 ^ 53)%Z.
Proof.
  intros R. unfold binary_round. set (k := fexp 53 1024 (Zpos (digits2_pos m) + e)). pose proof (fexp_mid (Zpos (digits2_pos m) + e) ltac:(lia)) as FK. fold k in FK.
  destruct (shl_align m e k) as [mz ez] eqn:SA.
  assert (V : inject_Z (Zpos mz) * p2 ez == inject_Z (Zpos m) * p2 e /\ ((Zpos m < 2 ^ 53)%Z -> (Zpos mz < 2 ^ 53)%Z)).
  { unfold shl_align in SA. destruct (k - e)%Z as [|p|p] eqn:KE; injection SA as <- <-; [split; [reflexivity|auto]|split; [reflexivity|auto]|].
    assert (SH : Zpos (shift_pos p m) = (Zpos m * 2 ^ Zpos p)%Z) by (rewrite shift_pos_equiv, Pos2Z.inj_mul || (rewrite shift_pos_correct, Z.pow_pos_fold; ring)).
    assert (EK : e = (k + Zpos p)%Z) by lia. split.
    - rewrite SH, inject_Z_mult, <- (p2_nat (Zpos p)) by lia. rewrite EK at 1. rewrite p2_add. ring.
    - intros _. rewrite SH. pose proof (digits_bounds m) as [_ B]. apply Z.lt_le_trans with (2 ^ Zpos (digits2_pos m) * 2 ^ Zpos p)%Z; [apply Z.mul_lt_mono_pos_r; [apply Z.pow_pos_nonneg; lia|exact B]|].
      rewrite <- Z.pow_add_r by lia. apply Z.pow_le_mono_r; lia. }
  destruct V as [V VS]. pose proof (mag m e) as [M1 M2]. cbn zeta in *. rewrite <- V in M1, M2.
  pose proof (mag_range mz ez (Zpos (digits2_pos m) + e - 1) (Zpos (digits2_pos m) + e) M1 (Qlt_le_weak _ _ M2)) as MR.
  destruct (round_ok s (Zpos mz) ez loc_Exact (inject_Z (Zpos mz))) as (m' & e' & R1 & R2 & R3 & R4).
  - lia.
  - cbn. reflexivity.
  - left. reflexivity.
  - cbn [Zdigits2]. lia.
  - exists m', e'. split; [exact R1|]. rewrite V in R2. split; [exact R2|]. split; [|exact R4].
    intros SM. destruct R3 as [X Y]; [reflexivity| |].
    + cbn [Zdigits2]. specialize (VS SM). pose proof (digits_bounds mz) as [B _]. assert (Zpos (digits2_pos mz) - 1 < 53)%Z by (apply (Z.pow_lt_mono_r_iff 2); lia). lia.
    + rewrite <- X, <- Y. exact V.
Qed.

(** The signed value *)
Definition sv (s : bool) (v : Q) : Q := if s then - v else v.
(** Numbers *)
Definition isval (x : spec_float) (q : Q) : Prop := (exists s, x = S754_zero s /\ q == 0) \/ (exists s v, fin x s v /\ q == sv s v).
Lemma normalize_ok m e sz : m = 0%Z \/ (-1000 <= Zdigits2 m + e <= 899)%Z ->
  exists q, isval (binary_normalize 53 1024 m e sz) q /\ Qabs (q - inject_Z m * p2 e) <= u * Qabs (inject_Z m * p2 e) /\
    ((Z.abs m < 2 ^ 53)%Z -> q == inject_Z m * p2 e) /\ short (binary_normalize 53 1024 m e sz).
Proof.
  intros R. destruct m as [|m|m]; cbn [binary_normalize Z.abs Zdigits2] in *.
  - exists 0. assert (Z0 : inject_Z 0 * p2 e == 0) by (change (inject_Z 0) with 0; ring). rewrite Z0. split; [left; exists sz; split; reflexivity|]. split; [|split; [reflexivity|exact Logic.I]]. vm_compute. discriminate.
  - destruct R as [R|R]; [discriminate|]. destruct (round_binary false m e R) as (m' & e' & -> & R1 & R2 & R3). exists (inject_Z (Zpos m') * p2 e').
    assert (0 < inject_Z (Zpos m) * p2 e) by (apply (fin_pos (S754_finite false m e) false); exists m, e; split; reflexivity).
    split; [right; exists false, (inject_Z (Zpos m') * p2 e'); split; [exists m', e'; split; reflexivity|reflexivity]|].
    split; [rewrite (Qabs_pos (inject_Z (Zpos m) * p2 e)) by lra; exact R1|]. split; [exact R2|exact R3].
  - destruct R as [R|R]; [discriminate|]. destruct (round_binary true m e R) as (m' & e' & -> & R1 & R2 & R3). exists (- (inject_Z (Zpos m') * p2 e')).
    assert (0 < inject_Z (Zpos m) * p2 e) by (apply (fin_pos (S754_finite false m e) false); exists m, e; split; reflexivity).
    assert (NG : inject_Z (Zneg m) * p2 e == - (inject_Z (Zpos m) * p2 e)) by (change (Zneg m) with (- Zpos m)%Z; rewrite inject_Z_opp; ring).
    split; [right; exists true, (inject_Z (Zpos m') * p2 e'); split; [exists m', e'; split; reflexivity|reflexivity]|].
    split; [rewrite NG, Qabs_opp, (Qabs_pos (inject_Z (Zpos m) * p2 e)) by lra; setoid_replace (- (inject_Z (Zpos m') * p2 e') - - (inject_Z (Zpos m) * p2 e)) with (- (inject_Z (Zpos m') * p2 e' - inject_Z (Zpos m) * p2 e)) by ring; rewrite Qabs_opp; exact R1|].
    split; [intros L; rewrite NG, (R2 L); reflexivity|exact R3].
Qed.
Lemma int_ok n : (Z.abs n < 2 ^ 53)%Z -> isval (binary_normalize 53 1024 n 0 false) (inject_Z n) /\ short (binary_normalize 53 1024 n 0 false).
Proof.
  intros L. destruct (normalize_ok n 0 false) as (q & A & _ & B & C).
  - destruct n as [|m|m]; [left; reflexivity| |]; right; cbn [Zdigits2 Z.abs] in *; pose proof (digits_bounds m) as [X _];
      (assert (Zpos (digits2_pos m) - 1 < 53)%Z by (apply (Z.pow_lt_mono_r_iff 2); lia)); lia.
  - specialize (B L). split; [|exact C]. assert (E : inject_Z n * p2 0 == inject_Z n) by (change (p2 0) with 1; ring). rewrite E in B.
    destruct A as [(s & A1 & A2)|(s & v & A1 & A2)]; [left; exists s|right; exists s, v]; (split; [exact A1|]); rewrite <- B; exact A2.
Qed.
Lemma isval_short_bound x q : isval x q -> short x -> q == 0 \/ exists (m : Z) e, q == inject_Z m * p2 e /\ (Z.abs m < 2 ^ 53)%Z /\ exists s p, x = S754_finite s p e /\ m = (if s then Zneg p else Zpos p).
Proof.
  intros [(s & -> & E)|(s & v & (m & e & -> & V) & E)] S; [left; exact E|right]. exists (if s then Zneg m else Zpos m), e. cbn [short] in S. split; [|split; [destruct s; cbn; lia|exists s, m; auto]].
  rewrite E. destruct s; cbn [sv]; rewrite V; [change (Zneg m) with (- Zpos m)%Z; rewrite inject_Z_opp; ring|reflexivity].
Qed.
Lemma align_ok m e ez : (ez <= e)%Z -> inject_Z (Zpos (fst (shl_align m e ez))) * p2 ez == inject_Z (Zpos m) * p2 e.
Proof.
  intros L. unfold shl_align. destruct (ez - e)%Z as [|p|p] eqn:K; cbn [fst]; [assert (ez = e) as -> by lia; reflexivity|lia|].
  assert (SH : Zpos (shift_pos p m) = (Zpos m * 2 ^ Zpos p)%Z) by (rewrite shift_pos_correct, Z.pow_pos_fold; ring).
  rewrite SH, inject_Z_mult, <- (p2_nat (Zpos p)) by lia. replace e with (ez + Zpos p)%Z by lia. rewrite p2_add. ring.
Qed.
Lemma add_ok x y qx qy : isval x qx -> isval y qy -> short x -> short y -> (qx + qy == 0 \/ p2 (-900) <= Qabs (qx + qy)) -> Qabs (qx + qy) <= p2 800 ->
  exists q, isval (SFadd 53 1024 x y) q /\ Qabs (q - (qx + qy)) <= u * Qabs (qx + qy) /\ short (SFadd 53 1024 x y).
Proof.
  intros VX VY SX SY LO HI. assert (UP : 0 < u) by apply p2_pos.
  assert (NN : forall a b, a == b -> Qabs (a - b) <= u * Qabs b).
  { intros a b E. setoid_replace (a - b) with 0 by (rewrite E; ring). apply Qle_trans with 0; [discriminate|]. apply Qmult_le_0_compat; [lra|apply Qabs_nonneg]. }
  destruct VX as [(s & -> & EX)|(sx & vx & (mx & ex & -> & FX) & EX)].
  { assert (EQ : qx + qy == qy) by (rewrite EX; ring). destruct VY as [(s' & -> & EY)|(sy & vy & (my & ey & -> & FY) & EY)].
    - cbn [SFadd]. assert (A : Qabs (0 - (qx + qy)) <= u * Qabs (qx + qy)). { apply NN. rewrite EQ, EY. reflexivity. }
      destruct (Bool.eqb s s'); exists 0; (split; [left; eexists; split; reflexivity|]; split; [exact A|exact Logic.I]).
    - cbn [SFadd]. exists qy. split; [right; exists sy, vy; split; [exists my, ey; auto|exact EY]|]. split; [|exact SY]. apply NN. symmetry. exact EQ. }
  destruct VY as [(s' & -> & EY)|(sy & vy & (my & ey & -> & FY) & EY)].
  { assert (EQ : qx + qy == qx) by (rewrite EY; ring). cbn [SFadd]. exists qx. split; [right; exists sx, vx; split; [exists mx, ex; auto|exact EX]|]. split; [|exact SX]. apply NN. symmetry. exact EQ. }
  cbn [SFadd]. set (ez := Z.min ex ey). set (M := (cond_Zopp sx (Zpos (fst (shl_align mx ex ez))) + cond_Zopp sy (Zpos (fst (shl_align my ey ez))))%Z).
  assert (C : forall s m e, (ez <= e)%Z -> inject_Z (cond_Zopp s (Zpos (fst (shl_align m e ez)))) * p2 ez == sv s (inject_Z (Zpos m) * p2 e)).
  { intros s m e L. pose proof (align_ok m e ez L) as AO. destruct s; cbn [cond_Zopp sv]; rewrite <- AO; [rewrite inject_Z_opp; ring|reflexivity]. }
  assert (V : inject_Z M * p2 ez == qx + qy).
  { unfold M. rewrite inject_Z_plus, EX, EY. setoid_replace (sv sx vx) with (sv sx (inject_Z (Zpos mx) * p2 ex)) by (destruct sx; cbn [sv]; rewrite FX; reflexivity).
    setoid_replace (sv sy vy) with (sv sy (inject_Z (Zpos my) * p2 ey)) by (destruct sy; cbn [sv]; rewrite FY; reflexivity).
    rewrite <- (C sx mx ex) by (unfold ez; lia). rewrite <- (C sy my ey) by (unfold ez; lia). ring. }
  assert (Z1 : p2 ez * p2 (- ez) == 1) by (rewrite <- p2_add; replace (ez + - ez)%Z with 0%Z by lia; reflexivity).
  destruct (normalize_ok M ez false) as (q & A1 & A2 & _ & A3).
  - destruct LO as [LO|LO].
    + left. rewrite <- V in LO. apply (inject_Z_injective M 0). setoid_replace (inject_Z M) with (inject_Z M * p2 ez * p2 (- ez)) by (rewrite <- Qmult_assoc, Z1; ring). rewrite LO. reflexivity.
    + assert (AM : Qabs (qx + qy) == inject_Z (Z.abs M) * p2 ez). { rewrite <- V, Qabs_Qmult, (Qabs_pos (p2 ez)) by (apply Qlt_le_weak, p2_pos). reflexivity. }
      rewrite AM in LO, HI. destruct M as [|m|m]; [left; reflexivity|right|right]; cbn [Z.abs Zdigits2] in *; pose proof (mag_range _ _ _ _ LO HI); lia.
  - exists q. rewrite <- V. auto.
Qed.

(** ** Chains of products and quotients with constants *)
Definition mid (a b : Z) (q : Q) : Prop := q == 0 \/ (p2 a <= Qabs q /\ Qabs q <= p2 b).
Definition rel (d q w : Q) : Prop := Qabs (q - w) <= d * Qabs w.
Lemma u_half : u <= 1 # 2. Proof. vm_compute. discriminate. Qed.
Lemma u_pos : 0 < u. Proof. apply p2_pos. Qed.
Lemma qabs_sv s v : 0 < v -> Qabs (sv s v) == v.
Proof. intros P. destruct s; cbn [sv]; [rewrite Qabs_opp|]; apply Qabs_pos; lra. Qed.
Lemma mid_rel a b q w : mid a b w -> rel u q w -> mid (a - 1) (b + 1) q.
Proof.
  intros [Z0|[L H]] R; unfold rel in R.
  - left. rewrite Z0 in R. assert (X : Qabs (q - 0) <= 0) by (apply Qle_trans with (u * Qabs 0); [exact R|]; vm_compute; discriminate). setoid_replace (q - 0) with q in X by ring. apply Qabs_Qle_condition in X. lra.
  - right. pose proof u_half as UH. pose proof u_pos as UP. pose proof (Qabs_nonneg w) as NW.
    assert (R2 : u * Qabs w <= (1 # 2) * Qabs w) by (apply Qmult_le_compat_r; assumption).
    pose proof (Qabs_triangle_reverse q w) as T1. assert (T2 : Qabs w - Qabs q <= Qabs (q - w)) by (setoid_replace (q - w) with (- (w - q)) by ring; rewrite Qabs_opp; apply Qabs_triangle_reverse).
    replace (a - 1)%Z with (a + -1)%Z by lia. rewrite !p2_add. change (p2 (-1)) with (1 # 2). change (p2 1) with 2. split; lra.
Qed.
Lemma sv_mul s v c : sv s v * c == sv s (v * c).
Proof. destruct s; cbn [sv]; ring. Qed.
Lemma sv_sub s a b : sv s a - sv s b == sv s (a - b).
Proof. destruct s; cbn [sv]; ring. Qed.
Lemma qabs_sv_any s v : Qabs (sv s v) == Qabs v.
Proof. destruct s; cbn [sv]; [apply Qabs_opp|reflexivity]. Qed.
Lemma range_mul a b i j q c : p2 a <= q -> q <= p2 b -> p2 i <= c -> c <= p2 j -> p2 (a + i) <= q * c /\ q * c <= p2 (b + j).
Proof.
  intros A B C D. rewrite !p2_add. pose proof (p2_pos a). pose proof (p2_pos i). pose proof (p2_pos b). split.
  - apply Qle_trans with (p2 a * c); [apply Qmult_le_l; assumption|apply Qmult_le_r; [lra|exact A]].
  - apply Qle_trans with (p2 b * c); [apply Qmult_le_r; [lra|exact B]|apply Qmult_le_l; assumption].
Qed.
Lemma inv_range i j c : p2 i <= c -> c <= p2 j -> p2 (- j) <= / c /\ / c <= p2 (- i).
Proof.
  intros A B. pose proof (p2_pos i) as I0. pose proof (p2_pos j) as J0. assert (C0 : 0 < c) by lra.
  assert (E1 : p2 (- j) * p2 j == 1) by (rewrite <- p2_add; replace (- j + j)%Z with 0%Z by lia; reflexivity).
  assert (E2 : p2 (- i) * p2 i == 1) by (rewrite <- p2_add; replace (- i + i)%Z with 0%Z by lia; reflexivity).
  assert (E3 : / c * c == 1) by (field; lra). pose proof (p2_pos (- j)). pose proof (p2_pos (- i)). split.
  - apply (Qmult_le_r _ _ c C0). rewrite E3, <- E1. apply Qmult_le_l; assumption.
  - apply (Qmult_le_r _ _ c C0). rewrite E3, <- E2. apply Qmult_le_l; assumption.
Qed.
Section Const.
Variable c : spec_float.
Variable vc : Q.
Variable i j : Z.
Hypothesis FC : fin c false vc.
Hypothesis LC : p2 i <= vc.
Hypothesis HC : vc <= p2 j.
Lemma mulc a b x q : isval x q -> mid a b q -> (-890 <= a + i)%Z -> (b + j <= 790)%Z ->
  exists q', isval (SFmul 53 1024 x c) q' /\ rel u q' (q * vc) /\ mid (a + i - 1) (b + j + 1) q' /\ short (SFmul 53 1024 x c).
Proof.
  intros V M RA RB. pose proof (fin_pos _ _ _ FC) as CP.
  cut (exists q', isval (SFmul 53 1024 x c) q' /\ rel u q' (q * vc) /\ mid (a + i) (b + j) (q * vc) /\ short (SFmul 53 1024 x c)).
  { intros (q' & A & B & C & D). exists q'. split; [exact A|]. split; [exact B|]. split; [exact (mid_rel _ _ _ _ C B)|exact D]. }
  destruct V as [(s & -> & E)|(s & v & F & E)].
  - destruct FC as (m & e & -> & _). cbn [SFmul]. assert (Z0 : q * vc == 0) by (rewrite E; ring). exists 0. split; [left; eexists; split; reflexivity|].
    split; [|split; [left; exact Z0|exact Logic.I]]. unfold rel. rewrite Z0. vm_compute. discriminate.
  - pose proof (fin_pos _ _ _ F) as VP. destruct M as [Z0|[L H]].
    { exfalso. assert (Qabs (sv s v) == 0) by (rewrite <- E, Z0; reflexivity). rewrite qabs_sv in H by exact VP. lra. }
    rewrite E, qabs_sv in L, H by exact VP. destruct (range_mul a b i j v vc L H LC HC) as [R1 R2].
    destruct (mul_ok x c s false v vc F FC) as (w & W1 & W2 & W3).
    + apply Qle_trans with (p2 (a + i)); [apply p2_le; lia|exact R1].
    + apply Qle_trans with (p2 (b + j)); [exact R2|apply p2_le; lia].
    + rewrite xorb_false_r in W1. assert (VC : 0 < v * vc) by (apply Qmult_lt_0_compat; assumption).
      exists (sv s w). split; [right; exists s, w; split; [exact W1|reflexivity]|]. split; [|split; [right|exact W3]].
      * unfold rel. rewrite E, sv_mul, sv_sub, !qabs_sv_any, (Qabs_pos (v * vc)) by lra. exact W2.
      * rewrite E, sv_mul, qabs_sv by exact VC. split; assumption.
Qed.
Lemma divc a b x q : isval x q -> mid a b q -> (-890 <= a - j)%Z -> (b - i <= 790)%Z ->
  exists q', isval (SFdiv 53 1024 x c) q' /\ rel u q' (q / vc) /\ mid (a - j - 1) (b - i + 1) q' /\ short (SFdiv 53 1024 x c).
Proof.
  intros V M RA RB. pose proof (fin_pos _ _ _ FC) as CP.
  cut (exists q', isval (SFdiv 53 1024 x c) q' /\ rel u q' (q / vc) /\ mid (a + - j) (b + - i) (q / vc) /\ short (SFdiv 53 1024 x c)).
  { intros (q' & A & B & C & D). exists q'. split; [exact A|]. split; [exact B|]. split; [|exact D]. replace (a - j - 1)%Z with (a + - j - 1)%Z by lia. replace (b - i + 1)%Z with (b + - i + 1)%Z by lia. exact (mid_rel _ _ _ _ C B). }
  destruct V as [(s & -> & E)|(s & v & F & E)].
  - destruct FC as (m & e & -> & _). cbn [SFdiv]. assert (Z0 : q / vc == 0) by (rewrite E; unfold Qdiv; ring). exists 0. split; [left; eexists; split; reflexivity|].
    split; [|split; [left; exact Z0|exact Logic.I]]. unfold rel. rewrite Z0. vm_compute. discriminate.
  - pose proof (fin_pos _ _ _ F) as VP. destruct M as [Z0|[L H]].
    { exfalso. assert (Qabs (sv s v) == 0) by (rewrite <- E, Z0; reflexivity). rewrite qabs_sv in H by exact VP. lra. }
    rewrite E, qabs_sv in L, H by exact VP. destruct (inv_range i j vc LC HC) as [I1 I2].
    destruct (range_mul a b (- j) (- i) v (/ vc) L H I1 I2) as [R1 R2]. fold (v / vc) in R1, R2.
    destruct (div_ok x c s false v vc F FC) as (w & W1 & W2 & W3).
    + apply Qle_trans with (p2 (a + - j)); [apply p2_le; lia|exact R1].
    + apply Qle_trans with (p2 (b + - i)); [exact R2|apply p2_le; lia].
    + rewrite xorb_false_r in W1. assert (VC : 0 < v / vc) by (pose proof (p2_pos (a + - j)); lra).
      exists (sv s w). split; [right; exists s, w; split; [exact W1|reflexivity]|].
      assert (E' : q / vc == sv s (v / vc)) by (rewrite E; apply sv_mul). split; [|split; [right|exact W3]].
      * unfold rel. rewrite E', sv_sub, !qabs_sv_any, (Qabs_pos (v / vc)) by lra. exact W2.
      * rewrite E', qabs_sv by exact VC. split; assumption.
Qed.
End Const.
Lemma rel_step d q w q' k : 0 <= d -> rel d q w -> rel u q' (q * k) -> rel (d + u + d * u) q' (w * k).
Proof.
  unfold rel. intros D R1 R2. pose proof u_pos as UP. rewrite !Qabs_Qmult in *. set (aw := Qabs w) in *. set (ak := Qabs k) in *. pose proof (Qabs_nonneg k) as K0. fold ak in K0.
  assert (QW : Qabs q <= (1 + d) * aw). { pose proof (Qabs_triangle_reverse q w) as T. fold aw in T. lra. }
  assert (T : Qabs (q' - w * k) <= Qabs (q' - q * k) + Qabs ((q - w) * k)). { setoid_replace (q' - w * k) with ((q' - q * k) + (q - w) * k) by ring. apply Qabs_triangle. }
  rewrite Qabs_Qmult in T. fold ak in T.
  assert (A : Qabs (q - w) * ak <= d * aw * ak) by (apply Qmult_le_compat_r; assumption).
  assert (B : u * (Qabs q * ak) <= u * ((1 + d) * aw * ak)). { apply Qmult_le_l; [exact UP|]. apply Qmult_le_compat_r; assumption. }
  setoid_replace ((d + u + d * u) * (aw * ak)) with (d * aw * ak + u * ((1 + d) * aw * ak)) by ring. lra.
Qed.
