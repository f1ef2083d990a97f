From Coq Require Import ZArith QArith Qround List Bool Lia Lqa Qfield.
From Coq Require Import Floats.SpecFloat.
From Verif Require Import Base UnitModel UnitSpec.
Import ListNotations.
Local Open Scope Q_scope.

Notation N := (norm exact).
Notation U := (norm_up exact).

Lemma avg_loop_exact l rest : forall i s, (rest = [] \/ exists t, rest = None :: t) ->
  exists r, avg_loop exact (map Some l ++ rest) i (Some s) = ((i + Z.of_nat (List.length l))%Z, Some r) /\ r == s + sum l.
Proof.
  induction l as [|v l IH]; intros i s R.
  - exists s. cbn [map app List.length]. rewrite Z.add_0_r. split; [|unfold sum; cbn; ring].
    destruct R as [->|(t & ->)]; reflexivity.
  - cbn [map app avg_loop]. change (isnan exact (Some v)) with false. cbn iota.
    change (add exact (Some s) (Some v)) with (Some (s + v)).
    destruct (IH (i + 1)%Z (s + v) R) as (r & E & Q). exists r. split.
    + rewrite E. f_equal. cbn [List.length]. lia.
    + rewrite Q. unfold sum. cbn. ring.
Qed.

Lemma avg_exact l vals : leading l vals -> is (avg exact vals) (sum l / (len l + 1)).
Proof.
  intros (rest & -> & R). unfold avg. change (of_int exact 0) with (Some (inject_Z 0)).
  destruct (avg_loop_exact l rest 0 (inject_Z 0) R) as (r & E & Q). rewrite E. cbn -[inject_Z Z.of_nat Z.add Qeq_bool Qdiv].
  destruct (Qeq_bool (inject_Z (0 + Z.of_nat (List.length l) + 1)) 0) eqn:Z0.
  - apply Qeq_bool_eq in Z0. unfold Qeq, inject_Z in Z0. cbn in Z0. lia.
  - eexists. split; [reflexivity|]. rewrite Q. unfold len.
    replace (0 + Z.of_nat (List.length l) + 1)%Z with (Z.of_nat (List.length l) + 1)%Z by lia.
    rewrite inject_Z_plus. change (inject_Z 0) with 0. change (inject_Z 1) with 1. rewrite Qplus_0_l. reflexivity.
Qed.

Lemma smooth_exact v o a : is (smooth exact (Some v) (Some o) (Some a)) (a * v + (1 - a) * o).
Proof. eexists. split; [reflexivity|]. cbn. change (inject_Z 1) with 1. reflexivity. Qed.

Lemma weigh_snoc a l v : weigh a (l ++ [v]) == (1 - a) * weigh a l + a * v.
Proof.
  induction l as [|w l IH]; cbn [app weigh].
  - cbn. ring.
  - rewrite IH, app_length. cbn [List.length]. rewrite Nat.add_1_r. cbn [power]. ring.
Qed.

Lemma smooth_series a v0 l : is (smooth_all (Some a) (Some v0) (map Some l)) (smoothed a v0 l).
Proof.
  unfold smooth_all. induction l as [|v l IH] using rev_ind.
  - exists v0. split; [reflexivity|]. unfold smoothed. cbn. ring.
  - rewrite map_app, fold_left_app. cbn [map fold_left]. destruct IH as (r & E & EQ). change (fold_left (fun o v : option Q => smooth exact v o (Some a)) (map Some l) (Some v0) = Some r) in E. change (num exact) with (option Q) in *. rewrite E.
    destruct (smooth_exact v r a) as (r' & E' & Q'). exists r'. split; [exact E'|].
    rewrite Q', EQ. unfold smoothed. rewrite weigh_snoc, app_length. cbn [List.length]. rewrite Nat.add_1_r. cbn [power]. ring.
Qed.

(** norm *)
Lemma ge_spec a b : ge exact (Some a) (Some b) = true <-> b <= a.
Proof. cbn. apply Qle_bool_iff. Qed.
Lemma lt_spec a b : lt exact (Some a) (Some b) = true <-> a < b.
Proof.
  cbn. rewrite negb_true_iff. split.
  - intros H. apply Qnot_le_lt. intros K. apply Qle_bool_iff in K. congruence.
  - intros H. destruct (Qle_bool b a) eqn:E; [|reflexivity]. apply Qle_bool_iff in E. lra.
Qed.

Lemma ge_false a b : ge exact (Some a) (Some b) = false <-> a < b.
Proof. rewrite <- not_true_iff_false, ge_spec. split; [apply Qnot_le_lt|intros; lra]. Qed.
Lemma lt_false a b : lt exact (Some a) (Some b) = false <-> b <= a.
Proof. rewrite <- not_true_iff_false, lt_spec. split; [apply Qnot_lt_le|intros; lra]. Qed.

Lemma up_S n v lo hi : U (S n) (Some v) (Some lo) (Some hi) =
  if lt exact (Some v) (Some lo) then U n (Some (v + (hi - lo))) (Some lo) (Some hi) else Some (Some v).
Proof. reflexivity. Qed.
Lemma norm_S n v lo hi : N (S n) (Some v) (Some lo) (Some hi) =
  if ge exact (Some v) (Some hi) then N n (Some (v - (hi - lo))) (Some lo) (Some hi) else U (S n) (Some v) (Some lo) (Some hi).
Proof. reflexivity. Qed.

Lemma up_terminates lo hi : lo < hi -> forall n v, lo <= v + inject_Z (Z.of_nat n) * (hi - lo) -> v < hi ->
  exists r, U n (Some v) (Some lo) (Some hi) = Some (Some r) /\ represents r v lo hi.
Proof.
  intros D. induction n as [|n IH]; intros v B L.
  - change (inject_Z (Z.of_nat 0)) with 0 in B. exists v. split.
    + cbn. rewrite (proj2 (Qle_bool_iff lo v)) by lra. reflexivity.
    + unfold represents. split; [lra|]. split; [exact L|]. exists 0%Z. change (inject_Z 0) with 0. ring.
  - rewrite up_S. destruct (lt exact (Some v) (Some lo)) eqn:E.
    + apply lt_spec in E. destruct (IH (v + (hi - lo))) as (r & R & R1 & R2 & k & R3).
      * rewrite Nat2Z.inj_succ, <- Z.add_1_r, inject_Z_plus in B. change (inject_Z 1) with 1 in B. lra.
      * lra.
      * exists r. split; [exact R|]. split; [exact R1|]. split; [exact R2|]. exists (k - 1)%Z.
        rewrite R3. unfold Zminus. rewrite inject_Z_plus. change (inject_Z (-(1))) with (-1 # 1). ring.
    + apply lt_false in E. exists v. split; [reflexivity|]. split; [exact E|]. split; [exact L|].
      exists 0%Z. change (inject_Z 0) with 0. ring.
Qed.

Lemma up_mono n v lo hi r : U n v lo hi = Some r -> forall m, U (n + m) v lo hi = Some r.
Proof.
  revert v. induction n as [|n IH]; intros v H m.
  - cbn [norm_up] in H. destruct (lt exact v lo) eqn:E; [discriminate|]. destruct m; cbn [Nat.add norm_up]; now rewrite E.
  - cbn [Nat.add norm_up] in *. destruct (lt exact v lo); [|exact H]. now apply IH.
Qed.

Lemma down_terminates lo hi : lo < hi -> forall n v m, v - inject_Z (Z.of_nat n) * (hi - lo) < hi ->
  lo <= v + inject_Z (Z.of_nat m) * (hi - lo) ->
  exists r, N (n + m) (Some v) (Some lo) (Some hi) = Some (Some r) /\ represents r v lo hi.
Proof.
  intros D. induction n as [|n IH]; intros v m B L.
  - change (inject_Z (Z.of_nat 0)) with 0 in B. cbn [Nat.add].
    destruct (up_terminates lo hi D m v L) as (r & R & Q); [lra|]. exists r. split; [|exact Q].
    assert (E : ge exact (Some v) (Some hi) = false) by (apply ge_false; lra).
    destruct m; cbn [norm]; rewrite E; exact R.
  - cbn [Nat.add]. rewrite norm_S. destruct (ge exact (Some v) (Some hi)) eqn:E.
    + apply ge_spec in E. destruct (IH (v - (hi - lo)) m) as (r & R & R1 & R2 & k & R3).
      * rewrite Nat2Z.inj_succ, <- Z.add_1_r, inject_Z_plus in B. change (inject_Z 1) with 1 in B. lra.
      * assert (0 <= inject_Z (Z.of_nat m)) by (change 0 with (inject_Z 0); rewrite <- Zle_Qle; lia). nra.
      * exists r. split; [exact R|]. split; [exact R1|]. split; [exact R2|]. exists (k + 1)%Z.
        rewrite R3, inject_Z_plus. change (inject_Z 1) with 1. ring.
    + apply ge_false in E.
      destruct (up_terminates lo hi D m v L) as (r & R & Q); [lra|]. exists r. split; [|exact Q].
      change (S (n + m)) with (S n + m)%nat. rewrite Nat.add_comm. now apply up_mono.
Qed.

Lemma archimedes d q : 0 < d -> exists n : nat, q <= inject_Z (Z.of_nat n) * d.
Proof.
  intros D. exists (Z.to_nat (Qceiling (q / d))).
  pose proof (Qle_ceiling (q / d)) as C.
  assert (H : inject_Z (Qceiling (q / d)) <= inject_Z (Z.of_nat (Z.to_nat (Qceiling (q / d))))).
  { rewrite <- Zle_Qle. lia. }
  assert (K : q / d <= inject_Z (Z.of_nat (Z.to_nat (Qceiling (q / d))))) by lra.
  assert (E : q == q / d * d) by (field; lra).
  rewrite E at 1. apply Qmult_le_compat_r; lra.
Qed.

Lemma norm_exact v lo hi : lo < hi ->
  exists n r, N n (Some v) (Some lo) (Some hi) = Some (Some r) /\ represents r v lo hi.
Proof.
  intros D. destruct (archimedes (hi - lo) (v - hi + (hi - lo))) as (n & A); [lra|].
  destruct (archimedes (hi - lo) (lo - v)) as (m & B); [lra|].
  destruct (down_terminates lo hi D n v m) as (r & R & Q); [lra|lra|]. eauto.
Qed.

Lemma represents_unique r r' v lo hi : represents r v lo hi -> represents r' v lo hi -> r == r'.
Proof.
  intros (A & B & k & C) (A' & B' & k' & C').
  assert (E : r - r' == inject_Z (k' - k) * (hi - lo)).
  { rewrite C, C'. unfold Zminus. rewrite inject_Z_plus, inject_Z_opp. ring. }
  assert (D : 0 < hi - lo) by lra.
  destruct (Z.lt_trichotomy (k' - k) 0) as [H|[H|H]].
  - assert (inject_Z (k' - k) <= -1 # 1) by (change (-1 # 1) with (inject_Z (-1)); rewrite <- Zle_Qle; lia). nra.
  - rewrite H in E. change (inject_Z 0) with 0 in E. lra.
  - assert (1 <= inject_Z (k' - k)) by (change 1 with (inject_Z 1); rewrite <- Zle_Qle; lia). nra.
Qed.

Lemma norm_det v lo hi r r' : forall n n' w, N n w lo hi = Some r -> N n' w lo hi = Some r' -> v = w -> r = r'.
Proof.
  intros n n' w H H' _. revert n' w H H'. induction n as [|n IH]; intros n' w H H'.
  - cbn [norm] in H. destruct (ge exact w hi) eqn:E; [discriminate|].
    assert (G : U n' w lo hi = Some r') by (destruct n'; cbn [norm] in H'; now rewrite E in H').
    pose proof (up_mono 0 w lo hi r H n') as M. cbn [Nat.add] in M. congruence.
  - cbn [norm] in H. destruct (ge exact w hi) eqn:E.
    + destruct n'; cbn [norm] in H'; rewrite E in H'; [discriminate|]. eapply IH; eauto.
    + assert (G : U n' w lo hi = Some r') by (destruct n'; cbn [norm] in H'; now rewrite E in H').
      change (U (S n) w lo hi = Some r) in H.
      pose proof (up_mono _ w lo hi r H n') as M. pose proof (up_mono _ w lo hi r' G (S n)) as M'.
      rewrite Nat.add_comm in M'. congruence.
Qed.

Lemma norm_inverted v lo hi : hi <= lo -> hi <= v -> diverges (fun n => N n (Some v) (Some lo) (Some hi)).
Proof.
  intros D L n. revert v L. induction n as [|n IH]; intros v L.
  - cbn. rewrite (proj2 (Qle_bool_iff hi v) L). reflexivity.
  - rewrite norm_S. rewrite (proj2 (ge_spec v hi) L). apply IH. lra.
Qed.

(** Doubles *)
Lemma norm_stuck v lo hi : ge doubles v hi = true -> sub doubles v (sub doubles hi lo) = v ->
  diverges (fun n => norm doubles n v lo hi).
Proof.
  intros G E n. induction n as [|n IH]; cbn [norm]; rewrite G; [reflexivity|]. now rewrite E.
Qed.

Lemma avg_mean l vals : leading l vals -> l <> [] -> (is (avg exact vals) (sum l / len l) <-> sum l == 0).
Proof.
  intros L NE. destruct (avg_exact l vals L) as (r & E & R).
  assert (P : 1 <= len l).
  { unfold len. change 1 with (inject_Z 1). rewrite <- Zle_Qle. destruct l; [congruence|]. cbn [List.length]. lia. }
  split.
  - intros (r' & E' & R'). assert (r' = r) by congruence. subst r'.
    assert (K : sum l / (len l + 1) == sum l / len l) by (rewrite <- R, <- R'; reflexivity).
    assert (M : sum l * len l == sum l * (len l + 1)).
    { transitivity (sum l / (len l + 1) * (len l * (len l + 1))); [field; lra|]. rewrite K. field; lra. }
    lra.
  - intros Z0. exists r. split; [exact E|]. rewrite R, Z0. field; lra.
Qed.

Lemma smooth_bounded a v0 l lo hi : 0 <= a -> a <= 1 -> (forall v, In v (v0 :: l) -> lo <= v <= hi) ->
  exists r, smooth_all (Some a) (Some v0) (map Some l) = Some r /\ lo <= r <= hi.
Proof.
  intros A0 A1. unfold smooth_all. induction l as [|v l IH] using rev_ind; intros B.
  - exists v0. split; [reflexivity|]. apply B. now left.
  - destruct IH as (r & E & EB).
    { intros w H. apply B. cbn [In] in *. rewrite in_app_iff. tauto. }
    rewrite map_app, fold_left_app. cbn [map fold_left].
    change (fold_left (fun o v : option Q => smooth exact v o (Some a)) (map Some l) (Some v0) = Some r) in E.
    change (num exact) with (option Q) in *. rewrite E.
    destruct (smooth_exact v r a) as (r' & E' & EQ). exists r'. split; [exact E'|]. rewrite EQ.
    assert (V : lo <= v <= hi) by (apply B; cbn [In]; rewrite in_app_iff; cbn; tauto). nra.
Qed.

Lemma norm_represents v lo hi : lo < hi ->
  exists n r, N n (Some v) (Some lo) (Some hi) = Some (Some r) /\ represents r v lo hi /\
    (forall r', represents r' v lo hi -> r' == r) /\
    forall m x, N m (Some v) (Some lo) (Some hi) = Some x -> x = Some r.
Proof.
  intros D. destruct (norm_exact v lo hi D) as (n & r & E & R). exists n, r. split; [exact E|]. split; [exact R|]. split.
  - intros r' R'. eapply represents_unique; eauto.
  - intros m x H. symmetry. exact (norm_det (Some v) (Some lo) (Some hi) (Some r) x n m (Some v) E H eq_refl).
Qed.

Lemma norm_up_lower A n v lo hi r : norm_up A n v lo hi = Some r -> lt A r lo = false.
Proof.
  revert v. induction n as [|n IH]; intros v H; cbn [norm_up] in H; destruct (lt A v lo) eqn:E; try discriminate; eauto; congruence.
Qed.
Lemma norm_lower n v lo hi r : norm doubles n v lo hi = Some r -> lt doubles r lo = false.
Proof.
  revert v. induction n as [|n IH]; intros v H; cbn [norm] in H; destruct (ge doubles v hi) eqn:E; try discriminate; eauto;
  eapply norm_up_lower; exact H.
Qed.
Lemma norm_id A n v lo hi : ge A v hi = false -> lt A v lo = false -> norm A n v lo hi = Some v.
Proof. intros G L. destruct n; cbn [norm]; rewrite G; cbn [norm_up]; now rewrite L. Qed.

Lemma degrees pi x : ~ pi == 0 ->
  is (rad2deg exact (Some pi) (deg2rad exact (Some pi) (Some x))) x /\
  is (deg2rad exact (Some pi) (rad2deg exact (Some pi) (Some x))) x /\
  is (rad2deg exact (Some pi) (Some pi)) 180.
Proof.
  intros P. unfold rad2deg, deg2rad. cbn -[Qeq_bool Qdiv Qmult inject_Z].
  assert (E : Qeq_bool pi 0 = false) by (destruct (Qeq_bool pi 0) eqn:E; [apply Qeq_bool_eq in E; tauto|reflexivity]).
  assert (E' : Qeq_bool (inject_Z 180) 0 = false) by reflexivity.
  rewrite ?E, ?E'. cbn -[Qeq_bool Qdiv Qmult inject_Z]. change (inject_Z 180) with 180.
  split; [|split]; (eexists; split; [reflexivity|]; field; try exact P; try (split; [exact P|]); try (intro K; discriminate K)).
Qed.
