(** The default conversions of joints with IEEE doubles. *)
From Coq Require Import ZArith QArith Qabs Qround Lqa Lia Bool Floats.SpecFloat.
From Verif Require Import Base UnitModel FloatProofs JointModel JointSpec JointProofs.
Local Open Scope Q_scope.

Lemma dvalue_isval x q : dvalue x = Some q -> isval x q.
Proof.
  destruct x as [s|s| |s m e]; cbn [dvalue]; intros H; try discriminate; injection H as <-.
  - left. exists s. split; reflexivity.
  - right. exists s, (inject_Z (Zpos m) * p2 e). split; [exists m, e; split; reflexivity|]. destruct s; reflexivity.
Qed.
Lemma isval_dvalue x q : isval x q -> exists q', dvalue x = Some q' /\ q' == q.
Proof.
  intros [(s & -> & E)|(s & v & (m & e & -> & F) & E)]; cbn [dvalue]; eexists; (split; [reflexivity|]).
  - symmetry. exact E.
  - rewrite E. destruct s; cbn [sv]; rewrite F; reflexivity.
Qed.
Lemma integral_ok (f : Q -> Z) x q : (forall a b, a == b -> f a = f b) -> f 0 = 0%Z -> isval x q -> (Z.abs (f q) < 2 ^ 53)%Z -> exists r, dvalue (integral f x) = Some r /\ r == inject_Z (f q).
Proof.
  intros P Z0 V B. destruct V as [(s & -> & E)|(s & v & F & E)].
  - cbn. exists 0. split; [reflexivity|]. rewrite (P q 0 E), Z0. reflexivity.
  - assert (IV : isval x q) by (right; exists s, v; auto). destruct (isval_dvalue x q IV) as (q0 & D & EQ). destruct F as (m & e & -> & _).
    unfold integral. rewrite D. rewrite (P _ _ EQ). destruct (Z.eqb_spec (f q) 0) as [N|N].
    + exists 0. split; [reflexivity|]. rewrite N. reflexivity.
    + apply isval_dvalue. exact (proj1 (int_ok (f q) B)).
Qed.
Lemma rint_comp a b : a == b -> rint a = rint b.
Proof. intros E. unfold rint. rewrite (Qfloor_comp a b E). assert (X : a - inject_Z (Qfloor b) == b - inject_Z (Qfloor b)) by (rewrite E; reflexivity). rewrite (Qcompare_comp _ _ X _ _ (Qeq_refl (1 # 2))). reflexivity. Qed.
Lemma abs_bound n q : Qabs q <= inject_Z (2 ^ 50) -> Qabs (inject_Z n - q) <= 2 -> (Z.abs n < 2 ^ 53)%Z.
Proof.
  intros A B. apply Qabs_Qle_condition in A. apply Qabs_Qle_condition in B. change (inject_Z (2 ^ 50)) with (1125899906842624 # 1) in A.
  assert (U : inject_Z n <= inject_Z 1125899906842627). { change (inject_Z 1125899906842627) with (1125899906842627 # 1). lra. }
  assert (L : inject_Z (-1125899906842627) <= inject_Z n). { change (inject_Z (-1125899906842627)) with (-1125899906842627 # 1). lra. }
  rewrite <- Zle_Qle in U, L. lia.
Qed.
Lemma u_val : u == 1 # (2 ^ 53). Proof. reflexivity. Qed.
Lemma small_tail q : Qabs q <= inject_Z (2 ^ 50) -> (1 # (2 ^ 53)) * (Qabs q + 1) <= 1 # 2.
Proof. intros H. change (inject_Z (2 ^ 50)) with (1125899906842624 # 1) in H. change (1 # (2 ^ 53)) with (1 # 9007199254740992). lra. Qed.
Lemma rint_c_rounds : rounds rint_c.
Proof.
  intros x q D S B. assert (N : Qabs (inject_Z (rint q) - q) <= 1 # 2) by (apply JointProofs.rint_near).
  destruct (integral_ok rint x q rint_comp eq_refl (dvalue_isval x q D)) as (r & R1 & R2).
  - apply (abs_bound _ q B). lra.
  - exists r, (rint q). split; [exact R1|]. split; [exact R2|]. pose proof (Qabs_nonneg q) as NN. change (1 # (2 ^ 53)) with (1 # 9007199254740992). lra.
Qed.
Lemma half_val : isval (S754_finite false 1 (-1)) (1 # 2).
Proof. right. exists false, (1 # 2). split; [exists 1%positive, (-1)%Z; split; reflexivity|reflexivity]. Qed.
Lemma rint_floor_rounds : rounds rint_floor.
Proof.
  intros x q D S B. pose proof (dvalue_isval x q D) as V. pose proof (small_tail q B) as ST. unfold rint_floor. cbn [UnitModel.add UnitModel.doubles].
  pose proof (Qabs_triangle q (1 # 2)) as TR. change (Qabs (1 # 2)) with (1 # 2) in TR.
  destruct (add_ok x (S754_finite false 1 (-1)) q (1 # 2) V half_val S) as (q' & A1 & A2 & A3).
  - vm_compute. reflexivity.
  - destruct (isval_short_bound x q V S) as [Z0|(m & e & E & M & _)].
    + right. assert (X : q + (1 # 2) == 1 # 2) by (rewrite Z0; reflexivity). rewrite X. vm_compute. discriminate.
    + destruct (Z.le_gt_cases (-60) e) as [L|L].
      * assert (X : q + (1 # 2) == inject_Z (m * 2 ^ (e + 60) + 2 ^ 59) * p2 (-60)).
        { rewrite inject_Z_plus, inject_Z_mult, <- (p2_nat (e + 60)) by lia. rewrite p2_add, E. change (inject_Z (2 ^ 59)) with (576460752303423488 # 1).
          setoid_replace ((inject_Z m * (p2 e * p2 60) + (576460752303423488 # 1)) * p2 (-60)) with (inject_Z m * p2 e * (p2 60 * p2 (-60)) + (576460752303423488 # 1) * p2 (-60)) by ring.
          setoid_replace (p2 60 * p2 (-60)) with 1 by reflexivity. setoid_replace ((576460752303423488 # 1) * p2 (-60)) with (1 # 2) by reflexivity. ring. }
        set (N := (m * 2 ^ (e + 60) + 2 ^ 59)%Z) in *. destruct (Z.eq_dec N 0) as [N0|N0].
        -- left. rewrite X, N0. reflexivity.
        -- right. rewrite X, Qabs_Qmult, (Qabs_pos (p2 (-60))) by (apply Qlt_le_weak, p2_pos). change (Qabs (inject_Z N)) with (inject_Z (Z.abs N)).
           apply Qle_trans with (1 * p2 (-60)); [vm_compute; discriminate|]. apply Qmult_le_compat_r; [|apply Qlt_le_weak, p2_pos]. change 1 with (inject_Z 1). rewrite <- Zle_Qle. lia.
      * right. assert (X : Qabs q <= 1 # 4).
        { rewrite E, Qabs_Qmult, (Qabs_pos (p2 e)) by (apply Qlt_le_weak, p2_pos). change (Qabs (inject_Z m)) with (inject_Z (Z.abs m)).
          apply Qle_trans with (inject_Z (2 ^ 53) * p2 (-60)); [|vm_compute; discriminate].
          apply Qle_trans with (inject_Z (2 ^ 53) * p2 e); [apply Qmult_le_compat_r; [rewrite <- Zle_Qle; lia|apply Qlt_le_weak, p2_pos]|]. apply Qmult_le_l; [vm_compute; reflexivity|apply p2_le; lia]. }
        apply Qabs_Qle_condition in X. apply Qle_trans with (1 # 4); [vm_compute; discriminate|]. rewrite Qabs_pos by lra. lra.
  - apply Qle_trans with (inject_Z (2 ^ 51)); [|vm_compute; discriminate]. change (inject_Z (2 ^ 51)) with (2251799813685248 # 1). change (inject_Z (2 ^ 50)) with (1125899906842624 # 1) in B. lra.
  - pose proof (Qfloor_le q') as F1. pose proof (Qlt_floor q') as F2. rewrite inject_Z_plus in F2. change (inject_Z 1) with 1 in F2.
    assert (UP := u_pos). assert (A4 : u * Qabs (q + (1 # 2)) <= u * (Qabs q + 1)) by (apply Qmult_le_l; [exact UP|lra]).
    pose proof (Qle_trans _ _ _ A2 A4) as A5. rewrite u_val in A5. apply Qabs_Qle_condition in A5.
    assert (DIST : Qabs (inject_Z (Qfloor q') - q) <= (1 # 2) + (1 # (2 ^ 53)) * (Qabs q + 1)). { apply Qabs_Qle_condition. set (t := (1 # (2 ^ 53)) * (Qabs q + 1)) in *. clearbody t. lra. }
    destruct (integral_ok Qfloor _ q' (fun a b E => Qfloor_comp a b E) eq_refl A1) as (r & R1 & R2).
    + apply (abs_bound _ q B). lra.
    + exists r, (Qfloor q'). auto.
Qed.

(** ** The constants *)
Definition PI : Q := inject_Z 7074237752028440 * p2 (-51).
Lemma pi_fin : fin M_PI false PI. Proof. exists 7074237752028440%positive, (-51)%Z. split; reflexivity. Qed.
Lemma pi_lo : p2 1 <= PI. Proof. vm_compute. discriminate. Qed.
Lemma pi_hi : PI <= p2 2. Proof. vm_compute. discriminate. Qed.
Lemma c180_fin : fin (double_of_int 180) false 180. Proof. exists 6333186975989760%positive, (-45)%Z. split; vm_compute; reflexivity. Qed.
Lemma c180_lo : p2 7 <= 180. Proof. vm_compute. discriminate. Qed.
Lemma c180_hi : 180 <= p2 8. Proof. vm_compute. discriminate. Qed.
Lemma c1000_fin : fin (double_of_int 1000) false 1000. Proof. exists 8796093022208000%positive, (-43)%Z. split; vm_compute; reflexivity. Qed.
Lemma c1000_lo : p2 9 <= 1000. Proof. vm_compute. discriminate. Qed.
Lemma c1000_hi : 1000 <= p2 10. Proof. vm_compute. discriminate. Qed.

Definition d1 := u.
Definition d2 := d1 + u + d1 * u.
Definition d3 := d2 + u + d2 * u.
Definition d4 := d3 + u + d3 * u.
Definition d5 := d4 + u + d4 * u.
Definition d6 := d5 + u + d5 * u.
Lemma rel_comp d q w w' : w == w' -> rel d q w -> rel d q w'.
Proof. unfold rel. intros E H. rewrite <- E. exact H. Qed.
Lemma from_ok n : (Z.abs n < 2 ^ 53)%Z -> exists q, isval (default_from_d n) q /\ rel d3 q (inject_Z n * (PI / 180000)) /\ mid (-22) 50 q /\ short (default_from_d n).
Proof.
  intros B. unfold default_from_d, deg2rad. cbn [UnitModel.mul UnitModel.div UnitModel.of_int UnitModel.doubles].
  destruct (int_ok n B) as [V0 _]. fold (double_of_int n) in V0.
  assert (M0 : mid 0 53 (inject_Z n)).
  { destruct (Z.eq_dec n 0) as [->|N]; [left; reflexivity|right]. change (Qabs (inject_Z n)) with (inject_Z (Z.abs n)). rewrite !p2_nat by lia. rewrite <- !Zle_Qle. cbn; lia. }
  destruct (mulc M_PI PI 1 2 pi_fin pi_lo pi_hi 0 53 _ _ V0 M0) as (q1 & V1 & R1 & M1 & _); [lia|lia|].
  destruct (divc (double_of_int 180) 180 7 8 c180_fin c180_lo c180_hi _ _ _ _ V1 M1) as (q2 & V2 & R2 & M2 & _); [lia|lia|].
  destruct (divc (double_of_int 1000) 1000 9 10 c1000_fin c1000_lo c1000_hi _ _ _ _ V2 M2) as (q3 & V3 & R3 & M3 & S3); [lia|lia|].
  exists q3. split; [exact V3|]. split; [|split; [|exact S3]].
  - apply (rel_comp d3 q3 (inject_Z n * PI * / 180 * / 1000)); [field|].
    apply (rel_step d2 q2); [vm_compute; discriminate| |exact R3]. apply (rel_step d1 q1); [vm_compute; discriminate| |exact R2]. exact R1.
  - cbn in M3. destruct M3 as [M3|[M3 M4]]; [left; exact M3|right]. split; [apply Qle_trans with (2 := M3); apply p2_le; lia|apply Qle_trans with (1 := M4); apply p2_le; lia].
Qed.
Lemma to_ok p v : isval p v -> mid (-800) 50 v ->
  exists r, isval (UnitModel.mul doubles (rad2deg doubles M_PI p) (UnitModel.of_int doubles 1000)) r /\ mid (-850) 80 r /\
    short (UnitModel.mul doubles (rad2deg doubles M_PI p) (UnitModel.of_int doubles 1000)) /\
    forall d w, 0 <= d -> rel d v w -> let e1 := d + u + d * u in let e2 := e1 + u + e1 * u in rel (e2 + u + e2 * u) r (w * (180000 / PI)).
Proof.
  intros V0 M0. unfold rad2deg. cbn [UnitModel.mul UnitModel.div UnitModel.of_int UnitModel.doubles].
  destruct (mulc (double_of_int 180) 180 7 8 c180_fin c180_lo c180_hi _ _ _ _ V0 M0) as (q1 & V1 & R1 & M1 & _); [lia|lia|].
  destruct (divc M_PI PI 1 2 pi_fin pi_lo pi_hi _ _ _ _ V1 M1) as (q2 & V2 & R2 & M2 & _); [lia|lia|].
  destruct (mulc (double_of_int 1000) 1000 9 10 c1000_fin c1000_lo c1000_hi _ _ _ _ V2 M2) as (q3 & V3 & R3 & M3 & S3); [lia|lia|].
  exists q3. split; [exact V3|]. split; [|split; [exact S3|]].
  - cbn in M3. destruct M3 as [M3|[M3 M4]]; [left; exact M3|right]. split; [apply Qle_trans with (2 := M3); apply p2_le; lia|apply Qle_trans with (1 := M4); apply p2_le; lia].
  - intros d w D RD. cbn zeta. pose proof u_pos as UP.
    assert (E1 : 0 <= d + u + d * u) by (assert (0 <= d * u) by (apply Qmult_le_0_compat; lra); lra).
    set (e1 := d + u + d * u) in *. assert (E2 : 0 <= e1 + u + e1 * u) by (assert (0 <= e1 * u) by (apply Qmult_le_0_compat; lra); lra).
    apply (rel_comp _ _ (w * 180 * / PI * 1000)). { field. intros C. vm_compute in C. discriminate C. }
    apply (rel_step (e1 + u + e1 * u) q2); [exact E2| |exact R3]. apply (rel_step e1 q1); [exact E1| |exact R2]. apply (rel_step d v); [exact D|exact RD|exact R1].
Qed.
Lemma int_within n d : Qabs (inject_Z n - inject_Z d) < 1 -> n = d.
Proof.
  intros H. apply Qabs_Qlt_condition in H. destruct H as [A B].
  assert (X : inject_Z d < inject_Z (n + 1)) by (rewrite inject_Z_plus; change (inject_Z 1) with 1; lra).
  assert (Y : inject_Z n < inject_Z (d + 1)) by (rewrite inject_Z_plus; change (inject_Z 1) with 1; lra). rewrite <- Zlt_Qlt in X, Y. lia.
Qed.
Lemma mid_weaken a b a' b' q : mid a b q -> (a' <= a)%Z -> (b <= b')%Z -> mid a' b' q.
Proof. intros [Z0|[L H]] A B; [left; exact Z0|right]. split; [apply Qle_trans with (2 := L); apply p2_le; lia|apply Qle_trans with (1 := H); apply p2_le; lia]. Qed.
Lemma there rnd d : rounds rnd -> (- 2 ^ 31 <= d < 2 ^ 31)%Z -> exists q, dvalue (default_to_d rnd (default_from_d d)) = Some q /\ q == inject_Z d.
Proof.
  intros RN B. destruct (from_ok d) as (q & V & R & M & _); [lia|].
  destruct (to_ok _ _ V (mid_weaken _ _ (-800) 50 _ M ltac:(lia) ltac:(lia))) as (r & V2 & _ & S2 & R2).
  specialize (R2 d3 _ ltac:(vm_compute; discriminate) R). cbn zeta in R2. fold d4 in R2. fold d5 in R2. fold d6 in R2.
  apply (rel_comp _ _ _ (inject_Z d)) in R2. 2:{ field. intros C. vm_compute in C. discriminate C. }
  unfold rel in R2. change (Qabs (inject_Z d)) with (inject_Z (Z.abs d)) in R2.
  assert (AD : inject_Z (Z.abs d) <= inject_Z (2 ^ 31)) by (rewrite <- Zle_Qle; lia).
  assert (R3 : Qabs (r - inject_Z d) <= 1 # 1024).
  { apply Qle_trans with (1 := R2). apply Qle_trans with (d6 * inject_Z (2 ^ 31)); [apply Qmult_le_l; [vm_compute; reflexivity|exact AD]|]. vm_compute. discriminate. }
  assert (RB : Qabs r <= inject_Z (2 ^ 50)).
  { pose proof (Qabs_triangle_reverse r (inject_Z d)) as T. change (Qabs (inject_Z d)) with (inject_Z (Z.abs d)) in T. apply Qle_trans with (inject_Z (2 ^ 31) + 1); [lra|vm_compute; discriminate]. }
  assert (RT : (1 # (2 ^ 53)) * (Qabs r + 1) <= 1 # 1024).
  { pose proof (Qabs_triangle_reverse r (inject_Z d)) as T. change (Qabs (inject_Z d)) with (inject_Z (Z.abs d)) in T.
    change (inject_Z (2 ^ 31)) with (2147483648 # 1) in AD. change (1 # (2 ^ 53)) with (1 # 9007199254740992). lra. }
  destruct (isval_dvalue _ _ V2) as (r' & DR & ER). assert (AR : Qabs r' == Qabs r) by (rewrite ER; reflexivity).
  destruct (RN _ r' DR S2) as (z & n & Z1 & Z2 & Z3); [rewrite AR; exact RB|].
  unfold default_to_d. exists z. split; [exact Z1|]. rewrite Z2. rewrite AR, ER in Z3.
  assert (n = d) as ->; [|reflexivity]. apply int_within. apply Qle_lt_trans with (Qabs (inject_Z n - r) + Qabs (r - inject_Z d)); [|lra].
  setoid_replace (inject_Z n - inject_Z d) with ((inject_Z n - r) + (r - inject_Z d)) by ring. apply Qabs_triangle.
Qed.
Lemma back1 rnd p v : rounds rnd -> dvalue p = Some v -> (v == 0 \/ p2 (-800) <= Qabs v) -> Qabs v <= p2 30 ->
  exists z n w, dvalue (default_to_d rnd p) = Some z /\ z == inject_Z n /\ dvalue (default_from_d n) = Some w /\
    Qabs (w - v) <= PI / 360000 * (1 + p2 (-50)) + p2 (-50) * Qabs v /\ Qabs (inject_Z n - v * (180000 / PI)) <= 1.
Proof.
  intros RN DV LO HI. pose proof (dvalue_isval _ _ DV) as V.
  assert (M : mid (-800) 50 v). { destruct LO as [L|L]; [left; exact L|right; split; [exact L|]]. apply Qle_trans with (1 := HI). apply p2_le. lia. }
  destruct (to_ok _ _ V M) as (r & V2 & _ & S2 & R2). specialize (R2 0 v ltac:(lra)). assert (R0 : rel 0 v v). { unfold rel. setoid_replace (v - v) with 0 by ring. cbn [Qabs Z.abs]. rewrite Qmult_0_l. lra. }
  specialize (R2 R0). cbn zeta in R2. set (d3' := 0 + u + 0 * u + u + (0 + u + 0 * u) * u + u + (0 + u + 0 * u + u + (0 + u + 0 * u) * u) * u) in R2.
  assert (D3 : d3' <= (25 # 8) * u) by (vm_compute; discriminate). assert (D3f : d3 <= (25 # 8) * u) by (vm_compute; discriminate). clearbody d3'.
  set (k := 180000 / PI) in *. assert (KP : 0 < k) by (vm_compute; reflexivity). assert (KB : k <= 60000) by (vm_compute; discriminate).
  unfold rel in R2. rewrite Qabs_Qmult in R2. rewrite (Qabs_pos k) in R2 by lra. set (av := Qabs v) in *. assert (AV : 0 <= av) by apply Qabs_nonneg.
  assert (AK : 0 <= av * k) by (apply Qmult_le_0_compat; lra).
  assert (AKB : av * k <= 64424509440000). { apply Qle_trans with (p2 30 * 60000); [|vm_compute; discriminate]. apply Qle_trans with (av * 60000); [rewrite !(Qmult_comm av); apply Qmult_le_compat_r; assumption|apply Qmult_le_compat_r; [exact HI|lra]]. }
  assert (R3 : Qabs (r - v * k) <= (25 # 8) * u * (av * k)). { apply Qle_trans with (1 := R2). apply Qmult_le_compat_r; assumption. }
  change u with (1 # 9007199254740992) in R3.
  assert (RA : Qabs r <= av * k + (25 # 8) * (1 # 9007199254740992) * (av * k)).
  { pose proof (Qabs_triangle_reverse r (v * k)) as T. rewrite (Qabs_Qmult v k), (Qabs_pos k) in T by lra. fold av in T. lra. }
  assert (RB : Qabs r <= inject_Z (2 ^ 50)). { change (inject_Z (2 ^ 50)) with (1125899906842624 # 1). lra. }
  destruct (isval_dvalue _ _ V2) as (r' & DR & ER). assert (AR : Qabs r' == Qabs r) by (rewrite ER; reflexivity).
  destruct (RN _ r' DR S2) as (z & n & Z1 & Z2 & Z3); [rewrite AR; exact RB|]. rewrite AR, ER in Z3. change (1 # (2 ^ 53)) with (1 # 9007199254740992) in Z3.
  destruct (from_ok n) as (w & W1 & W2 & _ & _).
  { apply (abs_bound n r RB). change (inject_Z (2 ^ 50)) with (1125899906842624 # 1) in RB. lra. }
  destruct (isval_dvalue _ _ W1) as (w' & DW & EW). exists z, n, w'. split; [exact Z1|]. split; [exact Z2|]. split; [exact DW|]. rewrite EW.
  unfold rel in W2. set (h := PI / 180000) in *. assert (HP : 0 < h) by (vm_compute; reflexivity). assert (HK : k * h == 1) by (vm_compute; reflexivity).
  rewrite Qabs_Qmult, (Qabs_pos h) in W2 by lra. set (an := Qabs (inject_Z n)) in *.
  assert (DN : Qabs (inject_Z n - v * k) <= (1 # 2) + (1 # 9007199254740992) * (Qabs r + 1) + (25 # 8) * (1 # 9007199254740992) * (av * k)).
  { apply Qle_trans with (Qabs (inject_Z n - r) + Qabs (r - v * k)); [|lra]. setoid_replace (inject_Z n - v * k) with ((inject_Z n - r) + (r - v * k)) by ring. apply Qabs_triangle. }
  assert (AN : an <= av * k + Qabs (inject_Z n - v * k)). { pose proof (Qabs_triangle_reverse (inject_Z n) (v * k)) as T. rewrite (Qabs_Qmult v k), (Qabs_pos k) in T by lra. fold av in T. fold an in T. lra. }
  assert (AN0 : 0 <= an) by apply Qabs_nonneg. assert (ANH : 0 <= an * h) by (apply Qmult_le_0_compat; lra).
  assert (T1 : Qabs (w - inject_Z n * h) <= (25 # 8) * (1 # 9007199254740992) * (an * h)). { apply Qle_trans with (1 := W2). apply Qmult_le_compat_r; [exact D3f|exact ANH]. }
  assert (T2 : Qabs (inject_Z n * h - v) == Qabs (inject_Z n - v * k) * h).
  { setoid_replace (inject_Z n * h - v) with ((inject_Z n - v * k) * h); [rewrite Qabs_Qmult, (Qabs_pos h) by lra; reflexivity|]. setoid_replace ((inject_Z n - v * k) * h) with (inject_Z n * h - v * (k * h)) by ring. rewrite HK. ring. }
  assert (T : Qabs (w - v) <= Qabs (w - inject_Z n * h) + Qabs (inject_Z n * h - v)). { setoid_replace (w - v) with ((w - inject_Z n * h) + (inject_Z n * h - v)) by ring. apply Qabs_triangle. }
  rewrite T2 in T. set (e := Qabs (inject_Z n - v * k)) in *.
  assert (EH : e * h <= ((1 # 2) + (1 # 9007199254740992) * (av * k + (25 # 8) * (1 # 9007199254740992) * (av * k) + 1) + (25 # 8) * (1 # 9007199254740992) * (av * k)) * h).
  { apply Qmult_le_compat_r; lra. }
  assert (AH : an * h <= (av * k + e) * h) by (apply Qmult_le_compat_r; lra).
  assert (VK : av * k * h == av) by (rewrite <- Qmult_assoc, HK; ring).
  assert (EH2 : e * h <= (1 # 2) * h + (1 # 9007199254740992) * (av + (25 # 8) * (1 # 9007199254740992) * av + h) + (25 # 8) * (1 # 9007199254740992) * av).
  { apply Qle_trans with (1 := EH). setoid_replace (((1 # 2) + (1 # 9007199254740992) * (av * k + (25 # 8) * (1 # 9007199254740992) * (av * k) + 1) + (25 # 8) * (1 # 9007199254740992) * (av * k)) * h)
      with ((1 # 2) * h + (1 # 9007199254740992) * (av * k * h + (25 # 8) * (1 # 9007199254740992) * (av * k * h) + h) + (25 # 8) * (1 # 9007199254740992) * (av * k * h)) by ring. rewrite VK. apply Qle_refl. }
  assert (AH2 : an * h <= av + e * h) by (apply Qle_trans with (1 := AH); rewrite Qmult_plus_distr_l, VK; apply Qle_refl).
  assert (HH : PI / 360000 == (1 # 2) * h) by (unfold h; field). rewrite HH. change (p2 (-50)) with (1 # 1125899906842624).
  assert (B1 : (1 # 2) * h * (1 + (1 # 1125899906842624)) == (1 # 2) * h + (1 # 2251799813685248) * h) by ring. rewrite B1. clearbody h av an e. set (eh := e * h) in *. clearbody eh. set (ah := an * h) in *. clearbody ah. split; lra.
Qed.
Lemma back rnd p v : rounds rnd -> dvalue p = Some v -> (v == 0 \/ p2 (-800) <= Qabs v) -> Qabs v <= p2 30 ->
  exists z n w, dvalue (default_to_d rnd p) = Some z /\ z == inject_Z n /\ dvalue (default_from_d n) = Some w /\
    Qabs (w - v) <= PI / 360000 * (1 + p2 (-50)) + p2 (-50) * Qabs v.
Proof. intros A B C D. destruct (back1 rnd p v A B C D) as (z & n & w & E & F & G & H & _). eauto 8. Qed.
