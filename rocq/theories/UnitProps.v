(** C66: helper functions of unit conversions. *)
From Coq Require Import ZArith QArith List Bool Lia Lqa.
From Coq Require Import Floats.SpecFloat.
From Verif Require Import Base UnitModel UnitSpec UnitProofs.
Import ListNotations.
Local Open Scope Q_scope.

(** avg divides the sum of the n leading defined values by n+1 instead of n. *)
Theorem C66_avg_partial : forall l vals, leading l vals -> is (avg exact vals) (sum l / (len l + 1)).
Proof. exact avg_exact. Qed.
Print Assumptions C66_avg_partial.

Example avg_example : leading [1; 2; 3] [Some 1; Some 2; Some 3; None; Some 7] /\
  is (avg exact [Some 1; Some 2; Some 3; None; Some 7]) (3 # 2).
Proof.
  split; [exists [None; Some 7]; split; [reflexivity|right; now exists [Some 7]]|].
  eexists. split; [reflexivity|]. reflexivity.
Qed.

(** The mean of values is avg only if the values add up to 0. *)
Theorem C66_avg_mean : forall l vals, leading l vals -> l <> [] ->
  (is (avg exact vals) (sum l / len l) <-> sum l == 0).
Proof. exact avg_mean. Qed.
Print Assumptions C66_avg_mean.

(** With doubles as well: the average of 1, 1, 1 is 0.75. *)
Theorem C66_avg_refuted : exists v, of_int doubles 1 = v /\
  avg doubles [v; v; v] = div doubles (of_int doubles 3) (of_int doubles 4) /\ avg doubles [v; v; v] <> v.
Proof. exists (of_int doubles 1). split; [reflexivity|]. split; [vm_compute; reflexivity|vm_compute; discriminate]. Qed.
Print Assumptions C66_avg_refuted.

(** An undefined value counts as 0, the first defined value is taken as it is. *)
Theorem C66_smooth_undefined : forall A val old alpha,
  (isnan A val = true -> smooth A val old alpha = of_int A 0) /\
  (isnan A val = false -> isnan A old = true -> smooth A val old alpha = val).
Proof. intros A val old alpha. unfold smooth. split; [now intros ->|now intros -> ->]. Qed.
Print Assumptions C66_smooth_undefined.

(** The smoothed value after any number of values. *)
Theorem C66_smooth : forall a v0 l, is (smooth_all (Some a) (Some v0) (map Some l)) (smoothed a v0 l).
Proof. exact smooth_series. Qed.
Print Assumptions C66_smooth.

(** With a weight between 0 and 1 it stays within the bounds of the values. *)
Theorem C66_smooth_bounded : forall a v0 l lo hi, 0 <= a -> a <= 1 -> (forall v, In v (v0 :: l) -> lo <= v <= hi) ->
  exists r, smooth_all (Some a) (Some v0) (map Some l) = Some r /\ lo <= r <= hi.
Proof. exact smooth_bounded. Qed.
Print Assumptions C66_smooth_bounded.

Example smooth_example : is (smooth_all (Some (1 # 4)) (Some 8) [Some 0; Some 4]) (11 # 2) /\ smoothed (1 # 4) 8 [0; 4] == 11 # 2.
Proof. split; [eexists; split; [reflexivity|]; reflexivity|reflexivity]. Qed.

(** With exact numbers and min < max, norm returns the representative of the value, which is
    unique. *)
Theorem C66_norm_partial : forall v lo hi, lo < hi ->
  exists n r, norm exact n (Some v) (Some lo) (Some hi) = Some (Some r) /\ represents r v lo hi /\
    (forall r', represents r' v lo hi -> r' == r) /\
    forall m x, norm exact m (Some v) (Some lo) (Some hi) = Some x -> x = Some r.
Proof. exact norm_represents. Qed.
Print Assumptions C66_norm_partial.

Example norm_example : norm exact 5 (Some 800) (Some (-180 # 1)) (Some 180) = Some (Some 80) /\ represents 80 800 (-180 # 1) 180.
Proof. split; [reflexivity|]. split; [lra|]. split; [lra|]. exists 2%Z. reflexivity. Qed.

(** If min >= max, norm never returns for a value of at least max. *)
Theorem C66_norm_inverted : forall v lo hi, hi <= lo -> hi <= v ->
  diverges (fun n => norm exact n (Some v) (Some lo) (Some hi)).
Proof. exact norm_inverted. Qed.
Print Assumptions C66_norm_inverted.

(** With doubles norm never returns for infinity or for 10^20 in [-1000, 1000), although both
    bounds are ordinary. *)
Theorem C66_norm_refuted : let lo := of_int doubles (-1000) in let hi := of_int doubles 1000 in
  diverges (fun n => norm doubles n (S754_infinity false) lo hi) /\
  diverges (fun n => norm doubles n (of_int doubles (10 ^ 20)) lo hi).
Proof. intros lo hi. split; apply norm_stuck; vm_compute; reflexivity. Qed.
Print Assumptions C66_norm_refuted.

(** And it may return max itself: for a tiny negative value in [0, 360) the result is 360. *)
Theorem C66_norm_rounding_refuted : let v := div doubles (of_int doubles (-1)) (of_int doubles (10 ^ 20)) in
  norm doubles 1 v (of_int doubles 0) (of_int doubles 360) = Some (of_int doubles 360).
Proof. vm_compute. reflexivity. Qed.
Print Assumptions C66_norm_rounding_refuted.

(** If norm returns with doubles, the result is not below min. *)
Theorem C66_norm_lower : forall n v lo hi r, norm doubles n v lo hi = Some r -> lt doubles r lo = false.
Proof. exact norm_lower. Qed.
Print Assumptions C66_norm_lower.

(** A value within the bounds is left as it is. *)
Theorem C66_norm_id : forall A n v lo hi, ge A v hi = false -> lt A v lo = false -> norm A n v lo hi = Some v.
Proof. exact norm_id. Qed.
Print Assumptions C66_norm_id.

(** Numbers are IEEE doubles: 53 bits, and not beyond 2^1024. *)
Example doubles_example :
  of_int doubles (2^53 + 1) = of_int doubles (2^53) /\ of_int doubles (2^53 + 2) <> of_int doubles (2^53) /\
  add doubles (of_int doubles (2^53)) (of_int doubles 1) = of_int doubles (2^53) /\
  mul doubles (of_int doubles (2^512)) (of_int doubles (2^511)) = of_int doubles (2^1023) /\
  of_int doubles (2^1023) <> S754_infinity false /\
  add doubles (of_int doubles (2^1023)) (of_int doubles (2^1023)) = S754_infinity false /\
  mul doubles (of_int doubles (2^512)) (of_int doubles (2^512)) = S754_infinity false /\
  of_int doubles 0 = S754_zero false.
Proof. repeat split; vm_compute; try reflexivity; discriminate. Qed.

(** The conversions of angles are inverse to each other. *)
Theorem C66_degrees : forall pi x, ~ pi == 0 ->
  is (rad2deg exact (Some pi) (deg2rad exact (Some pi) (Some x))) x /\
  is (deg2rad exact (Some pi) (rad2deg exact (Some pi) (Some x))) x /\
  is (rad2deg exact (Some pi) (Some pi)) 180.
Proof. exact degrees. Qed.
Print Assumptions C66_degrees.

Example degrees_example : is (deg2rad exact (Some (22 # 7)) (Some 90)) (11 # 7).
Proof. eexists. split; [reflexivity|]. reflexivity. Qed.
