From Verif Require Import Base ReaderModel ReaderSpec.

Section P.
Context {A : Type}.
Implicit Types (r : reader A) (ops : list (rop A)).

Lemma trim_loop_newest : forall n (b : list A), (0 < n)%nat ->
  trim_loop n b = skipn (List.length b - n) b.
Proof.
  intros n b Hn. induction b as [|x b IH]; [reflexivity|].
  cbn [trim_loop]. destruct (Nat.ltb_spec n (List.length (x :: b))).
  - rewrite IH. cbn [List.length] in *.
    replace (S (List.length b) - n)%nat with (S (List.length b - n)) by lia. reflexivity.
  - replace (List.length (x :: b) - n)%nat with 0%nat by lia. reflexivity.
Qed.

Lemma trim_newest : forall n (b : list A), trim n b = newest n b.
Proof.
  intros. unfold trim, newest. destruct n; [reflexivity|].
  change (0 <? S n)%nat with true. cbv iota. apply trim_loop_newest. lia.
Qed.

Lemma rrun_fifo : forall ops r,
  let '(r', rs) := rrun r ops in
  fifo ops (max_len_ r) (enabled_ r) (buffer_ r)
       (max_len_ r') (enabled_ r') (buffer_ r') (handed_out rs).
Proof.
  induction ops as [|o ops IH]; intros r; cbn [rrun].
  - constructor.
  - destruct r as [b e n]. destruct o; cbn [rstep enabled_ max_len_ buffer_].
    + destruct e.
      * specialize (IH (mkReader (trim n (b ++ [f])) true n)).
        destruct (rrun _ ops) as [r' rs]. cbn in *. rewrite trim_newest in IH. constructor. exact IH.
      * specialize (IH (mkReader b false n)).
        destruct (rrun _ ops) as [r' rs]. cbn in *. constructor. exact IH.
    + destruct b as [|f b].
      * specialize (IH (mkReader [] e n)). destruct (rrun _ ops) as [r' rs]. cbn in *. constructor. exact IH.
      * specialize (IH (mkReader b e n)). destruct (rrun _ ops) as [r' rs]. cbn in *. constructor. exact IH.
    + specialize (IH (mkReader b e n)). destruct b as [|f b];
      destruct (rrun _ ops) as [r' rs]; cbn in *; constructor; exact IH.
    + specialize (IH (mkReader [] e n)). destruct (rrun _ ops) as [r' rs]. cbn in *. constructor. exact IH.
    + specialize (IH (mkReader (trim n0 b) e n0)). destruct (rrun _ ops) as [r' rs]. cbn in *.
      rewrite trim_newest in IH. constructor. exact IH.
    + specialize (IH (mkReader b b0 n)). destruct (rrun _ ops) as [r' rs]. cbn in *. constructor. exact IH.
    + specialize (IH (mkReader [] e n)). destruct (rrun _ ops) as [r' rs]. cbn in *. constructor. exact IH.
Qed.

Lemma reader_refines_fifo : forall enable limit ops r rs,
  rrun (rinit enable limit) ops = (r, rs) ->
  fifo ops limit enable [] (max_len_ r) (enabled_ r) (buffer_ r) (handed_out rs).
Proof.
  intros. pose proof (rrun_fifo ops (rinit enable limit)) as F. rewrite H in F. exact F.
Qed.

(** ** Consequences *)

Lemma sub_refl : forall (l : list A), sub l l.
Proof. induction l; constructor; assumption. Qed.

Lemma sub_trans : forall (b c : list A), sub b c -> forall a, sub a b -> sub a c.
Proof.
  induction 1; intros a' Hs.
  - inversion Hs; constructor.
  - inversion Hs; subst; [constructor|constructor; apply IHsub; assumption|constructor; apply IHsub; assumption].
  - constructor. apply IHsub. assumption.
Qed.

Lemma sub_skipn : forall n (l : list A), sub (skipn n l) l.
Proof.
  induction n; intros [|x l]; cbn; try apply sub_refl. constructor. apply IHn.
Qed.

Lemma sub_newest : forall n (l : list A), sub (newest n l) l.
Proof. intros [|n] l; [apply sub_refl|apply sub_skipn]. Qed.

Lemma sub_app : forall (a b c d : list A), sub a b -> sub c d -> sub (a ++ c) (b ++ d).
Proof.
  induction 1; intros; cbn.
  - induction l; cbn; [assumption|constructor; assumption].
  - constructor. auto.
  - constructor. auto.
Qed.

Lemma fifo_sub : forall ops n on q n' on' q' out,
  fifo ops n on q n' on' q' out -> sub (out ++ q') (q ++ received on ops).
Proof.
  induction 1; cbn [received app].
  - rewrite app_nil_r. apply sub_refl.
  - eapply sub_trans; [|exact IHfifo].
    change (q ++ f :: received true ops) with (q ++ [f] ++ received true ops).
    rewrite app_assoc. apply sub_app; [apply sub_newest|apply sub_refl].
  - assumption.
  - constructor. assumption.
  - assumption.
  - assumption.
  - eapply sub_trans; [|exact IHfifo]. apply (sub_app [] q); [constructor|apply sub_refl].
  - eapply sub_trans; [|exact IHfifo]. apply (sub_app [] q); [constructor|apply sub_refl].
  - eapply sub_trans; [|exact IHfifo]. apply sub_app; [apply sub_newest|apply sub_refl].
  - assumption.
Qed.

Lemma reader_order : forall enable limit ops r rs,
  rrun (rinit enable limit) ops = (r, rs) ->
  sub (handed_out rs ++ buffer_ r) (received enable ops).
Proof.
  intros. apply reader_refines_fifo in H. apply fifo_sub in H. exact H.
Qed.

Lemma newest_length : forall n (l : list A), (0 < n)%nat -> (List.length (newest n l) <= n)%nat.
Proof.
  intros n l H. unfold newest. destruct n; [lia|]. rewrite skipn_length. lia.
Qed.

Lemma fifo_bound : forall ops n on q n' on' q' out,
  fifo ops n on q n' on' q' out ->
  ((0 < n)%nat -> (List.length q <= n)%nat) ->
  ((0 < n')%nat -> (List.length q' <= n')%nat).
Proof.
  induction 1; intros Hq; auto; apply IHfifo.
  - intros. apply newest_length. assumption.
  - intros. specialize (Hq H0). cbn in Hq. lia.
  - intros. cbn. lia.
  - intros. cbn. lia.
  - intros. apply newest_length. assumption.
Qed.

Lemma reader_bounded : forall enable limit ops r rs,
  rrun (rinit enable limit) ops = (r, rs) ->
  (0 < max_len_ r)%nat -> (List.length (buffer_ r) <= max_len_ r)%nat.
Proof.
  intros enable limit ops r rs H. apply reader_refines_fifo in H.
  eapply fifo_bound; [exact H|]. cbn. lia.
Qed.

Lemma fifo_unlimited : forall ops n on q n' on' q' out,
  fifo ops n on q n' on' q' out -> n = 0%nat -> Forall plain ops ->
  out ++ q' = q ++ received on ops.
Proof.
  induction 1; intros Hn Hp; cbn [received app]; subst.
  - rewrite app_nil_r. reflexivity.
  - inversion Hp; subst. rewrite IHfifo by (auto). cbn [newest]. rewrite <- app_assoc. reflexivity.
  - inversion Hp; subst. auto.
  - inversion Hp; subst. f_equal. auto.
  - inversion Hp; subst. auto.
  - inversion Hp; subst. auto.
  - inversion Hp; subst. contradiction.
  - inversion Hp; subst. contradiction.
  - inversion Hp; subst. contradiction.
  - inversion Hp; subst. auto.
Qed.

Lemma reader_lossless : forall enable ops r rs,
  Forall plain ops ->
  rrun (rinit enable 0) ops = (r, rs) ->
  handed_out rs ++ buffer_ r = received enable ops.
Proof.
  intros enable ops r rs P H. apply reader_refines_fifo in H.
  apply fifo_unlimited in H; auto.
Qed.

Lemma reader_keeps_newest : forall r f,
  enabled_ r = true -> exists b, buffer_ (fst (rstep r (Arrive f))) = b ++ [f].
Proof.
  intros [b e n] f H. cbn in *. subst e. cbn [fst buffer_]. rewrite trim_newest.
  unfold newest. destruct n; [eauto|].
  rewrite skipn_app. exists (skipn (List.length (b ++ [f]) - S n) b). f_equal.
  rewrite app_length. cbn [List.length].
  replace (List.length b + 1 - S n - List.length b)%nat with 0%nat by lia. reflexivity.
Qed.

(** Nothing is dropped while there is room; when full exactly the oldest is. *)
Lemma reader_drop_only_when_full : forall r f,
  enabled_ r = true -> (0 < max_len_ r)%nat -> (List.length (buffer_ r) <= max_len_ r)%nat ->
  buffer_ (fst (rstep r (Arrive f))) =
  (if (List.length (buffer_ r) =? max_len_ r)%nat then tl (buffer_ r) else buffer_ r) ++ [f].
Proof.
  intros [b e n] f H Hn Hl. cbn in *. subst e. cbn [fst buffer_]. rewrite trim_newest.
  unfold newest. destruct n; [lia|].
  rewrite app_length. cbn [List.length].
  destruct (Nat.eqb_spec (List.length b) (S n)).
  - replace (List.length b + 1 - S n)%nat with 1%nat by lia. destruct b; [cbn in *; lia|reflexivity].
  - replace (List.length b + 1 - S n)%nat with 0%nat by lia. reflexivity.
Qed.

End P.
