(** Proofs about homing. *)
From Verif Require Import Base MotorModel MotorSpec MotorProofs HomingModel HomingSpec.

Lemma hrun_app : forall a b s, hrun (a ++ b) s = hrun b (hrun a s).
Proof. intros. apply fold_left_app. Qed.
Lemma hrun_snoc : forall l e s, hrun (l ++ [e]) s = hstep e (hrun l s).
Proof. intros. rewrite hrun_app. reflexivity. Qed.
Lemma last_read_app : forall a b w, last_read (a ++ b) w = last_read b (last_read a w).
Proof. induction a as [|[| |v] a IH]; intros; cbn; auto. Qed.

Lemma has_mask_bit : forall w b, 0 <= b -> has_mask w b = Z.testbit w b.
Proof.
  intros w b H. unfold has_mask. destruct (Z.eqb_spec (Z.land w (2 ^ b)) 0) as [E|E].
  - cbn. apply (f_equal (fun z => Z.testbit z b)) in E. rewrite Z.land_spec, Z.pow2_bits_true, Z.bits_0, andb_true_r in E by lia. auto.
  - cbn. destruct (Z.testbit w b) eqn:T; [reflexivity|]. exfalso. apply E. apply Z.bits_inj'. intros i Hi.
    rewrite Z.land_spec, Z.bits_0. destruct (Z.eq_dec i b) as [->|N]; [rewrite T; reflexivity|].
    rewrite Z.pow2_bits_false by congruence. apply andb_false_r.
Qed.
Lemma mask_bits : forall w i, In i [10; 12; 13] -> Z.testbit (Z.land w HMASK) i = Z.testbit w i.
Proof.
  intros w i H. rewrite Z.land_spec. destruct H as [<-|[<-|[<-|[]]]]; rewrite andb_comm; reflexivity.
Qed.

Section Run.
Variables (x0 : hom) (w0 : Z).
Hypothesis H0 : stored x0 w0.
Let s0 := (x0, HPrepare).
Definition I (l : list hevent) (x : hom) (p : hpc) : Prop :=
  stored x (last_read l w0) /\
  match p with
  | HPrepare => execute x = execute x0
  | HDone true => signalled l w0 /\ execute x = false
  | HDone false => execute x = false
  | _ => execute x = true
  end.
Lemma signalled_snoc : forall l e, signalled l w0 -> signalled (l ++ [e]) w0.
Proof. intros l e [a [b [-> A]]]. exists a, (b ++ [e]). rewrite <- app_assoc. auto. Qed.
Lemma I_advance : forall l e x p, I l x p -> (forall w, e <> HRead w) -> (forall b, p <> HDone b) ->
  I (l ++ [e]) (fst (advance p x)) (snd (advance p x)).
Proof.
  intros l e x p [A B] He Hp.
  assert (L : last_read (l ++ [e]) w0 = last_read l w0).
  { rewrite last_read_app. destruct e; try reflexivity. destruct (He sw); reflexivity. }
  assert (M : forall i, In i [10; 12; 13] -> has_mask (status x) i = Z.testbit (last_read l w0) i).
  { intros i Hi. rewrite has_mask_bit by (destruct Hi as [<-|[<-|[<-|[]]]]; lia).
    unfold stored in A. rewrite A. apply mask_bits, Hi. }
  unfold I. rewrite L. unfold advance, SW_Error, SW_Reached, SW_Attained. rewrite !M by (cbn; auto).
  destruct (Z.testbit (last_read l w0) 13) eqn:E; [cbn; auto|].
  destruct p; cbn -[Z.testbit]; auto.
  - destruct (Z.testbit (last_read l w0) 10) eqn:R; cbn -[Z.testbit]; auto.
    destruct (Z.testbit (last_read l w0) 12) eqn:T; cbn -[Z.testbit]; auto.
    split; [exact A|]. split; [|reflexivity]. exists l, [e]. split; [reflexivity|]. split; [exact R|split; [exact T|exact E]].
  - destruct (Hp b); reflexivity.
Qed.
Lemma I_run : forall l, I l (fst (hrun l s0)) (snd (hrun l s0)).
Proof.
  induction l as [|e l IH] using rev_ind; [split; [exact H0|reflexivity]|].
  rewrite hrun_snoc. destruct (hrun l s0) as [x p]. cbn [fst snd] in IH.
  destruct e as [| |sw]; cbn [hstep].
  - destruct (ready p (status x)) eqn:R.
    + apply I_advance; [exact IH|discriminate|intros b ->; discriminate].
    + destruct IH as [A B]. split; [rewrite last_read_app; exact A|]. destruct p as [| | | |[|]]; try exact B.
      destruct B. split; [apply signalled_snoc|]; assumption.
  - assert (K : forall b, p = HDone b -> I (l ++ [HTimeout]) x p).
    { intros b ->. destruct IH as [A B]. split; [rewrite last_read_app; exact A|]. destruct b; try exact B.
      destruct B. split; [apply signalled_snoc|]; assumption. }
    assert (F : I (l ++ [HTimeout]) (fst (failed x)) (snd (failed x))).
    { destruct IH as [A _]. split; [rewrite last_read_app; exact A|reflexivity]. }
    assert (G : (forall b, p <> HDone b) ->
      I (l ++ [HTimeout]) (fst (if ready p (status x) then advance p x else failed x)) (snd (if ready p (status x) then advance p x else failed x))).
    { intro N. destruct (ready p (status x)); [apply I_advance; [exact IH|discriminate|exact N]|exact F]. }
    destruct p; try (apply G; discriminate). apply (K b). reflexivity.
  - destruct IH as [A B]. split; [rewrite last_read_app; reflexivity|]. destruct p as [| | | |[|]]; try exact B.
    destruct B. split; [apply signalled_snoc|]; assumption.
Qed.
End Run.

(** ** A drive that finds its home *)
Lemma mask_val : forall w e a r, shows e a r w ->
  Z.land w HMASK = (if e then 8192 else 0) + (if a then 4096 else 0) + (if r then 1024 else 0).
Proof.
  intros w e a r [H1 [H2 H3]]. apply Z.bits_inj'. intros i Hi. rewrite Z.land_spec.
  assert (C : i = 10 \/ i = 12 \/ i = 13 \/ (i <> 10 /\ i <> 12 /\ i <> 13)) by lia.
  destruct C as [->|[->|[->|[N1 [N2 N3]]]]].
  - rewrite H3. destruct e, a, r; reflexivity.
  - rewrite H2. destruct e, a, r; reflexivity.
  - rewrite H1. destruct e, a, r; reflexivity.
  - assert (K : forall x y z : bool, Z.testbit ((if x then 8192 else 0) + (if y then 4096 else 0) + (if z then 1024 else 0)) i = false).
    { intros x y z. rewrite testbit_div by exact Hi.
      assert (D : i < 10 \/ i = 11 \/ 13 < i) by lia. destruct D as [D|[->|D]].
      - replace ((if x then 8192 else 0) + (if y then 4096 else 0) + (if z then 1024 else 0)) with (((if x then 8 else 0) + (if y then 4 else 0) + (if z then 1 else 0)) * 2^(9 - i) * 2 * 2^i).
        + rewrite Z.div_mul by lia. rewrite Z.mod_mul by lia. reflexivity.
        + rewrite <- Z.mul_assoc, <- Z.mul_assoc. replace (2^(9-i) * (2 * 2^i)) with 1024; [destruct x, y, z; reflexivity|].
          replace (2 * 2^i) with (2^(1+i)) by (rewrite Z.pow_add_r by lia; lia). rewrite <- Z.pow_add_r by lia. replace (9 - i + (1 + i)) with 10 by lia. reflexivity.
      - destruct x, y, z; reflexivity.
      - rewrite Z.div_small; [reflexivity|]. split; [destruct x, y, z; lia|].
        apply Z.lt_le_trans with (2^14); [destruct x, y, z; lia|]. apply Z.pow_le_mono_r; lia. }
    rewrite (K e a r). change HMASK with ((if true then 8192 else 0) + (if true then 4096 else 0) + (if true then 1024 else 0)).
    rewrite K. apply andb_false_r.
Qed.

(** The thread in a stage with masked status [s] *)
Definition wakes (n : nat) (s : hom * hpc) : hom * hpc := hrun (repeat HThread n) s.
Lemma stage_run : forall C n l, stage C n l -> exists w m, C w /\ (n <= m)%nat /\
  forall s0, (forall v, C v -> Z.land v HMASK = s0) ->
  forall x p, (forall k, hrun (repeat HThread k) (x, p) = (x, p)) ->
  hrun l (x, p) = wakes m (mkH s0 (execute x), p).
Proof.
  intros C n l (a & w & b & -> & Ha & Hw & Hb & Hn). exists w, (List.length (filter (fun e => match e with HThread => true | _ => false end) b)).
  split; [exact Hw|]. split; [exact Hn|]. intros s0 Hs x p Hk. rewrite hrun_app.
  replace a with (repeat HThread (List.length a)) by (clear - Ha; induction Ha as [|e a <- Ha IH]; cbn; [reflexivity|rewrite IH at 1; reflexivity]).
  rewrite Hk. change (hrun (HRead w :: b) (x, p)) with (hrun b (mkH (Z.land w HMASK) (execute x), p)). rewrite (Hs w Hw). clear - Hb Hs.
  assert (G : forall y q, status y = s0 -> hrun b (y, q) = wakes (List.length (filter (fun e => match e with HThread => true | _ => false end) b)) (y, q)).
  { induction Hb as [|e b He Hb IH]; intros y q Hy; [reflexivity|].
    destruct He as [->|[v [-> Hv]]]; cbn [filter List.length].
    - change (hrun (HThread :: b) (y, q)) with (hrun b (hstep HThread (y, q))).
      change (wakes (Datatypes.S ?m) (y, q)) with (wakes m (hstep HThread (y, q))).
      destruct (hstep HThread (y, q)) as [y1 q1] eqn:E. apply IH. cbn [hstep] in E.
      destruct (ready q (status y)); [|injection E as <- <-; exact Hy].
      unfold advance, failed in E. destruct (has_mask _ _); [injection E as <- <-; exact Hy|]. destruct q; try (injection E as <- <-; exact Hy).
      destruct (_ && _); injection E as <- <-; exact Hy.
    - change (hrun (HRead v :: b) (y, q)) with (hrun b (mkH (Z.land v HMASK) (execute y), q)). rewrite (Hs v Hv).
      rewrite IH by reflexivity. f_equal. f_equal. destruct y as [sy ey]; cbn in *. congruence. }
  apply G. reflexivity.
Qed.
Lemma wakes_stay : forall x p, hstep HThread (x, p) = (x, p) -> forall k, hrun (repeat HThread k) (x, p) = (x, p).
Proof. intros x p H. induction k as [|k IH]; [reflexivity|]. cbn [repeat]. change (hrun (repeat HThread k) (hstep HThread (x, p)) = (x, p)). rewrite H. exact IH. Qed.
Lemma wakes_S : forall m s, wakes (Datatypes.S m) s = wakes m (hstep HThread s).
Proof. reflexivity. Qed.

Lemma completes : forall x l1 l2 l3 l4, stage h_idle 1 l1 -> stage h_moving 1 l2 -> (l3 = [] \/ stage h_stopping 1 l3) -> stage h_done 2 l4 ->
  let s1 := hrun l1 (hstart x, HPrepare) in let s2 := hrun (l2 ++ l3) s1 in let s3 := hrun l4 s2 in
  execute (fst s1) = true /\ execute (fst s2) = true /\ snd s3 = HDone true /\ execute (fst s3) = false.
Proof.
  intros x l1 l2 l3 l4 S1 S2 S3 S4.
  destruct (stage_run _ _ _ S1) as (w1 & m1 & C1 & N1 & R1).
  destruct (stage_run _ _ _ S2) as (w2 & m2 & C2 & N2 & R2).
  destruct (stage_run _ _ _ S4) as (w4 & m4 & C4 & N4 & R4).
  assert (A1 : hrun l1 (hstart x, HPrepare) = (mkH 1024 true, HStart)).
  { rewrite (R1 1024); [|intros v Hv; exact (mask_val v _ _ _ Hv)|apply wakes_stay; reflexivity].
    destruct m1 as [|m1]; [lia|]. rewrite wakes_S. change (hstep HThread (mkH 1024 (execute (hstart x)), HPrepare)) with (mkH 1024 true, HStart).
    unfold wakes. apply wakes_stay. reflexivity. }
  cbv zeta. rewrite A1, hrun_app.
  assert (A2 : hrun l2 (mkH 1024 true, HStart) = (mkH 0 true, HAttain)).
  { rewrite (R2 0); [|intros v Hv; exact (mask_val v _ _ _ Hv)|apply wakes_stay; reflexivity].
    destruct m2 as [|m2]; [lia|]. rewrite wakes_S. change (hstep HThread (mkH 0 true, HStart)) with (mkH 0 true, HAttain).
    unfold wakes. apply wakes_stay. reflexivity. }
  rewrite A2. split; [reflexivity|].
  assert (A3 : exists p s, hrun l3 (mkH 0 true, HAttain) = (mkH s true, p) /\ (s = 0 /\ p = HAttain \/ s = 4096 /\ p = HStop)).
  { destruct S3 as [->|S3]; [exists HAttain, 0; auto|]. destruct (stage_run _ _ _ S3) as (w3 & m3 & C3 & N3 & R3).
    exists HStop, 4096. split; [|auto]. rewrite (R3 4096); [|intros v Hv; exact (mask_val v _ _ _ Hv)|apply wakes_stay; reflexivity].
    destruct m3 as [|m3]; [lia|]. rewrite wakes_S. change (hstep HThread (mkH 4096 true, HAttain)) with (mkH 4096 true, HStop).
    unfold wakes. apply wakes_stay. reflexivity. }
  destruct A3 as (p & s & -> & D). split; [reflexivity|].
  assert (A4 : hrun l4 (mkH s true, p) = (mkH 5120 false, HDone true)).
  { assert (St : forall k, hrun (repeat HThread k) (mkH s true, p) = (mkH s true, p)) by (apply wakes_stay; destruct D as [[-> ->]|[-> ->]]; reflexivity).
    rewrite (R4 5120); [|intros v Hv; exact (mask_val v _ _ _ Hv)|exact St].
    destruct m4 as [|[|m4]]; [lia|lia|]. destruct D as [[_ ->]|[_ ->]].
    - rewrite !wakes_S. change (hstep HThread (hstep HThread (mkH 5120 true, HAttain))) with (mkH 5120 false, HDone true). unfold wakes. apply wakes_stay. reflexivity.
    - rewrite !wakes_S. change (hstep HThread (hstep HThread (mkH 5120 true, HStop))) with (mkH 5120 false, HDone true). unfold wakes. apply wakes_stay. reflexivity. }
  rewrite A4. auto.
Qed.
