(** Proofs about the profiled position handshake. *)
From Verif Require Import Base MotorModel MotorSpec MotorProofs PosModel PosSpec.

Lemma set_bit4 : forall w, Z.testbit (access (Set_ NEW_POINT) w) NEW_POINT = true.
Proof. intro w. cbn [access]. rewrite Z.lor_spec. apply orb_true_r. Qed.
Lemma reset_bit4 : forall w, Z.testbit (access (Reset_ NEW_POINT) w) NEW_POINT = false.
Proof. intro w. cbn [access]. rewrite Z.land_spec, Z.lnot_spec by (unfold NEW_POINT; lia). apply andb_false_r. Qed.
Lemma immediate_bit4 : forall w, Z.testbit (access (Set_ IMMEDIATE) w) NEW_POINT = Z.testbit w NEW_POINT.
Proof. intro w. cbn [access]. rewrite Z.lor_spec. apply orb_false_r. Qed.
Lemma ack_bit : forall sw, has sw SW_ACK = Z.testbit sw 12.
Proof. intro sw. unfold SW_ACK, bit. apply pow2_testbit_has. lia. Qed.
Lemma ack_eqb : forall sw, (Z.land sw SW_ACK =? 0) = negb (Z.testbit sw 12).
Proof. intro sw. rewrite <- ack_bit. unfold has. rewrite negb_involutive. reflexivity. Qed.
Lemma status_ack : forall sw a, Z.testbit (status_with sw a) 12 = a.
Proof.
  intros sw a. unfold status_with, SW_ACK, bit. rewrite Z.lor_spec, Z.land_spec, Z.lnot_spec by lia. rewrite Z.pow2_bits_true by lia.
  destruct a; [rewrite Z.pow2_bits_true by lia; apply orb_true_r|]. rewrite Z.bits_0, andb_false_r. reflexivity.
Qed.

Lemma last_is_spec : forall p v, last_is p v = true <-> plast p = Some v.
Proof.
  intros p v. unfold last_is. destruct (plast p) as [l|]; [|split; discriminate].
  rewrite Z.eqb_eq. split; congruence.
Qed.

(** The cases of write *)
Lemma pp_write_cases : forall p w p' w' o ok, pp_write p w = (p', w', o, ok) ->
  (has_target (ptgt p) = false /\ p' = p /\ o = None /\ ok = false /\ Z.testbit w' NEW_POINT = Z.testbit w NEW_POINT) \/
  (has_target (ptgt p) = true /\ ok = true /\ Z.testbit (psw p) 12 = false /\ plast p <> Some (target (ptgt p)) /\
   Z.testbit w NEW_POINT = true /\ p' = p /\ o = None /\ Z.testbit w' NEW_POINT = false) \/
  (has_target (ptgt p) = true /\ ok = true /\ Z.testbit (psw p) 12 = false /\ plast p <> Some (target (ptgt p)) /\
   Z.testbit w NEW_POINT = false /\ p' = mkPP (psw p) (Some (target (ptgt p))) (ptgt p) /\ o = Some (target (ptgt p)) /\ Z.testbit w' NEW_POINT = true) \/
  (has_target (ptgt p) = true /\ ok = true /\ Z.testbit (psw p) 12 = true /\ p' = p /\ o = None /\ Z.testbit w' NEW_POINT = false) \/
  (has_target (ptgt p) = true /\ ok = true /\ Z.testbit (psw p) 12 = false /\ plast p = Some (target (ptgt p)) /\
   p' = p /\ o = None /\ Z.testbit w' NEW_POINT = Z.testbit w NEW_POINT).
Proof.
  intros p w p' w' o ok H. unfold pp_write in H. rewrite ack_eqb, ack_bit in H.
  destruct (has_target (ptgt p)) eqn:T.
  - destruct (Z.testbit (psw p) 12) eqn:A; cbn [negb andb] in H.
    + injection H as <- <- <- <-. right. right. right. left. repeat split. apply reset_bit4.
    + destruct (last_is p (target (ptgt p))) eqn:L; cbn [negb] in H.
      * injection H as <- <- <- <-. do 4 right. apply last_is_spec in L. repeat split; try assumption. apply immediate_bit4.
      * assert (N : plast p <> Some (target (ptgt p))) by (intro X; apply last_is_spec in X; congruence).
        rewrite immediate_bit4 in H. destruct (Z.testbit w NEW_POINT) eqn:B.
        -- injection H as <- <- <- <-. right. left. repeat split; try assumption. apply reset_bit4.
        -- injection H as <- <- <- <-. right. right. left. repeat split; try assumption. apply set_bit4.
  - injection H as <- <- <- <-. left. repeat split. apply immediate_bit4.
Qed.
Lemma pp_write_other : forall p w p' w' o ok i, pp_write p w = (p', w', o, ok) -> 0 <= i -> i <> 4 -> i <> 5 -> Z.testbit w' i = Z.testbit w i.
Proof.
  intros p w p' w' o ok i H Hi N4 N5.
  assert (S : forall b w, b = 4 \/ b = 5 -> Z.testbit (access (Set_ b) w) i = Z.testbit w i).
  { intros b x Hb. cbn [access]. rewrite Z.lor_spec, Z.land_spec. unfold bit. rewrite Z.pow2_bits_false by lia. rewrite andb_false_r. apply orb_false_r. }
  assert (R : forall b w, b = 4 \/ b = 5 -> Z.testbit (access (Reset_ b) w) i = Z.testbit w i).
  { intros b x Hb. cbn [access]. rewrite Z.land_spec, Z.lnot_spec, Z.land_spec by lia. unfold bit. rewrite Z.pow2_bits_false by lia. rewrite andb_false_r. apply andb_true_r. }
  unfold pp_write in H. unfold NEW_POINT, IMMEDIATE in H.
  destruct (has_target (ptgt p)); [destruct (_ && _); [destruct (Z.testbit _ 4)|destruct (has _ _)]|];
    apply (f_equal (fun x => snd (fst (fst x)))) in H; cbn [fst snd] in H; rewrite <- H; rewrite ?S, ?R, ?S by lia; reflexivity.
Qed.

(** ** With the drive *)

(** What the drive has taken once it has looked *)
Definition will_take (s : sys) : option Z := taken (drive_sees s).
Definition seen (s : sys) : Prop := Z.testbit (rword s) NEW_POINT = Z.testbit (pcw s) NEW_POINT.
Record inv (fresh : bool) (s : sys) : Prop := mkInv {
  inv_seen : fresh = false -> seen s;
  inv_ack : Z.testbit (rword s) NEW_POINT = false -> ack s = false;
  inv_last : forall v, plast (mode s) = Some v -> will_take s = Some v }.

Lemma drive_sees_seen : forall s, seen (drive_sees s).
Proof. intro s. unfold seen, drive_sees. destruct (Z.testbit (pcw s) NEW_POINT) eqn:N; [destruct (Z.testbit (rword s) NEW_POINT)|]; cbn; congruence. Qed.
Lemma drive_sees_fix : forall s, seen s -> will_take s = taken s.
Proof.
  intros s H. unfold will_take, drive_sees, seen in *. rewrite H. destruct (Z.testbit (pcw s) NEW_POINT); reflexivity.
Qed.
Lemma drive_sees_twice : forall s, will_take (drive_sees s) = will_take s.
Proof. intro s. rewrite (drive_sees_fix (drive_sees s) (drive_sees_seen s)). reflexivity. Qed.
Lemma drive_sees_mode : forall s, mode (drive_sees s) = mode s /\ pcw (drive_sees s) = pcw s /\ rep (drive_sees s) = rep s /\ rword (drive_sees s) = pcw s.
Proof. intro s. unfold drive_sees. destruct (Z.testbit (pcw s) NEW_POINT); [destruct (Z.testbit (rword s) NEW_POINT)|]; repeat split. Qed.
Lemma drive_sees_ack : forall s, Z.testbit (pcw s) NEW_POINT = false -> ack (drive_sees s) = false.
Proof. intros s H. unfold drive_sees. rewrite H. reflexivity. Qed.

Lemma will_take_ext : forall s s', pcw s = pcw s' -> pobj s = pobj s' -> rword s = rword s' -> taken s = taken s' -> will_take s = will_take s'.
Proof. intros s s' A B C D. unfold will_take, drive_sees. rewrite A, B, C, D. destruct (Z.testbit (pcw s') NEW_POINT), (Z.testbit (rword s') NEW_POINT); reflexivity. Qed.

Definition next_fresh (e : event) (fresh : bool) : bool := match e with PWrite => true | PDrive => false | _ => fresh end.
Lemma inv_step : forall fresh s e, inv fresh s -> (e = PWrite -> fresh = false) -> inv (next_fresh e fresh) (step s e).
Proof.
  intros fresh s e [H1 H2 H3] F. destruct e; cbn [step next_fresh].
  - constructor; [exact H1|exact H2|]. intros u Hu. cbn in Hu. rewrite <- (H3 u Hu). apply will_take_ext; reflexivity.
  - constructor; [exact H1|exact H2|]. intros u Hu. discriminate Hu.
  - specialize (F eq_refl). specialize (H1 F). destruct (pp_write (mode s) (pcw s)) as [[[p w] o] ok] eqn:W.
    constructor; [discriminate|exact H2|]. cbn [mode]. intros v Hv.
    unfold seen in H1. rewrite (drive_sees_fix s H1) in H3.
    assert (Keep : p = mode s -> (Z.testbit w NEW_POINT = true -> Z.testbit (pcw s) NEW_POINT = true) ->
      will_take (mkS p w (match o with Some v => v | None => pobj s end) (rword s) (taken s) (ack s) (rep s)) = Some v).
    { intros -> Q. unfold will_take, drive_sees. cbn [pcw rword mode pobj taken ack rep]. rewrite H1.
      destruct (Z.testbit w NEW_POINT); [rewrite (Q eq_refl)|]; cbn; apply H3, Hv. }
    destruct (pp_write_cases _ _ _ _ _ _ W) as [C|[C|[C|[C|C]]]].
    + apply Keep; [tauto|]. destruct C as [_ [_ [_ [_ C]]]]. rewrite C. auto.
    + apply Keep; [tauto|]. destruct C as [_ [_ [_ [_ [_ [_ [_ C]]]]]]]. rewrite C. discriminate.
    + destruct C as [_ [_ [_ [_ [C1 [-> [-> C2]]]]]]]. cbn in Hv. unfold will_take, drive_sees. cbn [pcw rword mode pobj taken ack rep].
      rewrite C2, H1, C1. cbn. exact Hv.
    + apply Keep; [tauto|]. destruct C as [_ [_ [_ [_ [_ C]]]]]. rewrite C. discriminate.
    + apply Keep; [tauto|]. destruct C as [_ [_ [_ [_ [_ [_ C]]]]]]. rewrite C. auto.
  - destruct (drive_sees_mode s) as [M [C [R W]]]. constructor.
    + intros _. apply drive_sees_seen.
    + rewrite W. apply drive_sees_ack.
    + rewrite M. intros v Hv. rewrite drive_sees_twice. apply H3, Hv.
  - constructor; [exact H1|exact H2|]. intros v Hv. rewrite <- (H3 v Hv). apply will_take_ext; reflexivity.
  - constructor; [exact H1|exact H2|]. intros v Hv. rewrite <- (H3 v Hv). apply will_take_ext; reflexivity.
Qed.
Lemma paced_cons : forall e fresh r, paced fresh (e :: r) -> (e = PWrite -> fresh = false) /\ paced (next_fresh e fresh) r.
Proof. intros e fresh r H. destruct e; cbn in H |- *; (split; [intro X; try discriminate X; tauto|tauto]). Qed.

(** The commanded position stays when it is the target *)
Definition reached (s : sys) : Prop := has_target (ptgt (mode s)) = true /\ plast (mode s) = Some (target (ptgt (mode s))).
Definition app (e : event) : Prop := match e with PSet _ | PRestart => True | _ => False end.
Lemma reached_step : forall s e, ~ app e -> reached s -> reached (step s e) /\ target (ptgt (mode (step s e))) = target (ptgt (mode s)).
Proof.
  intros s e N [R1 R2]. destruct e; cbn in N; try tauto; cbn [step].
  - destruct (pp_write (mode s) (pcw s)) as [[[p w] o] ok] eqn:W. unfold reached. cbn [mode].
    destruct (pp_write_cases _ _ _ _ _ _ W) as [C|[C|[C|[C|C]]]]; try (destruct C as [C _]; congruence).
    + destruct C as [_ [_ [_ [C _]]]]. congruence.
    + destruct C as [_ [_ [_ [C _]]]]. congruence.
    + destruct C as [_ [_ [_ [-> _]]]]. auto.
    + destruct C as [_ [_ [_ [_ [-> _]]]]]. auto.
  - unfold reached. destruct (drive_sees_mode s) as [-> _]. auto.
  - unfold reached. auto.
  - unfold reached. auto.
Qed.

(** Stages on the way to the target, counted down *)
Definition low (s : sys) : Prop := Z.testbit (pcw s) NEW_POINT = false.
Definition stage (n : nat) (fresh : bool) (s : sys) : Prop :=
  inv fresh s /\ has_target (ptgt (mode s)) = true /\
  (reached s /\ (n = 0%nat -> taken s = Some (target (ptgt (mode s)))) \/
   match n with
   | 6%nat => True
   | 5%nat => low s
   | 4%nat => low s /\ Z.testbit (rword s) NEW_POINT = false /\ ack s = false
   | 3%nat => low s /\ Z.testbit (rword s) NEW_POINT = false /\ ack s = false /\ Z.testbit (rep s) 12 = false
   | 2%nat => low s /\ Z.testbit (rword s) NEW_POINT = false /\ ack s = false /\ Z.testbit (rep s) 12 = false /\ Z.testbit (psw (mode s)) 12 = false
   | _ => False
   end).
(** Taken: needs the look after the raise *)
Definition plan : list (nat * kind) := [(6%nat, KWrite); (5%nat, KDrive); (4%nat, KStatus); (3%nat, KRead); (2%nat, KWrite); (1%nat, KDrive)].

Lemma stage_other : forall n fresh s e, stage n fresh s -> ~ app e -> (e = PWrite -> fresh = false) -> stage n (next_fresh e fresh) (step s e).
Proof.
  intros n fresh s e [I [T D]] N F.
  assert (I' := inv_step fresh s e I F). split; [exact I'|].
  assert (T' : has_target (ptgt (mode (step s e))) = true).
  { destruct e; cbn in N; try tauto; cbn [step].
    - destruct (pp_write (mode s) (pcw s)) as [[[p w] o] ok] eqn:W. cbn [mode].
      destruct (pp_write_cases _ _ _ _ _ _ W) as [C|[C|[C|[C|C]]]]; try (destruct C as [C _]; congruence).
      + destruct C as [_ [_ [_ [_ [_ [-> _]]]]]]. exact T.
      + destruct C as [_ [_ [_ [_ [_ [-> _]]]]]]. exact T.
      + destruct C as [_ [_ [_ [-> _]]]]. exact T.
      + destruct C as [_ [_ [_ [_ [-> _]]]]]. exact T.
    - destruct (drive_sees_mode s) as [-> _]. exact T.
    }
  split; [exact T'|]. destruct D as [[D1 D2]|D].
  - left. destruct (reached_step s e N D1) as [R E]. split; [exact R|]. intro Z0. specialize (D2 Z0). rewrite E.
    destruct e; cbn in N; try tauto; cbn [step].
    + destruct (pp_write (mode s) (pcw s)) as [[[p w] o] ok]. exact D2.
    + destruct I as [_ _ I3]. destruct D1 as [_ D1]. exact (I3 _ D1).
  - destruct e; cbn in N; try tauto; cbn [step] in *.
    + (* write *) destruct (pp_write (mode s) (pcw s)) as [[[p w] o] ok] eqn:W. cbn [mode] in *.
      assert (Done : p = mkPP (psw (mode s)) (Some (target (ptgt (mode s)))) (ptgt (mode s)) ->
        reached (mkS p w (match o with Some v => v | None => pobj s end) (rword s) (taken s) (ack s) (rep s))).
      { intros ->. split; cbn; [exact T|reflexivity]. }
      assert (Cs : (p = mode s /\ (low s -> Z.testbit w NEW_POINT = false)) \/ p = mkPP (psw (mode s)) (Some (target (ptgt (mode s)))) (ptgt (mode s))).
      { destruct (pp_write_cases _ _ _ _ _ _ W) as [C|[C|[C|[C|C]]]].
        - destruct C as [C _]. congruence.
        - left. split; [tauto|]. intros _. tauto.
        - right. tauto.
        - left. split; [tauto|]. intros _. tauto.
        - left. split; [tauto|]. unfold low. intro L. destruct C as [_ [_ [_ [_ [_ [_ C]]]]]]. congruence. }
      destruct Cs as [[-> Lw]| E].
      * right. destruct n as [|[|[|[|[|[|[|n]]]]]]]; try tauto; unfold low in *; cbn [pcw rword ack rep mode]; tauto.
      * left. split; [exact (Done E)|]. intros ->. destruct D.
    + right. destruct (drive_sees_mode s) as [M [C [R Wd]]]. 
      destruct n as [|[|[|[|[|[|[|n]]]]]]]; try tauto; unfold low in *; rewrite ?C, ?R, ?M, ?Wd.
      * destruct D as [D1 [D2 [D3 [D4 D5]]]]. pose proof (drive_sees_ack s D1). tauto.
      * destruct D as [D1 [D2 [D3 D4]]]. pose proof (drive_sees_ack s D1). tauto.
      * destruct D as [D1 [D2 D3]]. pose proof (drive_sees_ack s D1). tauto.
      * exact D.
    + right. destruct n as [|[|[|[|[|[|[|n]]]]]]]; try tauto; unfold low in *; cbn [pcw rword ack rep mode]; try tauto.
      * destruct D as [D1 [D2 [D3 [D4 D5]]]]. rewrite status_ack. tauto.
      * destruct D as [D1 [D2 [D3 D4]]]. rewrite status_ack. tauto.
    + right. destruct n as [|[|[|[|[|[|[|n]]]]]]]; try tauto; unfold low in *; cbn [pcw rword ack rep mode pp_read fst psw]; tauto.
Qed.

Lemma stage_next : forall n k fresh s e, In (n, k) plan -> is_kind k e -> stage n fresh s -> (e = PWrite -> fresh = false) ->
  stage (pred n) (next_fresh e fresh) (step s e).
Proof.
  intros n k fresh s e P K St F.
  assert (N : ~ app e) by (destruct k, e; cbn in K |- *; tauto).
  pose proof (stage_other n fresh s e St N F) as [I' [T' D']]. split; [exact I'|]. split; [exact T'|].
  destruct D' as [[R Q]|D'].
  - left. split; [exact R|]. intro Z0. 
    cbn in P. repeat (destruct P as [P|P]; [injection P as <- <-; cbn in Z0; try discriminate Z0|]); try contradiction.
    (* n = 1, the drive looks *)
    destruct e; cbn in K; try contradiction. cbn [step next_fresh] in *. destruct I' as [_ _ I3]. destruct R as [_ R].
    specialize (I3 _ R). rewrite drive_sees_twice in I3. exact I3.
  - destruct St as [I [T D]].
    cbn in P. destruct P as [P|[P|[P|[P|[P|[P|[]]]]]]]; injection P as <- <-; cbn [pred]; destruct e; cbn in K; try contradiction; cbn [step next_fresh] in *.
    + (* 6: write *) destruct (pp_write (mode s) (pcw s)) as [[[p w] o] ok] eqn:W. cbn [mode] in *.
      destruct (pp_write_cases _ _ _ _ _ _ W) as [C|[C|[C|[C|C]]]].
      * destruct C as [C _]. congruence.
      * right. unfold low. cbn [pcw]. tauto.
      * left. destruct C as [_ [_ [_ [_ [_ [-> _]]]]]]. split; [|discriminate]. split; cbn; [exact T|reflexivity].
      * right. unfold low. cbn [pcw]. tauto.
      * left. destruct C as [_ [_ [_ [C [-> _]]]]]. split; [|discriminate]. split; cbn; [exact T|exact C].
    + right. destruct (drive_sees_mode s) as [M [C [R Wd]]]. unfold low in *. rewrite C, Wd in *. pose proof (drive_sees_ack s D'). tauto.
    + right. cbn [pcw rword ack rep] in *. unfold low in *. cbn [pcw] in *. rewrite status_ack. tauto.
    + right. unfold low in *. cbn [pcw rword ack rep mode pp_read fst psw] in *. tauto.
    + left. destruct D as [[D _]|D].
      * destruct (reached_step s PWrite (fun x => x) D) as [R _]. cbn [step] in R. split; [exact R|discriminate].
      * destruct (pp_write (mode s) (pcw s)) as [[[p w] o] ok] eqn:W. unfold low in D.
        destruct (pp_write_cases _ _ _ _ _ _ W) as [C|[C|[C|[C|C]]]].
        -- destruct C as [C _]. congruence.
        -- destruct C as [_ [_ [_ [_ [C _]]]]]. destruct D as [D _]. congruence.
        -- destruct C as [_ [_ [_ [_ [_ [-> _]]]]]]. split; [|discriminate]. split; cbn; [exact T|reflexivity].
        -- destruct C as [_ [_ [C _]]]. destruct D as [_ [_ [_ [_ D]]]]. congruence.
        -- destruct C as [_ [_ [_ [C [-> _]]]]]. split; [|discriminate]. split; cbn; [exact T|exact C].
Qed.

Fixpoint run_fresh (l : list event) (fresh : bool) : bool := match l with [] => fresh | e :: r => run_fresh r (next_fresh e fresh) end.
Lemma stages_run : forall ks r, subseq ks r -> forall pre n fresh s, plan = pre ++ List.combine (map fst (List.skipn (List.length pre) plan)) ks ->
  map snd (List.skipn (List.length pre) plan) = ks -> n = (6 - List.length pre)%nat -> (List.length pre <= 6)%nat ->
  settled r -> paced fresh r -> stage n fresh s -> stage 0 (run_fresh r fresh) (run r s).
Proof.
  intros ks r H. induction H as [r|k ks e r K H IH|ks e r H IH]; intros pre n fresh s P M Hn L Se Pa St.
  - assert (Lp : List.length pre = 6%nat).
    { apply (f_equal (@List.length _)) in M. rewrite List.map_length, skipn_length in M. change (List.length plan) with 6%nat in M. cbn [List.length] in M. lia. }
    rewrite Lp in Hn. subst n. clear P M L. revert fresh s Pa St Se. induction r as [|e r IHr]; intros fresh s Pa St Se; [exact St|].
    inversion Se as [|? ? S1 S2]; subst. destruct (paced_cons _ _ _ Pa) as [F P2]. cbn [run fold_left run_fresh].
    apply IHr; [exact P2| |exact S2]. apply stage_other; [exact St| |exact F]. destruct e; cbn in *; tauto.
  - inversion Se as [|? ? S1 S2]; subst. destruct (paced_cons _ _ _ Pa) as [F P2]. cbn [run fold_left run_fresh].
    assert (Lp : (List.length pre < 6)%nat).
    { apply (f_equal (@List.length _)) in M. rewrite List.map_length, skipn_length in M. change (List.length plan) with 6%nat in M. cbn [List.length] in M. lia. }
    assert (E : exists q, List.skipn (List.length pre) plan = (6 - List.length pre, k)%nat :: q /\ q = List.skipn (S (List.length pre)) plan /\ map snd q = ks).
    { destruct (List.length pre) as [|[|[|[|[|[|x]]]]]] eqn:X; try lia; cbn in M |- *; injection M as <- <-; eexists; repeat split. }
    destruct E as [q [E1 [E2 E3]]].
    assert (In1 : In ((6 - List.length pre)%nat, k) plan).
    { rewrite <- (firstn_skipn (List.length pre) plan). rewrite E1. apply in_or_app. right. left. reflexivity. }
    apply (IH (pre ++ [((6 - List.length pre)%nat, k)]) (pred (6 - List.length pre)) (next_fresh e fresh) (step s e)).
    + rewrite app_length. cbn [List.length]. rewrite Nat.add_1_r, <- E2. rewrite <- app_assoc. cbn [List.app].
      rewrite P at 1. rewrite E1. cbn [map List.combine]. reflexivity.
    + rewrite app_length. cbn [List.length]. rewrite Nat.add_1_r, <- E2. exact E3.
    + rewrite app_length. cbn [List.length]. lia.
    + rewrite app_length. cbn [List.length]. lia.
    + exact S2.
    + exact P2.
    + exact (stage_next _ _ _ _ _ In1 K St F).
  - pose proof (Forall_inv Se) as S1. pose proof (Forall_inv_tail Se) as S2. cbv beta in S1. destruct (paced_cons _ _ _ Pa) as [F P2]. cbn [run fold_left run_fresh].
    apply (IH pre n (next_fresh e fresh) (step s e) P M Hn L S2 P2). apply stage_other; [exact St| |exact F]. destruct e; cbn in *; tauto.
Qed.

Lemma run_app : forall a b s, run (a ++ b) s = run b (run a s).
Proof. intros. unfold run. apply fold_left_app. Qed.
Lemma paced_app : forall a b fresh, paced fresh (a ++ b) -> paced fresh a /\ paced (run_fresh a fresh) b.
Proof.
  induction a as [|e a IH]; intros b fresh H; [split; [exact I|exact H]|].
  cbn [List.app] in H. destruct (paced_cons _ _ _ H) as [F P]. destruct (IH _ _ P) as [A B]. split; [|exact B].
  destruct e; cbn in *; auto.
Qed.
Lemma inv_run : forall l fresh s, paced fresh l -> inv fresh s -> inv (run_fresh l fresh) (run l s).
Proof.
  induction l as [|e l IH]; intros fresh s P I; [exact I|]. destruct (paced_cons _ _ _ P) as [F P2]. cbn. apply IH; [exact P2|]. apply inv_step; assumption.
Qed.
Lemma inv_init : forall w sw, inv false (init w sw).
Proof. intros w sw. constructor; [reflexivity|cbn; auto|discriminate]. Qed.

Lemma set_target_kept : forall r s, settled r -> target (ptgt (mode (run r s))) = target (ptgt (mode s)) /\ has_target (ptgt (mode (run r s))) = has_target (ptgt (mode s)).
Proof.
  induction r as [|e r IH]; intros s H; [auto|]. inversion H as [|? ? H1 H2]; subst. cbn [run fold_left].
  destruct (IH (step s e) H2) as [A B]. unfold run in A, B. rewrite A, B. destruct e; cbn in H1; try contradiction; cbn [step].
  - destruct (pp_write (mode s) (pcw s)) as [[[p w] o] ok] eqn:W. cbn [mode].
    destruct (pp_write_cases _ _ _ _ _ _ W) as [C|[C|[C|[C|C]]]].
    + destruct C as [_ [-> _]]. auto.
    + destruct C as [_ [_ [_ [_ [_ [-> _]]]]]]. auto.
    + destruct C as [_ [_ [_ [_ [_ [-> _]]]]]]. auto.
    + destruct C as [_ [_ [_ [-> _]]]]. auto.
    + destruct C as [_ [_ [_ [_ [-> _]]]]]. auto.
  - destruct (drive_sees_mode s) as [-> _]. auto.
  - auto.
  - auto.
Qed.

Lemma liveness : forall pre v r w sw, paced false (pre ++ PSet v :: r) -> settled r -> subseq (round ++ round) r ->
  taken (run (pre ++ PSet v :: r) (init w sw)) = Some v.
Proof.
  intros pre v r w sw Pa Se Su. destruct (paced_app _ _ _ Pa) as [P1 P2]. rewrite run_app. cbn [run fold_left].
  change (fold_left step r (step (run pre (init w sw)) (PSet v))) with (run r (step (run pre (init w sw)) (PSet v))).
  pose proof (inv_run pre false _ P1 (inv_init w sw)) as I. cbn [paced] in P2.
  set (s0 := step (run pre (init w sw)) (PSet v)).
  assert (S0 : stage 6 (run_fresh pre false) s0).
  { split; [exact (inv_step _ _ (PSet v) I ltac:(discriminate))|]. split; [reflexivity|]. right. exact Logic.I. }
  assert (Su' : subseq (map snd plan) r).
  { clear - Su. assert (W : forall a b r, subseq (a ++ b) r -> subseq a r).
    { intros a b r0 H. remember (a ++ b) as l eqn:E. revert a E. induction H as [r0|k l e r0 K H IH|l e r0 H IH]; intros a E.
      - destruct a; [apply SubNil|discriminate]. 
      - destruct a as [|x a]; [apply SubNil|]. cbn in E. injection E as <- E. apply SubTake; [exact K|]. apply IH, E.
      - apply SubSkip. apply IH, E. }
    apply (W (map snd plan) [KStatus; KRead] r). exact Su. }
  assert (F : stage 0 (run_fresh r (run_fresh pre false)) (run r s0)).
  { apply (stages_run _ r Su' [] 6%nat); [reflexivity|reflexivity|reflexivity|cbn; lia|exact Se|exact P2|exact S0]. }
  destruct F as [_ [_ [[_ F]|[]]]]. specialize (F eq_refl). rewrite F. f_equal.
  destruct (set_target_kept r s0 Se) as [-> _]. reflexivity.
Qed.

(** A missed pulse *)
Lemma missed_step : forall s e, ~ app e -> reached s -> (Z.testbit (pcw s) NEW_POINT = true -> Z.testbit (rword s) NEW_POINT = true) ->
  (Z.testbit (pcw (step s e)) NEW_POINT = true -> Z.testbit (rword (step s e)) NEW_POINT = true) /\ taken (step s e) = taken s.
Proof.
  intros s e N [R1 R2] B. destruct e; cbn in N; try tauto; cbn [step].
  - destruct (pp_write (mode s) (pcw s)) as [[[p w] o] ok] eqn:W. cbn [pcw rword taken]. split; [|reflexivity].
    destruct (pp_write_cases _ _ _ _ _ _ W) as [C|[C|[C|[C|C]]]].
    + destruct C as [C _]. congruence.
    + destruct C as [_ [_ [_ [C _]]]]. congruence.
    + destruct C as [_ [_ [_ [C _]]]]. congruence.
    + destruct C as [_ [_ [_ [_ [_ C]]]]]. congruence.
    + destruct C as [_ [_ [_ [_ [_ [_ C]]]]]]. rewrite C. exact B.
  - destruct (drive_sees_mode s) as [_ [C [_ W]]]. rewrite C, W. split; [auto|]. unfold drive_sees.
    destruct (Z.testbit (pcw s) NEW_POINT); [rewrite (B eq_refl)|]; reflexivity.
Qed.
Lemma missed_run : forall r s, settled r -> reached s -> (Z.testbit (pcw s) NEW_POINT = true -> Z.testbit (rword s) NEW_POINT = true) -> taken (run r s) = taken s.
Proof.
  induction r as [|e r IH]; intros s H R B; [reflexivity|]. inversion H as [|? ? H1 H2]; subst. cbn [run fold_left].
  assert (N : ~ app e) by (destruct e; cbn in *; tauto).
  destruct (missed_step s e N R B) as [B' T']. rewrite <- T'. apply IH; [exact H2|exact (proj1 (reached_step s e N R))|exact B'].
Qed.
