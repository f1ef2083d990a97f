From Coq Require Import Lia ZArith.
From Verif Require Import Base ReaderModel ExtSyncModel ExtSyncSpec.

Definition one (b : list Z) : reader Z := mkReader b true 1.
Definition small (r : reader Z) : Prop := exists b, r = one b /\ (List.length b <= 1)%nat.
Lemma arrive_one b a : (List.length b <= 1)%nat -> fst (rstep (one b) (Arrive a)) = one [a].
Proof. destruct b as [|x [|y b]]; cbn [List.length]; intros H; [reflexivity|reflexivity|lia]. Qed.
Lemma small_arrive r a : small r -> small (fst (rstep r (Arrive a))).
Proof. intros (b & -> & L). rewrite arrive_one by exact L. exists [a]. split; [reflexivity|cbn; lia]. Qed.
Lemma small_deliver t c : forall r, small r -> small (fst (deliver t r c)).
Proof. induction c as [|a c IH]; intros r R; [exact R|]. cbn. destruct (a <=? t); [apply IH, small_arrive, R|exact R]. Qed.
Lemma small_read r : small r -> small (fst (rstep r Read)).
Proof. intros (b & -> & L). destruct b as [|x b]; [exists []; auto|]. exists b. split; [reflexivity|cbn in L; lia]. Qed.
Lemma small_cycle x now d1 d2 : small (x_reader x) -> small (x_reader (fst (handle_read x now d1 d2))).
Proof.
  intros R. unfold handle_read. destruct (deliver now (x_reader x) (x_coming x)) as [r c] eqn:E. pose proof (small_deliver now (x_coming x) _ R) as R1. rewrite E in R1. cbn [fst] in R1.
  destruct (deliver _ r c) as [r2 c2] eqn:E2. pose proof (small_deliver (wake now (now + x_step x) r c + d1) c _ R1) as R2. rewrite E2 in R2. cbn [fst] in R2. pose proof (small_read r2 R2) as R3.
  destruct (rstep r2 Read) as [r3 res]. cbn [fst] in R3. destruct res; try exact R3.
  destruct (deliver _ r3 c2) as [r4 c4] eqn:E4. pose proof (small_deliver (wake now (now + x_step x) r c + d1 + x_half x + d2) c2 _ R3) as R4. rewrite E4 in R4. exact R4.
Qed.

(** delivery *)
Lemma deliver_deliver t u c : t <= u -> forall r, deliver u (fst (deliver t r c)) (snd (deliver t r c)) = deliver u r c.
Proof.
  intros L. induction c as [|a c IH]; intros r; [reflexivity|]. cbn [deliver]. destruct (Z.leb_spec a t) as [A|A]; [|reflexivity].
  rewrite IH. destruct (Z.leb_spec a u) as [B|B]; [reflexivity|lia].
Qed.
(** the newest message that has arrived is kept *)
Lemma deliver_newest t c : forall b, (List.length b <= 1)%nat -> increasing c ->
  exists p q, c = p ++ q /\ Forall (fun a => a <= t) p /\ Forall (fun a => t < a) q /\ deliver t (one b) c = (one (match rev p with [] => b | a :: _ => [a] end), q).
Proof.
  induction c as [|a c IH]; intros b L INC.
  - exists [], []. repeat split; constructor.
  - destruct INC as [F INC]. cbn [deliver]. destruct (Z.leb_spec a t) as [A|A].
    + rewrite arrive_one by exact L. destruct (IH [a] ltac:(cbn; lia) INC) as (p & q & -> & P & Q' & ->). exists (a :: p), q. split; [reflexivity|]. split; [constructor; assumption|]. split; [exact Q'|].
      cbn [rev]. destruct (rev p) as [|x l]; reflexivity.
    + exists [], (a :: c). split; [reflexivity|]. split; [constructor|]. split; [|reflexivity]. constructor; [exact A|]. eapply Forall_impl; [|exact F]. cbn. intros. lia.
Qed.

(** * Bounds *)
Lemma wake_bound now step r c : 0 <= step -> Forall (fun a => now < a) c -> now <= wake now (now + step) r c <= now + step.
Proof. intros S0 F. unfold wake. destruct (buffer_ r); [|lia]. destruct c as [|a c]; [lia|]. apply Forall_cons_iff in F as [F _]. destruct (Z.leb_spec a (now + step)); lia. Qed.
Lemma deliver_rest t c : increasing c -> forall r, Forall (fun a => t < a) (snd (deliver t r c)).
Proof.
  induction c as [|a c IH]; intros INC r; [constructor|]. destruct INC as [F INC]. cbn [deliver]. destruct (Z.leb_spec a t) as [A|A]; [apply IH, INC|].
  constructor; [exact A|]. eapply Forall_impl; [|exact F]. cbn. intros. lia.
Qed.
Lemma bounded x now d1 d2 : increasing (x_coming x) -> 0 <= x_step x -> 0 <= x_half x -> 0 <= d1 -> 0 <= d2 ->
  now <= r_end (snd (handle_read x now d1 d2)) <= now + x_step x + x_half x + d1 + d2.
Proof.
  intros INC ST HA D1 D2. unfold handle_read. pose proof (deliver_rest now (x_coming x) INC (x_reader x)) as F.
  destruct (deliver now (x_reader x) (x_coming x)) as [r c]. cbn [snd] in F. pose proof (wake_bound now (x_step x) r c ST F) as W. destruct (deliver _ r c) as [r2 c2].
  destruct (rstep r2 Read) as [r3 res]. destruct res; cbn [snd r_end]; try lia. destruct (deliver _ r3 c2) as [r4 c4]. cbn [snd r_end]. lia.
Qed.

(** * Messages are taken in order, none twice *)
Lemma sub_all l : sublist l l.
Proof. induction l; constructor; assumption. Qed.
Lemma sub_app l : forall p m, sublist l m -> sublist l (p ++ m).
Proof. intros p. induction p as [|a p IH]; intros m H; [exact H|]. cbn. apply sub_drop, IH, H. Qed.
Lemma sub_trans l m : sublist l m -> forall n, sublist m n -> sublist l n.
Proof.
  intros H n K. revert l H. induction K as [n|a m n K IH|a m n K IH]; intros l H.
  - inversion H; constructor.
  - inversion H as [|? ? ? H'|? ? ? H']; subst; [constructor|apply sub_keep, IH, H'|apply sub_drop, IH, H'].
  - apply sub_drop, IH, H.
Qed.
Lemma sub_inc l m : sublist l m -> increasing m -> increasing l.
Proof.
  induction 1 as [m|a l m H IH|a l m H IH]; intros INC; [exact Logic.I| |destruct INC; auto]. destruct INC as [F INC]. split; [|apply IH, INC].
  clear IH INC. induction H as [m|b l m H IH|b l m H IH]; [constructor| |]; apply Forall_cons_iff in F as [F1 F2]; [constructor; [exact F1|exact (IH F2)]|exact (IH F2)].
Qed.
(** what the reader holds followed by what is to come only loses messages *)
Definition queue (r : reader Z) (c : list Z) : list Z := buffer_ r ++ c.
Lemma queue_deliver t c : forall r, small r -> sublist (queue (fst (deliver t r c)) (snd (deliver t r c))) (queue r c).
Proof.
  induction c as [|a c IH]; intros r R; [apply sub_all|]. cbn [deliver]. destruct (a <=? t); [|apply sub_all]. eapply sub_trans; [apply IH, small_arrive, R|].
  destruct R as (b & -> & L). rewrite arrive_one by exact L. apply sub_app. apply sub_all.
Qed.
Definition taken (r : xread) : list Z := match r_sync r with Some a => [a] | None => [] end.
Lemma queue_read x now d1 d2 : small (x_reader x) -> sublist (taken (snd (handle_read x now d1 d2)) ++ queue (x_reader (fst (handle_read x now d1 d2))) (x_coming (fst (handle_read x now d1 d2)))) (queue (x_reader x) (x_coming x)).
Proof.
  intros R. unfold handle_read. pose proof (queue_deliver now (x_coming x) _ R) as Q1. pose proof (small_deliver now (x_coming x) _ R) as R1. destruct (deliver now (x_reader x) (x_coming x)) as [r c]. cbn [fst snd] in Q1, R1.
  set (t := wake now (now + x_step x) r c + d1). clearbody t. pose proof (queue_deliver t c _ R1) as Q2. pose proof (small_deliver t c _ R1) as R2. destruct (deliver t r c) as [r2 c2]. cbn [fst snd] in Q2, R2.
  pose proof (sub_trans _ _ Q2 _ Q1) as Q3. clear Q1 Q2 R1. destruct R2 as (b & -> & L). destruct b as [|a b]; cbn [rstep one buffer_ enabled_ max_len_].
  - exact Q3.
  - set (e := t + x_half x + d2). clearbody e. assert (R3 : small (mkReader b true 1)) by (exists b; split; [reflexivity|cbn in L; lia]).
    pose proof (queue_deliver e c2 _ R3) as Q4. destruct (deliver e (mkReader b true 1) c2) as [r4 c4]. cbn [fst snd taken r_sync x_reader x_coming x_with app] in *.
    eapply sub_trans; [|exact Q3]. apply sub_keep, Q4.
Qed.
Lemma sub_both p l m : sublist l m -> sublist (p ++ l) (p ++ m).
Proof. intros H. induction p; [exact H|]. cbn. apply sub_keep, IHp. Qed.
Lemma cycles_order cs : forall x now, small (x_reader x) -> sublist (List.concat (map taken (snd (cycles x now cs)))) (queue (x_reader x) (x_coming x)).
Proof.
  induction cs as [|c cs IH]; intros x now R; [constructor|]. cbn [cycles]. pose proof (queue_read x now (c_delay1 c) (c_delay2 c) R) as Q1. pose proof (small_cycle x now (c_delay1 c) (c_delay2 c) R) as R1.
  destruct (handle_read x now (c_delay1 c) (c_delay2 c)) as [x1 r]. cbn [fst snd] in Q1, R1. pose proof (IH x1 (r_end r + c_work c) R1) as Q2. destruct (cycles x1 (r_end r + c_work c) cs) as [x2 rs]. cbn [snd map List.concat] in *.
  eapply sub_trans; [apply sub_both, Q2|exact Q1].
Qed.

(** * The newest one is taken *)
Lemma newest x now d1 d2 b a : x_reader x = one b -> (List.length b <= 1)%nat -> increasing (b ++ x_coming x) -> 0 <= x_step x -> 0 <= d1 ->
  r_sync (snd (handle_read x now d1 d2)) = Some a ->
  exists t, now <= t /\ r_end (snd (handle_read x now d1 d2)) = t + x_half x + d2 /\ In a (b ++ x_coming x) /\ forall a', In a' (x_coming x) -> a' <= t -> a' <= a.
Proof.
  intros RB L INC ST D1 H. assert (INC' : increasing (x_coming x)). { clear H. induction b as [|z b IH]; [exact INC|]. destruct INC as [_ INC]. destruct b; [exact INC|cbn in L; lia]. }
  unfold handle_read in *. rewrite RB in *. pose proof (deliver_rest now (x_coming x) INC' (one b)) as F.
  destruct (deliver now (one b) (x_coming x)) as [r c] eqn:E1. cbn [snd] in F. pose proof (wake_bound now (x_step x) r c ST F) as W.
  set (t := wake now (now + x_step x) r c + d1) in *. assert (T : now <= t) by lia. clearbody t.
  assert (E2 : deliver t r c = deliver t (one b) (x_coming x)) by (rewrite <- (deliver_deliver now t (x_coming x) T (one b)), E1; reflexivity). rewrite E2 in *. clear E1 E2 F W r c.
  destruct (deliver_newest t (x_coming x) b L INC') as (p & q & EQ & P & Q' & E). rewrite E in *. exists t. split; [exact T|].
  destruct (rev p) as [|y l] eqn:RP.
  - assert (p = []) by (rewrite <- (rev_involutive p), RP; reflexivity). subst p. cbn [app] in EQ. destruct b as [|z b]; [discriminate|]. destruct b; [|cbn in L; lia]. cbn [rstep one buffer_ enabled_ max_len_] in *.
    destruct (deliver (t + x_half x + d2) (mkReader [] true 1) q) as [r4 c4]. cbn [snd r_sync r_end] in *. injection H as ->. split; [reflexivity|]. split; [left; reflexivity|]. intros a' IN LE. rewrite EQ in IN. rewrite Forall_forall in Q'. specialize (Q' a' IN). lia.
  - cbn [rstep one buffer_ enabled_ max_len_] in *. destruct (deliver (t + x_half x + d2) (mkReader [] true 1) q) as [r4 c4]. cbn [snd r_sync r_end] in *. injection H as ->. split; [reflexivity|].
    assert (PE : p = rev l ++ [a]) by (rewrite <- (rev_involutive p), RP; reflexivity). split; [apply in_or_app; right; rewrite EQ, PE; apply in_or_app; left; apply in_or_app; right; left; reflexivity|].
    intros a' IN LE. rewrite EQ in IN. apply in_app_or in IN as [IN|IN]; [|rewrite Forall_forall in Q'; specialize (Q' a' IN); lia].
    rewrite PE in IN. apply in_app_or in IN as [IN|[->|[]]]; [|lia]. rewrite EQ, PE, <- app_assoc in INC'. clear -INC' IN. induction (rev l) as [|z k IH]; [destruct IN|]. destruct INC' as [F INC']. destruct IN as [->|IN]; [|exact (IH INC' IN)].
    rewrite Forall_forall in F. specialize (F a ltac:(apply in_or_app; right; left; reflexivity)). lia.
Qed.

(** * In phase *)
Section Phase.
Variable step half slack : Z.
Hypothesis slack_pos : 0 < slack.
Hypothesis half_ok : 0 <= half.
Definition punctual (c : cycle) : Prop := 0 <= c_work c /\ 0 <= c_delay1 c /\ 0 <= c_delay2 c /\ c_work c + c_delay1 c + c_delay2 c + half + slack <= step.
Lemma deliver_none t r a n : t < a -> deliver t r (periodic a step n) = (r, periodic a step n).
Proof. intros L. destruct n; [reflexivity|]. cbn. destruct (Z.leb_spec a t); [lia|reflexivity]. Qed.
Lemma deliver_first t b a n : (List.length b <= 1)%nat -> a <= t < a + step -> deliver t (one b) (periodic a step (S n)) = (one [a], periodic (a + step) step n).
Proof. intros L R. cbn [periodic deliver]. destruct (Z.leb_spec a t); [|lia]. rewrite arrive_one by exact L. apply deliver_none. lia. Qed.
(** at [now] the newest message that has arrived is that of [a]; it was taken ([None]) or is waiting, for [lag] at most *)
Definition phase (x : xsync) (now a : Z) (n : nat) (late : option Z) : Prop :=
  x_step x = step /\ x_half x = half /\ a <= now < a + step /\
  deliver now (x_reader x) (x_coming x) = (one (match late with Some _ => [a] | None => [] end), periodic (a + step) step n) /\
  match late with Some lag => now - a <= lag | None => True end.
Lemma periodic_S a n : periodic a step (S n) = a :: periodic (a + step) step n.
Proof. reflexivity. Qed.
Lemma read_in_phase x now a n c : phase x now a (S n) None -> punctual c ->
  exists x', handle_read x now (c_delay1 c) (c_delay2 c) = (x', mkRead (a + step + c_delay1 c + half + c_delay2 c) (Some (a + step))) /\
    phase x' (a + step + c_delay1 c + half + c_delay2 c + c_work c) (a + step) n None.
Proof.
  intros (S1 & S2 & R & E & _) (W & D1 & D2 & P). unfold handle_read. rewrite E. unfold wake. cbn [one buffer_]. rewrite periodic_S, S1.
  destruct (Z.leb_spec (a + step) (now + step)) as [_|C]; [|lia]. rewrite <- periodic_S. change (mkReader [] true 1) with (one []).
  rewrite (deliver_first (a + step + c_delay1 c) [] (a + step) n) by (cbn; lia). cbn [rstep one buffer_ enabled_ max_len_].
  rewrite S2, deliver_none by lia. eexists. split; [reflexivity|]. unfold phase, x_with. cbn [x_step x_half x_reader x_coming]. split; [exact S1|]. split; [exact S2|]. split; [lia|]. split; [|exact Logic.I].
  rewrite deliver_none by lia. reflexivity.
Qed.
Lemma read_late x now a n lag c : phase x now a (S n) (Some lag) -> punctual c ->
  exists x' r a' n' late', handle_read x now (c_delay1 c) (c_delay2 c) = (x', r) /\ phase x' (r_end r + c_work c) a' n' late' /\ (n <= n')%nat /\ (a' = a \/ a' = a + step) /\
    match late' with Some lag' => lag' = lag - slack | None => True end.
Proof.
  intros (S1 & S2 & R & E & G) (W & D1 & D2 & P). unfold handle_read. rewrite E. unfold wake. cbn [one buffer_].
  destruct (Z_lt_le_dec (now + c_delay1 c) (a + step)) as [L|L].
  - rewrite deliver_none by exact L. cbn [rstep one buffer_ enabled_ max_len_]. rewrite S2. set (e := now + c_delay1 c + half + c_delay2 c).
    destruct (deliver e (mkReader [] true 1) (periodic (a + step) step (S n))) as [r4 c4] eqn:E4.
    assert (E5 : forall u, e <= u -> deliver u r4 c4 = deliver u (one []) (periodic (a + step) step (S n))) by (intros u U; rewrite <- (deliver_deliver e u _ U (one [])); change (one []) with (mkReader [] true 1 : reader Z); rewrite E4; reflexivity).
    specialize (E5 (e + c_work c) ltac:(lia)).
    destruct (Z_lt_le_dec (e + c_work c) (a + step)) as [L2|L2].
    + rewrite deliver_none in E5 by exact L2. eexists _, _, a, (S n), None. split; [reflexivity|]. split; [|repeat split; auto].
      unfold phase, x_with. cbn [x_step x_half x_reader x_coming r_end]. split; [exact S1|]. split; [exact S2|]. split; [unfold e in *; lia|]. split; [exact E5|exact Logic.I].
    + rewrite deliver_first in E5 by (cbn; unfold e in *; lia). eexists _, _, (a + step), n, (Some (lag - slack)). split; [reflexivity|]. split; [|repeat split; auto].
      unfold phase, x_with. cbn [x_step x_half x_reader x_coming r_end]. split; [exact S1|]. split; [exact S2|]. split; [unfold e in *; lia|]. split; [exact E5|unfold e in *; lia].
  - change (mkReader [a] true 1) with (one [a]). rewrite deliver_first by (cbn; lia). cbn [rstep one buffer_ enabled_ max_len_]. rewrite S2, deliver_none by lia.
    eexists _, _, (a + step), n, None. split; [reflexivity|]. split; [|repeat split; auto].
    unfold phase, x_with. cbn [x_step x_half x_reader x_coming r_end]. split; [exact S1|]. split; [exact S2|]. split; [lia|]. split; [|exact Logic.I]. rewrite deliver_none by lia. reflexivity.
Qed.
Lemma cycles_in_phase cs : forall x now a n, phase x now a n None -> Forall punctual cs -> (List.length cs <= n)%nat ->
  forall j c, nth_error cs j = Some c -> nth_error (snd (cycles x now cs)) j = Some (mkRead (a + (1 + Z.of_nat j) * step + c_delay1 c + half + c_delay2 c) (Some (a + (1 + Z.of_nat j) * step))).
Proof.
  induction cs as [|c cs IH]; intros x now a n P F L j c0 N; [destruct j; discriminate|]. apply Forall_cons_iff in F as [F1 F2]. cbn [List.length] in L. destruct n as [|n]; [lia|].
  destruct (read_in_phase x now a n c P F1) as (x' & E & P'). cbn [cycles]. rewrite E. cbn [r_end]. specialize (IH x' _ (a + step) n P' F2 ltac:(lia)).
  destruct (cycles x' (a + step + c_delay1 c + half + c_delay2 c + c_work c) cs) as [x2 rs]. cbn [snd] in *. destruct j as [|j]; cbn [nth_error] in *.
  - injection N as <-. f_equal. change (Z.of_nat 0) with 0. f_equal; [lia|]. f_equal. lia.
  - rewrite (IH j c0 N), Nat2Z.inj_succ. f_equal. f_equal; [|f_equal]; ring.
Qed.
Lemma cycles_late cs : forall x now a n late i, phase x now a n late -> Forall punctual cs -> (List.length cs <= n)%nat ->
  match late with Some lag => lag < Z.of_nat i * slack | None => True end ->
  exists k, 0 <= k /\ forall j c, nth_error cs (i + j) = Some c -> nth_error (snd (cycles x now cs)) (i + j) = Some (mkRead (a + (k + Z.of_nat j) * step + c_delay1 c + half + c_delay2 c) (Some (a + (k + Z.of_nat j) * step))).
Proof.
  induction cs as [|c cs IH]; intros x now a n late i P F L B; [exists 0; split; [lia|]; intros j c N; destruct (i + j)%nat; discriminate|].
  destruct late as [lag|].
  - destruct i as [|i]; [exfalso; destruct P as (_ & _ & R & _ & G); lia|]. apply Forall_cons_iff in F as [F1 F2]. cbn [List.length] in L. destruct n as [|n]; [lia|].
    destruct (read_late x now a n lag c P F1) as (x' & r & a' & n' & late' & E & P' & LN & A & LL). cbn [cycles]. rewrite E.
    destruct (IH x' _ a' n' late' i P' F2 ltac:(lia)) as (k & K & H); [destruct late' as [lag'|]; [subst lag'; lia|exact Logic.I]|].
    destruct (cycles x' (r_end r + c_work c) cs) as [x2 rs]. cbn [snd] in *.
    destruct A as [-> | ->].
    + exists k. split; [exact K|]. intros j c0 N. cbn [Nat.add nth_error] in *. exact (H j c0 N).
    + exists (k + 1). split; [lia|]. intros j c0 N. cbn [Nat.add nth_error] in *. rewrite (H j c0 N). f_equal. f_equal; [|f_equal]; ring.
  - exists (1 + Z.of_nat i). split; [lia|]. intros j c0 N. rewrite (cycles_in_phase _ _ _ _ _ P F L _ _ N). rewrite Nat2Z.inj_add. f_equal. f_equal; [|f_equal]; ring.
Qed.
(** wherever a run starts, it is in phase or late by less than a period *)
Lemma start_phase n : forall x now b a0, x_step x = step -> x_half x = half -> x_reader x = one b -> (List.length b <= 1)%nat -> x_coming x = periodic a0 step n -> a0 <= now < a0 + Z.of_nat n * step ->
  exists k, (k < n)%nat /\ phase x now (a0 + Z.of_nat k * step) (n - S k) (Some step).
Proof.
  induction n as [|n IH]; intros x now b a0 S1 S2 RB L C R; [cbn in R; lia|].
  destruct (Z_lt_le_dec now (a0 + step)) as [N|N].
  - exists O. split; [lia|]. change (Z.of_nat 0) with 0. replace (a0 + 0 * step) with a0 by ring. unfold phase. split; [exact S1|]. split; [exact S2|]. split; [lia|]. split; [|lia].
    rewrite RB, C, deliver_first by (try exact L; lia). replace (S n - 1)%nat with n by lia. reflexivity.
  - set (x' := mkX (one [a0]) (periodic (a0 + step) step n) step half). rewrite Nat2Z.inj_succ in R.
    destruct (IH x' now [a0] (a0 + step) eq_refl eq_refl eq_refl ltac:(cbn; lia) eq_refl ltac:(lia)) as (k & K & P). exists (S k). split; [lia|].
    destruct P as (_ & _ & P1 & P2 & P3). rewrite Nat2Z.inj_succ. replace (a0 + Z.succ (Z.of_nat k) * step) with (a0 + step + Z.of_nat k * step) by ring. unfold phase. split; [exact S1|]. split; [exact S2|]. split; [exact P1|]. split; [|exact P3].
    rewrite RB, C. cbn [periodic deliver]. destruct (Z.leb_spec a0 now); [|lia]. rewrite arrive_one by exact L. exact P2.
Qed.
End Phase.
