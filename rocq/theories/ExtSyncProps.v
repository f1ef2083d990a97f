(** C99: following the SYNC messages of another master. *)
From Coq Require Import Lia ZArith.
From Verif Require Import Base ReaderModel ExtSyncModel ExtSyncSpec ExtSyncProofs.

(** C99. A read ends within one and a half periods and its delays, whatever arrives. *)
Theorem C99_bounded : forall x now d1 d2, increasing (x_coming x) -> 0 <= x_step x -> 0 <= x_half x -> 0 <= d1 -> 0 <= d2 ->
  now <= r_end (snd (handle_read x now d1 d2)) <= now + x_step x + x_half x + d1 + d2.
Proof. exact bounded. Qed.

(** C99. The reads take messages in the order in which they arrived, and none twice. *)
Theorem C99_order : forall period coming t0 now cs, increasing coming ->
  let taken := List.concat (map (fun r => match r_sync r with Some a => [a] | None => [] end) (snd (cycles (handle_init (new_xsync period coming) t0) now cs))) in
  sublist taken coming /\ increasing taken.
Proof.
  intros period coming t0 now cs INC. cbv zeta. assert (K : sublist (List.concat (map taken (snd (cycles (handle_init (new_xsync period coming) t0) now cs)))) coming).
  { unfold handle_init. cbn [x_reader x_coming new_xsync]. assert (S0 : small (rinit true 1)) by (exists []; split; [reflexivity|cbn; lia]). pose proof (small_deliver t0 coming _ S0) as S1. pose proof (queue_deliver t0 coming _ S0) as Q1.
    destruct (deliver t0 (rinit true 1) coming) as [r c]. cbn [fst snd] in *. destruct S1 as (b & -> & L).
    eapply sub_trans; [apply cycles_order; exists []; split; [reflexivity|cbn; lia]|]. unfold queue in *. cbn [x_with x_reader x_coming rstep fst one buffer_ app rinit] in *. eapply sub_trans; [|exact Q1]. apply sub_app, sub_all. }
  split; [exact K|]. exact (sub_inc _ _ K INC).
Qed.

(** C99. Nothing that arrived before init is taken. *)
Theorem C99_fresh : forall period coming t0 now cs a, increasing coming ->
  In (Some a) (map r_sync (snd (cycles (handle_init (new_xsync period coming) t0) now cs))) -> In a coming /\ t0 < a.
Proof.
  intros period coming t0 now cs a INC H. unfold handle_init in H. cbn [x_reader x_coming new_xsync] in H. pose proof (deliver_rest t0 coming INC (rinit true 1)) as F.
  assert (S0 : small (rinit true 1)) by (exists []; split; [reflexivity|cbn; lia]). pose proof (queue_deliver t0 coming _ S0) as Q1. pose proof (small_deliver t0 coming _ S0) as S1.
  destruct (deliver t0 (rinit true 1) coming) as [r c]. cbn [fst snd] in *. destruct S1 as (b & -> & L).
  assert (X : sublist (List.concat (map taken (snd (cycles (x_with (new_xsync period coming) (fst (rstep (one b) Listen)) c) now cs)))) c).
  { eapply sub_trans; [apply cycles_order; exists []; split; [reflexivity|cbn; lia]|]. apply sub_all. }
  assert (IC : In a c).
  { assert (IT : In a (List.concat (map taken (snd (cycles (x_with (new_xsync period coming) (fst (rstep (one b) Listen)) c) now cs))))).
    { clear -H. induction (snd (cycles (x_with (new_xsync period coming) (fst (rstep (one b) Listen)) c) now cs)) as [|q l IH]; [destruct H|]. cbn [map List.concat] in *. apply in_or_app. destruct H as [H|H]; [left; unfold taken; rewrite H; left; reflexivity|right; exact (IH H)]. }
    clear -X IT. induction X as [m|z l m X IH|z l m X IH]; [destruct IT|destruct IT as [->|IT]; [left; reflexivity|right; exact (IH IT)]|right; exact (IH IT)]. }
  split; [|rewrite Forall_forall in F; exact (F a IC)]. clear -Q1 IC. unfold queue in Q1. cbn [buffer_ rinit app] in Q1.
  assert (Y : In a (b ++ c)) by (apply in_or_app; right; exact IC). cbn [buffer_ one] in Q1. clear IC. induction Q1 as [m|z l m X IH|z l m X IH]; [destruct Y|destruct Y as [->|Y]; [left; reflexivity|right; exact (IH Y)]|right; exact (IH Y)].
Qed.

(** C99. Of several messages that arrived, a read takes the newest one. *)
Theorem C99_newest : forall x now d1 d2 b a, x_reader x = mkReader b true 1 -> (List.length b <= 1)%nat -> increasing (b ++ x_coming x) -> 0 <= x_step x -> 0 <= d1 ->
  r_sync (snd (handle_read x now d1 d2)) = Some a ->
  exists t, now <= t /\ r_end (snd (handle_read x now d1 d2)) = t + x_half x + d2 /\ In a (b ++ x_coming x) /\ forall a', In a' (x_coming x) -> a' <= t -> a' <= a.
Proof. exact newest. Qed.

(** C99. A caller that starts before the first message and needs less than half a period for each cycle takes every message, and each read
    ends half a period (and the delays of the machine) after its message. *)
Theorem C99_in_phase : forall period a0 n now slack cs,
  let step := period * 1000000 in let half := Z.quot period 2 * 1000000 in
  0 < period -> 0 < slack -> a0 - step <= now < a0 -> (List.length cs < n)%nat ->
  Forall (fun c => 0 <= c_work c /\ 0 <= c_delay1 c /\ 0 <= c_delay2 c /\ c_work c + c_delay1 c + c_delay2 c + half + slack <= step) cs ->
  forall j c, nth_error cs j = Some c ->
  nth_error (snd (cycles (new_xsync period (periodic a0 step n)) now cs)) j =
  Some (mkRead (a0 + Z.of_nat j * step + half + c_delay1 c + c_delay2 c) (Some (a0 + Z.of_nat j * step))).
Proof.
  intros period a0 n now slack cs step half P0 SL R L F j c N. subst step half.
  assert (H0 : 0 <= Z.quot period 2 * 1000000) by (rewrite Z.quot_div_nonneg by lia; lia).
  assert (PH : phase (period * 1000000) (Z.quot period 2 * 1000000) (new_xsync period (periodic a0 (period * 1000000) n)) now (a0 - period * 1000000) n None).
  { unfold phase. cbn [new_xsync x_step x_half x_reader x_coming]. split; [reflexivity|]. split; [reflexivity|]. split; [lia|]. split; [|exact Logic.I]. rewrite deliver_none by lia.
    replace (a0 - period * 1000000 + period * 1000000) with a0 by ring. reflexivity. }
  rewrite (cycles_in_phase _ _ slack SL H0 cs _ _ _ _ PH F ltac:(lia) j c N). f_equal. f_equal; [|f_equal]; ring.
Qed.

(** C99. A caller that was late, by any time, comes back: if its cycles leave a slack, then after as many cycles as slacks in a period the
    reads take every message and end half a period after it. *)
Theorem C99_catch_up : forall period a0 n now slack cs i,
  let step := period * 1000000 in let half := Z.quot period 2 * 1000000 in
  0 < period -> 0 < slack -> a0 - step <= now -> now + (Z.of_nat (List.length cs) + 1) * step < a0 + Z.of_nat n * step ->
  Forall (fun c => 0 <= c_work c /\ 0 <= c_delay1 c /\ 0 <= c_delay2 c /\ c_work c + c_delay1 c + c_delay2 c + half + slack <= step) cs ->
  step < Z.of_nat i * slack ->
  exists k, 0 <= k /\ forall j c, nth_error cs (i + j) = Some c ->
  nth_error (snd (cycles (new_xsync period (periodic a0 step n)) now cs)) (i + j) =
  Some (mkRead (a0 + (k + Z.of_nat j) * step + half + c_delay1 c + c_delay2 c) (Some (a0 + (k + Z.of_nat j) * step))).
Proof.
  intros period a0 n now slack cs i step half P0 SL R B F I0. subst step half.
  assert (H0 : 0 <= Z.quot period 2 * 1000000) by (rewrite Z.quot_div_nonneg by lia; lia).
  destruct (Z_lt_le_dec now a0) as [C|C].
  - exists (Z.of_nat i). split; [lia|]. intros j c N. assert (LN : (List.length cs < n)%nat) by nia.
    rewrite (C99_in_phase period a0 n now slack cs P0 SL ltac:(lia) LN F (i + j) c N). rewrite Nat2Z.inj_add. reflexivity.
  - assert (UP : now < a0 + Z.of_nat n * (period * 1000000)) by nia.
    destruct (start_phase (period * 1000000) (Z.quot period 2 * 1000000) n (new_xsync period (periodic a0 (period * 1000000) n)) now [] a0 eq_refl eq_refl eq_refl ltac:(cbn; lia) eq_refl ltac:(lia)) as (k & K & PH).
    assert (KL : (List.length cs <= n - S k)%nat). { destruct PH as (_ & _ & PR & _). nia. }
    destruct (cycles_late _ _ slack SL H0 cs _ _ _ _ _ i PH F KL I0) as (m & M & H). exists (Z.of_nat k + m). split; [lia|].
    intros j c N. rewrite (H j c N). f_equal. f_equal; [|f_equal]; ring.
Qed.

(** C99. Without messages each read ends after one period; nothing else happens. *)
Theorem C99_silence : forall x now d1 d2, x_reader x = mkReader [] true 1 -> Forall (fun a => now + x_step x + d1 < a) (x_coming x) -> 0 <= x_step x -> 0 <= d1 ->
  handle_read x now d1 d2 = (x, mkRead (now + x_step x + d1) None).
Proof.
  intros [r c st ha] now d1 d2 RB F ST D1. cbn [x_reader x_coming x_step] in *. subst r. unfold handle_read. cbn [x_reader x_coming x_step x_half].
  destruct c as [|a c]; [reflexivity|]. apply Forall_cons_iff in F as [F _]. cbn [deliver]. destruct (Z.leb_spec a now); [lia|]. unfold wake. cbn [buffer_]. destruct (Z.leb_spec a (now + st)); [lia|].
  cbn [deliver]. destruct (Z.leb_spec a (now + st + d1)); [lia|]. reflexivity.
Qed.

(** C99. Every read that takes a message ends half a period after it: refuted. One that finds a message waiting sleeps for half a period
    from its own start; here it ends when the next message arrives. *)
Theorem C99_late_refuted : ~ (forall x now, x_reader x = mkReader [] true 1 -> increasing (x_coming x) -> 0 < x_step x -> x_half x = x_step x / 2 ->
  forall r a, snd (handle_read x now 0 0) = r -> r_sync r = Some a -> r_end r <= a + x_half x).
Proof.
  intros H. specialize (H (new_xsync 10 [0; 10000000]) 5000000 eq_refl ltac:(cbn; repeat constructor) ltac:(cbn; lia) eq_refl _ 0 eq_refl ltac:(vm_compute; reflexivity)).
  vm_compute in H. apply H. reflexivity.
Qed.
(** C99. Half a period of 1 ms is no time: the data is read when the message arrives. *)
Theorem C99_one_ms_refuted : forall a0 now, a0 - 1000000 <= now < a0 -> snd (handle_read (new_xsync 1 [a0]) now 0 0) = mkRead a0 (Some a0).
Proof.
  intros a0 now R. unfold handle_read, new_xsync, wake. cbn [x_reader x_coming x_step x_half deliver]. destruct (Z.leb_spec a0 now); [lia|]. cbn [buffer_ rinit].
  change (1 * 1000000) with 1000000. change (Z.quot 1 2 * 1000000) with 0. destruct (Z.leb_spec a0 (now + 1000000)); [|lia]. cbn [deliver].
  destruct (Z.leb_spec a0 (a0 + 0)); [|lia]. change (rstep (rinit true 1) (Arrive a0)) with (mkReader [a0] true 1, @Done Z). cbn [fst rstep buffer_ deliver snd]. f_equal. lia.
Qed.

(** eight cycles of 10 ms; the caller starts 7.3 ms late and needs 3 ms per cycle *)
Example C99_example :
  map r_end (snd (cycles (handle_init (new_xsync 10 (periodic 0 10000000 20)) (-5)) 7300000 (repeat (mkCycle 3000000 0 0) 8))) =
    [12300000; 20300000; 28300000; 36300000; 45000000; 55000000; 65000000; 75000000] /\
  map r_sync (snd (cycles (handle_init (new_xsync 10 (periodic 0 10000000 20)) (-5)) 7300000 (repeat (mkCycle 3000000 0 0) 8))) =
    map Some (periodic 0 10000000 8).
Proof. vm_compute. split; reflexivity. Qed.
(** a message is lost: the read ends after a period, the next message is taken *)
Example C99_lost :
  snd (cycles (new_xsync 10 [0; 20000000]) (-2000000) [mkCycle 0 0 0; mkCycle 0 0 0]) = [mkRead 5000000 (Some 0); mkRead 15000000 None].
Proof. vm_compute. reflexivity. Qed.
Example C99_increasing : increasing (periodic 3 10 4) /\ sublist [3; 23] (periodic 3 10 4).
Proof. split; [cbn; repeat constructor|cbn; repeat constructor]. Qed.
Print Assumptions C99_bounded.
Print Assumptions C99_order.
Print Assumptions C99_fresh.
Print Assumptions C99_newest.
Print Assumptions C99_in_phase.
Print Assumptions C99_catch_up.
Print Assumptions C99_silence.
Print Assumptions C99_late_refuted.
Print Assumptions C99_one_ms_refuted.
