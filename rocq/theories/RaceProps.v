(** The claims about a layer used by services and the control loop at the same time. *)
From Verif Require Import Base LayerModel RaceModel RaceSpec RaceProofs.

(** ** C82 *)

(** Whatever the interleaving: when both threads are done, the layer is off, ready or in error,
    never in between. *)
Theorem C82_settled : forall es, quiet (rrun es layer0) ->
  st (rrun es layer0) = Off \/ st (rrun es layer0) = Ready \/ st (rrun es layer0) = Error.
Proof.
  intros es [S L]. pose proof (owned_run es layer0 I) as H. unfold owned in H. rewrite S, L in H.
  destruct (st (rrun es layer0)); auto; contradiction.
Qed.
Print Assumptions C82_settled.

(** If no halt of the loop overlaps a service, the state is what the operations in the order of
    their ends lead to, and the state tells which handler ran last. *)
Theorem C82_apart_partial : forall es, apart es layer0 -> quiet (rrun es layer0) ->
  st (rrun es layer0) = expected (hist (rrun es layer0)) /\ agrees (st (rrun es layer0)) (ran (rrun es layer0)).
Proof.
  intros es A [S L]. destruct (both_run es layer0 A) as [F T]; [unfold follows; cbn; auto|reflexivity|].
  unfold follows, told in *. rewrite S, L in *. destruct F as [_ F]. auto.
Qed.
Print Assumptions C82_apart_partial.
(** Reading and writing may overlap everything *)
Definition calm_history : list revent :=
  [Begin CallInit; Service true; Service true; Cycle; Loop true; Loop true; Service true; Loop true; Service true;
   Cycle; Loop true; Loop true; Loop false; Loop true; Loop true; Loop true; Loop true;
   Begin CallRecover; Service true; Service true; Service false; Service true; Service true; Service true; Service true].
Example C82_apart_ex : apart calm_history layer0 /\ quiet (rrun calm_history layer0) /\
  st (rrun calm_history layer0) = Error /\ ran (rrun calm_history layer0) = [OHalt; ORecover; OHalt; OInit].
Proof.
  split.
  - intros e1 e2 X. unfold calm_history in X.
    do 25 (destruct e1 as [|? e1]; [vm_compute; auto; fail|injection X as <- X]).
    destruct e1; [vm_compute; auto|discriminate X].
  - vm_compute. auto.
Qed.

(** A halt that begins before a shutdown and ends after it leaves a layer in error that was shut
    down last, and the next initialisation skips it without telling. *)
Definition late_halt : list revent :=
  [Begin CallInit; Service true; Service true; Service true; Service true;
   Cycle; Loop true; Loop true; Loop false; Loop true;
   Begin CallShutdown; Service true; Service true; Service true; Service true;
   Loop true; Loop true; Loop true].
Theorem C82_shutdown_refuted : exists es es', let l := rrun es layer0 in let l' := rrun es' l in
  quiet l /\ expected (hist l) = Off /\ st l = Error /\
  es' = [Begin CallInit; Service true] /\ quiet l' /\ hist l' = DInit :: hist l /\ ran l' = ran l /\ st l' = Error.
Proof. exists late_halt, [Begin CallInit; Service true]. vm_compute. repeat split; reflexivity. Qed.
Print Assumptions C82_shutdown_refuted.
(** A halt during a recovery is lost: it is the last thing done, and the layer is ready. *)
Definition lost_halt : list revent :=
  [Begin CallInit; Service true; Service true; Service true; Service true;
   Begin CallHalt; Service true; Service true; Service true; Service true;
   Begin CallRecover; Service true; Service true; Service true;
   Cycle; Loop true; Loop true; Loop false; Loop true; Loop true; Loop true; Loop true;
   Service true].
Theorem C82_recover_refuted : exists es, let l := rrun es layer0 in
  quiet l /\ ran l = [OHalt; ORecover; OHalt; OInit] /\ st l = Ready.
Proof. exists lost_halt. vm_compute. repeat split; reflexivity. Qed.
Print Assumptions C82_recover_refuted.
(** The handlers of the loop may be called for a layer that is off. *)
Theorem C82_called_off_refuted : exists es, In Off (seen (rrun es layer0)).
Proof.
  exists [Begin CallInit; Service true; Service true; Service true; Service true; Cycle; Loop true;
    Begin CallShutdown; Service true; Service true; Service true; Service true; Loop true].
  vm_compute. auto.
Qed.
Print Assumptions C82_called_off_refuted.

(** A handler that fails: an initialisation is followed by a shutdown, a recovery by a halt,
    whatever the loop reads and writes at the same time. *)
Lemma fine_step : forall e l, fine e -> (forall k, lo l <> LHalt k) ->
  (forall k, lo (rstep e l) <> LHalt k) /\
  match e with Service ok => (st (rstep e l), sv (rstep e l), hist (rstep e l), ran (rstep e l)) =
                             (let m := service_step ok (mkL (st l) (sv l) LIdle (hist l) (ran l) []) in (st m, sv m, hist m, ran m))
  | _ => st (rstep e l) = st l /\ sv (rstep e l) = sv l /\ hist (rstep e l) = hist l /\ ran (rstep e l) = ran l end.
Proof.
  intros e [s v o h r n] F N. cbn in N. destruct e as [x|ok| |[|]]; try contradiction.
  - split; [intros k; destruct v as [|[]|[]|[]|[]], s, ok; apply N|]. destruct v as [|[]|[]|[]|[]], s, ok; reflexivity.
  - split; [intros k; destruct o as [| | |c|[]]; cbn; congruence|]. destruct o as [| | |c|[]]; cbn; auto.
  - assert (N' : forall k, LHalt k = o -> False) by (intros k E; apply (N k); congruence).
    split; [intros k; destruct o as [| | |c|k']; cbn; try (destruct (lgt s Off)); cbn; try congruence; destruct (N' k' eq_refl)|].
    destruct o as [| | |c|k']; cbn; try (destruct (lgt s Off)); cbn; auto; exfalso; exact (N' k' eq_refl).
Qed.
Definition serve (oks : list bool) (l : layer) : layer := fold_left (fun l ok => service_step ok l) oks l.
Lemma fine_run : forall es l m, Forall fine es -> (forall k, lo l <> LHalt k) ->
  st m = st l -> sv m = sv l -> hist m = hist l -> ran m = ran l ->
  let a := rrun es l in let b := serve (reports es) m in st a = st b /\ sv a = sv b /\ hist a = hist b /\ ran a = ran b.
Proof.
  induction es as [|e es IH]; intros l m F N A1 A2 A3 A4; [cbn; auto|]. inversion F; subst. cbn [rrun fold_left].
  destruct (fine_step e l H1 N) as [N1 X]. destruct e as [x|ok| |ok]; try contradiction; cbn [reports]; try (destruct X as [X1 [X2 [X3 X4]]]; apply IH; auto; congruence).
  cbn [serve fold_left]. cbv zeta in X. injection X as X1 X2 X3 X4.
  assert (Y : forall l1 l2, st l1 = st l2 -> sv l1 = sv l2 -> hist l1 = hist l2 -> ran l1 = ran l2 ->
     let a := service_step ok l1 in let b := service_step ok l2 in st a = st b /\ sv a = sv b /\ hist a = hist b /\ ran a = ran b).
  { clear. intros [s v o h r n] [s' v' o' h' r' n']. cbn. intros -> -> -> ->. destruct v' as [|[]|[]|[]|[]], s', ok; cbn; auto. }
  destruct (Y m (mkL (st l) (sv l) LIdle (hist l) (ran l) []) A1 A2 A3 A4) as [Y1 [Y2 [Y3 Y4]]].
  apply IH; auto; cbn [rstep] in *; congruence.
Qed.
Theorem C82_failed : forall es l a b c d, Forall fine es -> (forall k, lo l <> LHalt k) -> reports es = [false; a; b; c; d] ->
  (sv l = SInit P2 -> st l = Init -> st (rrun es l) = Off /\ sv (rrun es l) = SIdle /\ hist (rrun es l) = DShutdown :: hist l /\ ran (rrun es l) = OShutdown :: OInit :: ran l) /\
  (sv l = SRec P2 -> st l = Recover -> st (rrun es l) = Error /\ sv (rrun es l) = SIdle /\ hist (rrun es l) = DHalt :: hist l /\ ran (rrun es l) = OHalt :: ORecover :: ran l).
Proof.
  intros es l a b c d F N R. pose proof (fine_run es l l F N eq_refl eq_refl eq_refl eq_refl) as [X1 [X2 [X3 X4]]].
  rewrite X1, X2, X3, X4, R. clear. destruct l as [s v o h r n]. cbn [sv st]. split; intros -> ->; cbn; auto.
Qed.
Print Assumptions C82_failed.
(** and one that succeeds leaves the layer ready *)
Theorem C82_succeeded : forall es l a, Forall fine es -> (forall k, lo l <> LHalt k) -> reports es = [true; a] ->
  (sv l = SInit P2 -> st (rrun es l) = Ready /\ sv (rrun es l) = SIdle /\ hist (rrun es l) = DInit :: hist l /\ ran (rrun es l) = OInit :: ran l) /\
  (sv l = SRec P2 -> st (rrun es l) = Ready /\ sv (rrun es l) = SIdle /\ hist (rrun es l) = DRecover :: hist l /\ ran (rrun es l) = ORecover :: ran l).
Proof.
  intros es l a F N R. pose proof (fine_run es l l F N eq_refl eq_refl eq_refl eq_refl) as [X1 [X2 [X3 X4]]].
  rewrite X1, X2, X3, X4, R. clear. destruct l as [s v o h r n]. cbn [sv st]. split; intros ->; cbn; auto.
Qed.
Print Assumptions C82_succeeded.
(** A pass of the loop that fails halts the layer (no service at work), one that succeeds does not. *)
Theorem C82_pass : forall l c ok x1 x2 x3 x4, sv l = SIdle -> st l = Ready -> lo l = LCall c ->
  let l1 := rrun [Loop ok; Loop x1; Loop x2; Loop x3; Loop x4] l in
  st l1 = (if ok then Ready else Error) /\ quiet l1 /\
  hist l1 = (if ok then hist l else DHalt :: hist l) /\ ran l1 = (if ok then ran l else OHalt :: ran l).
Proof. intros [s v o h r n] c [|] x1 x2 x3 x4; cbn; intros -> -> ->; cbn; unfold quiet; auto 10. Qed.
Print Assumptions C82_pass.
Example C82_ex_failed : let l := rrun [Cycle; Begin CallInit; Service true; Service true] layer0 in
  let es := [Service false; Cycle; Service true; Loop true; Service true; Loop true; Service true; Loop true; Service true] in
  Forall fine es /\ sv l = SInit P2 /\ st l = Init /\ (forall k, lo l <> LHalt k) /\ reports es = [false; true; true; true; true].
Proof. cbn. repeat split; try (repeat constructor; fail). intros k H. discriminate. Qed.
(** Each service, called for a layer at rest while the loop reads and writes: which handler runs, and where the layer ends. *)
Theorem C82_services : forall s es l, Forall fine es -> (forall k, lo l <> LHalt k) -> sv l = SIdle -> st l = Off \/ st l = Ready \/ st l = Error ->
  (exists n, (4 <= n)%nat /\ reports es = repeat true n) ->
  let l' := rrun es (rstep (Begin s) l) in
  sv l' = SIdle /\
  (st l', ran l') = match s, st l with
                    | CallInit, Off => (Ready, OInit :: ran l)
                    | CallShutdown, Ready | CallShutdown, Error => (Off, OShutdown :: ran l)
                    | CallHalt, Ready => (Error, OHalt :: ran l)
                    | CallRecover, Error => (Ready, ORecover :: ran l)
                    | _, _ => (st l, ran l)
                    end /\
  hist l' = match s with CallInit => DInit | CallShutdown => DShutdown | CallHalt => DHalt | CallRecover => DRecover end :: hist l.
Proof.
  intros s es l F N SI ST (n & Hn & R). cbv zeta.
  assert (N' : forall k, lo (rstep (Begin s) l) <> LHalt k) by (intros k; cbn [rstep]; rewrite SI; cbn; apply N).
  pose proof (fine_run es (rstep (Begin s) l) (rstep (Begin s) l) F N' eq_refl eq_refl eq_refl eq_refl) as [X1 [X2 [X3 X4]]].
  rewrite X1, X2, X3, X4, R. clear X1 X2 X3 X4 R F N N'. do 4 (destruct n as [|n]; [lia|]). clear Hn.
  assert (Idle : forall n m, sv m = SIdle -> serve (repeat true n) m = m).
  { clear. induction n as [|n IH]; intros m H; [reflexivity|]. cbn [repeat serve fold_left]. assert (E : service_step true m = m) by (unfold service_step; rewrite H; reflexivity).
    rewrite E. apply IH, H. }
  destruct l as [x v o h r q]. cbn [sv] in SI. subst v. cbn [st] in ST.
  assert (G : forall b, sv (serve [true; true; true; true] b) = SIdle -> serve (repeat true (S (S (S (S n))))) b = serve [true; true; true; true] b).
  { intros b H. change (serve (repeat true n) (serve [true; true; true; true] b) = serve [true; true; true; true] b). apply Idle, H. }
  destruct s, ST as [->|[->| ->]]; (rewrite G; [cbn; auto|reflexivity]).
Qed.
Print Assumptions C82_services.
Example C82_services_ex : let l := rrun [Begin CallInit; Service true; Service true; Service true; Service true; Cycle; Loop true] layer0 in
  let es := [Service true; Loop true; Service true; Loop true; Service true; Cycle; Service true] in
  Forall fine es /\ sv l = SIdle /\ st l = Ready /\ (forall k, lo l <> LHalt k) /\ reports es = repeat true 4 /\ st (rrun es (rstep (Begin CallHalt) l)) = Error.
Proof. cbn. repeat split; try (repeat constructor; fail). intros k H. discriminate. Qed.
