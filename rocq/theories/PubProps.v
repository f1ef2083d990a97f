(** C102: published objects. *)
From Verif Require Import Base CanModel KeyModel StorageModel StorageSpec StorageProofs HeldProps PubModel PubSpec.
From Verif Require LayerModel.

Lemma up : forall st, operating st <-> after_shutdown st = true.
Proof.
  intros st. split.
  - intros H. destruct H; reflexivity.
  - destruct st; intros H; try discriminate H; constructor.
Qed.

Section Fixed.
Variable entries : nat -> entry.
Variable pubs : list pub.
Variable types : nat -> ty.

(** Every object has a history of accesses. *)
Definition traced (c0 c : nat -> cell) : Prop :=
  forall o, exists ops h, Forall (op_ok (types o)) ops /\ run (entries o) ops (c0 o) = Ok (c o, h).

Lemma run_app : forall e ops c c1 h o c2 ev r, run e ops c = Ok (c1, h) -> step e o c1 = Ok (c2, ev, r) ->
  run e (ops ++ [o]) c = Ok (c2, h ++ [(o, ev, r)]).
Proof.
  intros e ops. induction ops as [|x ops IH]; intros c c1 h o c2 ev r R St; cbn [run app] in *.
  - injection R as <- <-. rewrite St. reflexivity.
  - destruct (step e x c) as [[[ca eva] ra]|]; [|discriminate].
    destruct (run e ops ca) as [[cb hb]|] eqn:E; [|discriminate]. injection R as <- <-.
    rewrite (IH ca cb hb o c2 ev r E St). reflexivity.
Qed.

Lemma traced_put : forall c0 c o x c1 ev r, traced c0 c -> op_ok (types o) x -> step (entries o) x (c o) = Ok (c1, ev, r) ->
  traced c0 (put o c1 c).
Proof.
  intros c0 c o x c1 ev r Tr Ho St i. unfold put. destruct (i =? o)%nat eqn:E.
  - apply Nat.eqb_eq in E. subst i. destruct (Tr o) as (ops & h & F & R).
    exists (ops ++ [x]), (h ++ [(x, ev, r)]). split.
    + apply Forall_app. split; [exact F|constructor; [exact Ho|constructor]].
    + exact (run_app _ _ _ _ _ _ _ _ _ R St).
  - exact (Tr i).
Qed.

Lemma traced_step : forall c0 e s s', traced c0 (cells s) -> ev_ok types e -> pstep entries pubs e s = Ok s' -> traced c0 (cells s').
Proof.
  intros c0 e s s' Tr He St. destruct e as [st|rds|o x]; cbn [pstep ev_ok] in *.
  - destruct (todo s); [destruct (after_shutdown st)|]; injection St as <-; exact Tr.
  - destruct (todo s) as [|p l]. { injection St as <-. exact Tr. }
    destruct (step (entries (pb_obj p)) (OGet (negb (pb_forced p)) (rds (pb_obj p))) (cells s (pb_obj p))) as [[[c ev] r]|] eqn:E; [|discriminate].
    assert (T1 : traced c0 (put (pb_obj p) c (cells s))).
    { exact (traced_put c0 (cells s) (pb_obj p) (OGet (negb (pb_forced p)) (rds (pb_obj p))) c ev r Tr (He (pb_obj p)) E). }
    destruct r; injection St as <-; exact T1.
  - destruct (step (entries o) x (cells s o)) as [[[c ev] r]|] eqn:E; [|discriminate]. injection St as <-.
    exact (traced_put c0 (cells s) o x c ev r Tr He E).
Qed.

Lemma traced_run : forall c0 es s s', traced c0 (cells s) -> Forall (ev_ok types) es -> prun entries pubs es s = Ok s' ->
  traced c0 (cells s').
Proof.
  intros c0 es. induction es as [|e es IH]; intros s s' Tr F R; cbn [prun] in R.
  - injection R as <-. exact Tr.
  - inversion F; subst. destruct (pstep entries pubs e s) as [s1|] eqn:E; [|discriminate].
    exact (IH s1 s' (traced_step c0 e s s1 Tr H1 E) H2 R).
Qed.
End Fixed.

(** Nothing undefined happens, and the data of each object is always the outcome of some history
    of accesses (to which the theorem below refers). *)
Theorem C102_defined : forall types entries pubs k0 c0 es, objects_ok types entries k0 c0 -> Forall (ev_ok types) es ->
  exists s, prun entries pubs es (mkP c0 [] []) = Ok s /\
    forall o, exists ops h, Forall (op_ok (types o)) ops /\ run (entries o) ops (c0 o) = Ok (cells s o, h).
Proof.
  intros types entries pubs k0 c0 es Ok0 F.
  assert (G : forall es s, traced entries types c0 (cells s) -> Forall (ev_ok types) es -> exists s', prun entries pubs es s = Ok s').
  { clear es F. intros es. induction es as [|e es IH]; intros s Tr F.
    - exists s. reflexivity.
    - inversion F; subst. cbn [prun].
      assert (D : forall o x, op_ok (types o) x -> exists c ev r, step (entries o) x (cells s o) = Ok (c, ev, r)).
      { intros o x Ho. destruct (Ok0 o) as [P Fr]. destruct (Tr o) as (ops & h & Fo & R).
        destruct (fresh_held (types o) (entries o) ops (c0 o) (k0 o) (cells s o) h P Fo Fr R) as [C _].
        destruct (step_good (types o) (entries o) x (cells s o) P Ho C) as (c & ev & r & E & _). exists c, ev, r. exact E. }
      assert (St : exists s1, pstep entries pubs e s = Ok s1).
      { destruct e as [st|rds|o x]; cbn [pstep ev_ok] in *.
        - destruct (todo s); [destruct (after_shutdown st)|]; eexists; reflexivity.
        - destruct (todo s) as [|p l]; [eexists; reflexivity|].
          destruct (D (pb_obj p) (OGet (negb (pb_forced p)) (rds (pb_obj p))) (H1 (pb_obj p))) as (c & ev & r & ->).
          destruct r; eexists; reflexivity.
        - destruct (D o x H1) as (c & ev & r & ->). eexists; reflexivity. }
      destruct St as [s1 E]. rewrite E. exact (IH s1 (traced_step entries pubs types c0 e s s1 Tr H1 E) H2). }
  assert (T0 : traced entries types c0 c0) by (intros o; exists [], []; split; [constructor|reflexivity]).
  destruct (G es (mkP c0 [] []) T0 F) as [s R]. exists s. split; [exact R|].
  exact (traced_run entries pubs types c0 es (mkP c0 [] []) s T0 F R).
Qed.
Print Assumptions C102_defined.

(** What is published: for a marked object what its device (or PDO) answers now, for the others the
    value that is held after the history of accesses, which takes no access, or the answer if none
    is held. A failed access ends the cycle with an error. *)
Theorem C102_value : forall types entries pubs k0 c0 s p l rds ops h,
  objects_ok types entries k0 c0 -> todo s = p :: l -> e_readable (entries (pb_obj p)) = true ->
  Forall (op_ok (types (pb_obj p))) ops -> run (entries (pb_obj p)) ops (c0 (pb_obj p)) = Ok (cells s (pb_obj p), h) ->
  reader_ok (types (pb_obj p)) (rds (pb_obj p)) ->
  exists s', pstep entries pubs (VNext rds) s = Ok s' /\
  match pb_forced p && negb (e_constant (entries (pb_obj p))), held_value (entries (pb_obj p)) (k0 (pb_obj p)) h with
  | false, Some v => told s' = told s ++ [MMsg (pb_topic p) v] /\ todo s' = l
  | _, _ => exists b0 b, (rds (pb_obj p) b0 = (b, true) /\ told s' = told s ++ [MMsg (pb_topic p) b] /\ todo s' = l) \/
                        (rds (pb_obj p) b0 = (b, false) /\ told s' = told s ++ [MError] /\ todo s' = [])
  end.
Proof.
  intros types entries pubs k0 c0 s p l rds ops h Ok0 T Rd Fo R Hr.
  destruct (Ok0 (pb_obj p)) as [P Fr].
  destruct (fresh_held _ _ ops _ _ _ h P Fo Fr R) as [C V].
  destruct (data_get_ok (types (pb_obj p)) (entries (pb_obj p)) (cells s (pb_obj p)) (negb (pb_forced p)) (rds (pb_obj p)) C Hr Rd) as [G1 G2].
  cbn [pstep]. rewrite T. cbn [step]. rewrite <- V.
  assert (Fresh : (c_valid (cells s (pb_obj p)) = false \/ negb (pb_forced p) || e_constant (entries (pb_obj p)) = false) ->
    exists s', match data_get (entries (pb_obj p)) (cells s (pb_obj p)) (negb (pb_forced p)) (rds (pb_obj p)) with
       | Ok (c, _, RVal b) => Ok (mkP (put (pb_obj p) c (cells s)) l (told s ++ [MMsg (pb_topic p) b]))
       | Ok (c, _, _) => Ok (mkP (put (pb_obj p) c (cells s)) [] (told s ++ [MError]))
       | Undef => Undef end = Ok s' /\
      exists b0 b, (rds (pb_obj p) b0 = (b, true) /\ told s' = told s ++ [MMsg (pb_topic p) b] /\ todo s' = l) \/
                   (rds (pb_obj p) b0 = (b, false) /\ told s' = told s ++ [MError] /\ todo s' = [])).
  { intros X. destruct (G2 X) as (c1 & b & ok & E1 & Rest). rewrite E1.
    destruct Rest as [Rv _]. symmetry in Rv.
    destruct ok; (eexists; split; [reflexivity|]); cbn [told todo]; exists (c_buf (allocate (cells s (pb_obj p)))), b.
    - left. split; [exact Rv|split; reflexivity].
    - right. split; [exact Rv|split; reflexivity]. }
  destruct (pb_forced p && negb (e_constant (entries (pb_obj p)))) eqn:Fc.
  - apply andb_prop in Fc as [F1 F2]. apply negb_true_iff in F2. apply Fresh. right. rewrite F1, F2. reflexivity.
  - unfold view. destruct (c_valid (cells s (pb_obj p))) eqn:Va.
    + rewrite G1; [|reflexivity|].
      * eexists. split; [reflexivity|]. split; reflexivity.
      * destruct (pb_forced p), (e_constant (entries (pb_obj p))); try reflexivity; discriminate.
    + apply Fresh. left. reflexivity.
Qed.
Print Assumptions C102_value.

(** What one step of publishing shows, in any state *)
Lemma next_shape : forall entries pubs rds s s' p l, todo s = p :: l -> pstep entries pubs (VNext rds) s = Ok s' ->
  (exists b, told s' = told s ++ [MMsg (pb_topic p) b] /\ todo s' = l /\ e_readable (entries (pb_obj p)) = true) \/
  (told s' = told s ++ [MError] /\ todo s' = [] /\
   ((forall o b, snd (rds o b) = true) -> e_readable (entries (pb_obj p)) = false)).
Proof.
  intros entries pubs rds s s' p l T St. cbn [pstep] in St. rewrite T in St. cbn [step] in St.
  unfold data_get in St. destruct (e_readable (entries (pb_obj p))); cbn [negb] in St.
  2:{ injection St as <-. right. repeat split. }
  destruct (negb (c_valid (cells s (pb_obj p))) || negb (negb (pb_forced p) || e_constant (entries (pb_obj p)))).
  - destruct (rds (pb_obj p) (c_buf (allocate (cells s (pb_obj p))))) as [b ok] eqn:R. destruct ok.
    + destruct (access _) as [v|]; [|discriminate]. injection St as <-. left. exists v. repeat split.
    + injection St as <-. right. split; [reflexivity|]. split; [reflexivity|]. intros A.
      specialize (A (pb_obj p) (c_buf (allocate (cells s (pb_obj p))))). rewrite R in A. discriminate A.
  - destruct (access _) as [v|]; [|discriminate]. injection St as <-. left. exists v. repeat split.
Qed.

Lemma pub_run : forall entries pubs es s s', Forall inside es -> prun entries pubs es s = Ok s' ->
  exists ms, (told s' = told s ++ messages ms \/ (told s' = told s ++ messages ms ++ [MError] /\ todo s' = [])) /\
    (exists rest, todo s = firstn (List.length ms) (todo s) ++ rest /\ (told s' = told s ++ messages ms -> todo s' = rest)) /\
    map fst ms = map pb_topic (firstn (List.length ms) (todo s)) /\
    ((List.length (todo s) <= nexts es)%nat -> todo s' = []) /\
    (Forall answered es -> (forall p, In p (todo s) -> e_readable (entries (pb_obj p)) = true) -> told s' = told s ++ messages ms).
Proof.
  intros entries pubs es. induction es as [|e es IH]; intros s s' F R; cbn [prun] in R.
  - injection R as <-. exists []. cbn [messages map firstn List.length app]. rewrite app_nil_r. repeat split.
    + left. reflexivity.
    + exists (todo s). split; reflexivity.
    + unfold nexts. cbn. intros L. destruct (todo s); [reflexivity|cbn in L; lia].
  - inversion F as [|? ? Fe Ft]; subst. destruct (pstep entries pubs e s) as [s1|] eqn:E; [|discriminate].
    destruct (IH s1 s' Ft R) as (ms & Tl & (rest & Rs & Rt) & Tp & Cn & An).
    destruct e as [st|rds|o x]; [destruct Fe| |].
    + destruct (todo s) as [|p l] eqn:T.
      * cbn [pstep] in E. rewrite T in E. injection E as <-. rewrite T in *. exists ms. repeat split; try assumption.
        -- exists rest. split; assumption.
        -- intros _. apply Cn. cbn. lia.
        -- intros Fa Rb. inversion Fa; subst. apply An; assumption.
      * destruct (next_shape entries pubs rds s s1 p l T E) as [(b & T1 & D1 & R1)|(T1 & D1 & R1)].
        -- exists ((pb_topic p, b) :: ms). rewrite T1, D1 in *. cbn [messages map fst snd List.length firstn].
           rewrite <- !app_assoc in *. cbn [app] in *. repeat split.
           ++ exact Tl.
           ++ exists rest. split; [rewrite Rs at 1; reflexivity|exact Rt].
           ++ rewrite Tp. reflexivity.
           ++ unfold nexts in *. cbn [List.filter is_next List.length] in *. intros L. apply Cn. lia.
           ++ intros Fa Rb. inversion Fa; subst. apply An; [assumption|]. intros q Hq. apply Rb. right. exact Hq.
        -- rewrite D1 in *. assert (M : ms = []).
           { destruct ms as [|m ms]; [reflexivity|]. rewrite firstn_nil in Tp. discriminate Tp. }
           subst ms. cbn [messages map app] in *. rewrite app_nil_r in *. rewrite T1 in *.
           exists []. cbn [messages map app List.length firstn]. rewrite app_nil_r. repeat split.
           ++ right. split; [|apply Cn; cbn; lia]. destruct Tl as [Tl|[Tl _]]; [exact Tl|].
              exfalso. clear -Tl R D1 T1 Ft.
              revert s1 s' Ft R D1 T1 Tl. induction es as [|e es IH]; intros s1 s' Ft R D1 T1 Tl; cbn [prun] in R.
              { injection R as <-. rewrite T1 in Tl. apply (f_equal (@List.length seen)) in Tl. rewrite !app_length in Tl. cbn in Tl. lia. }
              inversion Ft; subst. destruct (pstep entries pubs e s1) as [s2|] eqn:E2; [|discriminate].
              assert (Q : told s2 = told s1 /\ todo s2 = []).
              { destruct e as [st|rd|o x]; [contradiction| |]; cbn [pstep] in E2.
                - rewrite D1 in E2. injection E2 as <-. split; [reflexivity|exact D1].
                - destruct (step _ _ _) as [[[c ev] r]|]; [|discriminate]. injection E2 as <-. split; [reflexivity|exact D1]. }
              destruct Q as [Q1 Q2]. apply (IH s2 s' H2 R Q2); [congruence|exact Tl].
           ++ exists (p :: l). split; [reflexivity|]. intros X. exfalso.
              destruct Tl as [Tl|[Tl _]]; rewrite X in Tl; apply (f_equal (@List.length seen)) in Tl; rewrite !app_length in Tl; cbn in Tl; lia.
           ++ intros _. apply Cn. cbn. lia.
           ++ intros Fa Rb. inversion Fa; subst. exfalso. cbn [answered] in H1.
              specialize (Rb p (or_introl eq_refl)). rewrite (R1 H1) in Rb. discriminate Rb.
    + assert (Q : told s1 = told s /\ todo s1 = todo s).
      { cbn [pstep] in E. destruct (step _ _ _) as [[[c ev] r]|]; [|discriminate]. injection E as <-. split; reflexivity. }
      destruct Q as [Q1 Q2]. rewrite Q1, Q2 in *. exists ms. repeat split; try assumption.
      * exists rest. split; assumption.
      * intros Fa Rb. inversion Fa; subst. apply An; assumption.
Qed.

(** A cycle of a chain in operation, whatever others do to the objects meanwhile: the objects are
    published in order, each once, until one cannot be read; all of them if all can be. *)
Theorem C102_cycle : forall entries pubs st s es s', operating st -> todo s = [] -> Forall inside es ->
  prun entries pubs (VWrite st :: es) s = Ok s' ->
  exists ms, map fst ms = map pb_topic (firstn (List.length ms) pubs) /\ (List.length ms <= List.length pubs)%nat /\
    (told s' = told s ++ MPass :: messages ms \/ told s' = told s ++ MPass :: messages ms ++ [MError]) /\
    ((List.length pubs <= nexts es)%nat -> todo s' = [] /\
     (Forall answered es -> (forall p, In p pubs -> e_readable (entries (pb_obj p)) = true) ->
        List.length ms = List.length pubs /\ told s' = told s ++ MPass :: messages ms)).
Proof.
  intros entries pubs st s es s' Up T F R. cbn [prun pstep] in R. rewrite T in R. apply up in Up. rewrite Up in R.
  destruct (pub_run entries pubs es (mkP (cells s) pubs (told s ++ [MPass])) s' F R) as (ms & Tl & (rest & Rs & Rt) & Tp & Cn & An).
  cbn [told todo] in *. rewrite <- !app_assoc in *. cbn [app] in *. exists ms.
  assert (Lp : (List.length ms <= List.length pubs)%nat).
  { apply (f_equal (@List.length text)) in Tp. rewrite !map_length, firstn_length in Tp. lia. }
  split; [exact Tp|]. split; [exact Lp|]. split; [destruct Tl as [X|[X _]]; [left|right]; exact X|].
  intros L. split; [exact (Cn L)|]. intros Fa Rb. pose proof (An Fa Rb) as X. split; [|exact X].
  specialize (Rt X). rewrite (Cn L) in Rt. subst rest. rewrite app_nil_r in Rs.
  apply (f_equal (@List.length pub)) in Rs. rewrite firstn_length in Rs. lia.
Qed.
Print Assumptions C102_cycle.

(** Nothing is published in other states, and nothing by accesses to the objects. *)
Theorem C102_silent : forall entries pubs s, todo s = [] ->
  (forall st, ~ operating st -> pstep entries pubs (VWrite st) s = Ok s) /\
  (forall rds, pstep entries pubs (VNext rds) s = Ok s) /\
  (forall o x s', pstep entries pubs (VOp o x) s = Ok s' -> told s' = told s /\ todo s' = []).
Proof.
  intros entries pubs s T. split; [|split].
  - intros st N. cbn [pstep]. rewrite T. destruct (after_shutdown st) eqn:E; [|reflexivity]. apply up in E. contradiction.
  - intros rds. cbn [pstep]. rewrite T. reflexivity.
  - intros o x s' St. cbn [pstep] in St. destruct (step _ _ _) as [[[c ev] r]|]; [|discriminate]. injection St as <-.
    split; [reflexivity|exact T].
Qed.
Print Assumptions C102_silent.

(** An object that cannot be read (a write-only one is accepted, too) keeps those behind it from
    ever being published, in every history. *)
Theorem C102_starved_refuted : forall entries l1 p l2 c0 es s topic b, e_readable (entries (pb_obj p)) = false ->
  prun entries (l1 ++ p :: l2) es (mkP c0 [] []) = Ok s -> In (MMsg topic b) (told s) -> In topic (map pb_topic l1).
Proof.
  intros entries l1 p l2 c0 es s topic b Nr R.
  assert (G : forall es s0, (todo s0 = [] \/ exists a, todo s0 = a ++ p :: l2 /\ incl a l1) ->
    (forall topic b, In (MMsg topic b) (told s0) -> In topic (map pb_topic l1)) ->
    prun entries (l1 ++ p :: l2) es s0 = Ok s -> In (MMsg topic b) (told s) -> In topic (map pb_topic l1)).
  { clear R es. intros es. induction es as [|e es IH]; intros s0 Hs Ht R; cbn [prun] in R.
    - injection R as <-. apply Ht.
    - destruct (pstep entries (l1 ++ p :: l2) e s0) as [s1|] eqn:E; [|discriminate]. apply (IH s1); [| |exact R]; clear IH R.
      + destruct e as [st|rds|o x].
        * cbn [pstep] in E. destruct (todo s0) as [|q t] eqn:T.
          -- destruct (after_shutdown st); injection E as <-; [right; exists l1; split; [reflexivity|apply incl_refl]|left; exact T].
          -- injection E as <-. rewrite T. exact Hs.
        * destruct Hs as [T|(a & T & Ia)].
          -- cbn [pstep] in E. rewrite T in E. injection E as <-. left. exact T.
          -- destruct a as [|q a]; cbn [app] in T.
             ++ destruct (next_shape _ _ _ _ _ _ _ T E) as [(b1 & _ & _ & X)|(_ & D & _)]; [congruence|left; exact D].
             ++ destruct (next_shape _ _ _ _ _ _ _ T E) as [(b1 & _ & D & _)|(_ & D & _)]; [right|left; exact D].
                exists a. split; [exact D|]. intros z Hz. apply Ia. right. exact Hz.
        * cbn [pstep] in E. destruct (step _ _ _) as [[[c ev] r]|]; [|discriminate]. injection E as <-. exact Hs.
      + intros tp bb Hin. destruct e as [st|rds|o x].
        * cbn [pstep] in E. destruct (todo s0); [destruct (after_shutdown st)|]; injection E as <-; cbn [told] in Hin.
          -- apply in_app_or in Hin as [Hin|[Hin|[]]]; [exact (Ht tp bb Hin)|discriminate].
          -- exact (Ht tp bb Hin).
          -- exact (Ht tp bb Hin).
        * destruct Hs as [T|(a & T & Ia)].
          -- cbn [pstep] in E. rewrite T in E. injection E as <-. exact (Ht tp bb Hin).
          -- assert (Fin : forall q t, todo s0 = q :: t -> (e_readable (entries (pb_obj q)) = true -> In q l1) -> In tp (map pb_topic l1)).
             { intros q t Tq Iq. destruct (next_shape _ _ _ _ _ _ _ Tq E) as [(b1 & X & _ & Y)|(X & _ & _)]; rewrite X in Hin;
                 apply in_app_or in Hin as [Hin|[Hin|[]]]; try exact (Ht tp bb Hin); try discriminate.
               injection Hin as <- _. apply in_map. exact (Iq Y). }
             destruct a as [|q a]; cbn [app] in T.
             ++ apply (Fin _ _ T). intros X. congruence.
             ++ apply (Fin _ _ T). intros _. apply Ia. left. reflexivity.
        * cbn [pstep] in E. destruct (step _ _ _) as [[[c ev] r]|]; [|discriminate]. injection E as <-. exact (Ht tp bb Hin). }
  apply (G es (mkP c0 [] [])); [left; reflexivity| |exact R]. intros ? ? [].
Qed.
Print Assumptions C102_starved_refuted.

(** A device that never answers: the first cycle ends with an error, from the second one on a
    value nobody ever sent is published without error (for objects that are not marked). *)
Theorem C102_invented_refuted : forall entries T n p c0 rds,
  e_readable (entries (pb_obj p)) = true -> pb_forced p = false -> c0 (pb_obj p) = data_typed (TInt T) ->
  (forall o b, rds o b = (b, false)) ->
  exists s, prun entries [p] ([VWrite LayerModel.Ready; VNext rds] ++
                              List.concat (repeat [VWrite LayerModel.Ready; VNext rds] n)) (mkP c0 [] []) = Ok s /\
    told s = [MPass; MError] ++ List.concat (repeat [MPass; MMsg (pb_topic p) (repeat 0 (ty_size (TInt T)))] n).
Proof.
  intros entries T n p c0 rds Rd Nf C0 Fl.
  assert (R1 : exists s, prun entries [p] [VWrite LayerModel.Ready; VNext rds] (mkP c0 [] []) = Ok s /\ told s = [MPass; MError] /\
     todo s = [] /\ cells s (pb_obj p) = mkCell (TInt T) true (repeat 0 (ty_size (TInt T))) 0 0).
  { cbn [prun pstep after_shutdown todo told cells]. cbn. rewrite C0. unfold data_get. rewrite Rd, Nf. cbn [negb orb data_typed c_valid].
    rewrite Fl. cbn [app]. eexists. split; [reflexivity|]. cbn [told todo cells]. split; [reflexivity|]. split; [reflexivity|].
    unfold put. rewrite Nat.eqb_refl. unfold allocate. cbn [c_type c_valid c_buf c_rd c_wr set_buf data_typed].
    unfold resize. rewrite repeat_length, Nat.sub_diag. cbn [repeat]. rewrite app_nil_r.
    rewrite firstn_all2 by (rewrite repeat_length; lia). reflexivity. }
  destruct R1 as (s1 & R1 & T1 & D1 & C1).
  assert (App : forall a b s, prun entries [p] (a ++ b) s = match prun entries [p] a s with Ok s' => prun entries [p] b s' | Undef => Undef end).
  { intros a. induction a as [|e a IH]; intros b s; cbn [app prun]; [reflexivity|]. destruct (pstep entries [p] e s); [apply IH|reflexivity]. }
  rewrite App, R1. rewrite <- T1. clear R1 T1. revert s1 D1 C1. induction n as [|n IH]; intros s1 D1 C1; cbn [repeat List.concat].
  - exists s1. split; [reflexivity|]. rewrite app_nil_r. reflexivity.
  - rewrite App.
    assert (Two : exists s2, prun entries [p] [VWrite LayerModel.Ready; VNext rds] s1 = Ok s2 /\
       told s2 = told s1 ++ [MPass; MMsg (pb_topic p) (repeat 0 (ty_size (TInt T)))] /\ todo s2 = [] /\
       cells s2 (pb_obj p) = mkCell (TInt T) true (repeat 0 (ty_size (TInt T))) 0 0).
    { cbn [prun pstep]. rewrite D1. cbn [after_shutdown]. cbn. rewrite C1. unfold data_get. rewrite Rd, Nf. cbn [negb orb c_valid].
      unfold access. cbn [c_type c_buf]. rewrite repeat_length, Nat.ltb_irrefl. rewrite firstn_all2 by (rewrite repeat_length; lia).
      unfold ret. eexists. split; [reflexivity|]. cbn [told todo cells]. rewrite <- app_assoc. split; [reflexivity|]. split; [reflexivity|].
      unfold put. rewrite Nat.eqb_refl. reflexivity. }
    destruct Two as (s2 & -> & T2 & D2 & C2). destruct (IH s2 D2 C2) as (s3 & R3 & T3). exists s3. split; [exact R3|].
    rewrite T3, T2, <- app_assoc. reflexivity.
Qed.
Print Assumptions C102_invented_refuted.

(** Two objects, the second marked; another thread writes the first one in between. *)
Definition T16 : ty := TInt (mkIty false 2).
Definition ex_entries (o : nat) : entry :=
  match o with 2%nat => mkEntry false true false (mkHold (Some T16) None) (mkHold None None)
             | _ => mkEntry true true false (mkHold (Some T16) None) (mkHold None None) end.
Definition ex_pubs : list pub := [mkPub (str "n_6041") 0 false; mkPub (str "n_6064") 1 true].
Definition ex_reads (a b : Z) : nat -> reader := fun o _ => ([a; b], true).
Example C102_ex : exists s,
  objects_ok (fun _ => T16) ex_entries (fun _ => None) (fun _ => data_typed T16) /\
  prun ex_entries ex_pubs [VWrite LayerModel.Ready; VNext (ex_reads 1 2); VOp 1 (OSet [9; 9] true); VNext (ex_reads 3 4); VWrite LayerModel.Init;
                           VOp 0 (OSet [7; 7] true); VWrite LayerModel.Error; VNext (ex_reads 5 6); VNext (ex_reads 7 8)]
    (mkP (fun _ => data_typed T16) [] []) = Ok s /\
  told s = [MPass; MMsg (str "n_6041") [1; 2]; MMsg (str "n_6064") [3; 4]; MPass; MMsg (str "n_6041") [7; 7]; MMsg (str "n_6064") [7; 8]].
Proof.
  eexists. split; [|split; [vm_compute; reflexivity|reflexivity]].
  intros o. split; [|constructor]. destruct o as [|[|[|o]]]; split; exact Logic.I.
Qed.

Example C102_ex_starved : exists s,
  prun ex_entries [mkPub (str "n_6040") 2 true; mkPub (str "n_6041") 0 true]
    [VWrite LayerModel.Ready; VNext (ex_reads 1 2); VNext (ex_reads 3 4); VWrite LayerModel.Ready; VNext (ex_reads 1 2)]
    (mkP (fun _ => data_typed T16) [] []) = Ok s /\ told s = [MPass; MError; MPass; MError].
Proof. eexists. split; vm_compute; reflexivity. Qed.
