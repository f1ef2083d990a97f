From Coq Require Import List Arith Bool Lia Wellfounded.
From Verif Require Import LockModel LockSpec LockOrder.
Import ListNotations.

(** ** The invariant *)

(** What is left to do after the innermost open section, with the mutexes held. *)
Inductive kont (E : list lock) : nat -> list lock -> list op -> Prop :=
| k_nil : kont E 0 [] []
| k_lock : forall lo H K l p, kont E lo H K -> lo < rank l -> safe E lo p ->
    kont E (rank l) (l :: H) (Rel l :: p ++ K)
| k_fails : forall lo H K n i p, kont E lo H K -> safe E lo p ->
    kont E lo (LRpdo n i :: H) (Drop (LRpdo n i) :: p ++ K)
| k_new : forall lo H K n i p, kont E lo H K -> lo < rank LFrames -> safe (LRpdo n i :: E) lo p ->
    kont E lo (LRpdo n i :: H)
      (Acq LFrames :: Reg CFrames (HRpdo n i) :: Rel LFrames :: Rel (LRpdo n i) :: p ++ K).

Inductive wf (E : list lock) : list lock -> list op -> Prop :=
| w_run : forall lo H p K, kont E lo H K -> safe E lo p -> wf E H (p ++ K)
| w_reg : forall lo H n i p K, kont E lo H K -> safe (LRpdo n i :: E) lo p ->
    wf E (LFrames :: LRpdo n i :: H) (Reg CFrames (HRpdo n i) :: Rel LFrames :: Rel (LRpdo n i) :: p ++ K)
| w_reg2 : forall lo H n i p K, kont E lo H K -> safe E lo p -> In (LRpdo n i) E ->
    wf E (LFrames :: LRpdo n i :: H) (Rel LFrames :: Rel (LRpdo n i) :: p ++ K)
| w_reg3 : forall lo H n i p K, kont E lo H K -> safe E lo p -> In (LRpdo n i) E ->
    wf E (LRpdo n i :: H) (Rel (LRpdo n i) :: p ++ K).

Lemma kont_mono : forall E lo H K, kont E lo H K -> forall E', incl E E' -> kont E' lo H K.
Proof.
  induction 1; intros E' Hi; econstructor; eauto using safe_mono.
  eapply safe_mono; [eassumption|]. intros x [<-|Hx]; [left; reflexivity | right; auto].
Qed.

Lemma wf_mono : forall E H T, wf E H T -> forall E', incl E E' -> wf E' H T.
Proof.
  destruct 1; intros E' Hi.
  - econstructor; eauto using kont_mono, safe_mono.
  - econstructor; eauto using kont_mono. eapply safe_mono; [eassumption|].
    intros x [<-|Hx]; [left; reflexivity | right; auto].
  - econstructor; eauto using kont_mono, safe_mono.
  - econstructor; eauto using kont_mono, safe_mono.
Qed.

Definition apart (E : list lock) (T : list op) : Prop := forall l, In l (created T) -> ~ In l E.

Lemma created_app : forall t u, created (t ++ u) = created t ++ created u.
Proof. intros; apply flat_map_app. Qed.

Lemma apart_app : forall E t u, apart E (t ++ u) -> apart E t /\ apart E u.
Proof.
  intros E t u Ha. unfold apart in *. rewrite created_app in Ha.
  split; intros l Hl; apply Ha; apply in_or_app; auto.
Qed.

(** Mutexes held that others may know rank at most [lo]. *)
Lemma held_low : forall E lo H K, kont E lo H K -> apart E K ->
  forall l, In l H -> (is_rpdo l -> In l E) -> rank l <= lo.
Proof.
  induction 1 as [| lo H K l p Hk IH Hlo Hs | lo H K n i p Hk IH Hs | lo H K n i p Hk IH Hlo Hs];
    intros Ha m Hm He.
  - destruct Hm.
  - destruct Hm as [<-|Hm]; [lia|].
    change (Rel l :: p ++ K) with ([Rel l] ++ p ++ K) in Ha.
    apply apart_app in Ha. destruct Ha as [_ Ha]. apply apart_app in Ha. destruct Ha as [_ Ha].
    specialize (IH Ha m Hm He). lia.
  - destruct Hm as [<-|Hm].
    + exfalso. apply (Ha (LRpdo n i)); [left; reflexivity | apply He; exact Logic.I].
    + change (Drop (LRpdo n i) :: p ++ K) with ([Drop (LRpdo n i)] ++ p ++ K) in Ha.
      apply apart_app in Ha. destruct Ha as [_ Ha]. apply apart_app in Ha. destruct Ha as [_ Ha].
      exact (IH Ha m Hm He).
  - destruct Hm as [<-|Hm].
    + exfalso. apply (Ha (LRpdo n i)); [left; reflexivity | apply He; exact Logic.I].
    + change (Acq LFrames :: Reg CFrames (HRpdo n i) :: Rel LFrames :: Rel (LRpdo n i) :: p ++ K)
        with ([Acq LFrames; Reg CFrames (HRpdo n i); Rel LFrames; Rel (LRpdo n i)] ++ p ++ K) in Ha.
      apply apart_app in Ha. destruct Ha as [_ Ha]. apply apart_app in Ha. destruct Ha as [_ Ha].
      exact (IH Ha m Hm He).
Qed.

(** A thread asks for mutexes above those it holds. *)
Lemma asks_above : forall E H m T, wf E H (Acq m :: T) -> apart E (Acq m :: T) ->
  (is_rpdo m -> In m E) /\ forall l, In l H -> (is_rpdo l -> In l E) -> rank l < rank m.
Proof.
  intros E H m T Hw Ha. inversion Hw as [lo H' p K Hk Hs He1 He2 | | |]; subst.
  rewrite <- He2 in Ha.
  destruct p as [|o p].
  - cbn in He2. subst K. inversion Hk; subst. split; [contradiction|].
    intros l Hl He. destruct Hl as [<-|Hl].
    + exfalso. apply (Ha (LRpdo n i)); [left; reflexivity | apply He; exact Logic.I].
    + cbn [app] in Ha.
      change (Acq LFrames :: Reg CFrames (HRpdo n i) :: Rel LFrames :: Rel (LRpdo n i) :: p ++ K)
        with ([Acq LFrames; Reg CFrames (HRpdo n i); Rel LFrames; Rel (LRpdo n i)] ++ p ++ K) in Ha.
      apply apart_app in Ha. destruct Ha as [_ Ha]. apply apart_app in Ha. destruct Ha as [_ Ha].
      match goal with Hk0 : kont E lo _ K |- _ => pose proof (held_low _ _ _ _ Hk0 Ha l Hl He) end. lia.
  - cbn in He2. inversion He2; subst. inversion Hs; subst. split; [assumption|].
    intros l Hl He. apply apart_app in Ha. destruct Ha as [_ Ha].
    pose proof (held_low _ _ _ _ Hk Ha l Hl He). lia.
Qed.

(** Who holds a mutex has something to do. *)
Lemma holder_busy : forall E l H T, wf E H T -> In l H -> T <> [].
Proof.
  intros E l H T Hw Hl. destruct Hw; try discriminate.
  intro He. apply app_eq_nil in He. destruct He as [_ ->].
  match goal with Hk : kont _ _ _ [] |- _ => inversion Hk; subst end. destruct Hl.
Qed.

Record inv (s : sys) (E : list lock) : Prop := {
  i_wf : Forall (fun t => wf E (fst t) (snd t)) (ths s);
  i_new : NoDup (flat_map (fun t => created (snd t)) (ths s));
  i_apart : forall l, In l (flat_map (fun t => created (snd t)) (ths s)) -> ~ In l E;
  i_regs : forall c h, In (c, h) (regs s) -> incl (owner h) E }.

Lemma inv_thread : forall s E i H T, inv s E -> nth_error (ths s) i = Some (H, T) ->
  wf E H T /\ apart E T.
Proof.
  intros s E i H T Hi Hn. apply nth_error_In in Hn. split.
  - pose proof (i_wf _ _ Hi) as Hf. rewrite Forall_forall in Hf. apply (Hf _ Hn).
  - intros l Hl. apply (i_apart _ _ Hi). apply in_flat_map. exists (H, T). auto.
Qed.

Lemma taken_holds : forall l s, taken l s = true -> exists j, holds s j l.
Proof.
  intros l s Ht. unfold taken in Ht. apply existsb_exists in Ht. destruct Ht as ([H T] & Hin & Hh).
  unfold has in Hh. cbn [fst] in Hh. destruct (in_dec lock_dec l H); [|discriminate].
  apply In_nth_error in Hin. destruct Hin as [j Hj]. exists j, H, T. auto.
Qed.

Lemma goes_on_rank : forall d s E i l, inv s E -> 17 - rank l <= d -> asks s i l -> goes_on s i.
Proof.
  induction d as [|d IH]; intros s E i l Hi Hd Ha;
    destruct Ha as (H & T & Hn);
    destruct (taken l s) eqn:Et;
    try (apply go_now; unfold moves, step; rewrite Hn, Et; discriminate);
    destruct (taken_holds _ _ Et) as (j & H2 & T2 & Hj & Hl);
    assert (Hw : waits s i j) by (exists l; split; [exists H, T; exact Hn | exists H2, T2; auto]);
    apply go_later with j; auto;
    destruct (inv_thread _ _ _ _ _ Hi Hn) as [Hwi Hai];
    destruct (inv_thread _ _ _ _ _ Hi Hj) as [Hwj Haj];
    destruct (asks_above _ _ _ _ Hwi Hai) as [Hle _];
    pose proof (holder_busy _ _ _ _ Hwj Hl) as Hb;
    destruct T2 as [|o T2]; try congruence;
    destruct o as [m|m|m|m|c h|c h|v w|c f];
    try (apply go_now; unfold moves, step; rewrite Hj; discriminate);
    destruct (asks_above _ _ _ _ Hwj Haj) as [_ Hab]; specialize (Hab l Hl Hle).
  - pose proof (rank_le m). lia.
  - apply IH with E m; auto; [pose proof (rank_le m); lia | exists H2, T2; exact Hj].
Qed.

Lemma inv_goes_on : forall s E i, inv s E -> unfinished s i -> goes_on s i.
Proof.
  intros s E i Hi (H & T & Hn & Ht). destruct T as [|o T]; [congruence|].
  destruct o as [m|m|m|m|c h|c h|v w|c f];
    try (apply go_now; unfold moves, step; rewrite Hn; discriminate).
  apply goes_on_rank with 17 E m; auto; [lia | exists H, T; exact Hn].
Qed.

(** ** Every step keeps the invariant *)

Lemma set_nth_split : forall A (l1 l2 : list A) x y, set_nth (length l1) y (l1 ++ x :: l2) = l1 ++ y :: l2.
Proof. induction l1 as [|a l1 IH]; intros; cbn; [reflexivity | f_equal; apply IH]. Qed.

Lemma remove1_head : forall l H, remove1 lock_dec l (l :: H) = H.
Proof. intros. cbn. destruct (lock_dec l l); congruence. Qed.

Lemma remove1_in : forall A (dec : forall a b : A, {a = b} + {a <> b}) x y xs, In y (remove1 dec x xs) -> In y xs.
Proof.
  induction xs as [|z xs IH]; cbn; auto. destruct (dec x z); cbn; intuition.
Qed.

Lemma nodup_drop : forall A (a p c : list A), NoDup (a ++ p ++ c) -> NoDup (a ++ c).
Proof. induction p as [|x p IH]; cbn; intros c Hn; auto. apply IH. apply NoDup_remove_1 in Hn. exact Hn. Qed.

Lemma nodup_apart : forall A (a p c : list A) x, NoDup (a ++ p ++ c) -> In x p -> ~ In x (a ++ c).
Proof.
  intros A a p c x Hn Hx. apply in_split in Hx. destruct Hx as (p1 & p2 & ->).
  rewrite <- app_assoc in Hn. cbn [app] in Hn. rewrite app_assoc in Hn. apply NoDup_remove_2 in Hn.
  intro Hi. apply Hn. rewrite !in_app_iff in *. tauto.
Qed.

Lemma update : forall s E E' l1 l2 H T H' T' pre R,
  inv s E -> ths s = l1 ++ (H, T) :: l2 -> incl E E' ->
  created T = pre ++ created T' -> (forall x, In x E' -> In x E \/ In x pre) ->
  wf E' H' T' -> (forall c h, In (c, h) R -> incl (owner h) E') ->
  inv (mkSys (l1 ++ (H', T') :: l2) R) E'.
Proof.
  intros s E E' l1 l2 H T H' T' pre R [Hw Hn Ha Hr] Hs Hi Hc He Hwf HR.
  rewrite Hs in *. rewrite flat_map_app in Hn, Ha. cbn [flat_map snd] in Hn, Ha. rewrite Hc in Hn, Ha.
  constructor; cbn [ths regs].
  - apply Forall_app in Hw. destruct Hw as [Hw1 Hw2]. inversion Hw2; subst.
    apply Forall_app. split; [|constructor; auto];
      (eapply Forall_impl; [|eassumption]); intros [a b] Hab; eapply wf_mono; eauto.
  - rewrite flat_map_app. cbn [flat_map snd]. rewrite <- app_assoc in Hn.
    apply nodup_drop with pre. exact Hn.
  - intros l Hl. rewrite flat_map_app in Hl. cbn [flat_map snd] in Hl. intro HE.
    apply He in HE. destruct HE as [HE|HE].
    + apply (Ha l); auto. rewrite !in_app_iff in *. tauto.
    + rewrite <- app_assoc in Hn. exact (nodup_apart _ _ _ _ _ Hn HE Hl).
  - exact HR.
Qed.

Lemma created_plain : forall t, plain t -> created t = [].
Proof. induction 1 as [|o t Ho Ht IH]; cbn; auto. destruct o; cbn in *; try contradiction; auto. Qed.

Lemma members : forall c f E lo R, (forall h b, f h = Some b -> plain b) ->
  (forall h b E', f h = Some b -> incl (owner h) E' -> safe E' lo b) ->
  (forall c h, In (c, h) R -> incl (owner h) E) ->
  safe E lo (member_code c f R) /\ plain (member_code c f R).
Proof.
  intros c f E lo R Hp Hs HR. induction R as [|[c' h] R IH]; cbn.
  - split; constructor.
  - destruct IH as [IH1 IH2]; [intros; eapply HR; right; eauto|].
    destruct (cont_dec c c'); [|exact (conj IH1 IH2)].
    destruct (f h) as [b|] eqn:Ef; [|exact (conj IH1 IH2)]. split.
    + rewrite <- app_assoc. apply safe_app; [|constructor; exact IH1]. apply (Hs h b); auto. apply (HR c' h). left; reflexivity.
    + rewrite <- app_assoc. apply Forall_app. split; [exact (Hp h b Ef) | constructor; [exact Logic.I | exact IH2]].
Qed.

Lemma step_inv : forall i s s' E, inv s E -> step i s = Some s' -> exists E', inv s' E'.
Proof.
  intros i s s' E Hi Hs. unfold step in Hs.
  destruct (nth_error (ths s) i) as [[H T]|] eqn:Hn; [|discriminate].
  destruct T as [|o T]; [discriminate|].
  destruct (inv_thread _ _ _ _ _ Hi Hn) as [Hw Ha].
  destruct (nth_error_split _ _ Hn) as (l1 & l2 & Hl & Hlen).
  assert (Hset : forall x, set_nth i x (ths s) = l1 ++ x :: l2)
    by (intro x; rewrite Hl, <- Hlen; apply set_nth_split).
  pose proof (i_regs _ _ Hi) as HR.
  assert (Hkeep : forall H' T' R, created (o :: T) = created T' -> wf E H' T' ->
            (forall c h, In (c, h) R -> incl (owner h) E) -> inv (mkSys (set_nth i (H', T') (ths s)) R) E).
  { intros H' T' R Hc Hw' HR'. rewrite Hset. apply (update s E E l1 l2 H (o :: T) H' T' [] R); auto using incl_refl. }
  destruct o as [l|l|l|l|c h|c h|v w|c f].
  - (* Acq *)
    destruct (taken l s); [discriminate|]. inversion Hs; subst s'; clear Hs. exists E.
    apply Hkeep; auto. inversion Hw as [lo H' p K Hk Hp He1 He2 | | |]; subst.
    destruct p as [|o p]; cbn [app] in He2.
    + subst K. inversion Hk; subst. econstructor; eauto.
    + inversion He2; subst. inversion Hp; subst. rewrite <- app_assoc. cbn [app].
      apply w_run with (rank l); auto. apply k_lock with lo; auto.
  - (* Rel *)
    inversion Hs; subst s'; clear Hs. exists E.
    inversion Hw as [lo H' p K Hk Hp He1 He2 | | lo H' n i0 p K Hk Hp Hin He1 He2 | lo H' n i0 p K Hk Hp Hin He1 He2]; subst.
    + destruct p as [|o p]; cbn [app] in He2; [|inversion He2; subst; inversion Hp].
      subst K. inversion Hk; subst. rewrite remove1_head. apply Hkeep; auto. econstructor; eauto.
    + rewrite remove1_head. apply Hkeep; auto. econstructor; eauto.
    + rewrite remove1_head. apply Hkeep; auto. econstructor; eauto.
  - (* New *)
    inversion Hs; subst s'; clear Hs. exists E. apply Hkeep; auto.
    inversion Hw as [lo H' p K Hk Hp He1 He2 | | |]; subst.
    destruct p as [|o p]; cbn [app] in He2; [subst K; inversion Hk|].
    inversion He2; subst. inversion Hp; subst; rewrite <- app_assoc; cbn [app].
    + apply w_run with lo; auto. apply k_fails; auto.
    + apply w_run with lo; auto. apply k_new; auto.
  - (* Drop *)
    inversion Hs; subst s'; clear Hs. exists E.
    inversion Hw as [lo H' p K Hk Hp He1 He2 | | |]; subst.
    destruct p as [|o p]; cbn [app] in He2; [|inversion He2; subst; inversion Hp].
    subst K. inversion Hk; subst. rewrite remove1_head, Hset.
    eapply (update s E E l1 l2 _ _ _ _ [_]); eauto using incl_refl; [reflexivity|]. econstructor; eauto.
  - (* Reg *)
    inversion Hs; subst s'; clear Hs.
    inversion Hw as [lo H' p K Hk Hp He1 He2 | lo H' n i0 p K Hk Hp He1 He2 | |]; subst.
    + destruct p as [|o p]; cbn [app] in He2; [subst K; inversion Hk|].
      inversion He2; subst. inversion Hp; subst. exists E. apply Hkeep.
      * destruct c; [|reflexivity].
        match goal with Ho : CFrames = CFrames -> _ |- _ => specialize (Ho eq_refl) end.
        destruct h; try reflexivity; discriminate.
      * econstructor; eauto.
      * intros c' h' [Heq|Hin]; [inversion Heq; subst; auto | eauto].
    + exists (LRpdo n i0 :: E). rewrite Hset.
      eapply (update s E (LRpdo n i0 :: E) l1 l2 _ _ _ _ [LRpdo n i0]); eauto.
      * intros x Hx; right; exact Hx.
      * intros x [<-|Hx]; [right; left; reflexivity | left; exact Hx].
      * eapply w_reg2; eauto; [|left; reflexivity]. eapply kont_mono; eauto. intros x Hx; right; exact Hx.
      * intros c' h' [Heq|Hin].
        -- inversion Heq; subst. intros x [<-|[]]. left; reflexivity.
        -- intros x Hx. right. eapply HR; eauto.
  - (* Unreg *)
    inversion Hs; subst s'; clear Hs. exists E.
    inversion Hw as [lo H' p K Hk Hp He1 He2 | | |]; subst.
    destruct p as [|o p]; cbn [app] in He2; [subst K; inversion Hk|].
    inversion He2; subst. inversion Hp; subst. apply Hkeep; auto.
    + econstructor; eauto.
    + intros c' h' Hin. apply remove1_in in Hin. eauto.
  - (* Do *)
    inversion Hs; subst s'; clear Hs. exists E.
    inversion Hw as [lo H' p K Hk Hp He1 He2 | | |]; subst.
    destruct p as [|o p]; cbn [app] in He2; [subst K; inversion Hk|].
    inversion He2; subst. inversion Hp; subst. apply Hkeep; auto. econstructor; eauto.
  - (* Calls *)
    inversion Hs; subst s'; clear Hs. exists E.
    inversion Hw as [lo H' p K Hk Hp He1 He2 | | |]; subst.
    destruct p as [|o p]; cbn [app] in He2; [subst K; inversion Hk|].
    inversion He2; subst. inversion Hp; subst.
    destruct (members c f E lo (regs s)) as [Hm1 Hm2]; auto.
    apply Hkeep; auto.
    + rewrite created_app, (created_plain _ Hm2). reflexivity.
    + rewrite app_assoc. apply w_run with lo; auto. apply safe_app; auto.
Qed.

Lemma run_inv : forall sched s s' E, inv s E -> run sched s = Some s' -> exists E', inv s' E'.
Proof.
  induction sched as [|i sched IH]; intros s s' E Hi Hr; cbn in Hr.
  - inversion Hr; subst. eauto.
  - destruct (step i s) as [s1|] eqn:Es; [|discriminate].
    destruct (step_inv _ _ _ _ Hi Es) as [E1 Hi1]. eauto.
Qed.

Lemma history_safe : forall u, history call u -> safe [] 0 u.
Proof.
  induction 1; [constructor|]. apply safe_app; auto. eapply runs_safe; eauto using call_ordered.
Qed.

Lemma start_inv : forall todos, Forall (history call) todos -> distinct_objects todos -> inv (start todos) [].
Proof.
  intros todos Hf Hd. constructor; cbn.
  - apply Forall_forall. intros t Ht. apply in_map_iff in Ht. destruct Ht as (u & <- & Hu). cbn.
    rewrite Forall_forall in Hf. specialize (Hf _ Hu). apply history_safe in Hf.
    rewrite <- (app_nil_r u). apply w_run with 0; [constructor | exact Hf].
  - unfold distinct_objects in Hd. rewrite flat_map_concat_map in *. rewrite map_map. exact Hd.
  - intros l _ [].
  - intros c h [].
Qed.

(** ** All calls return *)

Definition is_calls (o : op) : bool := match o with Calls _ _ => true | _ => false end.
Definition calls_in (t : list op) : nat := length (filter is_calls t).
Definition m1 (s : sys) : nat := list_sum (map (fun t => calls_in (snd t)) (ths s)).
Definition m2 (s : sys) : nat := list_sum (map (fun t => length (snd t)) (ths s)).

Definition less (s' s : sys) : Prop := m1 s' < m1 s \/ (m1 s' = m1 s /\ m2 s' < m2 s).

Lemma less_wf : forall s, Acc less s.
Proof.
  assert (H : forall a b s, m1 s <= a -> m2 s <= b -> Acc less s).
  { induction a as [|a IHa].
    - induction b as [|b IHb]; intros s Ha Hb; constructor; intros s' [Hl|[He Hl]]; try lia.
      apply IHb; lia.
    - induction b as [|b IHb]; intros s Ha Hb; constructor; intros s' [Hl|[He Hl]]; try lia.
      + apply (IHa (m2 s')); lia.
      + apply (IHa (m2 s')); lia.
      + apply IHb; lia. }
  intro s. apply (H (m1 s) (m2 s)); lia.
Qed.

Lemma sum_split : forall (f : thread -> nat) l1 x l2,
  list_sum (map f (l1 ++ x :: l2)) = list_sum (map f l1) + f x + list_sum (map f l2).
Proof.
  intros. rewrite map_app, list_sum_app.
  change (list_sum (map f (x :: l2))) with (f x + list_sum (map f l2)). lia.
Qed.

Lemma calls_plain : forall t, plain t -> calls_in t = 0.
Proof.
  unfold calls_in. induction 1 as [|o t Ho Ht IH]; cbn; auto. destruct o; cbn in *; try contradiction; auto.
Qed.
Lemma calls_app : forall t u, calls_in (t ++ u) = calls_in t + calls_in u.
Proof. intros. unfold calls_in. rewrite filter_app, app_length. reflexivity. Qed.

Lemma calls_safe : forall E H c f T, wf E H (Calls c f :: T) -> forall h b, f h = Some b -> plain b.
Proof.
  intros E H c f T Hw. inversion Hw as [lo H' p K Hk Hp He1 He2 | | |]; subst.
  destruct p as [|o p]; cbn [app] in He2; [subst K; inversion Hk|].
  inversion He2; subst. inversion Hp; subst. assumption.
Qed.

Lemma step_less : forall i s s' E, inv s E -> step i s = Some s' -> less s' s.
Proof.
  intros i s s' E Hi Hs. unfold step in Hs.
  destruct (nth_error (ths s) i) as [[H T]|] eqn:Hn; [|discriminate].
  destruct T as [|o T]; [discriminate|].
  destruct (inv_thread _ _ _ _ _ Hi Hn) as [Hw _].
  destruct (nth_error_split _ _ Hn) as (l1 & l2 & Hl & Hlen).
  assert (Hset : forall x, set_nth i x (ths s) = l1 ++ x :: l2)
    by (intro x; rewrite Hl, <- Hlen; apply set_nth_split).
  unfold less, m1, m2.
  destruct o as [l|l|l|l|c h|c h|v w|c f]; [destruct (taken l s); [discriminate|]| | | | | | |];
    inversion Hs; subst s'; clear Hs; cbn [ths]; rewrite Hset, Hl, !sum_split; cbn [snd].
  1-7: right; split; [reflexivity | cbn [length]; lia].
  left. rewrite calls_app, calls_plain; [change (calls_in (Calls c f :: T)) with (1 + calls_in T); lia|].
  pose proof (calls_safe _ _ _ _ _ Hw) as Hp. clear -Hp.
  induction (regs s) as [|[c' h] R IH]; cbn; [constructor|].
  destruct (cont_dec c c'); [|exact IH]. destruct (f h) as [b|] eqn:Ef; [|exact IH].
  rewrite <- app_assoc. apply Forall_app. split; [exact (Hp h b Ef) | constructor; [exact Logic.I | exact IH]].
Qed.

Lemma inv_acc : forall s E, inv s E -> Acc next s.
Proof.
  intro s. induction (less_wf s) as [s _ IH]. intros E Hi. constructor. intros s' [i Hs].
  destruct (step_inv _ _ _ _ Hi Hs) as [E' Hi']. apply IH with E'; auto. eapply step_less; eauto.
Qed.

Lemma goes_on_moves : forall s i, goes_on s i -> exists j, moves s j.
Proof. induction 1; eauto. Qed.

Lemma inv_done : forall s E, inv s E -> (forall i, ~ moves s i) -> all_done s.
Proof.
  intros s E Hi Hm held todo Hin. destruct todo as [|o todo]; [reflexivity|].
  apply In_nth_error in Hin. destruct Hin as [i Hn].
  destruct (goes_on_moves s i) as [j Hj]; [|destruct (Hm j Hj)].
  apply inv_goes_on with E; auto. exists held, (o :: todo). split; [exact Hn | discriminate].
Qed.

Lemma moves_dec_all : forall s, (exists i, moves s i) \/ (forall i, ~ moves s i).
Proof.
  intro s.
  assert (H : forall n, (exists i, moves s i) \/ (forall i, i < n -> ~ moves s i)).
  { induction n as [|n [IH|IH]]; [right; lia | left; exact IH |].
    destruct (step n s) eqn:Es.
    - left. exists n. unfold moves. congruence.
    - right. intros i Hi. destruct (Nat.eq_dec i n) as [->|]; [unfold moves; congruence | apply IH; lia]. }
  destruct (H (length (ths s))) as [Hl|Hr]; [left; exact Hl | right].
  intros i Hm. destruct (lt_dec i (length (ths s))) as [Hi|Hi]; [exact (Hr i Hi Hm)|].
  apply Hm. unfold step. rewrite (proj2 (nth_error_None _ _)); [reflexivity | lia].
Qed.

Lemma run_app : forall a b s, run (a ++ b) s = match run a s with Some s' => run b s' | None => None end.
Proof. induction a as [|i a IH]; intros; cbn; [reflexivity|]. destruct (step i s); auto. Qed.

Lemma inv_finishes : forall s E, inv s E -> exists sched s', run sched s = Some s' /\ all_done s'.
Proof.
  intro s. induction (less_wf s) as [s _ IH]. intros E Hi.
  destruct (moves_dec_all s) as [[i Hm]|Hm].
  - unfold moves in Hm. destruct (step i s) as [s1|] eqn:Es; [|congruence].
    destruct (step_inv _ _ _ _ Hi Es) as [E1 Hi1].
    destruct (IH s1 (step_less _ _ _ _ Hi Es) E1 Hi1) as (sched & s' & Hr & Hd).
    exists (i :: sched), s'. cbn. rewrite Es. auto.
  - exists [], s. split; [reflexivity|]. eapply inv_done; eauto.
Qed.

(** ** Threads that wait for each other *)

Definition knot (s : sys) (K : list nat) : Prop := forall i, In i K -> exists j, In j K /\ waits s i j.

Lemma holds_taken : forall s j l, holds s j l -> taken l s = true.
Proof.
  intros s j l (H & T & Hn & Hl). unfold taken. apply existsb_exists. exists (H, T).
  split; [eapply nth_error_In; eauto|]. unfold has. cbn [fst].
  destruct (in_dec lock_dec l H); [reflexivity | contradiction].
Qed.

Lemma waits_blocked : forall s i j, waits s i j -> step i s = None.
Proof.
  intros s i j (l & (H & T & Hn) & Hh). unfold step. rewrite Hn, (holds_taken _ _ _ Hh). reflexivity.
Qed.

Lemma set_nth_other : forall A i j (x : A) xs, i <> j -> nth_error (set_nth i x xs) j = nth_error xs j.
Proof.
  induction i as [|i IH]; intros [|j] x [|y xs] Hne; cbn; auto; try congruence.
Qed.

Lemma step_other : forall i j s s', step i s = Some s' -> i <> j -> nth_error (ths s') j = nth_error (ths s) j.
Proof.
  intros i j s s' Hs Hne. unfold step in Hs.
  destruct (nth_error (ths s) i) as [[H [|o T]]|]; try discriminate.
  destruct o as [l|l|l|l|c h|c h|v w|c f]; [destruct (taken l s); [discriminate|]| | | | | | |];
    inversion Hs; subst; cbn; apply set_nth_other; auto.
Qed.

Lemma knot_step : forall k s s' K, knot s K -> step k s = Some s' ->
  knot s' K /\ forall i, In i K -> nth_error (ths s') i = nth_error (ths s) i.
Proof.
  intros k s s' K Hk Hs.
  assert (Hne : forall i, In i K -> k <> i).
  { intros i Hi ->. destruct (Hk i Hi) as (j & _ & Hw). rewrite (waits_blocked _ _ _ Hw) in Hs. discriminate. }
  assert (Hsame : forall i, In i K -> nth_error (ths s') i = nth_error (ths s) i)
    by (intros i Hi; eapply step_other; eauto).
  split; auto. intros i Hi. destruct (Hk i Hi) as (j & Hj & l & (H & T & Hn) & (H2 & T2 & Hn2 & Hl)).
  exists j. split; auto. exists l. split; [exists H, T | exists H2, T2; split; auto]; rewrite Hsame; auto.
Qed.

Lemma knot_stuck : forall s K i, knot s K -> In i K -> stuck_for_good s i.
Proof.
  intros s K i Hk Hi. split.
  - destruct (Hk i Hi) as (j & _ & l & (H & T & Hn) & _). exists H, (Acq l :: T). split; [exact Hn | discriminate].
  - intros sched. revert s Hk. induction sched as [|k sched IH]; intros s Hk s' Hr; cbn in Hr.
    + inversion Hr; subst. split; [reflexivity|].
      destruct (Hk i Hi) as (j & _ & Hw). unfold moves. rewrite (waits_blocked _ _ _ Hw). congruence.
    + destruct (step k s) as [s1|] eqn:Es; [|discriminate].
      destruct (knot_step _ _ _ _ Hk Es) as [Hk1 Hsame].
      destruct (IH s1 Hk1 s' Hr) as [He Hm]. split; [rewrite He; auto | exact Hm].
Qed.

(** Whoever waits moves only after the mutex was given up. *)
Lemma waiter_moves : forall sched s s' i j l, asks s i l -> holds s j l -> run sched s = Some s' ->
  nth_error (ths s') i <> nth_error (ths s) i ->
  exists a b s1, sched = a ++ b /\ run a s = Some s1 /\ ~ holds s1 j l /\
    nth_error (ths s1) i = nth_error (ths s) i.
Proof.
  induction sched as [|k sched IH]; intros s s' i j l Ha Hh Hr Hne; cbn in Hr.
  - inversion Hr; subst. congruence.
  - destruct (step k s) as [s1|] eqn:Es; [|discriminate].
    assert (Hki : k <> i).
    { intros ->. rewrite (waits_blocked s i j) in Es; [discriminate|]. exists l; auto. }
    assert (Hsame : nth_error (ths s1) i = nth_error (ths s) i) by (eapply step_other; eauto).
    assert (Hd : holds s1 j l \/ ~ holds s1 j l).
    { destruct (nth_error (ths s1) j) as [[H T]|] eqn:Ej.
      - destruct (in_dec lock_dec l H) as [Hin|Hin].
        + left. exists H, T. auto.
        + right. intros (H2 & T2 & Hn2 & Hl2). rewrite Ej in Hn2. inversion Hn2; subst. auto.
      - right. intros (H2 & T2 & Hn2 & _). congruence. }
    destruct Hd as [Hd|Hd].
    + destruct (IH s1 s' i j l) as (a & b & s2 & -> & Hra & Hnh & He); auto.
      * destruct Ha as (H & T & Hn). exists H, T. rewrite Hsame. exact Hn.
      * rewrite Hsame. exact Hne.
      * exists (k :: a), b, s2. split; [reflexivity|]. split; [cbn; rewrite Es; exact Hra|].
        split; [exact Hnh|]. rewrite He. exact Hsame.
    + exists [k], sched, s1. split; [reflexivity|]. split; [cbn; rewrite Es; reflexivity|]. auto.
Qed.

Lemma waiter_stays : forall sched s s' i j l, asks s i l -> run sched s = Some s' ->
  (forall a b s1, sched = a ++ b -> run a s = Some s1 -> holds s1 j l) ->
  nth_error (ths s') i = nth_error (ths s) i.
Proof.
  induction sched as [|k sched IH]; intros s s' i j l Ha Hr Hall; cbn in Hr.
  - inversion Hr; subst. reflexivity.
  - destruct (step k s) as [s1|] eqn:Es; [|discriminate].
    assert (Hh : holds s j l) by (apply (Hall [] (k :: sched)); reflexivity).
    assert (Hki : k <> i).
    { intros ->. rewrite (waits_blocked s i j) in Es; [discriminate|]. exists l; auto. }
    assert (Hsame : nth_error (ths s1) i = nth_error (ths s) i) by (eapply step_other; eauto).
    rewrite <- Hsame. apply (IH s1 s' i j l); auto.
    + destruct Ha as (H & T & Hn). exists H, T. rewrite Hsame. exact Hn.
    + intros a b s2 -> Hra. apply (Hall (k :: a) b); [reflexivity|]. cbn. rewrite Es. exact Hra.
Qed.

(** ** Threads that have not begun do not matter *)

Definition idle (todos : list (list op)) : list thread := map (fun t => ([], t)) todos.

Lemma idle_free : forall l todos, existsb (has l) (idle todos) = false.
Proof. induction todos as [|t todos IH]; cbn; auto. Qed.

Lemma taken_idle : forall l xs r todos, taken l (mkSys (xs ++ idle todos) r) = taken l (mkSys xs r).
Proof. intros. unfold taken. cbn [ths]. rewrite existsb_app, idle_free. apply orb_false_r. Qed.

Lemma set_nth_app : forall A i (x : A) xs ys, i < length xs -> set_nth i x (xs ++ ys) = set_nth i x xs ++ ys.
Proof. induction i as [|i IH]; intros x [|y xs] ys Hl; cbn in *; try lia; [reflexivity|]. f_equal. apply IH. lia. Qed.

Lemma step_idle : forall i xs r s' todos, step i (mkSys xs r) = Some s' ->
  step i (mkSys (xs ++ idle todos) r) = Some (mkSys (ths s' ++ idle todos) (regs s')).
Proof.
  intros i xs r s' todos Hs. unfold step in *. cbn [ths regs] in *.
  destruct (nth_error xs i) as [[H T]|] eqn:Hn; [|discriminate].
  assert (Hi : i < length xs) by (apply nth_error_Some; congruence).
  rewrite nth_error_app1, Hn by exact Hi.
  destruct T as [|o T]; [discriminate|].
  destruct o as [l|l|l|l|c h|c h|v w|c f]; try rewrite taken_idle;
    [destruct (taken l (mkSys xs r)); [discriminate|]| | | | | | |];
    inversion Hs; subst; cbn; rewrite set_nth_app by exact Hi; reflexivity.
Qed.

Lemma run_idle : forall sched s s' todos, run sched s = Some s' ->
  run sched (mkSys (ths s ++ idle todos) (regs s)) = Some (mkSys (ths s' ++ idle todos) (regs s')).
Proof.
  induction sched as [|i sched IH]; intros s s' todos Hr; cbn in *.
  - inversion Hr; subst. reflexivity.
  - destruct (step i s) as [s1|] eqn:Es; [|discriminate].
    destruct s as [xs r]. cbn [ths regs]. rewrite (step_idle _ _ _ _ _ Es). apply IH. exact Hr.
Qed.

Lemma waits_idle : forall s i j todos, waits s i j -> waits (mkSys (ths s ++ idle todos) (regs s)) i j.
Proof.
  intros s i j todos (l & (H & T & Hn) & (H2 & T2 & Hn2 & Hl)). exists l. split.
  - exists H, T. cbn. rewrite nth_error_app1; auto. apply nth_error_Some. congruence.
  - exists H2, T2. cbn. rewrite nth_error_app1; auto. apply nth_error_Some. congruence.
Qed.

Lemma knot_idle : forall s K todos, knot s K -> knot (mkSys (ths s ++ idle todos) (regs s)) K.
Proof. intros s K todos Hk i Hi. destruct (Hk i Hi) as (j & Hj & Hw). exists j. auto using waits_idle. Qed.

Lemma start_app : forall a b, start (a ++ b) = mkSys (ths (start a) ++ idle b) (regs (start a)).
Proof. intros. unfold start, idle. cbn. rewrite map_app. reflexivity. Qed.
