From Coq Require Import List Arith Bool Lia.
From Verif Require Import LockModel LockSpec LockOrder LockProofs AccessSpec AccessProofs.
Import ListNotations.

(** ** The invariant *)

Definition tame (E : list lock) (t : thread) : Prop :=
  exists P, disc E P (fst t) (snd t) /\ forall l, In l (fst t) -> is_rpdo l -> In l E \/ In l P.

Record rinv (s : sys) (E : list lock) : Prop := {
  r_tame : Forall (tame E) (ths s);
  r_new : NoDup (flat_map (fun t => created (snd t)) (ths s));
  r_apart : forall l, In l (flat_map (fun t => created (snd t)) (ths s)) -> ~ In l E;
  r_regs : forall c h, In (c, h) (regs s) -> incl (owner h) E;
  r_held : NoDup (flat_map (fun t : thread => fst t) (ths s)) }.

Lemma tame_mono : forall E E' t, tame E t -> incl E E' -> tame E' t.
Proof.
  intros E E' t (P & Hd & Hl) Hi. exists P. split; [eapply disc_mono; eauto|].
  intros l H1 H2. destruct (Hl l H1 H2); auto.
Qed.

Lemma nodup_mid : forall A (a h h' c : list A), NoDup (a ++ h ++ c) -> NoDup h' -> incl h' h -> NoDup (a ++ h' ++ c).
Proof.
  intros A a h h' c Hn Hh Hi. revert Hn. induction a as [|x a IH]; cbn [app]; intro Hn.
  - induction h' as [|y h' IH]; cbn [app]; [exact (nodup_drop _ [] h c Hn)|].
    inversion Hh; subst. constructor; [|apply IH; auto; intros z Hz; apply Hi; right; exact Hz].
    intro Hy. apply in_app_iff in Hy. destruct Hy as [Hy|Hy]; [contradiction|].
    apply (nodup_apart _ [] h c y Hn); [apply Hi; left; reflexivity | exact Hy].
  - inversion Hn; subst. constructor; [|auto].
    intro Hx. match goal with Hx0 : ~ In x _ |- _ => apply Hx0 end. rewrite !in_app_iff in *. destruct Hx as [Hx|[Hx|Hx]]; auto.
Qed.

Lemma nodup_same : forall A B (f : A -> list B) l i j a b x, NoDup (flat_map f l) ->
  nth_error l i = Some a -> nth_error l j = Some b -> In x (f a) -> In x (f b) -> i = j.
Proof.
  induction l as [|y l IH]; intros i j a b x Hn Hi Hj Ha Hb; [destruct i; discriminate|].
  cbn [flat_map] in Hn.
  assert (Hsep : forall k z, nth_error l k = Some z -> In x (f y) -> In x (f z) -> False).
  { intros k z Hk Hy Hz. apply (nodup_apart _ [] (f y) (flat_map f l) x Hn Hy). apply in_flat_map. exists z.
    split; [eapply nth_error_In; eauto | exact Hz]. }
  destruct i as [|i], j as [|j]; cbn in Hi, Hj.
  - reflexivity.
  - inversion Hi; subst. destruct (Hsep _ _ Hj Ha Hb).
  - inversion Hj; subst. destruct (Hsep _ _ Hi Hb Ha).
  - f_equal. eapply IH; eauto. exact (nodup_drop _ [] (f y) _ Hn).
Qed.

Lemma rupdate : forall s E E' l1 l2 H T H' T' pre R,
  rinv s E -> ths s = l1 ++ (H, T) :: l2 -> incl E E' ->
  created T = pre ++ created T' -> (forall x, In x E' -> In x E \/ In x pre) ->
  tame E' (H', T') -> (forall c h, In (c, h) R -> incl (owner h) E') ->
  NoDup (flat_map (fun t : thread => fst t) (l1 ++ (H', T') :: l2)) ->
  rinv (mkSys (l1 ++ (H', T') :: l2) R) E'.
Proof.
  intros s E E' l1 l2 H T H' T' pre R [Hw Hn Ha Hr Hh] Hs Hi Hc He Hwf HR HN.
  rewrite Hs in *. rewrite flat_map_app in Hn, Ha. cbn [flat_map snd] in Hn, Ha. rewrite Hc in Hn, Ha.
  constructor; cbn [ths regs].
  - apply Forall_app in Hw. destruct Hw as [Hw1 Hw2]. inversion Hw2; subst.
    apply Forall_app. split; [|constructor; auto];
      (eapply Forall_impl; [|eassumption]); intros t Ht; eapply tame_mono; eauto.
  - rewrite flat_map_app. cbn [flat_map snd]. rewrite <- app_assoc in Hn.
    apply nodup_drop with pre. exact Hn.
  - intros l Hl. rewrite flat_map_app in Hl. cbn [flat_map snd] in Hl. intro HE.
    apply He in HE. destruct HE as [HE|HE].
    + apply (Ha l); auto. rewrite !in_app_iff in *. tauto.
    + rewrite <- app_assoc in Hn. exact (nodup_apart _ _ _ _ _ Hn HE Hl).
  - exact HR.
  - exact HN.
Qed.

Lemma created_members : forall c f R, (forall h b, f h = Some b -> exists r, runs (handle h) r b) -> created (member_code c f R) = [].
Proof.
  intros c f R Hf. apply created_plain. induction R as [|[c' h] R IH]; cbn; [constructor|].
  destruct (cont_dec c c'); [|exact IH]. destruct (f h) as [b|] eqn:Ef; [|exact IH]. rewrite <- app_assoc.
  destruct (Hf _ _ Ef) as [r Hr]. destruct (plain_runs _ _ _ Hr _ _ (handle_ordered h)) as [_ Hp].
  apply Forall_app. split; [exact Hp | constructor; [exact Logic.I | exact IH]].
Qed.

Lemma members_disc : forall c f R E P H u, (forall h b, f h = Some b -> exists r, runs (handle h) r b) ->
  (forall c h, In (c, h) R -> incl (owner h) E) -> In (list_guard c) H ->
  disc E P H u -> disc E P H (member_code c f R ++ u).
Proof.
  intros c f R E P H u Hf HR Hg Hd. induction R as [|[c' h] R IH]; cbn; [exact Hd|].
  assert (IH' : disc E P H (member_code c f R ++ u)) by (apply IH; intros; eapply HR; right; eauto).
  destruct (cont_dec c c'); [|exact IH']. destruct (f h) as [b|] eqn:Ef; [|exact IH']. rewrite <- !app_assoc.
  destruct (Hf _ _ Ef) as [r Hr].
  apply (runs_disc _ _ _ Hr _ _ _ (handle_guarded h)); try (intros x []).
  - apply (HR c' h). left; reflexivity.
  - cbn [app disc]. split; [exact Hg | exact IH'].
Qed.

Lemma nodup_remove1 : forall l (H : list lock), NoDup H -> NoDup (remove1 lock_dec l H).
Proof.
  induction H as [|y H IH]; cbn; auto. intro Hn. inversion Hn; subst. destruct (lock_dec l y); auto.
  constructor; auto. intro Hy. apply remove1_in in Hy. contradiction.
Qed.
Lemma remove1_not : forall l (H : list lock), NoDup H -> ~ In l (remove1 lock_dec l H).
Proof.
  induction H as [|y H IH]; cbn; auto. intro Hn. inversion Hn; subst. destruct (lock_dec l y) as [<-|Hne]; auto.
  intros [Hy|Hy]; [congruence | exact (IH H3 Hy)].
Qed.
Lemma remove1_keep : forall l m (P : list lock), In m P -> m <> l -> In m (remove1 lock_dec l P).
Proof.
  induction P as [|y P IH]; cbn; auto. intros [->|Hm] Hne.
  - destruct (lock_dec l m); [congruence | left; reflexivity].
  - destruct (lock_dec l y); auto. right. auto.
Qed.

Lemma not_taken : forall l s, taken l s = false -> ~ In l (flat_map (fun t : thread => fst t) (ths s)).
Proof.
  intros l s Ht Hl. apply in_flat_map in Hl. destruct Hl as ([H T] & Hin & Hl).
  assert (taken l s = true); [|congruence]. unfold taken. apply existsb_exists. exists (H, T). split; auto.
  unfold has. destruct (in_dec lock_dec l (fst (H, T))); [reflexivity | contradiction].
Qed.

Lemma nodup_mid_cons : forall A (a h c : list A) x, NoDup (a ++ h ++ c) -> ~ In x (a ++ h ++ c) -> NoDup (a ++ (x :: h) ++ c).
Proof. intros A a h c x Hn Hx. cbn [app]. apply NoDup_Add with (a := x) (l := a ++ h ++ c); [apply Add_app | auto]. Qed.

Lemma nodup_part : forall A (a h c : list A), NoDup (a ++ h ++ c) -> NoDup h.
Proof.
  intros A a h c Hn. induction a as [|x a IH]; cbn in Hn; [|inversion Hn; auto].
  induction h as [|y h IHh]; cbn in Hn; [constructor|]. inversion Hn; subst. constructor; [|auto].
  intro Hy. match goal with Hx : ~ In y _ |- _ => apply Hx end. apply in_or_app. auto.
Qed.

(** ** Every step keeps the invariant *)

Lemma new_free : forall s E i H l T, rinv s E -> nth_error (ths s) i = Some (H, New l :: T) ->
  is_rpdo l /\ ~ In l (flat_map (fun t : thread => fst t) (ths s)) /\ In l (created T).
Proof.
  intros s E i H l T Hi Hn. pose proof (r_tame _ _ Hi) as Ht. rewrite Forall_forall in Ht.
  destruct (Ht _ (nth_error_In _ _ Hn)) as (P & Hd & Hp). cbn [fst snd disc] in *. destruct Hd as [Hr Hd].
  assert (Hc : In l (created T)) by (eapply disc_private; [exact Hd | left; reflexivity]).
  assert (Hall : In l (flat_map (fun t => created (snd t)) (ths s)))
    by (apply in_flat_map; exists (H, New l :: T); split; [eapply nth_error_In; eauto | exact Hc]).
  split; [exact Hr|]. split; [|exact Hc].
  intro Hl. apply in_flat_map in Hl. destruct Hl as ([H2 T2] & Hin & Hl). apply In_nth_error in Hin. destruct Hin as [j Hj].
  destruct (Ht _ (nth_error_In _ _ Hj)) as (P2 & Hd2 & Hp2). cbn [fst snd] in *.
  destruct (Hp2 l Hl Hr) as [HE|HP]; [exact (r_apart _ _ Hi l Hall HE)|].
  assert (i = j).
  { eapply nodup_same with (f := fun t : thread => created (snd t)) (x := l); [exact (r_new _ _ Hi) | exact Hn | exact Hj | exact Hc |].
    cbn [snd]. eapply disc_private; eauto. }
  subst j. rewrite Hn in Hj. inversion Hj; subst. 
  assert (Hd3 : disc E P2 H2 (New l :: T)) by exact Hd2. cbn [disc] in Hd3. destruct Hd3 as [_ Hd3].
  pose proof (disc_count _ _ _ _ Hd3 l) as Hcount. cbn [count_occ] in Hcount. destruct (lock_dec l l); [|congruence].
  assert (Hone : count_occ lock_dec (created T) l <= 1).
  { assert (Hnd : NoDup (created T)).
    { pose proof (r_new _ _ Hi) as Hn2. destruct (nth_error_split _ _ Hn) as (l1 & l2 & Hl12 & _).
      rewrite Hl12 in Hn2. rewrite flat_map_app in Hn2. cbn [flat_map snd] in Hn2. exact (nodup_part _ _ _ _ Hn2). }
    apply (proj1 (NoDup_count_occ lock_dec (created T)) Hnd). }
  apply (count_occ_In lock_dec) in HP. lia.
Qed.

Lemma rstep : forall i s s' E, rinv s E -> step i s = Some s' -> exists E', rinv s' E'.
Proof.
  intros i s s' E Hi Hs. unfold step in Hs.
  destruct (nth_error (ths s) i) as [[H T]|] eqn:Hn; [|discriminate].
  destruct T as [|o T]; [discriminate|].
  assert (Ht : tame E (H, o :: T)).
  { pose proof (r_tame _ _ Hi) as Ht. rewrite Forall_forall in Ht. apply Ht. eapply nth_error_In; eauto. }
  destruct Ht as (P & Hd & Hp). cbn [fst snd] in Hd, Hp.
  destruct (nth_error_split _ _ Hn) as (l1 & l2 & Hl & Hlen).
  assert (Hset : forall x, set_nth i x (ths s) = l1 ++ x :: l2)
    by (intro x; rewrite Hl, <- Hlen; apply set_nth_split).
  pose proof (r_regs _ _ Hi) as HR. pose proof (r_held _ _ Hi) as HN.
  assert (HF : forall h t, flat_map (fun t : thread => fst t) (l1 ++ (h, t) :: l2)
      = flat_map (fun t : thread => fst t) l1 ++ h ++ flat_map (fun t : thread => fst t) l2)
    by (intros; rewrite flat_map_app; reflexivity).
  rewrite Hl, HF in HN.
  assert (HH : NoDup H) by exact (nodup_part _ _ _ _ HN).
  assert (Hkeep : forall H' T' R, created (o :: T) = created T' -> tame E (H', T') ->
            (forall c h, In (c, h) R -> incl (owner h) E) -> NoDup (flat_map (fun t : thread => fst t) l1 ++ H' ++ flat_map (fun t : thread => fst t) l2) ->
            rinv (mkSys (set_nth i (H', T') (ths s)) R) E).
  { intros H' T' R Hc Hw' HR' HN'. rewrite Hset. apply (rupdate s E E l1 l2 H (o :: T) H' T' [] R); auto using incl_refl. rewrite HF. exact HN'. }
  destruct o as [l|l|l|l|c h|c h|v w|c f]; cbn [disc] in Hd.
  - (* Acq *)
    destruct (taken l s) eqn:Et; [discriminate|]. inversion Hs; subst s'; clear Hs. exists E. apply Hkeep; auto.
    + exists P. cbn [fst snd]. split; [exact (proj2 Hd)|]. intros m [<-|Hm] Hr; [left; apply Hd; exact Hr | auto].
    + apply nodup_mid_cons; [exact HN|]. apply not_taken in Et. rewrite Hl, HF in Et. exact Et.
  - (* Rel *)
    inversion Hs; subst s'; clear Hs. exists E. apply Hkeep; auto.
    + exists P. cbn [fst snd]. split; [exact Hd|]. intros m Hm Hr. apply remove1_in in Hm. auto.
    + eapply nodup_mid; [exact HN | apply nodup_remove1; exact HH |]. intros x Hx. apply remove1_in in Hx. exact Hx.
  - (* New *)
    destruct (new_free _ _ _ _ _ _ Hi Hn) as (Hr & Hf & _). rewrite Hl, HF in Hf.
    inversion Hs; subst s'; clear Hs. exists E. apply Hkeep; auto.
    + exists (l :: P). cbn [fst snd]. split; [exact (proj2 Hd)|]. intros m [<-|Hm] Hm2; [right; left; reflexivity|].
      destruct (Hp m Hm Hm2); [auto | right; right; auto].
    + apply nodup_mid_cons; assumption.
  - (* Drop *)
    inversion Hs; subst s'; clear Hs. exists E. rewrite Hset. destruct Hd as [Hin Hd].
    eapply (rupdate s E E l1 l2 H _ _ T [l]); eauto using incl_refl.
    + exists (remove1 lock_dec l P). cbn [fst snd]. split; [exact Hd|]. intros m Hm Hr.
      assert (m <> l) by (intros ->; exact (remove1_not _ _ HH Hm)).
      apply remove1_in in Hm. destruct (Hp m Hm Hr); auto. right. apply remove1_keep; auto.
    + rewrite HF. eapply nodup_mid; [exact HN | apply nodup_remove1; exact HH |]. intros x Hx. apply remove1_in in Hx. exact Hx.
  - (* Reg *)
    inversion Hs; subst s'; clear Hs.
    assert (Hother : (forall n i0, c = CFrames -> h <> HRpdo n i0) -> exists E', rinv (mkSys (set_nth i (H, T) (ths s)) ((c, h) :: regs s)) E').
    { intro Hne. assert (Hd' : In (list_guard c) H /\ incl (owner h) E /\ disc E P H T).
      { destruct c; [|exact Hd]. destruct h; try exact Hd. destruct (Hne n i0 eq_refl eq_refl). }
      exists E. destruct Hd' as (_ & Ho & Hd'). apply Hkeep; auto.
      - destruct c; [|reflexivity]. destruct h; try reflexivity. destruct (Hne n i0 eq_refl eq_refl).
      - exists P. auto.
      - intros c' h' [Heq|Hin]; [inversion Heq; subst; auto | eauto]. }
    destruct c as [|n0]; [|apply Hother; discriminate]. destruct h as [| |n i0| | | |]; try (apply Hother; discriminate). clear Hother.
    destruct Hd as (_ & Hin & Hd). exists (LRpdo n i0 :: E). rewrite Hset.
    eapply (rupdate s E (LRpdo n i0 :: E) l1 l2 H _ _ T [LRpdo n i0]); eauto.
    + intros x Hx; right; exact Hx.
    + intros x [<-|Hx]; [right; left; reflexivity | left; exact Hx].
    + exists (remove1 lock_dec (LRpdo n i0) P). cbn [fst snd]. split; [exact Hd|]. intros m Hm Hr.
      destruct (lock_dec m (LRpdo n i0)) as [->|Hne]; [left; left; reflexivity|].
      destruct (Hp m Hm Hr); [left; right; auto | right; apply remove1_keep; auto].
    + intros c' h' [Heq|Hin'].
      * inversion Heq; subst. intros x [<-|[]]. left; reflexivity.
      * intros x Hx. right. eapply HR; eauto.
    + rewrite HF. exact HN.
  - (* Unreg *)
    inversion Hs; subst s'; clear Hs. exists E. apply Hkeep; auto.
    + exists P. cbn [fst snd]. split; [exact (proj2 Hd) | exact Hp].
    + intros c' h' Hin. apply remove1_in in Hin. eauto.
  - (* Do *)
    inversion Hs; subst s'; clear Hs. exists E. apply Hkeep; auto.
    exists P. cbn [fst snd]. split; [exact (proj2 Hd) | exact Hp].
  - (* Calls *)
    inversion Hs; subst s'; clear Hs. exists E. destruct Hd as (Hg & Hf & Hd). apply Hkeep; auto.
    + rewrite created_app, (created_members _ _ _ Hf). reflexivity.
    + exists P. cbn [fst snd]. split; [apply members_disc; auto | exact Hp].
Qed.

Lemma rrun : forall sched s s' E, rinv s E -> run sched s = Some s' -> exists E', rinv s' E'.
Proof.
  induction sched as [|i sched IH]; intros s s' E Hi Hr; cbn in Hr.
  - inversion Hr; subst. eauto.
  - destruct (step i s) as [s1|] eqn:Es; [|discriminate].
    destruct (rstep _ _ _ _ Hi Es) as [E1 Hi1]. eauto.
Qed.

Lemma history_disc : forall u, history full_call u -> disc [] [] [] u.
Proof.
  induction 1; [reflexivity|].
  eapply runs_disc; eauto using incl_refl. apply full_guarded. assumption.
Qed.

Lemma rstart : forall todos, Forall (history full_call) todos -> distinct_objects todos -> rinv (start todos) [].
Proof.
  intros todos Hf Hd. constructor; cbn.
  - apply Forall_forall. intros t Ht. apply in_map_iff in Ht. destruct Ht as (u & <- & Hu).
    rewrite Forall_forall in Hf. exists []. cbn [fst snd]. split; [apply history_disc; auto | intros l []].
  - unfold distinct_objects in Hd. rewrite flat_map_concat_map in *. rewrite map_map. exact Hd.
  - intros l _ [].
  - intros c h [].
  - induction todos as [|t todos IH]; cbn; [constructor|]. apply IH.
    + inversion Hf; assumption.
    + unfold distinct_objects in *. cbn in Hd. exact (nodup_drop _ [] _ _ Hd).
Qed.

(** ** Consequences *)

Lemma at_disc : forall s E i v w, rinv s E -> at_access s i v w ->
  exists P held todo, nth_error (ths s) i = Some (held, todo) /\ access E P held v w /\
    (forall l, In l P -> In l (created todo)).
Proof.
  intros s E i v w Hi (held & o & todo & Hn & Ht). pose proof (r_tame _ _ Hi) as HT. rewrite Forall_forall in HT.
  destruct (HT _ (nth_error_In _ _ Hn)) as (P & Hd & _). cbn [fst snd] in Hd. exists P, held, (o :: todo).
  split; [exact Hn|]. split; [|intros l Hl; eapply disc_private; eauto].
  destruct o as [l|l|l|l|c h|c h|v' w'|c f]; cbn in Ht; try discriminate; inversion Ht; subst; cbn in Hd.
  - destruct c; [|exact (proj1 Hd)]. destruct h; exact (proj1 Hd).
  - exact (proj1 Hd).
  - exact (proj1 Hd).
  - exact (proj1 Hd).
Qed.

Lemma no_race : forall s E v, rinv s E -> ~ exposed v -> ~ race s v.
Proof.
  intros s E v Hi Hv (i & j & w & Hij & H1 & H2).
  destruct (at_disc _ _ _ _ _ Hi H1) as (P1 & h1 & t1 & Hn1 & Ha1 & Hp1).
  destruct (at_disc _ _ _ _ _ Hi H2) as (P2 & h2 & t2 & Hn2 & Ha2 & Hp2).
  assert (Hg : forall l, In l h1 -> In l h2 -> False).
  { intros l L1 L2. apply Hij. eapply nodup_same with (f := fun t : thread => fst t) (x := l); eauto. apply (r_held _ _ Hi). }
  destruct v; try (destruct (Hv Logic.I)); try (cbn in Ha1, Ha2; exact (Hg _ Ha1 Ha2)).
  cbn in Ha1, Ha2. destruct Ha1 as [Ha1|[Ha1 _]]; [|discriminate]. apply Hp1 in Ha1.
  destruct Ha2 as [Ha2|[_ Ha2]].
  - apply Hp2 in Ha2. apply Hij. eapply nodup_same with (f := fun t : thread => created (snd t)); eauto. apply (r_new _ _ Hi).
  - apply (r_apart _ _ Hi (LRpdo n i0)); [|exact Ha2]. apply in_flat_map. exists (h1, t1). split; [eapply nth_error_In; eauto | exact Ha1].
Qed.

Lemma one_holder : forall s E i j l, rinv s E -> holds s i l -> holds s j l -> i = j.
Proof.
  intros s E i j l Hi (h1 & t1 & H1 & L1) (h2 & t2 & H2 & L2).
  eapply nodup_same with (f := fun t : thread => fst t); eauto. apply (r_held _ _ Hi).
Qed.
