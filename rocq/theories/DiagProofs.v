From Verif Require Import Base LayerModel DiagModel DiagSpec.

Section Ind.
Variable P : dlayer -> Prop.
Hypothesis L : forall s h, P (DLeaf s h).
Hypothesis G : forall s n l, Forall P l -> P (DGroup s n l).
Fixpoint dlayer_nested (t : dlayer) : P t :=
  match t with
  | DLeaf s h => L s h
  | DGroup s n l => G s n l ((fix all l := match l return Forall P l with [] => Forall_nil P | c :: l => Forall_cons c (dlayer_nested c) (all l) end) l)
  end.
End Ind.

Lemma past_init_lgt : forall s, lgt s Shutdown = true <-> past_init s.
Proof. intros s. unfold past_init. destruct s; cbn; intuition discriminate. Qed.

(** The actions that take effect, throwing being an error *)
Fixpoint cut (h : list act) : list act :=
  match h with [] => [] | AThrow t :: _ => [ASet ERROR t] | a :: h => a :: cut h end.
Fixpoint eff (t : dlayer) : list act :=
  match t with
  | DLeaf s h => if lgt s Shutdown then cut h else []
  | DGroup s n l => if lgt s Shutdown then if n then [] else flat_map eff l else []
  end.
Lemma run_acts_app : forall a b r, (forall t, ~ In (AThrow t) a) -> run_acts (a ++ b) r = run_acts b (run_acts a r).
Proof.
  induction a as [|x a IH]; intros b r N; [reflexivity|]. assert (N' : forall t, ~ In (AThrow t) a) by (intros t H; apply (N t); right; exact H).
  destruct x as [s t|k v|w]; cbn [app run_acts]; try (apply IH; exact N'). destruct (N w). left. reflexivity.
Qed.
Lemma run_cut : forall h r, run_acts (cut h) r = run_acts h r.
Proof. induction h as [|a h IH]; intros r; [reflexivity|]. destruct a; cbn; auto. Qed.
Lemma cut_no_throw : forall h t, ~ In (AThrow t) (cut h).
Proof. induction h as [|a h IH]; intros t; [intros []|]. destruct a as [s u|k v|w]; cbn; intros [E|E]; try discriminate E; try apply (IH t E). exact E. Qed.
Lemma eff_no_throw : forall t w, ~ In (AThrow w) (eff t).
Proof.
  induction t as [s h|s n l IH] using dlayer_nested; intros w; cbn [eff].
  - destruct (lgt s Shutdown); [apply cut_no_throw|intros []].
  - destruct (lgt s Shutdown); [|intros []]. destruct n; [intros []|]. intros H. apply in_flat_map in H as [c [I H]].
    rewrite Forall_forall in IH. exact (IH c I w H).
Qed.
Lemma effs_no_throw : forall l w, ~ In (AThrow w) (flat_map eff l).
Proof. intros l w H. apply in_flat_map in H as [c [_ H]]. exact (eff_no_throw c w H). Qed.
Lemma ldiag_eff : forall t r, ldiag t r = run_acts (eff t) r.
Proof.
  induction t as [s h|s n l IH] using dlayer_nested; intros r; cbn [ldiag eff].
  - destruct (lgt s Shutdown); [symmetry; apply run_cut|reflexivity].
  - destruct (lgt s Shutdown); [|reflexivity]. destruct n; [reflexivity|]. revert r. induction l as [|c l IHl]; intros r; [reflexivity|].
    inversion IH as [|? ? H1 H2]; subst. cbn [flat_map]. rewrite run_acts_app by apply eff_no_throw. rewrite <- H1. apply IHl, H2.
Qed.
Lemma group_diag_eff : forall l r, group_diag l r = run_acts (flat_map eff l) r.
Proof.
  induction l as [|c l IH]; intros r; [reflexivity|]. cbn [group_diag fold_left flat_map]. rewrite run_acts_app by apply eff_no_throw.
  rewrite <- ldiag_eff. apply IH.
Qed.

(** Their meaning *)
Lemma reached_cons : forall a b h, reached (b :: h) a <-> a = b \/ ((forall w, b <> AThrow w) /\ reached h a).
Proof.
  intros a b h. split.
  - intros (p & q & E & N). destruct p as [|x p]; cbn in E; injection E as -> ->; [left; reflexivity|right].
    split; [intros w ->; apply (N w); left; reflexivity|]. exists p, q. split; [reflexivity|]. intros w H. apply (N w). right. exact H.
  - intros [->|[N (p & q & -> & M)]]; [exists [], h; split; [reflexivity|intros w []]|].
    exists (b :: p), q. split; [reflexivity|]. intros w [H|H]; [exact (N w H)|exact (M w H)].
Qed.
Lemma in_cut : forall h a, In a (cut h) <-> (forall w, a <> AThrow w) /\ (reached h a \/ exists t, a = ASet ERROR t /\ reached h (AThrow t)).
Proof.
  induction h as [|b h IH]; intros a.
  - cbn. split; [intros []|]. intros [_ [(p & q & E & _)|[t [_ (p & q & E & _)]]]]; destruct p; discriminate E.
  - assert (C : (exists t, b = AThrow t) \/ (forall w, b <> AThrow w)) by (destruct b; [right|right|left]; [discriminate|discriminate|eauto]).
    destruct C as [[t ->]|NT].
    + cbn [cut In]. split.
      * intros [<-|[]]. split; [discriminate|]. right. exists t. split; [reflexivity|]. apply reached_cons. left. reflexivity.
      * intros [N [H|[u [-> H]]]]; apply reached_cons in H as [H|[H _]]; try (destruct (H t); reflexivity).
        -- destruct (N t H).
        -- injection H as ->. left. reflexivity.
    + replace (cut (b :: h)) with (b :: cut h) by (destruct b; try reflexivity; destruct (NT what); reflexivity). cbn [In]. rewrite IH.
      split.
      * intros [<-|[N H]]; [split; [exact NT|left; apply reached_cons; left; reflexivity]|].
        split; [exact N|]. destruct H as [H|[t [-> H]]]; [left|right; exists t; split; [reflexivity|]]; apply reached_cons; right; split; assumption.
      * intros [N [H|[t [-> H]]]]; apply reached_cons in H as [H|[_ H]].
        -- left. congruence.
        -- right. split; [exact N|left; exact H].
        -- destruct (NT t). congruence.
        -- right. split; [exact N|right; exists t; split; [reflexivity|exact H]].
Qed.
Lemma in_eff : forall t a, In a (eff t) <-> exists h, active t h /\ In a (cut h).
Proof.
  induction t as [s h|s n l IH] using dlayer_nested; intros a; cbn [eff].
  - destruct (lgt s Shutdown) eqn:E.
    + split; [intros H; exists h; split; [constructor; apply past_init_lgt, E|exact H]|]. intros [k [A H]]. inversion A; subst. exact H.
    + split; [intros []|]. intros [k [A H]]. inversion A as [s0 h0 PI|]; subst. apply past_init_lgt in PI. congruence.
  - rewrite Forall_forall in IH. destruct (lgt s Shutdown) eqn:E; [destruct n|].
    + split; [intros []|]. intros [k [A H]]. inversion A.
    + rewrite in_flat_map. split.
      * intros [c [I H]]. apply (IH c I) in H as [k [A H]]. exists k. split; [econstructor; [apply past_init_lgt, E|exact I|exact A]|exact H].
      * intros [k [A H]]. inversion A; subst. exists c. split; [assumption|]. apply IH; [assumption|]. exists k. auto.
    + split; [intros []|]. intros [k [A H]]. inversion A as [|s0 l0 c0 h0 PI]; subst. apply past_init_lgt in PI. congruence.
Qed.
Lemma says_eff : forall l s t, says l s t <-> In (ASet s t) (flat_map eff l).
Proof.
  intros l s t. rewrite in_flat_map. split.
  - intros (c & h & I & A & H). exists c. split; [exact I|]. apply in_eff. exists h. split; [exact A|]. apply in_cut. split; [discriminate|].
    destruct H as [H|[-> H]]; [left; exact H|right; exists t; auto].
  - intros [c [I H]]. apply in_eff in H as [h [A H]]. apply in_cut in H as [_ H]. exists c, h. split; [exact I|]. split; [exact A|].
    destruct H as [H|[u [E H]]]; [left; exact H|right]. injection E as -> ->. auto.
Qed.
Lemma gives_eff : forall l k v, gives l k v <-> In (AAdd k v) (flat_map eff l).
Proof.
  intros l k v. rewrite in_flat_map. split.
  - intros (c & h & I & A & H). exists c. split; [exact I|]. apply in_eff. exists h. split; [exact A|]. apply in_cut. split; [discriminate|left; exact H].
  - intros [c [I H]]. apply in_eff in H as [h [A H]]. apply in_cut in H as [_ [H|[u [E _]]]]; [|discriminate E]. exists c, h. auto.
Qed.

(** The report *)
Lemma run_level : forall l r, (forall t, ~ In (AThrow t) l) ->
  let L := sev_z (level (rst (run_acts l r))) in
  sev_z (level (rst r)) <= L /\ (forall s t, In (ASet s t) l -> sev_z s <= L) /\
  (L = sev_z (level (rst r)) \/ exists s t, In (ASet s t) l /\ sev_z s = L).
Proof.
  induction l as [|a l IH]; intros r N; [cbn; split; [lia|]; split; [intros s t []|left; reflexivity]|].
  assert (N' : forall t, ~ In (AThrow t) l) by (intros t H; apply (N t); right; exact H).
  destruct a as [s t|k v|w]; [| |destruct (N w); left; reflexivity]; cbn [run_acts].
  - destruct (IH (mkR (set (rst r) s t) (rvals r)) N') as (A & B & C). cbv zeta. cbn [rst] in *.
    assert (E : sev_z (level (set (rst r) s t)) = Z.max (sev_z (level (rst r))) (sev_z s)) by (unfold set; cbn [level]; destruct (Z.ltb_spec (sev_z (level (rst r))) (sev_z s)); lia).
    rewrite E in *. split; [lia|]. split.
    + intros s' t' [H|H]; [injection H as -> ->; lia|exact (B s' t' H)].
    + destruct C as [C|[s' [t' [H C]]]]; [|right; exists s', t'; split; [right; exact H|exact C]].
      destruct (Z.max_spec (sev_z (level (rst r))) (sev_z s)) as [[_ M]|[_ M]]; rewrite M in C; [right; exists s, t; split; [left; reflexivity|congruence]|left; exact C].
  - destruct (IH (mkR (rst r) (rvals r ++ [(k, v)])) N') as (A & B & C). cbv zeta. cbn [rst] in *.
    split; [exact A|]. split; [intros s' t' [H|H]; [discriminate H|exact (B s' t' H)]|].
    destruct C as [C|[s' [t' [H C]]]]; [left; exact C|right; exists s', t'; split; [right; exact H|exact C]].
Qed.
Lemma run_values : forall l r, (forall t, ~ In (AThrow t) l) ->
  forall k v, In (k, v) (rvals (run_acts l r)) <-> In (k, v) (rvals r) \/ In (AAdd k v) l.
Proof.
  induction l as [|a l IH]; intros r N k v; [cbn; tauto|].
  assert (N' : forall t, ~ In (AThrow t) l) by (intros t H; apply (N t); right; exact H).
  destruct a as [s t|k' v'|w]; [| |destruct (N w); left; reflexivity]; cbn [run_acts]; rewrite IH by exact N'; cbn [rvals In].
  - intuition discriminate.
  - rewrite in_app_iff. cbn. split; [intros [[H|[H|[]]]|H]; auto; injection H as -> ->; auto|intros [H|[H|H]]; auto; injection H as -> ->; auto].
Qed.
Lemma join_snoc : forall ts t, ts <> [] -> join (ts ++ [t]) = join ts ++ [59; 32] ++ t.
Proof.
  induction ts as [|x ts IH]; intros t N; [congruence|]. destruct ts as [|y ts]; [reflexivity|].
  change (join ((x :: y :: ts) ++ [t])) with (x ++ [59; 32] ++ join ((y :: ts) ++ [t])). rewrite IH by discriminate.
  change (join (x :: y :: ts)) with (x ++ [59; 32] ++ join (y :: ts)). rewrite <- !app_assoc. reflexivity.
Qed.
Lemma join_empty : forall ts, Forall (fun t => t <> []) ts -> join ts = [] -> ts = [].
Proof. intros ts F E. destruct ts as [|x ts]; [reflexivity|]. inversion F; subst. destruct ts; cbn in E; [congruence|]. destruct x; [congruence|discriminate E]. Qed.
Lemma run_reason : forall l r ts, (forall t, ~ In (AThrow t) l) -> reason (rst r) = join ts -> Forall (fun t => t <> []) ts ->
  exists us, reason (rst (run_acts l r)) = join (ts ++ us) /\ Forall (fun t => t <> []) us /\
    forall t, In t us <-> t <> [] /\ exists s, In (ASet s t) l.
Proof.
  induction l as [|a l IH]; intros r ts N E F.
  - exists []. rewrite app_nil_r. split; [exact E|]. split; [constructor|]. intros t. split; [intros []|intros [_ [s []]]].
  - assert (N' : forall t, ~ In (AThrow t) l) by (intros t H; apply (N t); right; exact H).
    destruct a as [s t|k' v'|w]; [| |destruct (N w); left; reflexivity]; cbn [run_acts].
    + destruct t as [|c t].
      * destruct (IH (mkR (set (rst r) s []) (rvals r)) ts N') as (us & A & B & C); [exact E|exact F|]. exists us. split; [exact A|]. split; [exact B|].
        intros t'. rewrite C. split; intros [H [s' H']]; (split; [exact H|]); [exists s'; right; exact H'|]. destruct H' as [H'|H']; [injection H' as _ <-; congruence|exists s'; exact H'].
      * destruct (IH (mkR (set (rst r) s (c :: t)) (rvals r)) (ts ++ [c :: t]) N') as (us & A & B & C).
        -- cbn [rst set reason]. rewrite E. destruct ts as [|x ts]; [reflexivity|].
           destruct (join (x :: ts)) eqn:J; [apply join_empty in J; [discriminate J|exact F]|]. rewrite <- J. rewrite join_snoc by discriminate. reflexivity.
        -- apply Forall_app. split; [exact F|]. constructor; [discriminate|constructor].
        -- exists ((c :: t) :: us). rewrite <- app_assoc in A. split; [exact A|]. split; [constructor; [discriminate|exact B]|].
           intros t'. cbn [In]. rewrite C. split.
           ++ intros [<-|[H [s' H']]]; [split; [discriminate|exists s; left; reflexivity]|split; [exact H|exists s'; right; exact H']].
           ++ intros [H [s' [H'|H']]]; [left; congruence|right; split; [exact H|exists s'; exact H']].
    + destruct (IH (mkR (rst r) (rvals r ++ [(k', v')])) ts N') as (us & A & B & C); [exact E|exact F|]. exists us. split; [exact A|]. split; [exact B|].
      intros t'. rewrite C. split; intros [H [s' H']]; (split; [exact H|]); exists s'; [right; exact H'|]. destruct H' as [H'|H']; [discriminate H'|exact H'].
Qed.

(** Entries of the logger *)
Lemma log_entries_level : forall l s, slevel (fst (log_entries l s)) = slevel s /\ smsg (fst (log_entries l s)) = smsg s.
Proof.
  induction l as [|e l IH]; intros s; [split; reflexivity|]. cbn [log_entries]. unfold log_entry.
  destruct (le_level e <=? slevel s); [specialize (IH (mkStat (slevel s) (smsg s) (svals s ++ [(le_name e, VT (match le_read e with Some t => t | None => str "<ERROR>" end))])))|specialize (IH s)];
    destruct (log_entries l _); cbn in *; exact IH.
Qed.
Lemma log_entries_spec : forall l s,
  svals (fst (log_entries l s)) = svals s ++ map (fun e => (le_name e, VT (match le_read e with Some t => t | None => str "<ERROR>" end))) (filter (fun e => le_level e <=? slevel s) l) /\
  snd (log_entries l s) = map (fun e => le_level e <=? slevel s) l.
Proof.
  induction l as [|e l IH]; intros s; [cbn; rewrite app_nil_r; split; reflexivity|]. cbn [log_entries map filter]. unfold log_entry.
  destruct (le_level e <=? slevel s) eqn:E.
  - set (s1 := mkStat (slevel s) (smsg s) _). destruct (IH s1) as [A B]. destruct (log_entries l s1) as [s2 bs]. cbn [fst snd] in *. split.
    + rewrite A. unfold s1. cbn [svals slevel map]. rewrite <- app_assoc. reflexivity.
    + rewrite B. reflexivity.
  - destruct (IH s) as [A B]. destruct (log_entries l s) as [s2 bs]. cbn [fst snd] in *. split; [exact A|rewrite B; reflexivity].
Qed.

(** The order of texts and values *)
Lemma run_texts : forall l r ts, (forall t, ~ In (AThrow t) l) -> reason (rst r) = join ts -> Forall (fun t => t <> []) ts ->
  reason (rst (run_acts l r)) = join (ts ++ texts l).
Proof.
  induction l as [|a l IH]; intros r ts N E F; [cbn; rewrite app_nil_r; exact E|].
  assert (N' : forall t, ~ In (AThrow t) l) by (intros t H; apply (N t); right; exact H).
  destruct a as [s t|k' v'|w]; [| |destruct (N w); left; reflexivity]; cbn [run_acts texts flat_map].
  - destruct t as [|c t]; cbn [app]; [apply IH; [exact N'|exact E|exact F]|].
    change ((c :: t) :: flat_map _ l) with ([c :: t] ++ texts l). rewrite app_assoc. apply IH; [exact N'| |].
    + cbn [rst set reason]. rewrite E. destruct ts as [|x ts]; [reflexivity|].
      destruct (join (x :: ts)) eqn:J; [apply join_empty in J; [discriminate J|exact F]|]. rewrite <- J. rewrite join_snoc by discriminate. reflexivity.
    + apply Forall_app. split; [exact F|]. constructor; [discriminate|constructor].
  - apply IH; [exact N'|exact E|exact F].
Qed.
Lemma run_vals : forall l r, (forall t, ~ In (AThrow t) l) -> rvals (run_acts l r) = rvals r ++ values l.
Proof.
  induction l as [|a l IH]; intros r N; [cbn; rewrite app_nil_r; reflexivity|].
  assert (N' : forall t, ~ In (AThrow t) l) by (intros t H; apply (N t); right; exact H).
  destruct a as [s t|k' v'|w]; [| |destruct (N w); left; reflexivity]; cbn [run_acts values flat_map]; rewrite IH by exact N'; [reflexivity|].
  cbn [rvals]. rewrite <- app_assoc. reflexivity.
Qed.
Lemma cut_app : forall h k, (forall w, ~ In (AThrow w) h) -> cut (h ++ k) = h ++ cut k.
Proof.
  induction h as [|a h IH]; intros k N; [reflexivity|]. assert (N' : forall t, ~ In (AThrow t) h) by (intros t H; apply (N t); right; exact H).
  destruct a as [s t|x v|w]; [| |destruct (N w); left; reflexivity]; cbn [app cut]; rewrite IH by exact N'; reflexivity.
Qed.
Lemma throw_or_not : forall h, (forall w, ~ In (AThrow w) h) \/ exists p w q, h = p ++ AThrow w :: q /\ forall w, ~ In (AThrow w) p.
Proof.
  induction h as [|a h IH]; [left; intros w []|].
  destruct a as [s t|x v|w]; [| |right; exists [], w, h; split; [reflexivity|intros u []]].
  all: destruct IH as [IH|(p & w & q & -> & IH)]; [left; intros w [E|H]; [discriminate E|exact (IH w H)]|right].
  - exists (ASet s t :: p), w, q. split; [reflexivity|]. intros u [E|H]; [discriminate E|exact (IH u H)].
  - exists (AAdd x v :: p), w, q. split; [reflexivity|]. intros u [E|H]; [discriminate E|exact (IH u H)].
Qed.
Lemma contributes_eff : forall t, contributes t (eff t).
Proof.
  induction t as [s h|s n l IH] using dlayer_nested; cbn [eff].
  - destruct (lgt s Shutdown) eqn:E.
    + apply past_init_lgt in E. destruct (throw_or_not h) as [N|(p & w & q & -> & N)].
      * rewrite <- (app_nil_r h) at 2. rewrite cut_app by exact N. cbn [cut]. rewrite app_nil_r. constructor; assumption.
      * rewrite cut_app by exact N. constructor; assumption.
    + constructor. intros P. apply past_init_lgt in P. congruence.
  - destruct (lgt s Shutdown) eqn:E; [|constructor; intros P; apply past_init_lgt in P; congruence].
    destruct n; [constructor|]. rewrite flat_map_concat_map. constructor; [apply past_init_lgt, E|].
    induction IH; constructor; assumption.
Qed.
