(** Proofs about the controller manager layer. *)
From Verif Require Import Base LayerModel CtrlModel CtrlSpec.

Lemma latest_snoc f l m : latest f (l ++ [m]) = if f m then Some m else latest f l.
Proof.
  induction l as [|a l IH]; cbn; [destruct (f m); reflexivity|]. rewrite IH. destruct (f m); reflexivity.
Qed.
Lemma placed_nil fixed : all_placed fixed [].
Proof. intros [|? ?] z b E; discriminate E. Qed.
Lemma placed_snoc fixed l m : all_placed fixed l -> well_placed fixed l m -> all_placed fixed (l ++ [m]).
Proof.
  intros A W a m' b E. destruct b as [|z b _] using rev_ind.
  - apply app_inj_tail in E as [<- <-]. exact W.
  - rewrite app_comm_cons, app_assoc in E. apply app_inj_tail in E as [-> _]. exact (A a m' b eq_refl).
Qed.

Lemma existing_snoc l m : existing (l ++ [m]) = match m with MStart i _ => Some i | MStop _ => None | _ => existing l end.
Proof. unfold existing. rewrite latest_snoc. destruct m; reflexivity. Qed.
Lemma reset_snoc l m : reset_due (l ++ [m]) = match m with MStart _ _ | MRecover => true | MUpdate _ _ _ _ _ => false | _ => reset_due l end.
Proof. unfold reset_due. rewrite latest_snoc. destruct m; reflexivity. Qed.
Lemma time_snoc l m : previous_time (l ++ [m]) =
  match m with MStart _ t | MUpdate _ t _ _ _ => Some t | _ => previous_time l end.
Proof. unfold previous_time. rewrite latest_snoc. destruct m; reflexivity. Qed.

Section Inv.
Variable fixed : Z.

(** What holds between the steps *)
Record good (x : ctrl) : Prop := {
  g_placed : all_placed fixed (tr x);
  g_cm : cm x = existing (tr x);
  g_ls : match ls x with Off => cm x = None | Error | Ready => exists i, cm x = Some i | _ => False end;
  g_flag : forall i, cm x = Some i -> rflag x = reset_due (tr x) /\ previous_time (tr x) = Some (last x) /\ last x <= clock x;
  g_pc : match pc x with
         | WIdle => True
         | WCall s => ls x <> Off /\ (s = Error \/ s = Ready)
         | WFound => ls x <> Off
         | WUpdate i p r => cm x = Some i /\ exists t now, latest is_cycle (tr x) = Some (MUpdate i t now p r)
         end }.

Lemma good0 r l c : good (ctrl0 r l c).
Proof. constructor; cbn; try reflexivity; try exact I; [apply placed_nil|discriminate]. Qed.

Lemma idle_off x : good x -> ls x = Off -> pc x = WIdle.
Proof.
  intros [P C L F Q] E. rewrite E in *. destruct (pc x); [reflexivity|exfalso; tauto..|].
  destruct Q as [Q _]. rewrite L in Q. discriminate Q.
Qed.

Lemma g_start x : good x -> ls x = Off ->
  good (say (MStart (made x) (clock x)) (mkCtrl Ready (Some (made x)) (S (made x)) true (clock x) (clock x) (pc x) (tr x))).
Proof.
  intros G E. pose proof (idle_off x G E) as I. destruct G as [P C L F Q]. rewrite E in L. constructor; cbn.
  - apply placed_snoc; [exact P|]. cbn. congruence.
  - now rewrite existing_snoc.
  - eauto.
  - intros i _. rewrite reset_snoc, time_snoc. repeat split; reflexivity || lia.
  - rewrite I. exact Logic.I.
Qed.

Lemma good_step e x x' : good x -> (match e with CShutdown => pc x = WIdle | _ => True end) -> step fixed e x = Ok x' -> good x'.
Proof.
  intros G A E. destruct e as [d|ok fails|ok| | |m]; cbn [step] in E.
  - injection E as <-. destruct G as [P C L F Q]. constructor; cbn; try assumption. intros i Ei. specialize (F i Ei). intuition lia.
  - injection E as <-. unfold init. destruct (ls x) eqn:Lx; try exact G. destruct ok.
    + unfold handle_init. pose proof (g_ls _ G) as L. rewrite Lx in L. cbn. rewrite L. destruct fails; cbn.
      * pose proof (idle_off x G Lx) as I. destruct G as [P C _ F Q]. constructor; cbn.
        -- now apply placed_snoc.
        -- rewrite existing_snoc. congruence.
        -- reflexivity.
        -- discriminate.
        -- rewrite I. exact Logic.I.
      * apply (g_start x G Lx).
    + unfold shutdown. rewrite Lx. exact G.
  - injection E as <-. unfold recover. destruct (ls x) eqn:Lx; try exact G. destruct ok.
    + unfold handle_recover. pose proof (g_ls _ G) as L. rewrite Lx in L. destruct L as [i L]. cbn. rewrite L. cbn.
      destruct G as [P C _ F Q]. destruct (F i L) as (F1 & F2 & F3). constructor; cbn.
      * apply placed_snoc; [exact P|]. cbn. exists i. congruence.
      * rewrite existing_snoc. congruence.
      * eauto.
      * intros j _. rewrite reset_snoc, time_snoc. auto.
      * rewrite Lx in Q. destruct (pc x); [exact I|intuition discriminate|discriminate|]. destruct Q as (Q1 & t & now & Q2). split; [congruence|].
        exists t, now. rewrite latest_snoc. exact Q2.
    + unfold halt. rewrite Lx. exact G.
  - injection E as <-. unfold halt. destruct (ls x) eqn:Lx; try exact G. all: destruct G as [P C L F Q]; rewrite Lx in L; try contradiction.
    cbn. constructor; cbn; try assumption. rewrite Lx in Q. destruct (pc x); intuition discriminate.
  - injection E as <-. unfold shutdown. destruct G as [P C L F Q].
    assert (K : forall i, cm x = Some i -> good (with_ls Off (handle_shutdown (with_ls Shutdown x)))).
    { intros i Ei. unfold handle_shutdown. cbn. rewrite Ei. constructor; cbn.
      - apply placed_snoc; [exact P|]. cbn. congruence.
      - now rewrite existing_snoc.
      - reflexivity.
      - discriminate.
      - rewrite A. exact I. }
    destruct (ls x) eqn:Lx; try contradiction; [|destruct L as [i L]; exact (K i L)..].
    constructor; try assumption; rewrite ?Lx; assumption.
  - destruct G as [P C L F Q]. destruct m as [|now fails]; cbn [loop] in E.
    + assert (K : x' = x); [|subst x'; constructor; assumption].
      destruct (pc x); [|injection E as <-; reflexivity..]. destruct (cm x) eqn:Ec; [injection E as <-; reflexivity|].
      destruct (ls x); try contradiction; [|destruct L as [j L]; congruence..]. injection E as <-. reflexivity.
    + destruct (pc x) as [|s| |i p r] eqn:Px.
      * injection E as <-. destruct (ls x) eqn:Lx; try contradiction; cbn; constructor; cbn; rewrite ?Lx, ?Px; auto; split; auto; discriminate.
      * destruct Q as [Q1 Q2]. assert (Ls : lgt s Shutdown = true) by (destruct Q2 as [-> | ->]; reflexivity). rewrite Ls in E.
        destruct (ls x) eqn:Lx; try contradiction. all: destruct L as [i L]; rewrite L in E; injection E as <-; constructor; cbn; rewrite ?Lx; eauto.
      * assert (L' : exists i, cm x = Some i) by (destruct (ls x); try contradiction; assumption).
        destruct L' as [i Ei]. rewrite Ei in E. cbv zeta in E. injection E as <-. destruct (F i Ei) as (F1 & F2 & F3). constructor; cbn.
        -- apply placed_snoc; [exact P|]. cbn. split; [congruence|]. split; [exact F1|].
           destruct (fixed =? 0) eqn:Z0; [|reflexivity]. exists (last x). repeat split; [exact F2|lia..].
        -- rewrite existing_snoc. congruence.
        -- destruct (ls x); try contradiction; eauto.
        -- intros j _. rewrite reset_snoc, time_snoc. repeat split; lia || reflexivity.
        -- split; [congruence|]. exists (clock x), now. now rewrite latest_snoc.
      * destruct Q as (Q1 & t & nw & Q2). rewrite Q1, Nat.eqb_refl in E. injection E as <-. destruct (F i Q1) as (F1 & F2 & F3).
        destruct fails; constructor; cbn; rewrite ?existing_snoc, ?reset_snoc, ?time_snoc; try assumption; try exact I; eauto.
        -- now apply placed_snoc.
        -- apply placed_snoc; [exact P|]. cbn. eauto.
Qed.

Lemma step_ok e x : good x -> exists x', step fixed e x = Ok x'.
Proof.
  intros [P C L F Q]. destruct e as [d|ok fails|ok| | |m]; cbn [step]; eauto. destruct m as [|now fails]; cbn [loop].
  - destruct (pc x); eauto. destruct (cm x); eauto.
  - destruct (pc x) as [|s| |i p r]; eauto.
    + destruct (lgt s Shutdown); eauto. destruct (cm x); eauto.
    + destruct (ls x); try contradiction; try (now contradiction Q); destruct L as [i L]; rewrite L; eauto.
    + destruct Q as [Q _]. rewrite Q, Nat.eqb_refl. eauto.
Qed.

Lemma good_run l : forall x, good x -> apart fixed l x -> exists x', run fixed l x = Ok x' /\ good x'.
Proof.
  induction l as [|e l IH]; intros x G A; [exists x; split; [reflexivity|exact G]|]. cbn [run apart] in *. destruct A as [A1 A2].
  destruct (step_ok e x G) as [x1 E]. rewrite E in *. exact (IH x1 (good_step e x x1 G A1 E) A2).
Qed.

(** Without exceptions there are no reports. *)
Definition silent (l : list mark) : Prop := forall m, In m l -> match m with MReport _ => False | _ => True end.
Lemma silent_snoc l m : silent l -> match m with MReport _ => False | _ => True end -> silent (l ++ [m]).
Proof. intros H M z I. apply in_app_or in I as [I|[<-|[]]]; [exact (H z I)|exact M]. Qed.
Lemma silent_step e x x' : good x -> throws e = false -> silent (tr x) -> step fixed e x = Ok x' -> silent (tr x').
Proof.
  intros G T N E. destruct G as [P C L F Q]. destruct e as [d|ok fails|ok| | |m]; cbn [step] in E.
  - injection E as <-. exact N.
  - injection E as <-. unfold init. destruct (ls x) eqn:Lx; try exact N. destruct ok; [|unfold shutdown; rewrite Lx; exact N].
    unfold handle_init. cbn. rewrite L. destruct fails; [discriminate T|]. cbn. now apply silent_snoc.
  - injection E as <-. unfold recover. destruct (ls x) eqn:Lx; try exact N. destruct ok; [|unfold halt; rewrite Lx; exact N].
    unfold handle_recover. cbn. destruct L as [i L]. rewrite L. cbn. now apply silent_snoc.
  - injection E as <-. unfold halt. destruct (lgt (ls x) Halt); exact N.
  - injection E as <-. unfold shutdown, handle_shutdown. cbn. destruct (ls x); cbn; try exact N; destruct (cm x); cbn; try exact N; now apply silent_snoc.
  - destruct m as [|now fails]; cbn [loop] in E.
    + destruct (pc x); [|injection E as <-; exact N..]. destruct (cm x) eqn:Ec; [injection E as <-; exact N|].
      destruct (ls x); try contradiction; [|destruct L as [j L]; congruence..]. injection E as <-. exact N.
    + destruct (pc x) as [|s| |i p r] eqn:Px.
      * injection E as <-. destruct (lgt (ls x) Off); exact N.
      * destruct Q as [Q1 Q2]. destruct (lgt s Shutdown); [|injection E as <-; exact N].
        destruct (ls x) eqn:Lx; try contradiction. all: destruct L as [i L]; rewrite L in E; injection E as <-; exact N.
      * destruct (cm x); [|discriminate E]. injection E as <-. cbn. now apply silent_snoc.
      * destruct Q as (Q1 & _). rewrite Q1, Nat.eqb_refl in E. injection E as <-. destruct fails; [discriminate T|]. cbn. now apply silent_snoc.
Qed.
Lemma silent_run l : forall x x', good x -> apart fixed l x -> silent (tr x) -> existsb throws l = false -> run fixed l x = Ok x' -> silent (tr x').
Proof.
  induction l as [|e l IH]; intros x x' G A N T E; [injection E as <-; exact N|]. cbn [run apart existsb] in *. destruct A as [A1 A2].
  apply orb_false_elim in T as [T1 T2]. destruct (step_ok e x G) as [x1 E1]. rewrite E1 in *.
  exact (IH x1 x' (good_step e x x1 G A1 E1) A2 (silent_step e x x1 G T1 N E1) T2 E).
Qed.

(** A cycle: one update and its limits. *)
Lemma cycle x n1 n2 n3 n4 f1 f2 f3 : good x -> pc x = WIdle -> ls x <> Off ->
  exists i p x', cm x = Some i /\
    run fixed [CLoop (DoWrite n1 f1); CLoop (DoWrite n2 f2); CLoop (DoWrite n3 f3); CLoop (DoWrite n4 false)] x = Ok x' /\
    tr x' = tr x ++ [MUpdate i (clock x) n3 p (rflag x); MEnforce p (rflag x)] /\ pc x' = WIdle /\ ls x' = ls x /\ rflag x' = false.
Proof.
  intros [P C L F Q] I N. assert (K : exists i, cm x = Some i /\ lgt (ls x) Off = true /\ lgt (ls x) Shutdown = true).
  { destruct (ls x); try contradiction; destruct L as [i L]; exists i; auto. }
  destruct K as (i & Ei & G1 & G2). exists i, (if fixed =? 0 then clock x - last x else fixed).
  cbn [run step loop]. rewrite I, G1. cbn [pc with_pc]. rewrite G2. cbn [cm with_pc]. rewrite Ei. cbn [pc with_pc say cm]. rewrite Ei.
  cbn [pc with_pc say cm]. rewrite Nat.eqb_refl. eexists. split; [reflexivity|]. split; [reflexivity|]. cbn. rewrite <- app_assoc. auto.
Qed.
End Inv.

(** The periods add up. *)
Lemma latest_app f a b : latest f (a ++ b) = match latest f b with Some m => Some m | None => latest f a end.
Proof.
  induction a as [|m a IH]; cbn; [destruct (latest f b); reflexivity|]. rewrite IH. destruct (latest f b); reflexivity.
Qed.
Lemma periods_app a b : periods (a ++ b) = periods a + periods b.
Proof. induction a as [|m a IH]; cbn; [reflexivity|]. destruct m; rewrite IH; lia. Qed.
Lemma periods_sum l a i t b : all_placed 0 l -> l = a ++ MStart i t :: b ->
  (forall m, In m b -> match m with MStart _ _ => False | _ => True end) ->
  previous_time l = Some (t + periods b).
Proof.
  revert l. induction b as [|m b IH] using rev_ind; intros l P E N; subst l.
  - rewrite time_snoc. f_equal. cbn. lia.
  - assert (P' : all_placed 0 (a ++ MStart i t :: b)).
    { intros c z d E. apply (P c z (d ++ [m])). rewrite app_comm_cons, app_assoc, E, <- app_assoc. reflexivity. }
    specialize (IH _ P' eq_refl (fun z I => N z (in_or_app _ _ _ (or_introl I)))).
    rewrite app_comm_cons, app_assoc, time_snoc, periods_app. specialize (N m). rewrite in_app_iff in N. specialize (N (or_intror (or_introl eq_refl))).
    destruct m; try contradiction; cbn [periods]; rewrite ?IH; try (f_equal; lia).
    specialize (P (a ++ MStart i t :: b) (MUpdate i0 t0 now period recover) []).
    rewrite app_comm_cons, app_assoc in P. specialize (P eq_refl). cbn in P. destruct P as (_ & _ & t1 & P1 & P2 & _).
    rewrite IH in P1. injection P1 as <-. f_equal. lia.
Qed.
