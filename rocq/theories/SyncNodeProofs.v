(** Proofs about the sync node. *)
From Verif Require Import Base LayerModel LayerSpec LayerProofs LayerGroupProofs LayerOrderProofs ChainModel ChainSpec.

Lemma fine_okw : forall rs s, level s = OK \/ level s = WARN -> Forall (fun r => sev_z (fst r) <= sev_z WARN) rs ->
  bounded WARN (set_all s rs) = true.
Proof.
  intros rs s L F. unfold bounded. rewrite set_all_level. unfold worst_of.
  assert (K : sev_z (level s) <= 1) by (destruct L as [-> | ->]; cbn; lia). clear L.
  induction F as [|[l x] rs H F IH]; cbn [map fold_right fst] in *; [cbn; lia|].
  apply Z.leb_le in IH. apply Z.leb_le. unfold worst. destruct (sev_z l <=? _); assumption.
Qed.
Lemma fine_exec : forall b t o w, level (stat w) = OK -> fine w (exec b t o w) -> okw (exec b t o w) = true.
Proof.
  intros b t o w L [rs [E F]]. destruct (exec_status b t o w) as [rs' [E' S]].
  assert (rs' = rs) by (rewrite E in E'; apply app_inv_head in E'; congruence). subst rs'.
  unfold okw. rewrite S. apply fine_okw; auto.
Qed.
Lemma reports_prefix : forall b t o w, exists rs, reports (log (exec b t o w)) = reports (log w) ++ rs.
Proof. intros. destruct (exec_status b t o w) as [rs [E _]]. eauto. Qed.
Lemma reports_status : forall s w, reports (log (with_status s w)) = reports (log w).
Proof. reflexivity. Qed.

(** The part of a fine run is fine *)
Lemma fine_mid : forall (a m z : list (sev * text)) rs1 rs2, m = a ++ rs1 -> z = m ++ rs2 ->
  (exists rs, z = a ++ rs /\ Forall (fun r => sev_z (fst r) <= sev_z WARN) rs) ->
  Forall (fun r => sev_z (fst r) <= sev_z WARN) rs1 /\ Forall (fun r => sev_z (fst r) <= sev_z WARN) rs2.
Proof.
  intros a m z rs1 rs2 -> -> [rs [E F]]. rewrite <- app_assoc in E. apply app_inv_head in E. subst rs. apply Forall_app in F. exact F.
Qed.

Section Tick.
Variables (b : behaviour) (t : tree).
Hypothesis ND : NoDup (ids t).
Let T := all_together b t ND.

Lemma tick_off : forall w, all_in Off t w -> sync_tick b t w = exec b t OInit (with_status status0 w).
Proof.
  intros w A. unfold sync_tick.
  rewrite (exec_unchanged b t ORead _ Off) by auto. rewrite (exec_unchanged b t ODiag _ Off) by auto.
  cbn [with_status lst]. rewrite (A _ (root_in t)). reflexivity.
Qed.
Lemma status_bad : forall w, okw w = false -> okw w = true -> False.
Proof. congruence. Qed.

(** In the other cases *)
Lemma tick_on : forall w, uin [Ready; Error] t w ->
  let w1 := exec b t ODiag (exec b t ORead (with_status status0 w)) in
  uin [Ready; Error] t w1 /\
  sync_tick b t w = if okw w1 then w1 else exec b t ORecover (with_status status0 w1).
Proof.
  intros w [s [Hs A]] w1.
  assert (U : uin [Ready; Error] t (exec b t ORead (with_status status0 w))).
  { destruct Hs as [<-|[<-|[]]].
    - apply (tg_cyclic b t T ORead (with_status status0 w) eq_refl). exact A.
    - exists Error. split; [cbn; auto|]. apply (tg_cyclic_error b t T ORead (with_status status0 w) eq_refl). exact A. }
  assert (U1 : uin [Ready; Error] t w1).
  { destruct U as [s' [Hs' A']]. exists s'. split; [exact Hs'|]. apply (tg_diag b t T). exact A'. }
  split; [exact U1|]. unfold sync_tick. fold w1.
  assert (R : negb (lz (lst w1 (tid t)) =? lz Off) = true).
  { destruct U1 as [s' [Hs' A']]. rewrite (A' _ (root_in t)). destruct Hs' as [<-|[<-|[]]]; reflexivity. }
  rewrite R, bounded_unbounded. reflexivity.
Qed.
End Tick.
