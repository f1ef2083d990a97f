From Coq Require Import ZArith List Bool Lia.
From Verif Require Import Base HandleModel HandleSpec.
Import ListNotations.
Local Open Scope Z_scope.

Lemma kind_eqb_spec a b : kind_eqb a b = true <-> a = b.
Proof. destruct a, b; cbn; split; congruence. Qed.
Lemma iface_eqb_spec a b : iface_eqb a b = true <-> a = b.
Proof.
  destruct a, b; cbn; rewrite ?kind_eqb_spec, ?Z.eqb_eq; split; congruence.
Qed.

Lemma follows_in m k : follows m k <-> In (k, m) mapping.
Proof.
  split.
  - destruct 1; cbn; tauto.
  - cbn. intros H. repeat (destruct H as [H|H]; [injection H as <- <-; constructor|]). destruct H.
Qed.

Lemma follows_fun m k l : follows m k -> follows m l -> k = l.
Proof. destruct 1; inversion 1; reflexivity. Qed.

Lemma follows_dec m : {k | follows m k} + {forall k, ~ follows m k}.
Proof.
  destruct (List.find (fun p => snd p =? m) mapping) as [[k n]|] eqn:E.
  - left. exists k. apply List.find_some in E. destruct E as [E F]. cbn in F. apply Z.eqb_eq in F.
    subst. now apply follows_in.
  - right. intros k F. apply follows_in in F. pose proof (List.find_none _ _ E _ F) as G.
    cbn in G. lia.
Qed.

Lemma has_conflict_spec i m : has_conflict i m = false <-> (forall k, follows m k -> i = IJoint k).
Proof.
  unfold has_conflict.
  destruct (List.find (fun p => snd p =? m) mapping) as [[k n]|] eqn:E.
  - apply List.find_some in E. destruct E as [E F]. cbn in F. apply Z.eqb_eq in F. subst n.
    apply follows_in in E. rewrite negb_false_iff, iface_eqb_spec. split.
    + intros <- l G. f_equal. eapply follows_fun; eauto.
    + intros H. symmetry. now apply H.
  - split; [|reflexivity]. intros _ k F. apply follows_in in F.
    pose proof (List.find_none _ _ E _ F) as G. cbn in G. lia.
Qed.

Lemma interface_modes_spec m k : In m (interface_modes k) <-> follows m k.
Proof.
  rewrite follows_in. unfold interface_modes. rewrite in_map_iff. split.
  - intros ([l n] & E & F). apply filter_In in F. destruct F as [F G]. cbn in *.
    apply kind_eqb_spec in G. now subst.
  - intros H. exists (k, m). split; [reflexivity|]. apply filter_In. split; [exact H|].
    now apply kind_eqb_spec.
Qed.

Lemma command_app a b m : command (a ++ b) m = match command a m with Some k => Some k | None => command b m end.
Proof.
  unfold command. induction a as [|[n k] a IH]; [reflexivity|]. cbn.
  destruct (n =? m); [reflexivity|]. exact IH.
Qed.

Lemma command_in a m k : command a m = Some k -> In (m, k) a.
Proof.
  unfold command. destruct (List.find _ a) as [[n l]|] eqn:E; [|discriminate].
  cbn. intros [= <-]. apply List.find_some in E. destruct E as [E F]. cbn in F.
  apply Z.eqb_eq in F. now subst.
Qed.

Lemma command_none a m : command a m = None <-> ~ In m (map fst a).
Proof.
  unfold command. induction a as [|[n k] a IH]; cbn; [tauto|].
  destruct (n =? m) eqn:E.
  - cbn. split; [discriminate|]. intros H. exfalso. apply H. left. lia.
  - rewrite IH. split; intros H; [intros [G|G]; [lia|tauto]|tauto].
Qed.

Lemma wired_add k h : wired h -> wired (add_handle k h).
Proof.
  intros (W0 & W). unfold add_handle. destruct (existsb _ _); [|now split].
  unfold with_cmds. split; cbn [cmds].
  - rewrite command_app. destruct (command (rev _) 0) eqn:E; [|exact W0].
    apply command_in in E. apply in_rev in E. apply in_map_iff in E.
    destruct E as (n & E & F). apply interface_modes_spec in F. assert (n = 0) as -> by congruence.
    inversion F.
  - intros m l. rewrite command_app. destruct (command (rev _) m) eqn:E.
    + intros L. apply command_in in E. apply in_rev in E. apply in_map_iff in E.
      destruct E as (n & E & F). apply interface_modes_spec in F. right. exists k.
      injection E as -> E. split; [congruence|exact F].
    + apply W.
Qed.

Lemma wired_new m r s : wired (new_handle m r s).
Proof.
  split; [reflexivity|]. intros n k. unfold new_handle, command. cbn -[Z.eqb].
  destruct (0 =? n) eqn:E; cbn -[Z.eqb]; [|discriminate]. intros [= <-]. left. split; [lia|reflexivity].
Qed.

Lemma wired_register h : wired h -> wired (register_handles h).
Proof. intros H. unfold register_handles. now repeat apply wired_add. Qed.

Lemma add_sup k h : sup (add_handle k h) = sup h.
Proof. unfold add_handle. now destruct (existsb _ _). Qed.

Lemma add_command k h m :
  command (cmds (add_handle k h)) m =
  if existsb (sup h) (interface_modes k) && existsb (Z.eqb m) (interface_modes k) then Some (Some k) else command (cmds h) m.
Proof.
  unfold add_handle. destruct (existsb (sup h) _); [|reflexivity]. cbn [andb with_cmds cmds].
  rewrite command_app. destruct (existsb (Z.eqb m) _) eqn:E.
  - apply existsb_exists in E. destruct E as (n & E & F). apply Z.eqb_eq in F. subst n.
    destruct (command (rev _) m) eqn:G.
    + apply command_in in G. apply in_rev in G. apply in_map_iff in G. destruct G as (n & G & _). congruence.
    + exfalso. apply command_none in G. apply G. rewrite map_rev, map_map. cbn. apply in_rev.
      rewrite rev_involutive, map_id. exact E.
  - destruct (command (rev _) m) eqn:G; [|reflexivity]. exfalso.
    apply command_in in G. apply in_rev in G. apply in_map_iff in G. destruct G as (n & G & H).
    assert (n = m) by congruence. subst n.
    assert (existsb (Z.eqb m) (interface_modes k) = true) by (apply existsb_exists; exists m; split; [exact H|lia]).
    congruence.
Qed.

Lemma existsb_follows m k : existsb (Z.eqb m) (interface_modes k) = true <-> follows m k.
Proof.
  rewrite existsb_exists. split.
  - intros (n & H & E). apply Z.eqb_eq in E. subst n. now apply interface_modes_spec.
  - intros H. exists m. split; [now apply interface_modes_spec|lia].
Qed.

Lemma register_command_eq h m :
  command (cmds (register_handles h)) m =
  if existsb (sup h) (interface_modes KEff) && existsb (Z.eqb m) (interface_modes KEff) then Some (Some KEff) else
  if existsb (sup h) (interface_modes KVel) && existsb (Z.eqb m) (interface_modes KVel) then Some (Some KVel) else
  if existsb (sup h) (interface_modes KPos) && existsb (Z.eqb m) (interface_modes KPos) then Some (Some KPos) else
  command (cmds h) m.
Proof. unfold register_handles. now rewrite !add_command, !add_sup. Qed.

(** A registered joint has the command of a mode exactly if the motor supports some mode that
    follows the same command. *)
Lemma register_command m0 r s m k :
  command (cmds (register_handles (new_handle m0 r s))) m = Some (Some k) <->
  follows m k /\ exists n, follows n k /\ s n = true.
Proof.
  assert (D : forall k, existsb s (interface_modes k) = true <-> exists n, follows n k /\ s n = true).
  { intros l. rewrite existsb_exists. split; intros (n & A & B); exists n; (split; [now apply interface_modes_spec|exact B]). }
  rewrite register_command_eq.
  change (sup (new_handle m0 r s)) with s.
  split.
  - intros H.
    destruct (existsb s (interface_modes KEff) && _) eqn:E1;
      [|destruct (existsb s (interface_modes KVel) && _) eqn:E2;
        [|destruct (existsb s (interface_modes KPos) && _) eqn:E3]].
    1: assert (k = KEff) by congruence; apply andb_true_iff in E1; destruct E1 as [E F].
    2: assert (k = KVel) by congruence; apply andb_true_iff in E2; destruct E2 as [E F].
    3: assert (k = KPos) by congruence; apply andb_true_iff in E3; destruct E3 as [E F].
    1-3: subst k; apply existsb_follows in F; apply D in E; auto.
    exfalso. unfold new_handle, command in H. cbn -[Z.eqb] in H. destruct (0 =? m); discriminate.
  - intros (F & N). apply D in N.
    assert (G : forall l, l <> k -> existsb (Z.eqb m) (interface_modes l) = false).
    { intros l L. destruct (existsb (Z.eqb m) (interface_modes l)) eqn:E; [|reflexivity].
      apply existsb_follows in E. exfalso. apply L. eapply follows_fun; eauto. }
    apply existsb_follows in F.
    destruct k; rewrite ?(G KEff), ?(G KVel), ?(G KPos), ?andb_false_r, ?F, ?N by congruence; reflexivity.
Qed.

(** Mode switches *)
Lemma select_spec m h :
  (fst (select m h) = true <-> command (cmds h) m <> None) /\
  (command (cmds h) m <> None -> command (cmds h) m = Some (jh (snd (select m h)))) /\
  (command (cmds h) m = None -> snd (select m h) = h) /\
  mode (snd (select m h)) = mode h /\ fwd (snd (select m h)) = fwd h /\ sup (snd (select m h)) = sup h /\
  cmds (snd (select m h)) = cmds h /\ lready (snd (select m h)) = lready h /\ lim (snd (select m h)) = lim h.
Proof.
  unfold select. destruct (command (cmds h) m) eqn:E; cbn; rewrite ?E; repeat split; congruence.
Qed.

Lemma switch_mode_sup m r h : sup (snd (switch_mode m r h)) = sup h.
Proof.
  unfold switch_mode. destruct (mode h =? m); [apply select_spec|].
  destruct (m =? 0); [rewrite (proj1 (proj2 (proj2 (proj2 (proj2 (proj2 (select_spec _ _))))))); reflexivity|].
  destruct r; [rewrite (proj1 (proj2 (proj2 (proj2 (proj2 (proj2 (select_spec _ _))))))); reflexivity|reflexivity].
Qed.
Lemma switch_mode_cmds m r h : cmds (snd (switch_mode m r h)) = cmds h.
Proof.
  unfold switch_mode, select. destruct (mode h =? m); [now destruct (command _ _)|].
  destruct (m =? 0); [now destruct (command _ _)|]. destruct r; [now destruct (command _ _)|reflexivity].
Qed.
Lemma switch_mode_lready m r h : lready (snd (switch_mode m r h)) = lready h.
Proof.
  unfold switch_mode, select. destruct (mode h =? m); [now destruct (command _ _)|].
  destruct (m =? 0); [now destruct (command _ _)|]. destruct r; [now destruct (command _ _)|reflexivity].
Qed.
Lemma switch_mode_lim m r h : lim (snd (switch_mode m r h)) = lim h.
Proof.
  unfold switch_mode, select. destruct (mode h =? m); [now destruct (command _ _)|].
  destruct (m =? 0); [now destruct (command _ _)|]. destruct r; [now destruct (command _ _)|reflexivity].
Qed.

(** A successful switch leaves the joint in the mode with the command of the mode. *)
Lemma switch_mode_true m r h : fst (switch_mode m r h) = true ->
  mode (snd (switch_mode m r h)) = m /\ command (cmds h) m = Some (jh (snd (switch_mode m r h))).
Proof.
  unfold switch_mode, select. destruct (mode h =? m) eqn:E.
  - destruct (command (cmds h) m) eqn:C; [|discriminate]. cbn. intros _. split; [lia|reflexivity].
  - destruct (m =? 0) eqn:Z0.
    + cbn. destruct (command (cmds h) 0) eqn:C; [|discriminate]. cbn. intros _.
      assert (m = 0) by lia. subst m. auto.
    + destruct r; [|discriminate]. cbn. destruct (command (cmds h) m) eqn:C; [|discriminate].
      cbn. auto.
Qed.

(** Switching to No_Mode always works. *)
Lemma switch_mode_zero r h : command (cmds h) 0 = Some None ->
  fst (switch_mode 0 r h) = true /\ mode (snd (switch_mode 0 r h)) = 0 /\ jh (snd (switch_mode 0 r h)) = None.
Proof.
  intros C. unfold switch_mode, select. rewrite ?C. destruct (mode h =? 0) eqn:E.
  - cbn. repeat split. lia.
  - cbn. rewrite C. cbn. auto.
Qed.

Lemma switch_mode_zero_env r r' h : switch_mode 0 r h = switch_mode 0 r' h.
Proof. unfold switch_mode. now destruct (mode h =? 0). Qed.

Lemma switch_mode_succeeds m h : command (cmds h) m <> None -> fst (switch_mode m Entered h) = true.
Proof.
  intros C. unfold switch_mode, select. destruct (mode h =? m); [now destruct (command (cmds h) m)|].
  destruct (m =? 0) eqn:E.
  - assert (m = 0) by lia. subst. cbn. destruct (command (cmds h) 0); [reflexivity|congruence].
  - cbn. destruct (command (cmds h) m); [reflexivity|congruence].
Qed.

(** The connection of a joint always is the one of its mode: invariant of histories in which the
    motor obeys. *)
Definition jinv (x : joint) : Prop :=
  wired (hd x) /\ (jh (hd x) = None \/ command (cmds (hd x)) (mode (hd x)) = Some (jh (hd x))).

Lemma jinv_switch m r h c a : jinv (mkJoint h c a) -> jinv (mkJoint (snd (switch_mode m r h)) c a).
Proof.
  intros (W & C). cbn in *. split; cbn.
  - unfold wired in *. now rewrite switch_mode_cmds.
  - destruct (fst (switch_mode m r h)) eqn:E.
    + apply switch_mode_true in E. destruct E as (E & F). right. rewrite switch_mode_cmds, E. exact F.
    + revert E. unfold switch_mode, select. destruct (mode h =? m) eqn:M.
      * destruct (command (cmds h) m) eqn:N; cbn; [discriminate|]. intros _. exact C.
      * destruct (m =? 0) eqn:Z0; cbn.
        { destruct (command (cmds h) 0) eqn:N; cbn; [discriminate|]. auto. }
        { destruct r; cbn; [|auto]. destruct (command (cmds h) m) eqn:N; cbn; [discriminate|]. auto. }
Qed.

Lemma joint_write_hd conv r x : hd (fst (joint_write conv r x)) = hd x.
Proof.
  unfold joint_write. destruct r; [|reflexivity].
  destruct (if fwd (hd x) then jh (hd x) else None) as [[]|]; reflexivity.
Qed.

Lemma jinv_step conv x e : jinv x -> (forall m r, e = JMotor m r -> mode (hd x) = m) -> jinv (fst (jstep conv x e)).
Proof.
  intros I O. destruct e; cbn [jstep fst].
  - destruct x as [h c a]. cbn [hd cmd act]. now apply jinv_switch.
  - unfold forward_for. destruct (mode (hd x) =? m); exact I.
  - exact I.
  - exact I.
  - unfold jinv in *. rewrite joint_write_hd. exact I.
  - specialize (O _ _ eq_refl). destruct I as (W & C). split; cbn.
    + exact W.
    + rewrite O in C. exact C.
Qed.

Lemma jrun_app conv a b x : jrun conv (a ++ b) x = jrun conv b (jrun conv a x).
Proof. apply fold_left_app. Qed.
Lemma jrun_snoc conv a e x : jrun conv (a ++ [e]) x = fst (jstep conv (jrun conv a x) e).
Proof. now rewrite jrun_app. Qed.

Lemma obedient_snoc conv x l e : obedient conv x (l ++ [e]) ->
  obedient conv x l /\ forall m r, e = JMotor m r -> mode (hd (jrun conv l x)) = m.
Proof.
  intros O. split.
  - intros a m r b ->. apply (O a m r (b ++ [e])). now rewrite <- app_assoc.
  - intros m r ->. now apply (O l m r []).
Qed.

Lemma jinv_run conv x l : jinv x -> obedient conv x l -> jinv (jrun conv l x).
Proof.
  intros I. induction l as [|e l IH] using rev_ind; intros O; [exact I|].
  apply obedient_snoc in O. destruct O as (O & E). rewrite jrun_snoc. apply jinv_step; auto.
Qed.

(** Whenever forwarding is on, it was enabled for the current mode. *)
Lemma switch_mode_fwd m r h : fwd (snd (switch_mode m r h)) = true -> fwd h = true /\ mode (snd (switch_mode m r h)) = mode h.
Proof.
  unfold switch_mode, select. destruct (mode h =? m) eqn:E.
  - destruct (command (cmds h) m); cbn; auto.
  - destruct (m =? 0); [cbn; destruct (command (cmds h) 0); discriminate|].
    destruct r; [cbn; destruct (command (cmds h) m); discriminate|discriminate].
Qed.

Lemma enabled_snoc conv x l e m : enabled_for conv x l m -> mode (hd (jrun conv (l ++ [e]) x)) = m ->
  enabled_for conv x (l ++ [e]) m.
Proof.
  intros (a & b & -> & H) E. exists a, (b ++ [e]). split; [now rewrite <- app_assoc|].
  intros b1 b2 F. destruct b2 as [|e2 b2 _] using rev_ind.
  - rewrite app_nil_r in F. subst b1. rewrite <- app_assoc in E. exact E.
  - rewrite app_assoc in F. apply app_inj_tail in F. destruct F as (F & _). now apply (H b1 b2).
Qed.

Lemma fwd_enabled conv x l : fwd (hd x) = false -> obedient conv x l -> fwd (hd (jrun conv l x)) = true ->
  enabled_for conv x l (mode (hd (jrun conv l x))).
Proof.
  intros F0. induction l as [|e l IH] using rev_ind; intros O; [cbn; congruence|].
  apply obedient_snoc in O. destruct O as (O & E). intros F.
  assert (K : mode (hd (jrun conv (l ++ [e]) x)) = mode (hd (jrun conv l x)) -> fwd (hd (jrun conv l x)) = true ->
              enabled_for conv x (l ++ [e]) (mode (hd (jrun conv (l ++ [e]) x)))).
  { intros M G. apply enabled_snoc; [|reflexivity]. rewrite M. auto. }
  rewrite jrun_snoc in *. destruct e; cbn [jstep fst] in *.
  - cbn [hd] in F, K. apply switch_mode_fwd in F. apply K; apply F.
  - cbn [hd] in *. unfold forward_for in *. destruct (mode (hd (jrun conv l x)) =? m) eqn:M.
    + cbn. exists l, []. assert (mode (hd (jrun conv l x)) = m) by lia. rewrite H. split; [reflexivity|].
      intros b1 b2 B. symmetry in B. apply app_eq_nil in B. destruct B as (-> & ->).
      rewrite jrun_snoc. cbn [jstep fst hd]. unfold forward_for. rewrite M. cbn. lia.
    + apply K; [reflexivity|exact F].
  - apply K; [reflexivity|exact F].
  - apply K; [reflexivity|exact F].
  - rewrite joint_write_hd in *. apply K; [reflexivity|exact F].
  - cbn [hd mode fwd] in *. apply K; [|exact F]. symmetry. eapply E. reflexivity.
Qed.

Lemma fresh_inv x : fresh x -> jinv x /\ fwd (hd x) = false /\ jh (hd x) = None.
Proof.
  intros (m & r & s & E). rewrite E.
  assert (F : fwd (register_handles (new_handle m r s)) = false /\ jh (register_handles (new_handle m r s)) = None).
  { unfold register_handles, add_handle.
    repeat match goal with |- context [if ?b then _ else _] => destruct b end; auto. }
  split; [|exact F]. split.
  - rewrite E. apply wired_register, wired_new.
  - left. rewrite E. apply F.
Qed.

Lemma write_sends conv r x v : snd (joint_write conv r x) = Some v ->
  r = true /\ fwd (hd x) = true /\ exists k, jh (hd x) = Some k /\ v = conv k (cmd x k).
Proof.
  unfold joint_write. destruct r; [|discriminate]. destruct (fwd (hd x)); [|discriminate].
  destruct (jh (hd x)) as [[]|]; cbn; intros [= <-]; eauto.
Qed.

Lemma forwarded conv x l e v : fresh x -> obedient conv x l -> snd (jstep conv (jrun conv l x) e) = Some v ->
  e = JWrite true /\
  exists m k, mode (hd (jrun conv l x)) = m /\ enabled_for conv x l m /\ follows m k /\ v = conv k (cmd (jrun conv l x) k).
Proof.
  intros F O H. destruct e; try discriminate. cbn [jstep] in H. apply write_sends in H.
  destruct H as (-> & G & k & J & V). split; [reflexivity|].
  apply fresh_inv in F. destruct F as (I & F0 & _).
  exists (mode (hd (jrun conv l x))), k. repeat split.
  - now apply fwd_enabled.
  - pose proof (jinv_run _ _ _ I O) as ((_ & W) & C). rewrite J in C. destruct C as [C|C]; [discriminate|].
    apply W in C. destruct C as [(_ & C)|(k' & C & D)]; [discriminate|]. injection C as <-. exact D.
  - exact V.
Qed.

(** Conversely: once a mode was entered and forwarding enabled, every write sends the command. *)
Lemma calm_run conv x l : Forall calm l -> fwd (hd x) = true ->
  mode (hd (jrun conv l x)) = mode (hd x) /\ jh (hd (jrun conv l x)) = jh (hd x) /\ fwd (hd (jrun conv l x)) = true.
Proof.
  intros C F. induction l as [|e l IH] using rev_ind; [now cbn|].
  apply Forall_app in C. destruct C as (C & D). inversion D as [|? ? Q _]. subst.
  destruct (IH C) as (M & J & G). rewrite jrun_snoc.
  destruct e; cbn [jstep fst hd]; try (cbn in Q; contradiction); auto.
  - unfold forward_for. destruct (_ =? m); auto.
  - rewrite joint_write_hd. auto.
Qed.

Lemma write_true conv x k : fwd (hd x) = true -> jh (hd x) = Some k ->
  snd (joint_write conv true x) = Some (conv k (cmd x k)).
Proof. intros F J. unfold joint_write. rewrite F, J. now destruct k. Qed.

Lemma keeps_run conv k l x : Forall (keeps_command k) l -> cmd (jrun conv l x) k = cmd x k.
Proof.
  intros H. induction l as [|e l IH] using rev_ind; [reflexivity|].
  apply Forall_app in H. destruct H as (H & D). inversion D as [|? ? Q _]. subst.
  rewrite jrun_snoc. destruct e as [| |k' v| |r|]; try (cbn in Q; contradiction); cbn [jstep fst cmd]; auto.
  - unfold setv. cbn in Q. destruct (kind_eqb k k') eqn:E; [apply kind_eqb_spec in E; congruence|auto].
  - destruct r; [cbn in Q; contradiction|]. cbn. auto.
Qed.

Lemma jrun_cmds conv l x : cmds (hd (jrun conv l x)) = cmds (hd x).
Proof.
  induction l as [|e l IH] using rev_ind; [reflexivity|]. rewrite jrun_snoc.
  destruct e; cbn [jstep fst hd]; rewrite ?switch_mode_cmds, ?joint_write_hd; auto.
  unfold forward_for. destruct (_ =? _); auto.
Qed.

Lemma idle_follows conv x k : (fwd (hd x) = false \/ jh (hd x) <> Some k) ->
  cmd (fst (joint_write conv true x)) k = act x k.
Proof.
  unfold joint_write. intros H. destruct (fwd (hd x)).
  - destruct H as [H|H]; [discriminate|]. destruct (jh (hd x)) as [[]|], k; cbn; congruence.
  - reflexivity.
Qed.
Lemma active_kept conv x k : fwd (hd x) = true -> jh (hd x) = Some k -> cmd (fst (joint_write conv true x)) k = cmd x k.
Proof. intros F J. unfold joint_write. rewrite F, J. destruct k; reflexivity. Qed.
