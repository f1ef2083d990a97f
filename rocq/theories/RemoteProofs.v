(** Proofs about objects of a device. *)
From Verif Require Import Base CanModel KeyModel StorageModel StorageSpec StorageProofs SdoModel SdoSpec SdoProofs SdoReadProofs SdoTalkProofs SdoFinal RemoteModel RemoteSpec.

Section Remote.
Variables (t : ty) (e : entry) (index sub : Z).
Hypothesis OBJ : object_ok index sub.

Lemma fits_nonempty : forall b, fits t b -> b <> [].
Proof. intros b (_ & L & _) ->. cbn in L. lia. Qed.

Lemma loop_timeout : forall i u ins s s1 o, transfer_loop i u ins s = Ok (s1, o, false) -> s_done s1 = false ->
  exists a, transfer_loop i u (ins ++ [ITimeout]) s = Ok (set_last s1 a, o ++ [a], true).
Proof.
  intros i u ins s s1 o H D. rewrite loop_app, H, loop_eq, D. eexists. reflexivity.
Qed.

Lemma buffer_fit : forall c v obj, cell_ok t c -> fits t obj -> server_ok t v ->
  let buf := c_buf (allocate c) in
  (List.length buf = List.length obj /\ ((List.length obj < 256)%nat \/ v_sized v = false)) \/
  (List.length buf = 0%nat /\ v_sized v = true /\ (List.length obj < 256)%nat).
Proof.
  intros c v obj C (B & L & V) S buf. destruct (allocate_ok t c C) as [[A1 A2] _].
  destruct C as [E _]. unfold buf. destruct t eqn:T; cbn [value_ok] in *; try (left; rewrite A2, V; split; [reflexivity|left; lia]).
  right. unfold allocate. rewrite E. cbn [set_buf c_buf]. split; [reflexivity|]. split; [apply S; reflexivity|lia].
Qed.

Lemma remote_read_spec : forall c v obj n, cell_ok t c -> fits t obj -> server_ok t v ->
  let buf := c_buf (allocate c) in
  snd (talked v index sub (sdo_read index sub buf) obj n) = obj /\
  (remote_read v index sub obj n buf = (obj, true) \/
   (remote_read v index sub obj n buf = (buf, false) /\ ~ (v_veto v = no_veto /\ answering n))) /\
  sdo_read index sub buf (fst (talked v index sub (sdo_read index sub buf) obj n)) <> Undef.
Proof.
  intros c v obj n C F S buf. pose proof (buffer_fit c v obj C F S) as FIT. fold buf in FIT.
  pose proof (fits_nonempty obj F) as NE. pose proof F as (B & L & V). cbv zeta in FIT. clearbody buf.
  assert (K : forall k, snd (snd (talk v index sub (sdo_read index sub buf) obj k)) = obj).
  { induction k as [|k IH]; [reflexivity|]. cbn [talk].
    pose proof (talk_read v index sub buf obj OBJ B NE FIT k) as W.
    destruct (talk v index sub (sdo_read index sub buf) obj k) as [ins st]. cbn [snd] in IH.
    rewrite (read_eq index sub buf ins).
    destruct W as [N A E|init segs s N U IS TG G LT E|s out N E FI|s out E FI W]; rewrite E.
    - unfold finish. cbn [negb last]. subst st. unfold serve.
      destruct (v_veto v SrvIdle (upload_first index sub)); [reflexivity|].
      change (code (upload_first index sub)) with 2. change (2 =? 1) with false. change (2 =? 0) with false.
      change (2 =? 2) with true. cbv iota.
      destruct (negb _); [reflexivity|]. cbv zeta. destruct (v_expedited v && _ && _); reflexivity.
    - unfold finish. cbn [negb]. rewrite last_upload. unfold up_state in U. subst st. unfold serve.
      destruct (v_veto v _ _); [reflexivity|].
      destruct (upload_next_ok (List.length segs)) as [_ [U2 _]]. rewrite U2.
      change (3 =? 1) with false. change (3 =? 0) with false. change (3 =? 2) with false. change (3 =? 3) with true. cbv iota.
      destruct (negb _); reflexivity.
    - rewrite FI. exact IH.
    - rewrite FI. exact IH. }
  specialize (K n). unfold remote_read, talked.
  pose proof (talk_read v index sub buf obj OBJ B NE FIT n) as W.
  destruct (talk v index sub (sdo_read index sub buf) obj n) as [ins st]. cbn [fst snd] in *.
  split; [exact K|]. rewrite (read_eq index sub buf (ins ++ [ITimeout])). unfold rloop in *.
  assert (STOP : forall s out, transfer_loop index sub ins (start_read index sub buf) = Ok (s, out, true) ->
    transfer_loop index sub (ins ++ [ITimeout]) (start_read index sub buf) = Ok (s, out, true)).
  { intros s out E. rewrite loop_app, E. reflexivity. }
  destruct W as [N A E|init segs s N U IS TG G LT E|s out N E FI|s out E FI W].
  - destruct (loop_timeout _ _ _ _ _ _ E eq_refl) as [a E2]. rewrite E2.
    rewrite finish_throw0 by reflexivity. split; [|discriminate]. right. split; [reflexivity|].
    intros [_ H]. unfold answering in H. lia.
  - pose proof IS as (_ & _ & _ & _ & DONE & TOT & OFF & _ & _ & LTT).
    destruct (loop_timeout _ _ _ _ _ _ E DONE) as [a E2]. rewrite E2.
    rewrite finish_throw by (cbn [set_last s_off s_total]; rewrite TOT; lia).
    split; [|discriminate]. right. split; [reflexivity|]. intros [_ H]. unfold answering in H. lia.
  - rewrite (STOP _ _ E), FI. split; [left; reflexivity|discriminate].
  - rewrite (STOP _ _ E), FI. split; [|discriminate]. right. split; [reflexivity|].
    intros [H _]. destruct W as [s0 [r V0]]. rewrite H in V0. discriminate.
Qed.

Lemma remote_write_spec : forall v obj n d, fits t d -> answering n ->
  remote_write v index sub obj n d = (d, true) \/
  (remote_write v index sub obj n d = (obj, false) /\ v_veto v <> no_veto).
Proof.
  intros v obj n d F AN. pose proof (fits_nonempty d F) as NE. pose proof F as (B & L & V).
  unfold remote_write, talked.
  pose proof (talk_write v index sub d obj OBJ B NE n) as W.
  destruct (talk v index sub (sdo_write index sub d) obj n) as [ins st].
  rewrite (write_eq index sub d (ins ++ [ITimeout])). unfold wloop in *. rewrite loop_app.
  pose proof (wcount_eq d) as WC. pose proof (count_bound d) as CB. unfold answering in AN.
  destruct W as [N A E|N A MM E|s out E FI W U].
  - exfalso. destruct (List.length d <=? 4)%nat; lia.
  - unfold wloop in E. rewrite E. left. rewrite finish_write_done by assumption. rewrite A. reflexivity.
  - unfold wloop in E. rewrite E, FI, U. right. split; [reflexivity|]. intros NV.
    destruct W as [[s0 [r V0]]|W]; [rewrite NV in V0; discriminate|].
    rewrite (no_mismatch v index sub d (or_introl (proj2 L))) in W. discriminate.
Qed.

Lemma handed_eq : forall c b, cell_ok t c -> value_ok t b -> handed c b = b.
Proof. intros c b C V. unfold handed. destruct (assign_ok t c b C V) as (c1 & -> & _ & _ & H & _). exact H. Qed.

(** One access. *)
Definition sound (c : cell) (obj : bytes) : Prop := cell_ok t c /\ fits t obj.

Lemma get_step : forall cached v n c obj, sound c obj -> server_ok t v -> e_readable e = true ->
  exists c1 ev r, act_step e index sub (AGet cached v n) c obj = Ok (c1, obj, ev, r) /\ cell_ok t c1 /\
  ((ev = [] /\ c1 = c /\ c_valid c = true /\ cached || e_constant e = true /\ r = RVal (c_buf c)) \/
   (exists b ok, ev = [EvRead (c_rd c) b ok] /\ c_valid c1 = true /\ negb (c_valid c) || negb (cached || e_constant e) = true /\
     ((ok = true /\ b = obj /\ c_buf c1 = obj /\ r = RVal obj) \/
      (ok = false /\ r = RThrow DeviceError /\ ~ (v_veto v = no_veto /\ answering n))))).
Proof.
  intros cached v n c obj [C F] S R. unfold act_step, step, data_get. rewrite R. cbn [negb].
  destruct (remote_read_spec c v obj n C F S) as (K & RD & _).
  destruct (allocate_ok t c C) as (AO & AV & _ & _).
  destruct (negb (c_valid c) || negb (cached || e_constant e)) eqn:G.
  - destruct RD as [RD|[RD NV]]; rewrite RD.
    + assert (CO : cell_ok t (set_buf (allocate c) obj)) by (split; [apply AO|apply F]).
      rewrite (access_ok t _ CO). unfold ret. rewrite K.
      do 3 eexists. split; [reflexivity|]. split; [exact CO|]. right. exists obj, true. split; [reflexivity|].
      split; [reflexivity|]. split; [reflexivity|]. left. repeat split.
    + unfold ret. rewrite K. do 3 eexists. split; [reflexivity|].
      split; [split; apply AO|]. right. eexists. eexists. split; [reflexivity|]. split; [reflexivity|].
      split; [reflexivity|]. right. repeat split. exact NV.
  - apply orb_false_elim in G. destruct G as [G1 G2]. apply negb_false_iff in G1, G2.
    rewrite (access_ok t c C). unfold ret. do 3 eexists. split; [reflexivity|]. split; [exact C|]. left.
    repeat split; assumption.
Qed.

Lemma write_step : forall b v n c obj, sound c obj -> fits t b -> answering n ->
  exists c1 r, data_write c b (snd (remote_write v index sub obj n (handed c b))) =
      Ok (c1, [EvWrite (c_wr c) b (snd (remote_write v index sub obj n (handed c b)))], r) /\
  cell_ok t c1 /\ c_valid c1 = true /\ c_buf c1 = b /\
  ((r = RDone /\ fst (remote_write v index sub obj n (handed c b)) = b) \/
   (r = RThrow DeviceError /\ fst (remote_write v index sub obj n (handed c b)) = obj /\ v_veto v <> no_veto)).
Proof.
  intros b v n c obj [C F] FB AN. rewrite handed_eq by (try assumption; apply FB).
  unfold data_write. destruct (assign_ok t c b C (proj2 (proj2 FB))) as (c1 & -> & CO & CV & CB & _).
  rewrite CB. destruct (remote_write_spec v obj n b FB AN) as [E|[E NV]]; rewrite E; cbn [fst snd]; unfold ret;
    do 2 eexists; (split; [reflexivity|]); (split; [exact CO|]); (split; [exact CV|]); (split; [exact CB|]).
  - left. split; reflexivity.
  - right. repeat split. exact NV.
Qed.

Lemma set_step : forall b v n c obj, sound c obj -> fits t b -> answering n -> e_writable e = true ->
  exists c1 ok r obj', act_step e index sub (ASet b v n) c obj = Ok (c1, obj', [EvWrite (c_wr c) b ok], r) /\
  cell_ok t c1 /\ c_valid c1 = true /\ c_buf c1 = b /\
  ((r = RDone /\ obj' = b) \/ (r = RThrow DeviceError /\ obj' = obj /\ v_veto v <> no_veto)).
Proof.
  intros b v n c obj S FB AN W. unfold act_step, step, data_set. rewrite W. cbn [negb].
  destruct (write_step b v n c obj S FB AN) as (c1 & r & E & CO & CV & CB & H).
  rewrite E. do 4 eexists. split; [reflexivity|]. split; [exact CO|]. split; [exact CV|]. split; [exact CB|].
  destruct H as [H|H]; [left|right]; exact H.
Qed.

Lemma set_cached_step : forall b v n c obj, sound c obj -> fits t b -> answering n -> e_writable e = true ->
  exists c1 ev r obj', act_step e index sub (ASetCached b v n) c obj = Ok (c1, obj', ev, r) /\ cell_ok t c1 /\ c_valid c1 = true /\
  ((ev = [] /\ c1 = c /\ c_valid c = true /\ val_eqb t b (c_buf c) = true /\ r = RDone /\ obj' = obj) \/
   (exists ok, ev = [EvWrite (c_wr c) b ok] /\ c_buf c1 = b /\
     ((r = RDone /\ obj' = b) \/ (r = RThrow DeviceError /\ obj' = obj /\ v_veto v <> no_veto)))).
Proof.
  intros b v n c obj S FB AN W. unfold act_step, step, data_set_cached. rewrite W. cbn [negb].
  destruct (write_step b v n c obj S FB AN) as (c1 & r & E & CO & CV & CB & H).
  destruct (c_valid c) eqn:V; cbn [negb].
  - pose proof S as [[CT C2] _]. rewrite (access_ok t c (proj1 S)), CT. destruct (val_eqb t b (c_buf c)) eqn:Q.
    + unfold ret. do 4 eexists. split; [reflexivity|]. split; [split; assumption|]. split; [exact V|]. left. repeat split.
    + rewrite E. do 4 eexists. split; [reflexivity|]. split; [exact CO|]. split; [exact CV|]. right.
      eexists. split; [reflexivity|]. split; [exact CB|]. exact H.
  - rewrite E. do 4 eexists. split; [reflexivity|]. split; [exact CO|]. split; [exact CV|]. right.
    eexists. split; [reflexivity|]. split; [exact CB|]. exact H.
Qed.

(** Writes that the server does not answer completely, and refused ones: whatever they do, the cell stays sound. *)
Lemma remote_write_content : forall v obj n d, fits t d ->
  fst (remote_write v index sub obj n d) = obj \/ fst (remote_write v index sub obj n d) = d.
Proof.
  intros v obj n d F. pose proof (fits_nonempty d F) as NE. pose proof F as (B & L & V).
  unfold remote_write, talked.
  pose proof (talk_write v index sub d obj OBJ B NE n) as W.
  destruct (talk v index sub (sdo_write index sub d) obj n) as [ins st].
  assert (S : snd st = obj \/ snd st = d).
  { destruct W as [N A E|N A MM E|s out E FI W U]; [|right; assumption|left; assumption].
    left. destruct n; cbn [server_at] in A; subst st; reflexivity. }
  destruct (sdo_write index sub d (ins ++ [ITimeout])) as [[o [b| |]]|]; exact S.
Qed.

Lemma act_sound : forall a c obj c1 obj1 ev r, sound c obj -> act_ok t a ->
  act_step e index sub a c obj = Ok (c1, obj1, ev, r) -> sound c1 obj1.
Proof.
  intros a c obj c1 obj1 ev r S A H. destruct a as [cached v n|b v n|b v n|b].
  - cbn [act_ok] in A. destruct (e_readable e) eqn:R.
    + destruct (get_step cached v n c obj S A R) as (c2 & ev2 & r2 & E & CO & _). rewrite E in H. injection H as <- <- <- <-.
      split; [exact CO|apply S].
    + unfold act_step, step, data_get in H. rewrite R in H. cbn in H. injection H as <- <- <- <-. exact S.
  - cbn [act_ok] in A. unfold act_step, step, data_set in H.
    rewrite (handed_eq c b (proj1 S) (proj2 (proj2 A))) in H.
    destruct (e_writable e); cbn [negb] in H.
    + unfold data_write in H. destruct (assign_ok t c b (proj1 S) (proj2 (proj2 A))) as (c3 & AE & CO & _).
      rewrite AE in H. unfold ret in H. injection H as <- <- <- <-. split; [exact CO|].
      destruct (remote_write_content v obj n b A) as [-> | ->]; [apply S|exact A].
    + rewrite (access_ok t c (proj1 S)) in H. unfold ret in H.
      destruct (c_valid c); cbn [negb] in H; injection H as <- <- <- <-; exact S.
  - cbn [act_ok] in A. unfold act_step, step, data_set_cached in H.
    rewrite (handed_eq c b (proj1 S) (proj2 (proj2 A))), (access_ok t c (proj1 S)) in H.
    assert (G : forall x, match (if negb (e_writable e) then ret c [] (RThrow NoWriteAccess) else data_write c b (snd (remote_write v index sub obj n b)))
        with Undef => Undef | Ok (c1, ev, r) => Ok (c1, match ev with [] => obj | _ :: _ => fst (remote_write v index sub obj n b) end, ev, r) end = Ok x ->
        sound (fst (fst (fst x))) (snd (fst (fst x)))).
    { intros [[[c2 o2] ev2] r2] X. destruct (e_writable e); cbn [negb] in X.
      - unfold data_write in X. destruct (assign_ok t c b (proj1 S) (proj2 (proj2 A))) as (c3 & AE & CO & _).
        rewrite AE in X. unfold ret in X. injection X as <- <- <- <-. split; [exact CO|]. cbn [fst snd].
        destruct (remote_write_content v obj n b A) as [-> | ->]; [apply S|exact A].
      - unfold ret in X. injection X as <- <- <- <-. exact S. }
    destruct (c_valid c); cbn [negb] in H; [|apply (G _ H)].
    destruct (val_eqb (c_type c) b (c_buf c)); [|apply (G _ H)].
    unfold ret in H. injection H as <- <- <- <-. exact S.
  - cbn in H. injection H as <- <- <- <-. split; [apply S|exact A].
Qed.

Lemma run_sound : forall l c obj c1 obj1 rs, sound c obj -> Forall (act_ok t) l ->
  act_run e index sub l c obj = Ok (c1, obj1, rs) -> sound c1 obj1.
Proof.
  induction l as [|a l IH]; intros c obj c1 obj1 rs S A H; cbn [act_run] in H.
  - injection H as <- <- <-. exact S.
  - inversion A as [|x y A1 A2]; subst.
    destruct (act_step e index sub a c obj) as [[[[c2 obj2] ev] r]|] eqn:E; [|discriminate].
    destruct (act_run e index sub l c2 obj2) as [[[c3 obj3] rs3]|] eqn:E2; [|discriminate].
    injection H as <- <- <-. eapply IH; [|exact A2|exact E2]. eapply act_sound; eassumption.
Qed.

Lemma run_defined : forall l c obj, sound c obj -> Forall (act_ok t) l -> act_run e index sub l c obj <> Undef.
Proof.
  induction l as [|a l IH]; intros c obj S A H; cbn [act_run] in H; [discriminate|].
  inversion A as [|x y A1 A2]; subst.
  destruct (act_step e index sub a c obj) as [[[[c2 obj2] ev] r]|] eqn:E.
  - pose proof (act_sound _ _ _ _ _ _ _ S A1 E) as S2.
    destruct (act_run e index sub l c2 obj2) as [[[c3 obj3] rs3]|] eqn:E2; [discriminate|]. apply (IH _ _ S2 A2 E2).
  - clear H. destruct a as [cached v n|b v n|b v n|b]; cbn [act_ok] in A1.
    + destruct (e_readable e) eqn:R.
      * destruct (get_step cached v n c obj S A1 R) as (c2 & ev2 & r2 & E2 & _). congruence.
      * unfold act_step, step, data_get in E. rewrite R in E. discriminate.
    + unfold act_step, step, data_set in E. rewrite (access_ok t c (proj1 S)) in E.
      unfold data_write in E. destruct (assign_ok t c b (proj1 S) (proj2 (proj2 A1))) as (c3 & AE & _). rewrite AE in E.
      destruct (e_writable e); cbn [negb] in E; [discriminate|]. destruct (c_valid c); discriminate.
    + unfold act_step, step, data_set_cached in E. rewrite (access_ok t c (proj1 S)) in E.
      unfold data_write in E. destruct (assign_ok t c b (proj1 S) (proj2 (proj2 A1))) as (c3 & AE & _). rewrite AE in E.
      destruct (c_valid c); cbn [negb] in E;
        [destruct (val_eqb (c_type c) b (c_buf c)); [discriminate|]|]; destruct (e_writable e); discriminate.
    + discriminate.
Qed.

(** Nothing failed and the device did not change the object: the held value is
    the one of the device. *)
Definition coherent (c : cell) (obj : bytes) : Prop := c_valid c = true -> c_buf c = obj.

Lemma act_coherent : forall a c obj c1 obj1 ev r, sound c obj -> coherent c obj -> act_ok t a -> act_answered a -> passive a ->
  e_readable e = true -> e_writable e = true ->
  act_step e index sub a c obj = Ok (c1, obj1, ev, r) -> not_failed r -> coherent c1 obj1 /\ c_valid c1 = true.
Proof.
  intros a c obj c1 obj1 ev r S CH A AN P R W H NF. destruct a as [cached v n|b v n|b v n|b]; cbn [act_ok act_answered] in *.
  - destruct (get_step cached v n c obj S A R) as (c2 & ev2 & r2 & E & CO & D). rewrite E in H. injection H as <- <- <- <-.
    destruct D as [(_ & -> & V & _)|(b & ok & _ & V & _ & D)]; [split; assumption|].
    destruct D as [(_ & _ & B & _)|(_ & F & _)]; [|exfalso; apply NF; exact F].
    split; [intros _; exact B|exact V].
  - destruct (set_step b v n c obj S A AN W) as (c2 & ok & r2 & o2 & E & CO & V & B & D). rewrite E in H. injection H as <- <- <- <-.
    destruct D as [[_ ->]|(F & _)]; [|exfalso; apply NF; exact F]. split; [intros _; exact B|exact V].
  - destruct (set_cached_step b v n c obj S A AN W) as (c2 & ev2 & r2 & o2 & E & CO & V & D). rewrite E in H. injection H as <- <- <- <-.
    destruct D as [(_ & -> & _ & _ & _ & ->)|(ok & _ & B & D)]; [split; assumption|].
    destruct D as [[_ ->]|(F & _)]; [|exfalso; apply NF; exact F]. split; [intros _; exact B|exact V].
  - contradiction.
Qed.

Lemma run_coherent : forall l c obj c1 obj1 rs, sound c obj -> coherent c obj -> Forall (act_ok t) l -> Forall act_answered l ->
  Forall passive l -> e_readable e = true -> e_writable e = true ->
  act_run e index sub l c obj = Ok (c1, obj1, rs) -> Forall not_failed rs ->
  coherent c1 obj1 /\ (l <> [] -> c_valid c1 = true).
Proof.
  induction l as [|a l IH]; intros c obj c1 obj1 rs S CH A AN P R W H NF; cbn [act_run] in H.
  - injection H as <- <- <-. split; [exact CH|congruence].
  - inversion A as [|x y A1 A2]; subst. inversion AN as [|x y N1 N2]; subst. inversion P as [|x y P1 P2]; subst.
    destruct (act_step e index sub a c obj) as [[[[c2 obj2] ev] r]|] eqn:E; [|discriminate].
    destruct (act_run e index sub l c2 obj2) as [[[c3 obj3] rs3]|] eqn:E2; [|discriminate].
    injection H as <- <- <-. inversion NF as [|x y F1 F2]; subst.
    destruct (act_coherent _ _ _ _ _ _ _ S CH A1 N1 P1 R W E F1) as [C2 V2].
    pose proof (act_sound _ _ _ _ _ _ _ S A1 E) as S2.
    destruct (IH _ _ _ _ _ S2 C2 A2 N2 P2 R W E2 F2) as [C3 V3]. split; [exact C3|]. intros _.
    destruct l as [|a2 l2]; [|apply V3; discriminate]. cbn in E2. injection E2 as <- _ _. exact V2.
Qed.
End Remote.

Lemma fresh_sound : forall t c k, fresh t c k -> cell_ok t c.
Proof.
  intros t c k [|v V]; (split; [reflexivity|]); [|exact V].
  cbn [data_typed c_buf]. destruct t; cbn [value_ok]; try exact I; apply repeat_length.
Qed.
