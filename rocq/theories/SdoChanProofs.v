(** Proofs about the SDO client on the bus. *)
From Verif Require Import Base CanModel KeyModel StorageModel PdoModel ReaderModel ReaderSpec ReaderProofs PdoConfProofs
  SdoModel SdoSpec SdoProofs SdoChanModel SdoChanSpec.

(** ** Identifiers *)

Lemma le32_of_le : forall b, le32 b = of_le (firstn 4 b).
Proof.
  intros b. unfold le32. destruct b as [|x [|y [|z [|w b]]]]; cbn [firstn of_le nth]; lia.
Qed.

Lemma ity_refl : forall T, ity_eqb T T = true.
Proof. intros [b n]. unfold ity_eqb. cbn. rewrite eqb_reflx, Z.eqb_refl. reflexivity. Qed.

Lemma apply_configured : forall nid e v, apply_u32 nid (e_value e) = Some v <-> configured nid e v.
Proof.
  intros nid e v. split.
  - intros H. unfold apply_u32, hold_get in H.
    assert (G : e_value e = e_init e \/ (h_data (e_init e) = None /\ e_value e = e_def e)).
    { unfold e_value. destruct (h_data (e_init e)) eqn:D; [left; reflexivity|right; auto]. }
    destruct (h_type (e_value e)) as [t|] eqn:T; [|discriminate].
    destruct (h_data (e_value e)) as [b|] eqn:D.
    2: { destruct t; discriminate. }
    destruct (ty_eqb t U32) eqn:X.
    + injection H as <-. apply ty_eqb_spec in X. subst t. exists (e_value e), b.
      split; [exact G|]. split; [exact D|]. left. split; [exact T|]. rewrite le32_of_le. reflexivity.
    + destruct t as [| | |T0]; try discriminate H. destruct (ity_eqb T0 (mkIty false 4)) eqn:Y; [|discriminate H].
      injection H as <-. assert (T0 = mkIty false 4).
      { destruct T0 as [s n]. unfold ity_eqb in Y. cbn in Y. apply andb_true_iff in Y. destruct Y as [Y1 Y2].
        apply eqb_prop in Y1. apply Z.eqb_eq in Y2. subst. reflexivity. }
      subst T0. exists (e_value e), b. split; [exact G|]. split; [exact D|]. right. split; [exact T|].
      rewrite le32_of_le. reflexivity.
  - intros (h & b & G & D & V).
    assert (E : e_value e = h).
    { unfold e_value. destruct G as [->|[N ->]]; [rewrite D|rewrite N]; reflexivity. }
    rewrite E. unfold apply_u32, hold_get. rewrite D. rewrite le32_of_le in V. destruct V as [[T ->]|[T ->]]; rewrite T.
    + reflexivity.
    + reflexivity.
Qed.

Lemma sdo_header_eq : forall v, sdo_header v = cob_id v.
Proof.
  intros v. unfold sdo_header, cob_id, Header. f_equal.
  rewrite Z.testbit_odd, Z.shiftr_div_pow2 by lia. rewrite (Zodd_mod (v / 2^29)). 
  destruct (v / 2 ^ 29 mod 2 =? 1) eqn:E; unfold Zeq_bool; [apply Z.eqb_eq in E; rewrite E; reflexivity|].
  apply Z.eqb_neq in E. assert (X : v / 2 ^ 29 mod 2 = 0) by (pose proof (Z.mod_pos_bound (v / 2^29) 2); lia).
  rewrite X. reflexivity.
Qed.

(** ** The run, one event at the end *)

Lemma crun_snoc : forall es e c, crun c (es ++ [e]) =
  match crun c es with
  | Undef => Undef
  | Ok (c1, o1) => match cstep c1 e with Undef => Undef | Ok (c2, o2) => Ok (c2, o1 ++ o2) end
  end.
Proof.
  intros es e. induction es as [|x es IH]; intros c; cbn [app crun].
  - destruct (cstep c e) as [[c1 o1]|]; [|reflexivity]. rewrite app_nil_r. reflexivity.
  - destruct (cstep c x) as [[c1 o1]|]; [|reflexivity]. rewrite IH.
    destruct (crun c1 es) as [[c2 o2]|]; [|reflexivity].
    destruct (cstep c2 e) as [[c3 o3]|]; [|reflexivity]. rewrite app_assoc. reflexivity.
Qed.

(** Invariants of runs. *)
Lemma crun_inv : forall (P : client -> list obs -> Prop) c0, P c0 [] ->
  (forall c tr e c1 o, P c tr -> cstep c e = Ok (c1, o) -> P c1 (tr ++ o)) ->
  forall es c tr, crun c0 es = Ok (c, tr) -> P c tr.
Proof.
  intros P c0 H0 HS es. induction es as [|e es IH] using rev_ind; intros c tr H.
  - injection H as <- <-. exact H0.
  - rewrite crun_snoc in H. destruct (crun c0 es) as [[c1 o1]|]; [|discriminate].
    destruct (cstep c1 e) as [[c2 o2]|] eqn:E; [|discriminate]. injection H as <- <-.
    eapply HS; [apply IH; reflexivity|exact E].
Qed.

Lemma cstep_ids : forall c e c1 o, cstep c e = Ok (c1, o) -> c_client c1 = c_client c /\ c_server c1 = c_server c.
Proof.
  intros c e c1 o H. unfold cstep in H. destruct e as [f|k| |].
  - injection H as <- <-. destruct (_ =? _); split; reflexivity.
  - destruct (c_phase c); injection H as <- <-; split; reflexivity.
  - destruct (c_phase c) as [|k|k s|k r]; try (injection H as <- <-; split; reflexivity).
    destruct (s_done s); [injection H as <- <-; split; reflexivity|].
    destruct (rstep (c_reader c) Read) as [rd [f| | | |]]; try (injection H as <- <-; split; reflexivity).
    destruct (process_frame _ _ _ _ _) as [[[s1 out] [|]]|]; [| |discriminate]; injection H as <- <-; split; reflexivity.
  - destruct (c_phase c) as [|k|k s|k r]; try (injection H as <- <-; split; reflexivity).
    destruct (s_done s); [injection H as <- <-; split; reflexivity|].
    destruct (rstep (c_reader c) Read) as [rd [f| | | |]]; injection H as <- <-; split; reflexivity.
Qed.

Lemma crun_ids : forall es c0 c tr, crun c0 es = Ok (c, tr) -> c_client c = c_client c0 /\ c_server c = c_server c0.
Proof.
  intros es c0 c tr H.
  pose proof (crun_inv (fun c _ => c_client c = c_client c0 /\ c_server c = c_server c0) c0) as G.
  eapply G; [split; reflexivity| |exact H].
  intros c1 tr1 e c2 o [A B] E. destruct (cstep_ids _ _ _ _ E) as [X Y]. split; congruence.
Qed.

(** The cases of a step. *)
Inductive stepped (c : client) : event -> client -> list obs -> Prop :=
| st_none : forall e, stepped c e c []
| st_other : forall f, key (f_hdr f) <> key (c_server c) -> stepped c (EFrame f) c [ORecv f]
| st_frame : forall f, key (f_hdr f) = key (c_server c) ->
    stepped c (EFrame f) (with_reader c (fst (rstep (c_reader c) (Arrive f)))) [ORecv f]
| st_call : forall k, c_phase c = PIdle ->
    stepped c (ECall k) (with_phase (with_reader c (fst (rstep (c_reader c) (SetEnabled true)))) (PEnabled k)) [OStart k]
| st_send : forall k, c_phase c = PEnabled k ->
    stepped c EStep (with_phase c (PLoop k (start k))) [OSent (to_frame c (s_last (start k)))]
| st_done : forall k s, c_phase c = PLoop k s -> s_done s = true ->
    stepped c EStep (with_phase c (PLeft k (finish s true))) []
| st_take : forall k s f t s1 out b, c_phase c = PLoop k s -> s_done s = false ->
    buffer_ (c_reader c) = f :: t ->
    process_frame (k_index k) (k_sub k) (f_dlc f) (f_data f) s = Ok (s1, out, b) ->
    stepped c EStep
      (with_phase (with_reader c (mkReader t (enabled_ (c_reader c)) (max_len_ (c_reader c))))
         (if b then PLoop k s1 else PLeft k (finish s1 true)))
      (OTaken f :: map (fun m => OSent (to_frame c m)) out)
| st_leave : forall k r, c_phase c = PLeft k r ->
    stepped c EStep (with_phase (with_reader c (fst (rstep (c_reader c) (SetEnabled false)))) PIdle) [OReturn r]
| st_timeout : forall k s, c_phase c = PLoop k s -> s_done s = false -> buffer_ (c_reader c) = [] ->
    stepped c ETimeout
      (with_phase c (PLeft k (finish (set_last s (abort_request (k_index k) (k_sub k) 0x05040000)) true)))
      [OTimedOut; OSent (to_frame c (abort_request (k_index k) (k_sub k) 0x05040000))].

Lemma cstep_cases : forall c e c1 o, cstep c e = Ok (c1, o) -> stepped c e c1 o.
Proof.
  intros c e c1 o H. unfold cstep in H. destruct e as [f|k| |].
  - injection H as <- <-. destruct (key (f_hdr f) =? key (c_server c)) eqn:E.
    + apply st_frame. apply Z.eqb_eq. exact E.
    + apply st_other. apply Z.eqb_neq. exact E.
  - destruct (c_phase c) eqn:P; injection H as <- <-; try apply st_none. apply st_call; assumption.
  - destruct (c_phase c) as [|k|k s|k r] eqn:P.
    + injection H as <- <-. apply st_none.
    + injection H as <- <-. apply st_send; assumption.
    + destruct (s_done s) eqn:D; [injection H as <- <-; apply st_done; assumption|].
      cbn [rstep] in H. destruct (buffer_ (c_reader c)) as [|f t] eqn:B; [injection H as <- <-; apply st_none|].
      destruct (process_frame _ _ _ _ _) as [[[s1 out] b]|] eqn:F; [|discriminate].
      injection H as <- <-. eapply st_take; eassumption.
    + injection H as <- <-. eapply st_leave; eassumption.
  - destruct (c_phase c) as [|k|k s|k r] eqn:P; try (injection H as <- <-; apply st_none).
    destruct (s_done s) eqn:D; [injection H as <- <-; apply st_none|].
    cbn [rstep] in H. destruct (buffer_ (c_reader c)) as [|f t] eqn:B; [|injection H as <- <-; apply st_none].
    injection H as <- <-. eapply st_timeout; eassumption.
Qed.

(** ** Calls are transfers *)

Definition own_frame (h : header) (f : frame) : Prop := f_hdr f = h /\ f_dlc f = 8.

(** The call in progress, by the trace. *)
Fixpoint current (cur : option (call * list input * list frame)) (tr : list obs)
  : option (call * list input * list frame) :=
  match tr with
  | [] => cur
  | OStart k :: t => current (Some (k, [], [])) t
  | o :: t =>
    match cur with
    | None => current None t
    | Some (k, ins, sent) =>
      match o with
      | OSent f => current (Some (k, ins, sent ++ [f])) t
      | OTaken f => current (Some (k, ins ++ [IFrame (f_dlc f) (f_data f)], sent)) t
      | OTimedOut => current (Some (k, ins ++ [ITimeout], sent)) t
      | OReturn r => current None t
      | _ => current cur t
      end
    end
  end.

Lemma calls_app : forall a b cur, calls_from cur (a ++ b) = calls_from cur a ++ calls_from (current cur a) b.
Proof.
  induction a as [|o a IH]; intros b cur; [reflexivity|].
  destruct o; cbn [app calls_from current]; try apply IH; destruct cur as [[[k ins] sn]|]; try apply IH.
  cbn [app]. f_equal. apply IH.
Qed.
Lemma current_app : forall a b cur, current cur (a ++ b) = current (current cur a) b.
Proof.
  induction a as [|o a IH]; intros b cur; [reflexivity|].
  destruct o; cbn [app current]; try apply IH; destruct cur as [[[k ins] sn]|]; apply IH.
Qed.

Lemma current_sends : forall c out k ins sn,
  current (Some (k, ins, sn)) (map (fun m => OSent (to_frame c m)) out) = Some (k, ins, sn ++ map (to_frame c) out).
Proof.
  intros c out. induction out as [|m out IH]; intros k ins sn; cbn [map current]; [rewrite app_nil_r; reflexivity|].
  rewrite IH. rewrite <- app_assoc. reflexivity.
Qed.
Lemma calls_sends : forall c out cur, calls_from cur (map (fun m => OSent (to_frame c m)) out) = [].
Proof.
  intros c out. induction out as [|m out IH]; intros cur; cbn [map calls_from]; [reflexivity|].
  destruct cur as [[[k ins] sn]|]; apply IH.
Qed.

Definition done_ok (h : header) (d : done_call) : Prop :=
  transfer (n_call d) (n_inputs d) = Ok (map f_data (n_sent d), n_result d) /\ Forall (own_frame h) (n_sent d).

Definition tloop (k : call) (ins : list input) := transfer_loop (k_index k) (k_sub k) ins (start k).

Lemma transfer_eq : forall k ins, transfer k ins =
  match tloop k ins with Undef => Undef | Ok (s1, out, st) => Ok (s_last (start k) :: out, finish s1 st) end.
Proof. intros k ins. unfold transfer, tloop, start. destruct (k_write k); reflexivity. Qed.

Definition call_inv (c : client) (tr : list obs) : Prop :=
  Forall (done_ok (c_client c)) (calls tr) /\
  match c_phase c with
  | PIdle => current None tr = None
  | PEnabled k => current None tr = Some (k, [], [])
  | PLoop k s => exists ins sn out, current None tr = Some (k, ins, sn) /\ Forall (own_frame (c_client c)) sn /\
      map f_data sn = s_last (start k) :: out /\ tloop k ins = Ok (s, out, s_done s)
  | PLeft k r => exists ins sn out s, current None tr = Some (k, ins, sn) /\ Forall (own_frame (c_client c)) sn /\
      map f_data sn = s_last (start k) :: out /\ tloop k ins = Ok (s, out, true) /\ r = finish s true
  end.

Lemma start_done : forall k, s_done (start k) = false.
Proof.
  intros k. unfold start, start_write, start_read. destruct (k_write k); [|reflexivity].
  destruct (download_initiate _ _ _); reflexivity.
Qed.

Lemma tloop_snoc : forall k ins i s out, tloop k ins = Ok (s, out, false) ->
  tloop k (ins ++ [i]) = match transfer_loop (k_index k) (k_sub k) [i] s with
                         | Undef => Undef | Ok (s2, o2, x) => Ok (s2, out ++ o2, x) end.
Proof. intros k ins i s out H. unfold tloop in *. rewrite loop_app, H. reflexivity. Qed.

Lemma call_inv_step : forall c tr e c1 o, call_inv c tr -> cstep c e = Ok (c1, o) -> call_inv c1 (tr ++ o).
Proof.
  intros c tr e c1 o [F I] H. apply cstep_cases in H. unfold call_inv, calls in *. rewrite calls_app, current_app.
  destruct H as [e|f K|f K|k P|k P|k s P D|k s f t s1 out b P D B PF|k r P|k s P D B].
  - cbn [calls_from current]. rewrite app_nil_r. split; assumption.
  - cbn [calls_from current]. destruct (current None tr) as [[[k0 i0] n0]|] eqn:C; rewrite app_nil_r; split; assumption.
  - cbn [calls_from current with_reader c_client c_phase].
    destruct (current None tr) as [[[k0 i0] n0]|] eqn:C; rewrite app_nil_r; split; assumption.
  - cbn [calls_from current with_reader with_phase c_client c_phase]. rewrite app_nil_r. split; [assumption|reflexivity].
  - rewrite P in I. rewrite I. cbn [calls_from current with_phase c_client c_phase]. rewrite app_nil_r. split; [assumption|].
    exists [], [to_frame c (s_last (start k))], []. split; [reflexivity|]. split; [repeat constructor|].
    split; [reflexivity|]. unfold tloop. rewrite loop_eq, start_done. reflexivity.
  - rewrite P in I. destruct I as (ins & sn & out & C & O & M & T). cbn [calls_from current with_phase c_client c_phase].
    rewrite app_nil_r. split; [assumption|]. rewrite D in T. exists ins, sn, out, s. repeat split; assumption.
  - rewrite P in I. destruct I as (ins & sn & out0 & C & O & M & T). rewrite C. rewrite D in T.
    cbn [calls_from current with_phase with_reader c_client c_phase].
    rewrite calls_sends, current_sends, app_nil_r. split; [assumption|].
    assert (O2 : Forall (own_frame (c_client c)) (sn ++ map (to_frame c) out)).
    { apply Forall_app. split; [assumption|]. apply Forall_forall. intros x X. apply in_map_iff in X.
      destruct X as [m [<- _]]. split; reflexivity. }
    assert (M2 : map f_data (sn ++ map (to_frame c) out) = s_last (start k) :: out0 ++ out).
    { rewrite map_app, M, map_map. cbn [app]. f_equal. f_equal. apply map_id. }
    assert (T2 : tloop k (ins ++ [IFrame (f_dlc f) (f_data f)]) =
                 Ok (s1, out0 ++ out, if b then s_done s1 else true)).
    { rewrite (tloop_snoc _ _ _ _ _ T). rewrite loop_eq, D, PF. destruct b; [|reflexivity].
      rewrite loop_eq. destruct (s_done s1); rewrite app_nil_r; reflexivity. }
    destruct b.
    + eexists. eexists. eexists. split; [reflexivity|]. split; [exact O2|]. split; [exact M2|exact T2].
    + eexists. eexists. eexists. eexists. split; [reflexivity|]. split; [exact O2|]. split; [exact M2|].
      split; [exact T2|reflexivity].
  - rewrite P in I. destruct I as (ins & sn & out & s & C & O & M & T & ->). rewrite C.
    cbn [calls_from current with_phase with_reader c_client c_phase]. split; [|reflexivity].
    apply Forall_app. split; [assumption|]. constructor; [|constructor]. split; [|exact O].
    cbn [n_call n_inputs n_sent n_result]. rewrite transfer_eq, T, M. reflexivity.
  - rewrite P in I. destruct I as (ins & sn & out & C & O & M & T). rewrite C. rewrite D in T.
    cbn [calls_from current with_phase c_client c_phase]. rewrite app_nil_r. split; [assumption|].
    eexists. eexists. eexists. eexists. split; [reflexivity|].
    split; [apply Forall_app; split; [exact O|repeat constructor]|].
    split; [rewrite map_app, M; cbn [map app to_frame f_data]; reflexivity|].
    split; [|reflexivity]. rewrite (tloop_snoc _ _ _ _ _ T). rewrite loop_eq, D. reflexivity.
Qed.

Lemma init_inv : forall d nid, call_inv (client_init d nid) [].
Proof. intros d nid. split; [constructor|reflexivity]. Qed.

(** ** Everything sent, also in the call that is under way *)

Lemma sent_own : forall es c0 c tr, crun c0 es = Ok (c, tr) -> Forall (own_frame (c_client c0)) (sent tr).
Proof.
  intros es c0 c tr H.
  assert (G : (c_client c = c_client c0) /\ Forall (own_frame (c_client c0)) (sent tr)); [|apply G].
  pose proof (crun_inv (fun c tr => c_client c = c_client c0 /\ Forall (own_frame (c_client c0)) (sent tr)) c0) as G.
  eapply G; [split; [reflexivity|constructor]| |exact H].
  clear. intros c tr e c1 o [I F] E. pose proof (cstep_ids _ _ _ _ E) as [X _]. split; [congruence|].
  unfold sent. rewrite flat_map_app. apply Forall_app. split; [exact F|]. rewrite <- I. apply cstep_cases in E.
  destruct E; cbn [flat_map app]; try (repeat constructor; fail).
  clear. induction out as [|m out IH]; cbn [map flat_map app]; [constructor|].
  constructor; [split; reflexivity|exact IH].
Qed.

(** ** Frames for others *)

Lemma own_app : forall a b, own (a ++ b) = own a ++ own b.
Proof. intros. unfold own. apply filter_app. Qed.

Lemma others_ignored : forall es c,
  match crun c es, crun c (without_others (c_server c) es) with
  | Ok (c1, tr), Ok (c2, tr2) => c1 = c2 /\ own tr = own tr2
  | Undef, Undef => True
  | _, _ => False
  end.
Proof.
  induction es as [|e es IH]; intros c; [cbn; auto|].
  destruct (match e with EFrame f => negb (key (f_hdr f) =? key (c_server c)) | _ => false end) eqn:X.
  - destruct e as [f| | |]; try discriminate. unfold without_others. cbn [List.filter crun cstep].
    destruct (key (f_hdr f) =? key (c_server c)); [discriminate|]. specialize (IH c). unfold without_others in IH.
    destruct (crun c es) as [[c1 t1]|]; destruct (crun c (List.filter _ es)) as [[c2 t2]|]; try exact IH.
  - assert (Y : without_others (c_server c) (e :: es) = e :: without_others (c_server c) es).
    { unfold without_others. cbn [List.filter]. destruct e as [f| | |]; try reflexivity.
      destruct (key (f_hdr f) =? key (c_server c)); [reflexivity|discriminate]. }
    rewrite Y. cbn [crun]. destruct (cstep c e) as [[c1 o1]|] eqn:S; [|exact I].
    specialize (IH c1). pose proof (cstep_ids _ _ _ _ S) as [_ Z]. rewrite Z in IH.
    destruct (crun c1 es) as [[c2 t2]|]; destruct (crun c1 (without_others (c_server c) es)) as [[c3 t3]|]; try exact IH.
    destruct IH as [-> W]. split; [reflexivity|]. rewrite !own_app, W. reflexivity.
Qed.

(** ** What the loop gets *)

Definition for_us (h : header) (f : frame) : bool := key (f_hdr f) =? key h.

Lemma received_app : forall a b, SdoChanSpec.received (a ++ b) = SdoChanSpec.received a ++ SdoChanSpec.received b.
Proof. intros. apply flat_map_app. Qed.
Lemma taken_app : forall a b, taken (a ++ b) = taken a ++ taken b.
Proof. intros. apply flat_map_app. Qed.
Lemma sent_app : forall a b, sent (a ++ b) = sent a ++ sent b.
Proof. intros. apply flat_map_app. Qed.
Lemma received_sends : forall c out, SdoChanSpec.received (map (fun m => OSent (to_frame c m)) out) = [].
Proof. intros c out. induction out as [|m out IH]; [reflexivity|exact IH]. Qed.
Lemma taken_sends : forall c out, taken (map (fun m => OSent (to_frame c m)) out) = [].
Proof. intros c out. induction out as [|m out IH]; [reflexivity|exact IH]. Qed.
Lemma sent_sends : forall c out, sent (map (fun m => OSent (to_frame c m)) out) = map (to_frame c) out.
Proof. intros c out. induction out as [|m out IH]; [reflexivity|]. cbn [map]. unfold sent in *. cbn [flat_map app]. rewrite IH. reflexivity. Qed.


Lemma sub_snoc_drop : forall A (a b : list A) x, sub a b -> sub a (b ++ [x]).
Proof. intros A a b x H. rewrite <- (app_nil_r a). apply sub_app; [exact H|apply sub_nil]. Qed.

Lemma taken_sub : forall d nid es c tr, crun (client_init d nid) es = Ok (c, tr) ->
  sub (taken tr ++ buffer_ (c_reader c)) (List.filter (for_us (sdo_server_id d nid)) (SdoChanSpec.received tr)).
Proof.
  intros d nid es c tr H.
  pose proof (crun_inv (fun c tr => c_server c = sdo_server_id d nid /\
    sub (taken tr ++ buffer_ (c_reader c)) (List.filter (for_us (sdo_server_id d nid)) (SdoChanSpec.received tr)))
    (client_init d nid)) as G.
  eapply G; [split; [reflexivity|constructor]| |exact H].
  clear. intros c tr e c1 o [I F] E. pose proof (cstep_ids _ _ _ _ E) as [_ X]. split; [congruence|].
  apply cstep_cases in E. rewrite taken_app, received_app, filter_app.
  destruct E as [e|f K|f K|k P|k P|k s P D|k s f t s1 out b P D B PF|k r P|k s P D B];
    cbn [taken SdoChanSpec.received flat_map List.filter app c_reader with_reader with_phase];
    rewrite ?app_nil_r; try exact F.
  - assert (Z : for_us (sdo_server_id d nid) f = false) by (unfold for_us; rewrite <- I; apply Z.eqb_neq; exact K).
    rewrite Z, app_nil_r. exact F.
  - assert (Z : for_us (sdo_server_id d nid) f = true) by (unfold for_us; rewrite <- I; apply Z.eqb_eq; exact K).
    rewrite Z. cbn [rstep]. destruct (enabled_ (c_reader c)); cbn [fst buffer_]; [|apply sub_snoc_drop; exact F].
    eapply sub_trans; [apply sub_app; [exact F|apply sub_refl]|]. rewrite <- app_assoc. apply sub_app; [apply sub_refl|].
    rewrite trim_newest. apply sub_newest.
  - rewrite B in F. unfold taken. cbn [flat_map]. fold (taken (map (fun m => OSent (to_frame c m)) out)).
    fold (SdoChanSpec.received (map (fun m => OSent (to_frame c m)) out)).
    rewrite taken_sends, received_sends. cbn [app List.filter buffer_]. rewrite app_nil_r, <- app_assoc. exact F.
Qed.

(** ** Fresh responses *)

Lemma code_start : forall k, asks (mkFrame (Header 0 false false false) 8 (s_last (start k))) = true.
Proof.
  intros k. unfold asks. cbn [f_data]. unfold start, start_write, start_read, download_initiate, upload_initiate.
  destruct (k_write k); [|reflexivity].
  destruct (4 <? List.length (k_data k))%nat eqn:L; cbn [s_last]; unfold code, b0; cbn [app nth].
  - reflexivity.
  - pose proof (Z.mod_pos_bound (4 - Z.of_nat (List.length (k_data k))) 4).
    destruct (_ =? 4) eqn:E; [lia|reflexivity].
Qed.
Lemma asks_data : forall h1 h2 n1 n2 m, asks (mkFrame h1 n1 m) = asks (mkFrame h2 n2 m).
Proof. reflexivity. Qed.

Lemma process_asks : forall index sub dlc m s s1 out b, process_frame index sub dlc m s = Ok (s1, out, b) -> s_done s = false ->
  if b then (out = [] \/ exists r, out = [r] /\ code r <> 4 /\ s_done s1 = false)
  else forall r, In r out -> code r = 4.
Proof.
  intros index sub dlc m s s1 out b H D. destruct b.
  - apply process_last in H. destruct H as [[-> _]|(E & -> & X)]; [left; reflexivity|]. right.
    exists (s_last s1). split; [reflexivity|]. split; [|congruence].
    destruct X as [(t & u & o & ->)|[t ->]].
    + unfold download_segment. cbn [fst]. unfold code, b0. cbn [nth].
      destruct (7 <? List.length u - o)%nat eqn:L; unfold b2z; destruct t; lia.
    + destruct t; cbv; discriminate.
  - unfold process_frame in H.
    assert (A : forall reason, code (abort_request index sub reason) = 4) by reflexivity.
    destruct (negb (dlc =? 8)); [injection H as <- <-; intros r []|].
    destruct (m_command m =? 3).
    { destruct (test_download_initiate m (s_last s)); [injection H as <- <-; intros r [<-|[]]; apply A|].
      destruct (s_off s <? s_total s)%nat; [destruct (download_segment false (s_buf s) (s_off s))|]; discriminate. }
    destruct (m_command m =? 1).
    { destruct (test_download_segment m (s_last s)); [injection H as <- <-; intros r [<-|[]]; apply A|].
      destruct (s_off s <? s_total s)%nat; [destruct (download_segment (negb (m_toggle m)) (s_buf s) (s_off s))|]; discriminate. }
    destruct (m_command m =? 2).
    { destruct (test_upload_initiate m (s_last s) (s_total s)); [injection H as <- <-; intros r [<-|[]]; apply A|].
      destruct (read_initiate m s) as [[s2 [|]]|]; discriminate. }
    destruct (m_command m =? 0).
    { destruct (test_upload_segment m (s_last s)); [injection H as <- <-; intros r [<-|[]]; apply A|].
      destruct (read_segment m s) as [[s2 [|]]|]; [|injection H as <- <-; intros r [<-|[]]; apply A|discriminate].
      destruct (m_done m || _); discriminate. }
    destruct (m_command m =? 4); [injection H as <- <-; intros r []|discriminate].
Qed.

Definition nrecv (h : header) (tr : list obs) : nat := List.length (List.filter (for_us h) (SdoChanSpec.received tr)).
Definition nreq (tr : list obs) : nat := List.length (List.filter asks (sent tr)).
Definition ntaken (tr : list obs) : nat := List.length (taken tr).

Definition waiting (p : phase) : bool := match p with PLoop _ s => negb (s_done s) | _ => false end.
Definition recent (tr : list obs) (f : frame) : Prop :=
  exists x r y, tr = x ++ OSent r :: y /\ In (ORecv f) y /\ sent y = [].

Definition fresh_inv (c : client) (tr : list obs) : Prop :=
  fresh tr /\
  enabled_ (c_reader c) = match c_phase c with PIdle => false | _ => true end /\ max_len_ (c_reader c) = 1%nat /\
  (nrecv (c_server c) tr = ntaken tr + List.length (buffer_ (c_reader c)))%nat /\
  (nreq tr <= ntaken tr + 1)%nat /\ (nrecv (c_server c) tr <= nreq tr)%nat /\
  (waiting (c_phase c) = false -> nreq tr = ntaken tr) /\
  (forall f, In f (buffer_ (c_reader c)) -> recent tr f).

Lemma last_sent : forall tr, (0 < nreq tr)%nat -> exists x r y, tr = x ++ OSent r :: y /\ sent y = [].
Proof.
  intros tr. induction tr as [|o tr IH] using rev_ind; intros H; [unfold nreq in H; cbn in H; lia|].
  destruct (match o with OSent _ => true | _ => false end) eqn:X.
  - destruct o; try discriminate. exists tr, f, []. split; reflexivity.
  - assert (E : sent (tr ++ [o]) = sent tr) by (rewrite sent_app; destruct o; try discriminate; apply app_nil_r).
    unfold nreq in H. rewrite E in H. destruct (IH H) as (x & r & y & -> & Y). exists x, r, (y ++ [o]).
    split; [rewrite <- app_assoc; reflexivity|]. rewrite sent_app, Y. destruct o; try discriminate; reflexivity.
Qed.

Lemma fresh_app : forall a b, fresh a -> taken b = [] -> fresh (a ++ b).
Proof.
  intros a b F T u f v E.
  assert (L : forall a u, a ++ b = u ++ OTaken f :: v -> exists w, a = u ++ OTaken f :: w).
  { clear F E a u. induction a as [|o a IH]; intros u E.
    - cbn [app] in E. exfalso. rewrite E in T. rewrite taken_app in T. cbn in T. apply app_eq_nil in T. destruct T. discriminate.
    - destruct u as [|o' u]; cbn [app] in E; injection E as -> E.
      + exists a. reflexivity.
      + destruct (IH _ E) as [w ->]. exists w. reflexivity. }
  destruct (L a u E) as [w ->]. apply (F u f w eq_refl).
Qed.

Lemma fresh_snoc : forall a f, fresh a -> recent a f -> fresh (a ++ [OTaken f]).
Proof.
  intros a f F R u g v E.
  destruct v as [|o v] using rev_ind.
  - apply app_inj_tail in E. destruct E as [<- E]. injection E as <-. exact R.
  - clear IHv. assert (X : a ++ [OTaken f] = (u ++ OTaken g :: v) ++ [o]) by (rewrite <- app_assoc; exact E).
    apply app_inj_tail in X. destruct X as [-> _]. apply (F u g v eq_refl).
Qed.

Lemma recent_app : forall a b f, recent a f -> sent b = [] -> recent (a ++ b) f.
Proof.
  intros a b f (x & r & y & -> & I & Y) B. exists x, r, (y ++ b). split; [rewrite <- app_assoc; reflexivity|].
  split; [apply in_or_app; left; exact I|]. rewrite sent_app, Y, B. reflexivity.
Qed.

Lemma nrecv_app : forall h a b, nrecv h (a ++ b) = (nrecv h a + nrecv h b)%nat.
Proof. intros. unfold nrecv. rewrite received_app, filter_app, app_length. reflexivity. Qed.
Lemma nreq_app : forall a b, nreq (a ++ b) = (nreq a + nreq b)%nat.
Proof. intros. unfold nreq. rewrite sent_app, filter_app, app_length. reflexivity. Qed.
Lemma ntaken_app : forall a b, ntaken (a ++ b) = (ntaken a + ntaken b)%nat.
Proof. intros. unfold ntaken. rewrite taken_app, app_length. reflexivity. Qed.

Lemma fresh_inv_step : forall c tr e c1 o, fresh_inv c tr -> e <> ETimeout -> cstep c e = Ok (c1, o) ->
  (nrecv (c_server c) (tr ++ o) <= nreq (tr ++ o))%nat -> fresh_inv c1 (tr ++ o).
Proof.
  intros c tr e c1 o (F & EN & ML & RB & QT & RQ & W & BF) NT H PO.
  pose proof (cstep_ids _ _ _ _ H) as [_ SV]. apply cstep_cases in H. unfold fresh_inv. rewrite SV.
  rewrite nrecv_app, nreq_app in *. rewrite ntaken_app.
  destruct H as [e|f K|f K|k P|k P|k s P D|k s f t s1 out b P D B PF|k r P|k s P D B];
    cbn [c_reader with_reader with_phase c_phase].
  - cbn. rewrite app_nil_r, !Nat.add_0_r. repeat split; assumption.
  - assert (X : nrecv (c_server c) [ORecv f] = 0%nat).
    { unfold nrecv. cbn. unfold for_us. apply Z.eqb_neq in K. rewrite K. reflexivity. }
    rewrite X in *. cbn [nreq sent flat_map List.filter List.length ntaken taken app]. rewrite !Nat.add_0_r.
    split; [apply fresh_app; [exact F|reflexivity]|]. repeat split; try assumption.
    intros g G. apply recent_app; [apply BF, G|reflexivity].
  - assert (X : nrecv (c_server c) [ORecv f] = 1%nat).
    { unfold nrecv. cbn. unfold for_us. apply Z.eqb_eq in K. rewrite K. reflexivity. }
    rewrite X in *. change (nreq [ORecv f]) with 0%nat in *. change (ntaken [ORecv f]) with 0%nat. rewrite !Nat.add_0_r in *.
    assert (Q : (nreq tr = ntaken tr + 1 /\ nrecv (c_server c) tr = ntaken tr)%nat) by lia. destruct Q as [Q1 Q2].
    assert (BN : buffer_ (c_reader c) = []) by (destruct (buffer_ (c_reader c)); [reflexivity|cbn [List.length] in RB; lia]).
    assert (WT : waiting (c_phase c) = true) by (destruct (waiting (c_phase c)); [reflexivity|specialize (W eq_refl); lia]).
    assert (EN2 : enabled_ (c_reader c) = true) by (rewrite EN; destruct (c_phase c); try discriminate; reflexivity).
    cbn [rstep]. rewrite EN2, BN, ML. cbn [fst enabled_ max_len_ app]. change (trim 1 [f]) with [f]. cbn [buffer_].
    split; [apply fresh_app; [exact F|reflexivity]|].
    split; [congruence|]. split; [reflexivity|]. cbn [List.length].
    split; [lia|]. split; [lia|]. split; [lia|]. split; [intros Z; rewrite Z in WT; discriminate|].
    intros g [<-|[]]. destruct (last_sent tr) as (x & r & y & -> & Y); [lia|].
    exists x, r, (y ++ [ORecv f]). split; [rewrite <- app_assoc; reflexivity|].
    split; [apply in_or_app; right; left; reflexivity|]. rewrite sent_app, Y. reflexivity.
  - cbn [rstep fst buffer_ enabled_ max_len_]. change (nrecv (c_server c) [OStart k]) with 0%nat.
    change (nreq [OStart k]) with 0%nat. change (ntaken [OStart k]) with 0%nat. rewrite !Nat.add_0_r.
    split; [apply fresh_app; [exact F|reflexivity]|]. rewrite P in W. cbn [waiting] in W |- *.
    repeat split; try assumption. intros g G. apply recent_app; [apply BF, G|reflexivity].
  - change (nrecv (c_server c) [OSent (to_frame c (s_last (start k)))]) with 0%nat.
    change (ntaken [OSent (to_frame c (s_last (start k)))]) with 0%nat.
    assert (X : nreq [OSent (to_frame c (s_last (start k)))] = 1%nat).
    { unfold nreq. cbn [sent flat_map app List.filter]. pose proof (code_start k) as C.
      unfold asks, to_frame in *. cbn [f_data] in *. rewrite C. reflexivity. }
    rewrite X, !Nat.add_0_r. rewrite P in *. specialize (W eq_refl).
    assert (BN : buffer_ (c_reader c) = []) by (destruct (buffer_ (c_reader c)); [reflexivity|cbn [List.length] in RB; lia]).
    split; [apply fresh_app; [exact F|reflexivity]|]. rewrite BN in *. cbn [List.length] in *.
    split; [exact EN|]. split; [exact ML|]. split; [lia|]. split; [lia|]. split; [lia|].
    split; [cbn [waiting]; rewrite start_done; discriminate|]. intros g [].
  - rewrite P in *. cbn [waiting] in *. change (nrecv (c_server c) []) with 0%nat. change (nreq []) with 0%nat.
    change (ntaken []) with 0%nat. rewrite !Nat.add_0_r, app_nil_r. rewrite D in W.
    split; [exact F|]. split; [exact EN|]. split; [exact ML|]. split; [exact RB|]. split; [exact QT|]. split; [exact RQ|].
    split; [intros _; apply W; reflexivity|exact BF].
  - assert (R1 : nrecv (c_server c) (OTaken f :: map (fun m => OSent (to_frame c m)) out) = 0%nat).
    { unfold nrecv. unfold SdoChanSpec.received. cbn [flat_map app]. fold (SdoChanSpec.received (map (fun m => OSent (to_frame c m)) out)).
      rewrite received_sends. reflexivity. }
    assert (T1 : ntaken (OTaken f :: map (fun m => OSent (to_frame c m)) out) = 1%nat).
    { unfold ntaken, taken. cbn [flat_map app]. fold (taken (map (fun m => OSent (to_frame c m)) out)).
      rewrite taken_sends. reflexivity. }
    assert (Q0 : nreq (OTaken f :: map (fun m => OSent (to_frame c m)) out) =
                 List.length (List.filter asks (map (to_frame c) out))).
    { unfold nreq, sent. cbn [flat_map app]. fold (sent (map (fun m => OSent (to_frame c m)) out)).
      rewrite sent_sends. reflexivity. }
    rewrite R1, T1, Q0 in *. rewrite B in *. cbn [List.length] in RB.
    assert (TN : t = []) by (destruct t; [reflexivity|cbn [List.length] in RB; lia]). subst t. cbn [List.length] in RB.
    cbn [buffer_ enabled_ max_len_ List.length].
    pose proof (process_asks _ _ _ _ _ _ _ _ PF D) as A.
    assert (FR : fresh (tr ++ OTaken f :: map (fun m => OSent (to_frame c m)) out)).
    { change (OTaken f :: map (fun m => OSent (to_frame c m)) out) with ([OTaken f] ++ map (fun m => OSent (to_frame c m)) out).
      rewrite app_assoc. apply fresh_app; [|apply taken_sends]. apply fresh_snoc; [exact F|]. apply BF. left. reflexivity. }
    rewrite P in EN.
    destruct b.
    + destruct A as [->|(r & -> & CR & D1)]; cbn [map List.filter List.length] in *.
      * split; [exact FR|]. split; [exact EN|]. split; [exact ML|]. split; [lia|]. split; [lia|]. split; [lia|].
        split; [intros _; lia|]. intros g [].
      * assert (AS : asks (to_frame c r) = true) by (unfold asks, to_frame; cbn [f_data]; apply negb_true_iff, Z.eqb_neq, CR).
        rewrite AS in *. cbn [List.length] in *. split; [exact FR|]. split; [exact EN|]. split; [exact ML|].
        split; [lia|]. split; [lia|]. split; [lia|]. split; [cbn [waiting]; rewrite D1; discriminate|]. intros g [].
    + assert (Z0 : List.filter asks (map (to_frame c) out) = []).
      { clear - A. induction out as [|r out IH]; [reflexivity|]. cbn [map List.filter].
        assert (X : asks (to_frame c r) = false) by (unfold asks, to_frame; cbn [f_data]; rewrite (A r (or_introl eq_refl)); reflexivity).
        rewrite X. apply IH. intros q Q. apply A. right. exact Q. }
      rewrite Z0 in *. cbn [List.length] in *. split; [exact FR|]. split; [exact EN|]. split; [exact ML|].
      split; [lia|]. split; [lia|]. split; [lia|]. split; [intros _; lia|]. intros g [].
  - cbn [rstep fst buffer_ enabled_ max_len_]. change (nrecv (c_server c) [OReturn r]) with 0%nat.
    change (nreq [OReturn r]) with 0%nat. change (ntaken [OReturn r]) with 0%nat. rewrite !Nat.add_0_r.
    split; [apply fresh_app; [exact F|reflexivity]|]. rewrite P in W. cbn [waiting] in W |- *.
    repeat split; try assumption. intros g G. apply recent_app; [apply BF, G|reflexivity].
  - contradiction.
Qed.

Lemma polite_prefix : forall h a b, polite h (a ++ b) -> polite h a.
Proof. intros h a b P x y ->. apply (P x (y ++ b)). symmetry. apply app_assoc. Qed.
Lemma polite_le : forall h a, polite h a -> (nrecv h a <= nreq a)%nat.
Proof. intros h a P. apply (P a []). symmetry. apply app_nil_r. Qed.

Lemma polite_fresh : forall d nid es c tr, crun (client_init d nid) es = Ok (c, tr) ->
  no_timeouts es -> polite (sdo_server_id d nid) tr -> fresh_inv c tr.
Proof.
  intros d nid es. induction es as [|e es IH] using rev_ind; intros c tr H NT P.
  - injection H as <- <-. split; [intros [|] ? ? E; discriminate|].
    cbn. repeat split; try lia; intros f [].
  - rewrite crun_snoc in H. destruct (crun (client_init d nid) es) as [[c1 o1]|] eqn:E; [|discriminate].
    destruct (cstep c1 e) as [[c2 o2]|] eqn:S; [|discriminate]. injection H as <- <-.
    assert (NT1 : no_timeouts es) by (intros X; apply NT; apply in_or_app; left; exact X).
    assert (NT2 : e <> ETimeout) by (intros ->; apply NT; apply in_or_app; right; left; reflexivity).
    eapply fresh_inv_step; [eapply IH; [reflexivity|exact NT1|eapply polite_prefix; exact P]|exact NT2|exact S|].
    destruct (crun_ids _ _ _ _ E) as [_ ->]. cbn [client_init c_server]. apply polite_le. exact P.
Qed.
