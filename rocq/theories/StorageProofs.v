(** Proofs about cached object access. *)
From Verif Require Import Base CanModel KeyModel StorageModel StorageSpec.

Lemma bytes_eqb_spec : forall a b, bytes_eqb a b = true <-> a = b.
Proof.
  induction a as [|x a IH]; intros [|y b]; cbn; split; intro H; try discriminate; try reflexivity.
  - apply andb_prop in H. destruct H as [H1 H2]. apply Z.eqb_eq in H1. apply IH in H2. congruence.
  - injection H as -> ->. rewrite Z.eqb_refl. cbn. apply IH. reflexivity.
Qed.

Lemma bytes_eqb_dec : forall a b, bytes_eqb a b = if list_eq_dec Z.eq_dec a b then true else false.
Proof.
  intros a b. destruct (list_eq_dec Z.eq_dec a b) as [->|N].
  - apply bytes_eqb_spec. reflexivity.
  - destruct (bytes_eqb a b) eqn:E; [|reflexivity]. apply bytes_eqb_spec in E. contradiction.
Qed.

(** Invariant of a cell. *)
Definition cell_ok (t : ty) (c : cell) : Prop := c_type c = t /\ value_ok t (c_buf c).
Definition view (c : cell) : option bytes := if c_valid c then Some (c_buf c) else None.

Lemma access_ok : forall t c, cell_ok t c -> access c = Ok (c_buf c).
Proof.
  intros t c [E V]. unfold access. rewrite E. destruct t; cbn [value_ok] in V; try reflexivity;
    rewrite V, Nat.ltb_irrefl, <- V, firstn_all; reflexivity.
Qed.

Lemma resize_id : forall n b, List.length b = n -> resize n b = b.
Proof.
  intros n b <-. unfold resize. rewrite firstn_all, Nat.sub_diag. apply app_nil_r.
Qed.

Lemma allocate_ok : forall t c, cell_ok t c ->
  cell_ok t (allocate c) /\ c_valid (allocate c) = true /\ c_rd (allocate c) = c_rd c /\ c_wr (allocate c) = c_wr c.
Proof.
  intros t [ct v b r w] [E V]. cbn [c_type c_buf] in *. subst ct. unfold allocate, cell_ok.
  destruct t; cbn [c_type c_valid c_buf value_ok set_buf c_rd c_wr] in *; try (repeat split; exact I);
    destruct v; cbn [c_type c_valid c_buf c_rd c_wr set_buf]; repeat split; try assumption;
    rewrite resize_id; assumption.
Qed.

Lemma assign_ok : forall t c v, cell_ok t c -> value_ok t v ->
  exists c1, assign c v = Ok c1 /\ cell_ok t c1 /\ c_valid c1 = true /\ c_buf c1 = v /\
             c_rd c1 = c_rd c /\ c_wr c1 = c_wr c.
Proof.
  intros t c v C V. destruct (allocate_ok t c C) as ([A1 A2] & A3 & A4 & A5).
  unfold assign. destruct C as [E _]. rewrite E. exists (set_buf (allocate c) v).
  assert (G : cell_ok t (set_buf (allocate c) v)) by (split; assumption).
  destruct t; cbn [value_ok] in *; (split; [|split; [exact G|repeat split; assumption]]); try reflexivity;
    rewrite A2, Nat.ltb_irrefl, <- A2, skipn_all, app_nil_r; reflexivity.
Qed.

Lemma known_eq : forall b d : bytes, (if list_eq_dec Z.eq_dec b d then true else false) = bytes_eqb b d.
Proof. intros. symmetry. apply bytes_eqb_dec. Qed.

Definition good_step (t : ty) (e : entry) (o : op) (c : cell) : Prop :=
  exists c' ev r, step e o c = Ok (c', ev, r) /\ cell_ok t c' /\
    (r <> RThrow DeviceError -> view c' = known_step e (view c) (o, ev, r)).

Lemma view_set_buf : forall c b, view (set_buf c b) = Some b.
Proof. reflexivity. Qed.

Lemma data_write_ok : forall t c v wr, cell_ok t c -> value_ok t v ->
  exists c1, data_write c v wr = Ok (c1, [EvWrite (c_wr c) v wr], if wr then RDone else RThrow DeviceError)
    /\ cell_ok t c1 /\ view c1 = Some v /\ c_rd c1 = c_rd c /\ c_wr c1 = c_wr c.
Proof.
  intros t c v wr C V. destruct (assign_ok t c v C V) as (c1 & E & C1 & V1 & B1 & R1 & W1).
  unfold data_write. rewrite E. exists c1. rewrite B1. unfold view. rewrite V1, B1.
  repeat split; try assumption; apply C1.
Qed.

Lemma data_get_ok : forall t e c cached rd, cell_ok t c -> reader_ok t rd ->
  e_readable e = true ->
  (c_valid c = true -> cached || e_constant e = true ->
     data_get e c cached rd = Ok (c, [], RVal (c_buf c))) /\
  (c_valid c = false \/ cached || e_constant e = false ->
     exists c1 b ok, data_get e c cached rd =
        Ok (c1, [EvRead (c_rd c) b ok], if ok then RVal b else RThrow DeviceError) /\
        (b, ok) = rd (c_buf (allocate c)) /\
        cell_ok t c1 /\ view c1 = Some b /\ c_rd c1 = c_rd c /\ c_wr c1 = c_wr c).
Proof.
  intros t e c cached rd C R He. unfold data_get. rewrite He. cbn [negb]. split.
  - intros V K. rewrite V, K. cbn [negb orb]. rewrite (access_ok t c C). reflexivity.
  - intros H.
    assert (T : negb (c_valid c) || negb (cached || e_constant e) = true) by
      (destruct H as [->| ->]; cbn; [reflexivity|apply orb_true_r]).
    rewrite T. destruct (allocate_ok t c C) as (A1 & A2 & A3 & A4).
    destruct (rd (c_buf (allocate c))) as [b ok] eqn:E.
    assert (VB : value_ok t b).
    { specialize (R (c_buf (allocate c)) (proj2 A1)). rewrite E in R. exact R. }
    assert (C2 : cell_ok t (set_buf (allocate c) b)) by (split; [apply A1|exact VB]).
    exists (set_buf (allocate c) b), b, ok. rewrite (access_ok _ _ C2).
    split; [destruct ok; reflexivity|]. split; [reflexivity|]. split; [exact C2|].
    split; [reflexivity|]. split; assumption.
Qed.

Lemma step_good : forall t e o c, entry_plain t e -> op_ok t o -> cell_ok t c -> good_step t e o c.
Proof.
  intros t e o c [Hd Hi] Ho C. unfold good_step.
  assert (CF : forall b, value_ok t b -> cell_ok t (set_buf c b)) by (intros b Hb; split; [apply C|exact Hb]).
  destruct o as [cached rd|v wr|v wr|wr| |r w rd wr]; cbn [step op_ok] in *.
  - (* get *)
    destruct (e_readable e) eqn:R.
    + destruct (data_get_ok t e c cached rd C Ho R) as [G1 G2].
      destruct (c_valid c) eqn:V; [destruct (cached || e_constant e) eqn:K|].
      * rewrite G1 by reflexivity. do 3 eexists. split; [reflexivity|]. split; [exact C|]. reflexivity.
      * destruct G2 as (c1 & b & ok & E & _ & C1 & V1 & _); [right; reflexivity|]. rewrite E.
        do 3 eexists. split; [reflexivity|]. split; [exact C1|]. intros N. rewrite V1.
        destruct ok; [reflexivity|congruence].
      * destruct G2 as (c1 & b & ok & E & _ & C1 & V1 & _); [left; reflexivity|]. rewrite E.
        do 3 eexists. split; [reflexivity|]. split; [exact C1|]. intros N. rewrite V1.
        destruct ok; [reflexivity|congruence].
    + unfold data_get. rewrite R. do 3 eexists. split; [reflexivity|]. split; [exact C|]. reflexivity.
  - (* set *)
    unfold data_set. destruct (e_writable e); cbn [negb].
    + destruct (data_write_ok t c v wr C Ho) as (c1 & E & C1 & V1 & _). rewrite E.
      do 3 eexists. split; [reflexivity|]. split; [exact C1|]. intros N. rewrite V1.
      destruct wr; [reflexivity|congruence].
    + destruct (c_valid c); cbn [negb].
      * rewrite (access_ok t c C). do 3 eexists. split; [reflexivity|]. split; [exact C|]. reflexivity.
      * do 3 eexists. split; [reflexivity|]. split; [exact C|]. reflexivity.
  - (* set_cached *)
    assert (G : forall X, X = (if negb (e_writable e) then ret c [] (RThrow NoWriteAccess) else data_write c v wr) ->
       exists c' ev r, X = Ok (c', ev, r) /\ cell_ok t c' /\
         (r <> RThrow DeviceError -> view c' = known_step e (view c) (OSetCached v wr, ev, r))).
    { intros X ->. destruct (e_writable e); cbn [negb].
      - destruct (data_write_ok t c v wr C Ho) as (c1 & E & C1 & V1 & _). rewrite E.
        do 3 eexists. split; [reflexivity|]. split; [exact C1|]. intros N. rewrite V1.
        destruct wr; [reflexivity|congruence].
      - do 3 eexists. split; [reflexivity|]. split; [exact C|]. reflexivity. }
    unfold data_set_cached. destruct (c_valid c) eqn:V; cbn [negb].
    + rewrite (access_ok t c C). destruct (val_eqb (c_type c) v (c_buf c)).
      * do 3 eexists. split; [reflexivity|]. split; [exact C|]. reflexivity.
      * apply G. reflexivity.
    + apply G. reflexivity.
  - (* init *)
    unfold data_init. unfold hold_ok in Hi. cbn [known_step].
    destruct (h_data (e_init e)) as [iv|] eqn:EI.
    2:{ do 3 eexists. split; [reflexivity|]. split; [exact C|]. reflexivity. }
    destruct Hi as [_ Hi]. unfold view at 2.
    assert (A : forall b X, (if list_eq_dec Z.eq_dec (c_buf c) b then Some iv else X) =
                 if bytes_eqb (c_buf c) b then Some iv else X).
    { intros b X. rewrite bytes_eqb_dec. destruct (list_eq_dec Z.eq_dec (c_buf c) b); reflexivity. }
    destruct (h_data (e_def e)) as [dv|] eqn:ED; destruct (c_valid c) eqn:V; cbn [andb negb orb].
    + rewrite A. destruct (bytes_eqb (c_buf c) dv) eqn:Q; cbn [negb].
      * destruct (bytes_eqb (c_buf c) iv) eqn:Q2; cbn [negb].
        -- do 3 eexists. split; [reflexivity|]. split; [exact C|]. intros _. unfold view. rewrite V.
           apply bytes_eqb_spec in Q2. congruence.
        -- destruct (e_writable e && negb (bytes_eqb iv dv)).
           ++ do 3 eexists. split; [reflexivity|]. split; [apply CF; exact Hi|]. reflexivity.
           ++ do 3 eexists. split; [reflexivity|]. split; [apply CF; exact Hi|]. reflexivity.
      * do 3 eexists. split; [reflexivity|]. split; [exact C|]. intros _. unfold view. rewrite V. reflexivity.
    + destruct (e_writable e && negb (bytes_eqb iv dv)).
      * do 3 eexists. split; [reflexivity|]. split; [apply CF; exact Hi|]. reflexivity.
      * do 3 eexists. split; [reflexivity|]. split; [apply CF; exact Hi|]. reflexivity.
    + destruct (bytes_eqb (c_buf c) iv) eqn:Q2; cbn [negb].
      * do 3 eexists. split; [reflexivity|]. split; [exact C|]. intros _. unfold view. rewrite V.
        apply bytes_eqb_spec in Q2. congruence.
      * destruct (e_writable e && true).
        -- do 3 eexists. split; [reflexivity|]. split; [apply CF; exact Hi|]. reflexivity.
        -- do 3 eexists. split; [reflexivity|]. split; [apply CF; exact Hi|]. reflexivity.
    + destruct (e_writable e && true).
      * do 3 eexists. split; [reflexivity|]. split; [apply CF; exact Hi|]. reflexivity.
      * do 3 eexists. split; [reflexivity|]. split; [apply CF; exact Hi|]. reflexivity.
  - (* reset *)
    unfold data_reset. unfold hold_ok in Hd. cbn [known_step].
    destruct (h_data (e_def e)) as [dv|] eqn:ED.
    + destruct Hd as [-> Hd]. replace (ty_eqb t (c_type c)) with true.
      * do 3 eexists. split; [reflexivity|]. split; [apply CF; exact Hd|]. reflexivity.
      * destruct C as [-> _]. symmetry. destruct t; cbn; try apply Nat.eqb_refl; try reflexivity;
          unfold ity_eqb; rewrite Z.eqb_refl, Bool.eqb_reflx; reflexivity.
    + do 3 eexists. split; [reflexivity|]. split; [split; apply C|]. reflexivity.
  - (* map *)
    assert (F : forall c0, cell_ok t c0 -> view c0 = view c -> forall r w,
      exists c' ev res, data_force e c0 rd wr = Ok (c', ev, res) /\ cell_ok t c' /\
        (res <> RThrow DeviceError -> view c' = known_step e (view c) (OMap r w rd wr, ev, res)) /\
        (forall x, res = RThrow x -> x = DeviceError)).
    { intros c0 C0 V0 r0 w0. rewrite <- V0. unfold data_force.
      destruct (c_valid c0) eqn:V; cbn [negb andb].
      - do 3 eexists. split; [reflexivity|]. split; [exact C0|]. split.
        + intros N. cbn [known_step transferred]. unfold view. rewrite V.
          destruct wr; [reflexivity|congruence].
        + intros x E. destruct wr; congruence.
      - destruct (e_readable e) eqn:R.
        + destruct (rd (c_buf c0)) as [b ok] eqn:E.
          assert (VB : value_ok t b).
          { specialize (Ho (c_buf c0) (proj2 C0)). rewrite E in Ho. exact Ho. }
          destruct ok.
          * do 3 eexists. split; [reflexivity|]. split; [split; [apply C0|exact VB]|]. split.
            -- intros N. destruct wr; [reflexivity|congruence].
            -- intros x X. destruct wr; congruence.
          * do 3 eexists. split; [reflexivity|]. split; [split; [apply C0|exact VB]|]. split.
            -- congruence.
            -- congruence.
        + do 3 eexists. split; [reflexivity|]. split; [exact C0|]. split; [reflexivity|discriminate]. }
    assert (D : forall r0 w0, cell_ok t (set_delegates c r0 w0)) by (intros; split; apply C).
    unfold data_map. destruct r as [r|], w as [w|].
    + destruct (F (set_delegates c 0 w) (D _ _) eq_refl (Some r) (Some w)) as (c' & ev & res & E & C' & V' & X').
      rewrite E. destruct res as [b| |x].
      * do 3 eexists. split; [reflexivity|]. split; [split; apply C'|]. exact V'.
      * do 3 eexists. split; [reflexivity|]. split; [split; apply C'|]. exact V'.
      * do 3 eexists. split; [reflexivity|]. split; [exact C'|]. exact V'.
    + do 3 eexists. split; [reflexivity|]. split; [apply D|]. reflexivity.
    + destruct (F (set_delegates c 0 w) (D _ _) eq_refl None (Some w)) as (c' & ev & res & E & C' & V' & X').
      rewrite E. do 3 eexists. split; [reflexivity|]. split; [exact C'|]. exact V'.
    + do 3 eexists. split; [reflexivity|]. split; [exact C|]. reflexivity.
Qed.

Lemma fresh_ok : forall t c k, fresh t c k -> cell_ok t c /\ view c = k.
Proof.
  intros t c k H. destruct H as [|v Hv].
  - split; [|reflexivity]. split; [reflexivity|]. cbn [data_typed c_buf].
    destruct t; cbn [value_ok]; try exact I; rewrite repeat_length; reflexivity.
  - split; [|reflexivity]. split; [reflexivity|exact Hv].
Qed.

Lemma run_good : forall t e ops c, entry_plain t e -> Forall (op_ok t) ops -> cell_ok t c ->
  exists c' h, run e ops c = Ok (c', h) /\ cell_ok t c' /\
    (no_failure h -> view c' = known e (view c) h).
Proof.
  intros t e ops. induction ops as [|o ops IH]; intros c P Ho C.
  - exists c, []. split; [reflexivity|]. split; [exact C|]. reflexivity.
  - inversion Ho; subst. destruct (step_good t e o c P H1 C) as (c1 & ev & r & E & C1 & V1).
    destruct (IH c1 P H2 C1) as (c2 & h & E2 & C2 & V2).
    exists c2, ((o, ev, r) :: h). cbn [run]. rewrite E, E2. split; [reflexivity|]. split; [exact C2|].
    intros N. inversion N; subst. unfold known. cbn [fold_left].
    rewrite <- V1 by (intro Q; apply H3; exact Q). apply V2. assumption.
Qed.

Lemma run_from_fresh : forall t e ops c0 k0 c h,
  entry_plain t e -> Forall (op_ok t) ops -> fresh t c0 k0 -> run e ops c0 = Ok (c, h) ->
  cell_ok t c /\ (no_failure h -> view c = known e k0 h).
Proof.
  intros t e ops c0 k0 c h P Ho F E. destruct (fresh_ok t c0 k0 F) as [C0 V0].
  destruct (run_good t e ops c0 P Ho C0) as (c' & h' & E' & C' & V'). rewrite E in E'.
  injection E' as <- <-. rewrite <- V0. split; assumption.
Qed.

Lemma never_undefined : forall t e ops c0 k0,
  entry_plain t e -> Forall (op_ok t) ops -> fresh t c0 k0 -> run e ops c0 <> Undef.
Proof.
  intros t e ops c0 k0 P Ho F. destruct (fresh_ok t c0 k0 F) as [C0 V0].
  destruct (run_good t e ops c0 P Ho C0) as (c' & h' & E' & _). rewrite E'. discriminate.
Qed.

Lemma view_some : forall c v, view c = Some v -> c_valid c = true /\ c_buf c = v.
Proof. intros c v. unfold view. destruct (c_valid c); [|discriminate]. intros H. injection H as ->. auto. Qed.
Lemma view_none : forall c, view c = None -> c_valid c = false.
Proof. intros c. unfold view. destruct (c_valid c); [discriminate|reflexivity]. Qed.

Lemma cached_read : forall t e ops c0 k0 c h rd,
  entry_plain t e -> Forall (op_ok t) ops -> fresh t c0 k0 -> run e ops c0 = Ok (c, h) ->
  no_failure h -> e_readable e = true -> reader_ok t rd ->
  match known e k0 h with
  | Some v => step e (OGet true rd) c = Ok (c, [], RVal v)
  | None => exists c' b ok, step e (OGet true rd) c =
              Ok (c', [EvRead (c_rd c) b ok], if ok then RVal b else RThrow DeviceError)
  end.
Proof.
  intros t e ops c0 k0 c h rd P Ho F E N R Hr.
  destruct (run_from_fresh t e ops c0 k0 c h P Ho F E) as [C V]. specialize (V N).
  destruct (data_get_ok t e c true rd C Hr R) as [G1 G2].
  rewrite <- V. cbn [step]. destruct (view c) as [v|] eqn:W.
  - apply view_some in W. destruct W as [W1 W2]. rewrite <- W2. apply G1; [assumption|reflexivity].
  - apply view_none in W. destruct G2 as (c1 & b & ok & E1 & _); [left; assumption|].
    exists c1, b, ok. exact E1.
Qed.

Lemma uncached_read : forall t e ops c0 k0 c h rd,
  entry_plain t e -> Forall (op_ok t) ops -> fresh t c0 k0 -> run e ops c0 = Ok (c, h) ->
  e_readable e = true -> e_constant e = false -> reader_ok t rd ->
  exists c' b ok, step e (OGet false rd) c =
    Ok (c', [EvRead (c_rd c) b ok], if ok then RVal b else RThrow DeviceError) /\
    exists b0, rd b0 = (b, ok).
Proof.
  intros t e ops c0 k0 c h rd P Ho F E R K Hr.
  destruct (run_from_fresh t e ops c0 k0 c h P Ho F E) as [C _].
  destruct (data_get_ok t e c false rd C Hr R) as [_ G2].
  destruct G2 as (c1 & b & ok & E1 & E2 & _); [right; rewrite K; reflexivity|].
  exists c1, b, ok. split; [exact E1|]. eexists. symmetry. exact E2.
Qed.

(** Number of successful reads of a constant object. *)
Lemma data_force_reads : forall e c rd wr c' ev r, data_force e c rd wr = Ok (c', ev, r) ->
  (count read_ok ev <= (if c_valid c then 0 else 1))%nat /\
  (c_valid c = true -> c_valid c' = true) /\ (count read_ok ev = 1%nat -> c_valid c' = true).
Proof.
  intros e c rd wr c' ev r H. unfold data_force in H.
  destruct (c_valid c) eqn:V; cbn [negb andb] in H.
  - injection H as <- <- <-. cbn. repeat split; try lia; intros; assumption.
  - destruct (e_readable e).
    + destruct (rd (c_buf c)) as [b ok]. destruct ok; injection H as <- <- <-; cbn;
        (split; [lia|]); (split; [discriminate|]); try reflexivity. discriminate.
    + injection H as <- <- <-. cbn. repeat split; try lia; try discriminate.
Qed.

Lemma assign_valid : forall c v c1, assign c v = Ok c1 -> c_valid c1 = true.
Proof.
  intros c v c1 H. unfold assign in H.
  destruct (c_type c);
  repeat match type of H with context [if ?b then _ else _] => destruct b end;
    try discriminate; injection H as <-; reflexivity.
Qed.

Lemma data_write_valid : forall c v wr c' ev r, data_write c v wr = Ok (c', ev, r) ->
  c_valid c' = true /\ count read_ok ev = 0%nat.
Proof.
  intros c v wr c' ev r H. unfold data_write in H. destruct (assign c v) as [c1|] eqn:E; [|discriminate].
  unfold ret in H. injection H as <- <- <-. split; [|reflexivity]. eapply assign_valid; eassumption.
Qed.

Lemma step_reads : forall e o c c' ev r, e_constant e = true -> o <> OReset ->
  step e o c = Ok (c', ev, r) ->
  (count read_ok ev <= (if c_valid c then 0 else 1))%nat /\
  (c_valid c = true -> c_valid c' = true) /\ (count read_ok ev = 1%nat -> c_valid c' = true).
Proof.
  intros e o c c' ev r K NR H. destruct o as [cached rd|v wr|v wr|wr| |r0 w0 rd wr]; cbn [step] in H.
  - unfold data_get in H. rewrite K, orb_true_r in H. cbn [negb] in H. rewrite orb_false_r in H.
    destruct (e_readable e); cbn [negb] in H.
    2:{ injection H as <- <- <-. cbn. repeat split; try lia; auto; discriminate. }
    destruct (c_valid c) eqn:V; cbn [negb] in H.
    + destruct (access c); [|discriminate]. injection H as <- <- <-. cbn. repeat split; try lia; auto; discriminate.
    + destruct (rd (c_buf (allocate c))) as [b ok]. destruct ok.
      * destruct (access (set_buf (allocate c) b)); [|discriminate]. unfold ret in H.
        injection H as <- <- <-. cbn. repeat split; try lia; auto.
      * unfold ret in H. injection H as <- <- <-. cbn. repeat split; try lia; auto.
  - unfold data_set in H. destruct (e_writable e); cbn [negb] in H.
    + apply data_write_valid in H. destruct H as [-> ->]. repeat split; try lia; auto.
    + destruct (c_valid c) eqn:V; cbn [negb] in H.
      * destruct (access c); [|discriminate]. injection H as <- <- <-. cbn. repeat split; try lia; auto; discriminate.
      * injection H as <- <- <-. cbn. repeat split; try lia; auto; discriminate.
  - unfold data_set_cached in H.
    assert (G : (if negb (e_writable e) then ret c [] (RThrow NoWriteAccess) else data_write c v wr) = Ok (c', ev, r) ->
      (count read_ok ev <= (if c_valid c then 0 else 1))%nat /\
      (c_valid c = true -> c_valid c' = true) /\ (count read_ok ev = 1%nat -> c_valid c' = true)).
    { destruct (e_writable e); cbn [negb]; intros Q.
      - apply data_write_valid in Q. destruct Q as [-> ->]. repeat split; try lia; auto.
      - injection Q as <- <- <-. cbn. repeat split; try lia; auto; discriminate. }
    destruct (c_valid c) eqn:V; cbn [negb] in H.
    + destruct (access c); [|discriminate]. destruct (val_eqb (c_type c) v a).
      * injection H as <- <- <-. cbn. repeat split; try lia; auto; discriminate.
      * apply G. assumption.
    + apply G. assumption.
  - unfold data_init in H. unfold ret in H.
    repeat match type of H with
    | context [match ?x with Some _ => _ | None => _ end] => destruct x
    | context [if ?b then _ else _] => destruct b eqn:?
    end; injection H as <- <- <-; cbn; repeat split; try lia; auto; try discriminate.
  - congruence.
  - unfold data_map in H. destruct r0 as [r0|], w0 as [w0|].
    + destruct (data_force e (set_delegates c 0 w0) rd wr) as [[[c1 ev1] res]|] eqn:E; [|discriminate].
      apply data_force_reads in E. cbn [set_delegates c_valid] in E.
      destruct res; injection H as <- <- <-; exact E.
    + injection H as <- <- <-. cbn. repeat split; try lia; auto; discriminate.
    + apply data_force_reads in H. exact H.
    + injection H as <- <- <-. cbn. repeat split; try lia; auto; discriminate.
Qed.

Lemma count_app : forall p a b, count p (a ++ b) = (count p a + count p b)%nat.
Proof.
  intros p a b. unfold count.
  induction a as [|x a IH]; [reflexivity|]. cbn [app List.filter].
  destruct (p x); cbn [List.length]; lia.
Qed.

Lemma constant_once : forall e ops c c' h, e_constant e = true -> ~ In OReset ops ->
  run e ops c = Ok (c', h) ->
  (count read_ok (events h) <= (if c_valid c then 0 else 1))%nat.
Proof.
  intros e ops. induction ops as [|o ops IH]; intros c c' h K N H.
  - cbn [run] in H. injection H as <- <-. cbn. lia.
  - cbn [run] in H. destruct (step e o c) as [[[c1 ev] r]|] eqn:E; [|discriminate].
    destruct (run e ops c1) as [[c2 h2]|] eqn:E2; [|discriminate]. injection H as <- <-.
    assert (NO : o <> OReset) by (intros ->; apply N; left; reflexivity).
    assert (NI : ~ In OReset ops) by (intro Q; apply N; right; exact Q).
    destruct (step_reads e o c c1 ev r K NO E) as (S1 & S2 & S3).
    specialize (IH c1 c2 h2 K NI E2).
    unfold events. cbn [flat_map fst snd]. fold (events h2). rewrite count_app.
    destruct (c_valid c) eqn:V.
    + rewrite S2 in IH by reflexivity. lia.
    + destruct (c_valid c1); [lia|]. assert (count read_ok ev <> 1%nat) by (intro Q; specialize (S3 Q); discriminate). lia.
Qed.

(** Writes. *)
Lemma cached_write : forall t e ops c0 k0 c h v wr,
  entry_plain t e -> Forall (op_ok t) ops -> fresh t c0 k0 -> run e ops c0 = Ok (c, h) ->
  no_failure h -> e_writable e = true -> value_ok t v ->
  (forall b, known e k0 h = Some b -> val_eqb t v b = true ->
     step e (OSetCached v wr) c = Ok (c, [], RDone)) /\
  ((forall b, known e k0 h = Some b -> val_eqb t v b = false) ->
     exists c', step e (OSetCached v wr) c =
       Ok (c', [EvWrite (c_wr c) v wr], if wr then RDone else RThrow DeviceError)).
Proof.
  intros t e ops c0 k0 c h v wr P Ho F E N W Hv.
  destruct (run_from_fresh t e ops c0 k0 c h P Ho F E) as [C V]. specialize (V N).
  rewrite <- V. cbn [step]. unfold data_set_cached. rewrite W. cbn [negb].
  destruct (data_write_ok t c v wr C Hv) as (c1 & E1 & _).
  pose proof (access_ok t c C) as A. destruct C as [CT _].
  split.
  - intros b Hb Q. apply view_some in Hb. destruct Hb as [V1 V2]. rewrite V1. cbn [negb].
    rewrite A, CT, V2, Q. reflexivity.
  - intros Q. exists c1. destruct (c_valid c) eqn:V1; cbn [negb]; [|exact E1].
    rewrite A, CT. rewrite (Q (c_buf c)); [exact E1|]. unfold view. rewrite V1. reflexivity.
Qed.

Lemma plain_write : forall t e ops c0 k0 c h v wr,
  entry_plain t e -> Forall (op_ok t) ops -> fresh t c0 k0 -> run e ops c0 = Ok (c, h) ->
  e_writable e = true -> value_ok t v ->
  exists c', step e (OSet v wr) c =
    Ok (c', [EvWrite (c_wr c) v wr], if wr then RDone else RThrow DeviceError).
Proof.
  intros t e ops c0 k0 c h v wr P Ho F E W Hv.
  destruct (run_from_fresh t e ops c0 k0 c h P Ho F E) as [C _].
  cbn [step]. unfold data_set. rewrite W. cbn [negb].
  destruct (data_write_ok t c v wr C Hv) as (c1 & E1 & _). exists c1. exact E1.
Qed.

(** After a successful transfer the value is held, whatever happened before. *)
Lemma held_after_transfer : forall t e ops c0 k0 c h o c1 ev r v,
  entry_plain t e -> Forall (op_ok t) ops -> fresh t c0 k0 -> run e ops c0 = Ok (c, h) ->
  op_ok t o -> (forall w, o <> OInit w) -> o <> OReset ->
  step e o c = Ok (c1, ev, r) -> r <> RThrow DeviceError -> transferred ev = Some v ->
  (e_readable e = true -> forall rd, reader_ok t rd -> step e (OGet true rd) c1 = Ok (c1, [], RVal v)) /\
  (forall x wr, value_ok t x -> val_eqb t x v = true -> step e (OSetCached x wr) c1 = Ok (c1, [], RDone)).
Proof.
  intros t e ops c0 k0 c h o c1 ev r v P Ho F E Ok1 NI NR S Nr T.
  destruct (run_from_fresh t e ops c0 k0 c h P Ho F E) as [C _].
  destruct (step_good t e o c P Ok1 C) as (c' & ev' & r' & S' & C' & V'). rewrite S in S'.
  injection S' as <- <- <-. specialize (V' Nr).
  assert (VV : view c1 = Some v).
  { rewrite V'. destruct o; cbn [known_step]; try (rewrite T; reflexivity).
    - exfalso. eapply NI. reflexivity.
    - congruence. }
  apply view_some in VV. destruct VV as [V1 V2]. split.
  - intros R rd Hr. destruct (data_get_ok t e c1 true rd C' Hr R) as [G _].
    cbn [step]. rewrite <- V2. apply G; [exact V1|reflexivity].
  - intros x wr Hx Q. cbn [step]. unfold data_set_cached. rewrite V1. cbn [negb].
    rewrite (access_ok t c1 C'). destruct C' as [CT _]. rewrite CT, V2, Q. reflexivity.
Qed.

(** ** Access rights *)

Lemma data_write_ev : forall c v wr c' ev r, data_write c v wr = Ok (c', ev, r) ->
  count is_read ev = 0%nat /\ c_wr c' = c_wr c.
Proof.
  intros c v wr c' ev r H. unfold data_write in H. destruct (assign c v) as [c1|] eqn:E; [|discriminate].
  unfold ret in H. injection H as <- <- <-. split; [reflexivity|].
  unfold assign, allocate in E.
  destruct (c_type c);
  repeat match type of E with context [if ?b then _ else _] => destruct b end;
    try discriminate; injection E as <-; reflexivity.
Qed.

Lemma no_reads_step : forall e o c c' ev r, e_readable e = false ->
  step e o c = Ok (c', ev, r) -> count is_read ev = 0%nat.
Proof.
  intros e o c c' ev r K H.
  assert (FW : forall c0 rd wr c1 ev1 r1, data_force e c0 rd wr = Ok (c1, ev1, r1) -> count is_read ev1 = 0%nat).
  { intros c0 rd wr c1 ev1 r1 Q. unfold data_force in Q. rewrite K, andb_false_r in Q.
    destruct (c_valid c0); injection Q as <- <- <-; reflexivity. }
  destruct o as [cached rd|v wr|v wr|wr| |r0 w0 rd wr]; cbn [step] in H.
  - unfold data_get in H. rewrite K in H. injection H as <- <- <-. reflexivity.
  - unfold data_set in H. destruct (e_writable e); cbn [negb] in H.
    + apply data_write_ev in H. apply H.
    + destruct (c_valid c); cbn [negb] in H; [destruct (access c); [|discriminate]|];
        injection H as <- <- <-; reflexivity.
  - unfold data_set_cached in H.
    assert (G : (if negb (e_writable e) then ret c [] (RThrow NoWriteAccess) else data_write c v wr) = Ok (c', ev, r) ->
      count is_read ev = 0%nat).
    { destruct (e_writable e); cbn [negb]; intros Q; [apply data_write_ev in Q; apply Q|].
      injection Q as <- <- <-. reflexivity. }
    destruct (c_valid c); cbn [negb] in H; [|apply G; exact H].
    destruct (access c) as [a|]; [|discriminate]. destruct (val_eqb (c_type c) v a); [|apply G; exact H].
    injection H as <- <- <-. reflexivity.
  - unfold data_init, ret in H.
    repeat match type of H with
    | context [match ?x with Some _ => _ | None => _ end] => destruct x
    | context [if ?b then _ else _] => destruct b eqn:?
    end; injection H as <- <- <-; reflexivity.
  - injection H as <- <- <-. reflexivity.
  - unfold data_map in H. destruct r0 as [r0|], w0 as [w0|].
    + destruct (data_force e (set_delegates c 0 w0) rd wr) as [[[c1 ev1] res]|] eqn:E; [|discriminate].
      apply FW in E. destruct res; injection H as <- <- <-; exact E.
    + injection H as <- <- <-. reflexivity.
    + apply FW in H. exact H.
    + injection H as <- <- <-. reflexivity.
Qed.

Lemma never_read : forall e ops c c' h, e_readable e = false -> run e ops c = Ok (c', h) ->
  count is_read (events h) = 0%nat.
Proof.
  intros e ops. induction ops as [|o ops IH]; intros c c' h K H; cbn [run] in H.
  - injection H as <- <-. reflexivity.
  - destruct (step e o c) as [[[c1 ev] r]|] eqn:E; [|discriminate].
    destruct (run e ops c1) as [[c2 h2]|] eqn:E2; [|discriminate]. injection H as <- <-.
    unfold events. cbn [flat_map fst snd]. fold (events h2). rewrite count_app.
    rewrite (IH _ _ _ K E2), (no_reads_step _ _ _ _ _ _ K E). reflexivity.
Qed.

Lemma no_writes_step : forall e o c c' ev r, e_writable e = false -> pdo_op o ->
  step e o c = Ok (c', ev, r) -> count device_write ev = 0%nat.
Proof.
  intros e o c c' ev r K PO H.
  assert (FW : forall c0 rd wr c1 ev1 r1, c_wr c0 <> 0%nat ->
      data_force e c0 rd wr = Ok (c1, ev1, r1) -> count device_write ev1 = 0%nat).
  { intros c0 rd wr c1 ev1 r1 NZ Q. unfold data_force in Q.
    destruct (c_wr c0) as [|w] eqn:W; [congruence|].
    destruct (c_valid c0); cbn [negb andb] in Q.
    - injection Q as <- <- <-. reflexivity.
    - destruct (e_readable e); [destruct (rd (c_buf c0)) as [b ok]; destruct ok|];
        injection Q as <- <- <-; reflexivity. }
  destruct o as [cached rd|v wr|v wr|wr| |r0 w0 rd wr]; cbn [step] in H.
  - unfold data_get in H. destruct (e_readable e); cbn [negb] in H; [|injection H as <- <- <-; reflexivity].
    destruct (negb (c_valid c) || negb (cached || e_constant e)).
    + destruct (rd (c_buf (allocate c))) as [b ok]. destruct ok.
      * destruct (access (set_buf (allocate c) b)); [|discriminate]. unfold ret in H.
        injection H as <- <- <-. reflexivity.
      * unfold ret in H. injection H as <- <- <-. reflexivity.
    + destruct (access c); [|discriminate]. injection H as <- <- <-. reflexivity.
  - unfold data_set in H. rewrite K in H. cbn [negb] in H.
    destruct (c_valid c); cbn [negb] in H; [destruct (access c); [|discriminate]|];
        injection H as <- <- <-; reflexivity.
  - unfold data_set_cached in H. rewrite K in H. cbn [negb] in H.
    destruct (c_valid c); cbn [negb] in H; [|injection H as <- <- <-; reflexivity].
    destruct (access c) as [a|]; [|discriminate]. destruct (val_eqb (c_type c) v a);
      injection H as <- <- <-; reflexivity.
  - unfold data_init, ret in H. rewrite K in H. cbn [andb] in H.
    repeat match type of H with
    | context [match ?x with Some _ => _ | None => _ end] => destruct x
    | context [if ?b then _ else _] => destruct b eqn:?
    end; injection H as <- <- <-; reflexivity.
  - injection H as <- <- <-. reflexivity.
  - unfold data_map in H. destruct r0 as [r0|], w0 as [w0|]; cbn [pdo_op] in PO.
    + destruct (data_force e (set_delegates c 0 w0) rd wr) as [[[c1 ev1] res]|] eqn:E; [|discriminate].
      apply FW in E; [|exact PO]. destruct res; injection H as <- <- <-; exact E.
    + injection H as <- <- <-. reflexivity.
    + apply FW in H; [exact H|exact PO].
    + injection H as <- <- <-. reflexivity.
Qed.

Lemma never_written : forall e ops c c' h, e_writable e = false -> Forall pdo_op ops ->
  run e ops c = Ok (c', h) -> count device_write (events h) = 0%nat.
Proof.
  intros e ops. induction ops as [|o ops IH]; intros c c' h K PO H; cbn [run] in H.
  - injection H as <- <-. reflexivity.
  - inversion PO; subst. destruct (step e o c) as [[[c1 ev] r]|] eqn:E; [|discriminate].
    destruct (run e ops c1) as [[c2 h2]|] eqn:E2; [|discriminate]. injection H as <- <-.
    unfold events. cbn [flat_map fst snd]. fold (events h2). rewrite count_app.
    rewrite (IH _ _ _ K H3 E2), (no_writes_step _ _ _ _ _ _ K H2 E). reflexivity.
Qed.

Lemma write_refused : forall t e ops c0 k0 c h v wr,
  entry_plain t e -> Forall (op_ok t) ops -> fresh t c0 k0 -> run e ops c0 = Ok (c, h) ->
  no_failure h -> e_writable e = false ->
  (forall b, known e k0 h = Some b -> val_eqb t b v = false) ->
  (exists x, step e (OSet v wr) c = Ok (c, [], RThrow x)) /\
  ((forall b, known e k0 h = Some b -> val_eqb t v b = false) ->
   exists x, step e (OSetCached v wr) c = Ok (c, [], RThrow x)).
Proof.
  intros t e ops c0 k0 c h v wr P Ho F E N W Q.
  destruct (run_from_fresh t e ops c0 k0 c h P Ho F E) as [C V]. specialize (V N).
  rewrite <- V in *. cbn [step]. unfold data_set, data_set_cached. rewrite W. cbn [negb].
  pose proof (access_ok t c C) as A. destruct C as [CT _]. unfold view in Q. unfold view.
  destruct (c_valid c); cbn [negb].
  - rewrite A, CT, (Q _ eq_refl). split; [eexists; reflexivity|]. intros Q2. rewrite (Q2 _ eq_refl).
    eexists. reflexivity.
  - split; [eexists; reflexivity|]. intros _. eexists. reflexivity.
Qed.

Lemma const_access : forall a r w k, set_access a = Some (r, w, k) ->
  (k = true -> w = false /\ r = true) /\
  (map lower a = str "ro" -> w = false) /\ (map lower a = str "wo" -> r = false) /\
  (map lower a = str "const" -> k = true).
Proof.
  intros a r w k H. unfold set_access in H.
  repeat match type of H with
  | context [if bytes_eqb ?x ?y then _ else _] =>
      let Q := fresh "Q" in destruct (bytes_eqb x y) eqn:Q;
      [apply bytes_eqb_spec in Q|]
  end; try discriminate; injection H as <- <- <-;
  repeat split; intros; try reflexivity; try discriminate;
    try (match goal with A : map lower a = _, B : map lower a = _ |- _ => rewrite A in B; discriminate B end);
    match goal with A : map lower a = _ |- _ => rewrite A in *; discriminate end.
Qed.

(** ** Initialisation of the storage *)

Lemma lookup_store_eq : forall A k (a : A) s, lookup k (store k a s) = Some a.
Proof.
  intros A k a s. induction s as [|[k' a'] s IH]; cbn.
  - rewrite Z.eqb_refl. reflexivity.
  - destruct (k' =? k) eqn:E; cbn; [rewrite Z.eqb_refl; reflexivity|]. rewrite E. exact IH.
Qed.
Lemma lookup_store_neq : forall A k k' (a : A) s, k <> k' -> lookup k' (store k a s) = lookup k' s.
Proof.
  intros A k k' a s N. induction s as [|[k0 a0] s IH]; cbn.
  - replace (k =? k') with false by lia. reflexivity.
  - destruct (k0 =? k) eqn:E; cbn.
    + replace (k =? k') with false by lia. replace (k0 =? k') with false by lia. reflexivity.
    + destruct (k0 =? k'); [reflexivity|exact IH].
Qed.

Lemma differs_eqb : forall a b, differs a (Some b) = negb (bytes_eqb a b).
Proof.
  intros a b. unfold differs. rewrite bytes_eqb_dec. destruct (list_eq_dec Z.eq_dec a b); reflexivity.
Qed.

Lemma bytes_eqb_sym : forall a b, bytes_eqb a b = bytes_eqb b a.
Proof.
  intros a b. rewrite !bytes_eqb_dec.
  destruct (list_eq_dec Z.eq_dec a b), (list_eq_dec Z.eq_dec b a); congruence.
Qed.

Lemma init_writes : forall e c, exists c1 r ev, data_init e c true = Ok (c1, ev, r) /\
  (forall x, r <> RThrow x) /\ ev = map (fun b => EvWrite (c_wr c) b true) (must_write e (view c)).
Proof.
  intros e c. unfold data_init, must_write, view, user_changed.
  destruct (h_data (e_init e)) as [iv|].
  2:{ do 3 eexists. split; [reflexivity|]. split; [discriminate|reflexivity]. }
  destruct (h_data (e_def e)) as [dv|], (c_valid c);
    rewrite ?differs_eqb; cbn [andb negb orb differs];
    rewrite ?(bytes_eqb_sym iv (c_buf c)), ?negb_involutive.
  - destruct (bytes_eqb (c_buf c) dv) eqn:A; cbn [negb andb].
    + rewrite andb_true_r. destruct (bytes_eqb (c_buf c) iv) eqn:B; cbn [negb].
      * rewrite andb_false_r. do 3 eexists. split; [reflexivity|]. split; [discriminate|reflexivity].
      * rewrite andb_true_r. destruct (e_writable e && negb (bytes_eqb iv dv)).
        -- do 3 eexists. split; [reflexivity|]. split; [discriminate|reflexivity].
        -- do 3 eexists. split; [reflexivity|]. split; [discriminate|reflexivity].
    + rewrite andb_false_r. do 3 eexists. split; [reflexivity|]. split; [discriminate|reflexivity].
  - rewrite !andb_true_r. destruct (e_writable e && negb (bytes_eqb iv dv)).
    + do 3 eexists. split; [reflexivity|]. split; [discriminate|reflexivity].
    + do 3 eexists. split; [reflexivity|]. split; [discriminate|reflexivity].
  - rewrite !andb_true_r. destruct (bytes_eqb (c_buf c) iv); cbn [negb].
    + rewrite andb_false_r. do 3 eexists. split; [reflexivity|]. split; [discriminate|reflexivity].
    + destruct (e_writable e).
      * do 3 eexists. split; [reflexivity|]. split; [discriminate|reflexivity].
      * do 3 eexists. split; [reflexivity|]. split; [discriminate|reflexivity].
  - rewrite !andb_true_r. destruct (e_writable e).
    + do 3 eexists. split; [reflexivity|]. split; [discriminate|reflexivity].
    + do 3 eexists. split; [reflexivity|]. split; [discriminate|reflexivity].
Qed.

Lemma writes_app : forall a b, writes (a ++ b) = writes a ++ writes b.
Proof. intros. unfold writes. apply flat_map_app. Qed.

Lemma writes_keyed : forall k n l, writes (keyed k (map (fun b => EvWrite n b true) l)) = map (fun b => (k, b)) l.
Proof.
  intros k n l. unfold writes, keyed. induction l as [|b l IH]; [reflexivity|].
  cbn [map flat_map snd fst app]. f_equal. exact IH.
Qed.

Lemma init_nolock_writes : forall k e s, exists s1 ev,
  init_nolock k e true s = Ok (s1, ev, true) /\
  writes ev = map (fun b => (k, b)) (must_write e (held s k)) /\
  (forall k', k' <> k -> held s1 k' = held s k').
Proof.
  intros k e s. unfold init_nolock. destruct (h_data (e_init e)) as [iv|] eqn:EI.
  2:{ do 2 eexists. split; [reflexivity|]. unfold must_write. rewrite EI. split; reflexivity. }
  set (c := match lookup k s with Some c => c | None => _ end).
  destruct (init_writes e c) as (c1 & r & ev & E & R & V). rewrite E.
  exists (store k c1 s), (keyed k ev). split.
  { destruct r; try reflexivity. exfalso. eapply R. reflexivity. }
  split.
  - rewrite V, writes_keyed. do 2 f_equal. unfold view, held, c. destruct (lookup k s); reflexivity.
  - intros k' N. unfold held. rewrite lookup_store_neq by congruence. reflexivity.
Qed.

Lemma init_all_writes : forall d s, NoDup (map fst d) ->
  exists s1 ev, init_all d (fun _ => true) s = Ok (s1, ev, true) /\
  writes ev = flat_map (fun ke => map (fun b => (fst ke, b)) (must_write (snd ke) (held s (fst ke)))) d.
Proof.
  induction d as [|[k e] d IH]; intros s ND.
  - exists s, []. split; reflexivity.
  - inversion ND as [|x l H2 H3]; subst.
    destruct (init_nolock_writes k e s) as (s1 & ev & E & W & O).
    destruct (IH s1 H3) as (s2 & ev2 & E2 & W2).
    cbn [init_all]. rewrite E, E2. exists s2, (ev ++ ev2). split; [reflexivity|].
    rewrite writes_app, W, W2. cbn [flat_map fst snd]. f_equal.
    clear - H2 O. induction d as [|[k' e'] d IH]; [reflexivity|].
    cbn [flat_map fst snd map In] in *. rewrite O by (intros ->; apply H2; left; reflexivity).
    f_equal. apply IH. intro Q. apply H2. right. exact Q.
Qed.

Lemma init_all_stops : forall d wr s s1 ev ok, init_all d wr s = Ok (s1, ev, ok) ->
  (ok = false <-> exists k b n, In (k, EvWrite n b false) ev) /\
  (forall k x, In (k, x) ev -> exists e n iv, In (k, e) d /\ h_data (e_init e) = Some iv /\ x = EvWrite n iv (wr k)).
Proof.
  assert (I1 : forall k e wr s s1 ev ok, init_nolock k e wr s = Ok (s1, ev, ok) ->
     (ok = false <-> exists k b n, In (k, EvWrite n b false) ev) /\
     (forall k' x, In (k', x) ev -> exists n iv, k' = k /\ h_data (e_init e) = Some iv /\ x = EvWrite n iv wr)).
  { intros k e wr s s1 ev ok H. unfold init_nolock in H.
    destruct (h_data (e_init e)) as [iv|] eqn:EI.
    2:{ injection H as <- <- <-. split; [split; [discriminate|]|].
        - intros (k0 & b & n & []).
        - intros k' x []. }
    unfold data_init in H. rewrite EI in H. unfold ret in H.
    match type of H with context [c_valid ?c] => set (c0 := c) in * end. clearbody c0.
    assert (Z0 : forall b, Ok (store k c0 s, keyed k [], match RDone with RThrow _ => false | _ => true end) = Ok (s1, ev, b) \/
                 (exists c1, Ok (store k c1 s, keyed k [], match RDone with RThrow _ => false | _ => true end) = Ok (s1, ev, b)) ->
       (b = false <-> exists k b n, In (k, EvWrite n b false) ev) /\
       (forall k' x, In (k', x) ev -> exists n iv0, k' = k /\ Some iv = Some iv0 /\ x = EvWrite n iv0 wr)).
    { intros b [Q|[c1 Q]]; injection Q as <- <- <-; cbn; (split; [split; [discriminate|]|]);
        try (intros (k0 & b0 & n & [])); intros k' x []. }
    match type of H with context [if ?b then _ else _] => destruct b end.
    { apply Z0. left. exact H. }
    match type of H with context [if ?b then _ else _] => destruct b end.
    2:{ apply Z0. left. exact H. }
    match type of H with context [if ?b then _ else _] => destruct b end.
    2:{ apply Z0. right. eexists. exact H. }
    injection H as <- <- <-. cbn [keyed map In].
    destruct wr; (split; [split|]).
    - discriminate.
    - intros (k0 & b & n & [Q|[]]). discriminate.
    - intros k' x [Q|[]]. injection Q as <- <-. exists (c_wr c0), iv. auto.
    - intros _. do 3 eexists. left. reflexivity.
    - reflexivity.
    - intros k' x [Q|[]]. injection Q as <- <-. exists (c_wr c0), iv. auto. }
  induction d as [|[k e] d IH]; intros wr s s1 ev ok H.
  - injection H as <- <- <-. split; [split; [discriminate|]|].
    + intros (k0 & b & n & []).
    + intros k' x [].
  - cbn [init_all] in H. destruct (init_nolock k e (wr k) s) as [[[s' ev'] ok']|] eqn:E; [|discriminate].
    apply I1 in E. destruct E as [E1 E2].
    destruct ok'.
    + destruct (init_all d wr s') as [[[s2 ev2] ok2]|] eqn:E'; [|discriminate].
      injection H as <- <- <-. apply IH in E'. destruct E' as [E3 E4]. split.
      * rewrite E3. split; intros (k0 & b & n & Q); exists k0, b, n.
        -- apply in_or_app. right. exact Q.
        -- apply in_app_or in Q. destruct Q as [Q|Q]; [|exact Q].
           exfalso. assert (true = false) by (apply E1; exists k0, b, n; exact Q). discriminate.
      * intros k' x Q. apply in_app_or in Q. destruct Q as [Q|Q].
        -- destruct (E2 _ _ Q) as (n & iv & -> & Q1 & Q2). exists e, n, iv. cbn. auto.
        -- destruct (E4 _ _ Q) as (e' & n & iv & Q1 & Q2 & Q3). exists e', n, iv. cbn. auto.
    + injection H as <- <- <-. split; [exact E1|].
      intros k' x Q. destruct (E2 _ _ Q) as (n & iv & -> & Q1 & Q2). exists e, n, iv. cbn. auto.
Qed.

(** ** Failures *)

Definition bad (ev : event) : bool := match ev with EvRead _ _ ok | EvWrite _ _ ok => negb ok end.

Lemma data_write_reported : forall c v wr c' ev r, data_write c v wr = Ok (c', ev, r) ->
  (r = RThrow DeviceError <-> existsb bad ev = true).
Proof.
  intros c v wr c' ev r H. unfold data_write in H. destruct (assign c v) as [c1|]; [|discriminate].
  unfold ret in H. injection H as <- <- <-. destruct wr; cbn; split; congruence.
Qed.

Lemma data_force_reported : forall e c rd wr c' ev r, data_force e c rd wr = Ok (c', ev, r) ->
  (r = RThrow DeviceError <-> existsb bad ev = true).
Proof.
  intros e c rd wr c' ev r H. unfold data_force, ret in H.
  destruct (negb (c_valid c) && e_readable e).
  - destruct (rd (c_buf c)) as [b ok]. destruct ok; injection H as <- <- <-; destruct wr; cbn; split; congruence.
  - destruct (c_valid c); injection H as <- <- <-; destruct wr; cbn; split; congruence.
Qed.

Lemma failures_reported : forall e o c c' ev r, step e o c = Ok (c', ev, r) ->
  (r = RThrow DeviceError <-> existsb bad ev = true).
Proof.
  intros e o c c' ev r H.
  assert (Z0 : forall r0, r0 <> RThrow DeviceError -> (r0 = RThrow DeviceError <-> existsb bad [] = true))
    by (intros; cbn; split; congruence).
  destruct o as [cached rd|v wr|v wr|wr| |r0 w0 rd wr]; cbn [step] in H.
  - unfold data_get, ret in H. destruct (negb (e_readable e)); [injection H as <- <- <-; apply Z0; discriminate|].
    destruct (negb (c_valid c) || negb (cached || e_constant e)).
    + destruct (rd (c_buf (allocate c))) as [b ok]. destruct ok.
      * destruct (access (set_buf (allocate c) b)); [|discriminate].
        injection H as <- <- <-. cbn. split; congruence.
      * injection H as <- <- <-. cbn. split; congruence.
    + destruct (access c); [|discriminate]. injection H as <- <- <-. apply Z0. discriminate.
  - unfold data_set, ret in H. destruct (negb (e_writable e)); [|eapply data_write_reported; eassumption].
    destruct (negb (c_valid c)); [injection H as <- <- <-; apply Z0; discriminate|].
    destruct (access c); [|discriminate]. injection H as <- <- <-.
    destruct (val_eqb (c_type c) a v); apply Z0; discriminate.
  - unfold data_set_cached, ret in H.
    assert (G : (if negb (e_writable e) then Ok (c, [], RThrow NoWriteAccess) else data_write c v wr) = Ok (c', ev, r) ->
      (r = RThrow DeviceError <-> existsb bad ev = true)).
    { destruct (negb (e_writable e)); intros Q; [injection Q as <- <- <-; apply Z0; discriminate|].
      eapply data_write_reported; eassumption. }
    destruct (negb (c_valid c)); [apply G; exact H|].
    destruct (access c) as [a|]; [|discriminate]. destruct (val_eqb (c_type c) v a); [|apply G; exact H].
    injection H as <- <- <-. apply Z0; discriminate.
  - unfold data_init, ret in H.
    destruct (h_data (e_init e)) as [iv|]; [|injection H as <- <- <-; apply Z0; discriminate].
    repeat match type of H with
    | context [if ?b then _ else _] => lazymatch b with wr => fail | _ => destruct b end
    | context [match h_data ?x with Some _ => _ | None => _ end] => destruct (h_data x)
    end; injection H as <- <- <-; try (apply Z0; discriminate); destruct wr; cbn; split; congruence.
  - injection H as <- <- <-. apply Z0; discriminate.
  - unfold data_map, ret in H. destruct r0 as [r0|], w0 as [w0|].
    + destruct (data_force e (set_delegates c 0 w0) rd wr) as [[[c1 ev1] res]|] eqn:E; [|discriminate].
      apply data_force_reported in E. destruct res; injection H as <- <- <-; exact E.
    + injection H as <- <- <-. apply Z0; discriminate.
    + apply data_force_reported in H. exact H.
    + injection H as <- <- <-. apply Z0; discriminate.
Qed.

Lemma failed_write_believed : forall t e ops c0 k0 c h v,
  entry_plain t e -> Forall (op_ok t) ops -> fresh t c0 k0 -> run e ops c0 = Ok (c, h) ->
  e_writable e = true -> e_readable e = true -> value_ok t v ->
  exists c1, step e (OSet v false) c = Ok (c1, [EvWrite (c_wr c) v false], RThrow DeviceError) /\
    (forall rd, reader_ok t rd -> step e (OGet true rd) c1 = Ok (c1, [], RVal v)) /\
    (forall wr, val_eqb t v v = true -> step e (OSetCached v wr) c1 = Ok (c1, [], RDone)).
Proof.
  intros t e ops c0 k0 c h v P Ho F E W R Hv.
  destruct (run_from_fresh t e ops c0 k0 c h P Ho F E) as [C _].
  cbn [step]. unfold data_set. rewrite W. cbn [negb].
  destruct (data_write_ok t c v false C Hv) as (c1 & E1 & C1 & V1 & _).
  exists c1. split; [exact E1|]. apply view_some in V1. destruct V1 as [V1 V2]. split.
  - intros rd Hr. destruct (data_get_ok t e c1 true rd C1 Hr R) as [G _].
    rewrite <- V2. apply G; [exact V1|reflexivity].
  - intros wr Q. unfold data_set_cached. rewrite V1. cbn [negb].
    rewrite (access_ok t c1 C1). destruct C1 as [CT _]. rewrite CT, V2, Q. reflexivity.
Qed.
