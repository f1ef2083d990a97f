(** Property C69: access routes of objects mapped to PDOs. *)
From Verif Require Import Base CanModel KeyModel StorageModel StorageSpec StorageProofs.

(** Where reads and writes have to go: the delegate of the last mapping in that
    direction, the delegate of the storage (0, SDO) if there is none. *)
Definition route_step (rt : nat * nat) (o : op) : nat * nat :=
  match o with
  | OMap r w _ _ => (match r with Some r => r | None => fst rt end, match w with Some w => w | None => snd rt end)
  | _ => rt
  end.
Definition route_after (ops : list op) : nat * nat := fold_left route_step ops (0%nat, 0%nat).
Definition routed (rt : nat * nat) (ev : event) : Prop :=
  match ev with EvRead d _ _ => d = fst rt | EvWrite d _ _ => d = snd rt end.

(** Every mapping of the object is in one direction, the same for all. *)
Definition receive_only (ops : list op) : Prop :=
  Forall (fun o => match o with OMap _ (Some _) _ _ => False | _ => True end) ops.
Definition transmit_only (ops : list op) : Prop :=
  Forall (fun o => match o with OMap (Some _) _ _ _ => False | _ => True end) ops.

(** What one operation does: it keeps the delegates unless it is a mapping. *)
Lemma step_routes : forall e o c c1 ev r, step e o c = Ok (c1, ev, r) ->
  (forall a b x y, o <> OMap a b x y) ->
  c_rd c1 = c_rd c /\ c_wr c1 = c_wr c /\ Forall (routed (c_rd c, c_wr c)) ev.
Proof.
  assert (F : forall e c rd wr c1 ev r, data_force e c rd wr = Ok (c1, ev, r) ->
    c_rd c1 = c_rd c /\ c_wr c1 = c_wr c /\ Forall (routed (c_rd c, c_wr c)) ev).
  { intros e c rd wr c1 ev r. unfold data_force, ret, set_buf. destruct (rd (c_buf c)) as [b ok].
    destruct (negb (c_valid c) && e_readable e); [destruct ok|destruct (c_valid c)];
      intros H; injection H as <- <- _; repeat split; repeat constructor. }
  assert (W : forall c v wr c1 ev r, data_write c v wr = Ok (c1, ev, r) ->
    c_rd c1 = c_rd c /\ c_wr c1 = c_wr c /\ Forall (routed (c_rd c, c_wr c)) ev).
  { intros c v wr c1 ev r. unfold data_write, assign, allocate, ret, set_buf.
    destruct (c_type c), (c_valid c); try (destruct (_ <? _)%nat); intros H; try discriminate H;
      injection H as <- <- _; repeat split; repeat constructor. }
  intros e o c c1 ev r H N. destruct o as [cached rd|v wr|v wr|wr| |a b rd wr]; cbn [step] in H.
  - unfold data_get, ret in H. destruct (negb (e_readable e)).
    { injection H as <- <- _. repeat split. constructor. }
    destruct (negb (c_valid c) || negb (cached || e_constant e)).
    + destruct (rd (c_buf (allocate c))) as [b ok].
      assert (A : c_rd (allocate c) = c_rd c /\ c_wr (allocate c) = c_wr c).
      { unfold allocate, set_buf. destruct (c_type c), (c_valid c); split; reflexivity. }
      destruct A as [A1 A2]. destruct ok.
      * destruct (access _); [|discriminate]. injection H as <- <- _. cbn [set_buf c_rd c_wr].
        rewrite A1, A2. repeat split. repeat constructor.
      * injection H as <- <- _. cbn [set_buf c_rd c_wr]. rewrite A1, A2. repeat split. repeat constructor.
    + destruct (access c); [|discriminate]. injection H as <- <- _. repeat split. constructor.
  - unfold data_set, ret in H. destruct (negb (e_writable e)); [|eapply W; exact H].
    destruct (negb (c_valid c)); [injection H as <- <- _; repeat split; constructor|].
    destruct (access c); [|discriminate]. injection H as <- <- _. repeat split. constructor.
  - unfold data_set_cached, ret in H. destruct (negb (c_valid c)).
    + destruct (negb (e_writable e)); [injection H as <- <- _; repeat split; constructor|eapply W; exact H].
    + destruct (access c); [|discriminate]. destruct (val_eqb _ _ _); [injection H as <- <- _; repeat split; constructor|].
      destruct (negb (e_writable e)); [injection H as <- <- _; repeat split; constructor|eapply W; exact H].
  - unfold data_init, ret in H. destruct (h_data (e_init e)); [|injection H as <- <- _; repeat split; constructor].
    destruct (match h_data (e_def e) with Some _ => _ | None => _ end);
      [injection H as <- <- _; repeat split; constructor|].
    destruct (_ || _); [|injection H as <- <- _; repeat split; constructor].
    destruct (_ && _); injection H as <- <- _; repeat split; repeat constructor.
  - unfold ret in H. injection H as <- <- _. unfold data_reset, set_buf.
    destruct (h_data (e_def e)), (h_type (e_def e)); try destruct (ty_eqb _ _); repeat split; constructor.
  - exfalso. eapply N. reflexivity.
Qed.

Lemma force_routes : forall e c rd wr c1 ev r, data_force e c rd wr = Ok (c1, ev, r) ->
  c_rd c1 = c_rd c /\ c_wr c1 = c_wr c /\ Forall (routed (c_rd c, c_wr c)) ev.
Proof.
  intros e c rd wr c1 ev r. unfold data_force, ret, set_buf. destruct (rd (c_buf c)) as [b ok].
  destruct (negb (c_valid c) && e_readable e); [destruct ok|destruct (c_valid c)];
    intros H; injection H as <- <- _; repeat split; repeat constructor.
Qed.

(** A step in a direction that agrees with the cell *)
Lemma run_routes : forall (one : op -> Prop) (same : cell -> nat * nat -> Prop) e,
  (forall c rt o c1 ev r, same c rt -> one o -> step e o c = Ok (c1, ev, r) ->
     same c1 (route_step rt o) /\ Forall (routed (route_step rt o)) ev) ->
  forall ops c rt c1 h, Forall one ops -> same c rt -> run e ops c = Ok (c1, h) ->
  same c1 (fold_left route_step ops rt) /\
  forall h1 i h2, h = h1 ++ i :: h2 ->
    Forall (routed (fold_left route_step (map (fun i => fst (fst i)) (h1 ++ [i])) rt)) (snd (fst i)).
Proof.
  intros one same e S. induction ops as [|o t IH]; intros c rt c1 h Ho Hs H; cbn [run] in H.
  - injection H as <- <-. split; [exact Hs|]. intros h1 i h2 E. destruct h1; discriminate E.
  - destruct (step e o c) as [[[c2 ev] r]|] eqn:E; [|discriminate].
    destruct (run e t c2) as [[c3 h']|] eqn:R; [|discriminate]. injection H as <- <-.
    apply Forall_cons_iff in Ho as [Ho Ht]. destruct (S _ _ _ _ _ _ Hs Ho E) as [S1 S2].
    destruct (IH _ _ _ _ Ht S1 R) as [I1 I2]. split; [exact I1|].
    intros h1 i h2 Eh. destruct h1 as [|j h1]; injection Eh as <- Eh; [exact S2|].
    cbn [app map fst fold_left]. apply (I2 _ _ _ Eh).
Qed.

Lemma history_ops : forall e ops c c1 h, run e ops c = Ok (c1, h) -> map (fun i => fst (fst i)) h = ops.
Proof.
  intros e. induction ops as [|o t IH]; intros c c1 h H; cbn [run] in H.
  - injection H as <- <-. reflexivity.
  - destruct (step e o c) as [[[c2 ev] r]|] eqn:E; [|discriminate].
    destruct (run e t c2) as [[c3 h']|] eqn:R; [|discriminate]. injection H as <- <-.
    cbn [map fst]. f_equal. eapply IH. exact R.
Qed.

(** In every history of an object whose mappings are all in the same direction,
    each access made on behalf of the i-th operation goes where the mappings up
    to it say. Missing: objects mapped in both directions, see below. *)
Theorem C69_one_direction_partial : forall e ops c c1 h,
  c_rd c = 0%nat -> c_wr c = 0%nat -> receive_only ops \/ transmit_only ops ->
  run e ops c = Ok (c1, h) ->
  forall h1 o ev r h2, h = h1 ++ (o, ev, r) :: h2 ->
    Forall (routed (route_after (map (fun i => fst (fst i)) h1 ++ [o]))) ev.
Proof.
  intros e ops c0 c1 h Hr Hw D H h1 o0 ev0 r0 h2 E0. unfold route_after.
  destruct D as [D|D].
  - pose proof (run_routes (fun o => match o with OMap _ (Some _) _ _ => False | _ => True end) (fun c rt => c_rd c = fst rt /\ c_wr c = 0%nat /\ snd rt = 0%nat) e) as G;
    cbv beta in G.
    destruct (fun P => G P ops c0 (0%nat, 0%nat) c1 h D) as [_ Q]; [|auto|exact H|].
    { clear. intros c [a b] o c1 ev r (A & B & C) O E. cbn [fst snd] in *. subst b.
      destruct o as [cached rd|v wr|v wr|wr| |[x|] [y|] rd wr]; cbn [route_step fst snd] in *; try contradiction;
        try (destruct (step_routes _ _ _ _ _ _ E) as (I1 & I2 & I3); [congruence|]; rewrite A, B in *; auto; fail);
        cbn [step data_map ret] in E; injection E as <- <- _.
      - cbn [set_delegates c_rd c_wr]. auto.
      - auto. }
    specialize (Q _ _ _ E0). rewrite map_app in Q. exact Q.
  - pose proof (run_routes (fun o => match o with OMap (Some _) _ _ _ => False | _ => True end) (fun c rt => c_wr c = snd rt /\ c_rd c = 0%nat /\ fst rt = 0%nat) e) as G;
    cbv beta in G.
    destruct (fun P => G P ops c0 (0%nat, 0%nat) c1 h D) as [_ Q]; [|auto|exact H|].
    { clear. intros c [a b] o c1 ev r (A & B & C) O E. cbn [fst snd] in *. subst a.
      destruct o as [cached rd|v wr|v wr|wr| |[x|] [y|] rd wr]; cbn [route_step fst snd] in *; try contradiction;
        try (destruct (step_routes _ _ _ _ _ _ E) as (I1 & I2 & I3); [congruence|]; rewrite A, B in *; auto; fail);
        cbn [step data_map ret] in E.
      - apply force_routes in E. cbn [set_delegates c_rd c_wr] in E. destruct E as (I1 & I2 & I3). auto.
      - injection E as <- <- _. auto. }
    specialize (Q _ _ _ E0). rewrite map_app in Q. exact Q.
Qed.
Print Assumptions C69_one_direction_partial.

Definition ex_e : entry := mkEntry true true false (hold_int (mkIty false 2) 7) no_value.
Definition ex_c : cell := data_valued (TInt (mkIty false 2)) [7; 0].
Definition ex_rd (b : bytes) : bytes * bool := (b, true).

Example C69_ex : receive_only [OSet [1; 0] true; OMap (Some 3%nat) None ex_rd true; OGet false ex_rd; OSet [2; 0] true] /\
  exists c1 h, run ex_e [OSet [1; 0] true; OMap (Some 3%nat) None ex_rd true; OGet false ex_rd; OSet [2; 0] true] ex_c = Ok (c1, h) /\
  events h = [EvWrite 0 [1; 0] true; EvRead 3 [1; 0] true; EvWrite 0 [2; 0] true].
Proof. split; [repeat constructor|]. do 2 eexists. split; reflexivity. Qed.

(** An object in a receive PDO that is then mapped to a transmit PDO as well is
    read by SDO again: mapping in one direction undoes the other one. *)
Theorem C69_both_directions_refuted : forall r w, (0 < r)%nat -> (0 < w)%nat ->
  (exists c1 h, run ex_e [OMap (Some r) None ex_rd true; OMap None (Some w) ex_rd true; OGet false ex_rd] ex_c = Ok (c1, h) /\
     events h = [EvWrite w [7; 0] true; EvRead 0 [7; 0] true]) /\
  (exists c1 h, run ex_e [OMap None (Some w) ex_rd true; OMap (Some r) None ex_rd true; OSet [8; 0] true] ex_c = Ok (c1, h) /\
     events h = [EvWrite w [7; 0] true; EvWrite 0 [8; 0] true]).
Proof. intros r w Hr Hw. split; do 2 eexists; split; reflexivity. Qed.
Print Assumptions C69_both_directions_refuted.

(** Connecting both delegates in one call writes the buffer once and leaves
    later writes to SDO. *)
Theorem C69_both_at_once_refuted : forall r w, (0 < r)%nat -> (0 < w)%nat ->
  exists c1 h, run ex_e [OMap (Some r) (Some w) ex_rd true; OSet [8; 0] true; OGet false ex_rd] ex_c = Ok (c1, h) /\
     events h = [EvWrite w [7; 0] true; EvWrite 0 [8; 0] true; EvRead r [8; 0] true].
Proof. intros r w Hr Hw. do 2 eexists; split; reflexivity. Qed.
Print Assumptions C69_both_at_once_refuted.
