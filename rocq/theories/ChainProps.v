(** The claims about the chain. *)
From Verif Require Import Base LayerModel LayerSpec LayerProofs LayerGroupProofs LayerOrderProofs ChainModel ChainSpec ChainProofs MergeProofs SyncNodeProofs.

(** For examples *)
Definition is_ok {A} (r : outcome A) : bool := match r with Ok _ => true | Undef => false end.
Definition get {A} (d : A) (r : outcome A) : A := match r with Ok x => x | Undef => d end.
Lemma ok_get : forall A (d : A) r, is_ok r = true -> r = Ok (get d r).
Proof. intros A d [x|] H; [reflexivity|discriminate]. Qed.
Lemma ok_pair : forall A B (d : A * B) r y, is_ok r = true -> snd (get d r) = y -> r = Ok (fst (get d r), y).
Proof. intros A B d [[x z]|] y H E; [cbn in *; congruence|discriminate]. Qed.
Definition d0 : chain * bool := (chain0, false).

(** ** C60: services *)

(** All services and the control loop, in any order, never meet undefined behaviour, and the
    chain is off, ready or halted as a whole. *)
Theorem C60_always_defined : forall b t rf l, NoDup (ids t) ->
  exists c, crun b t rf l chain0 = Ok c /\ (off t c \/ ready t c \/ halted t c).
Proof.
  intros b t rf l ND. destruct (crun_inv b t rf ND l chain0 (inv0 t)) as [c [E [H _]]]. exists c. split; [exact E|].
  destruct (t3_root t _ H) as [[_ A]|[[_ A]|[_ A]]]; auto.
Qed.
Print Assumptions C60_always_defined.
(** Initialising a chain that is not off succeeds and does nothing. *)
Theorem C60_init_again : forall b t rf c g, NoDup (ids t) -> reached b t rf c -> ~ off t c ->
  srv_init b t g c = Ok (c, true).
Proof.
  intros b t rf c g ND R N. destruct (init_cases b t ND g c (reached_inv b t rf ND c R)) as [c' [r [E [_ [[_ [-> ->]]|[X _]]]]]]; [exact E|contradiction].
Qed.
Print Assumptions C60_init_again.
(** Initialising a chain that is off: it is ready afterwards and the answer is success iff
    nothing was reported, or it is off and the answer is failure. *)
Theorem C60_init_partial : forall b t rf c g, NoDup (ids t) -> reached b t rf c -> off t c ->
  exists c' r, srv_init b t g c = Ok (c', r) /\
  ((ready t c' /\ (r = true <-> level (stat (lay c')) = OK) /\ (r = false <-> level (stat (lay c')) = WARN)) \/ (off t c' /\ r = false)).
Proof.
  intros b t rf c g ND R O. destruct (init_cases b t ND g c (reached_inv b t rf ND c R)) as [c' [r [E [_ [[X _]|[_ C]]]]]]; [contradiction|].
  exists c', r. split; [exact E|]. destruct C as [[A [B [C _]]]|[A B]]; [left|right; auto]. split; [exact A|].
  subst r. unfold bounded in *. destruct (level (stat (lay c'))); cbn in *; split; split; intro H; (reflexivity || discriminate).
Qed.
Print Assumptions C60_init_partial.
(** Success is never reported for a chain that is off, ... *)
Theorem C60_init_success : forall b t rf c g c', NoDup (ids t) -> reached b t rf c ->
  srv_init b t g c = Ok (c', true) -> ready t c' \/ halted t c'.
Proof.
  intros b t rf c g c' ND R E. pose proof (reached_inv b t rf ND c R) as I.
  destruct (init_cases b t ND g c I) as [d [r [E' [_ C]]]].
  assert (d = c' /\ r = true) as [-> ->] by (split; congruence).
  destruct C as [[N [-> _]]|[_ [[A _]|[_ A]]]]; [|auto|discriminate].
  destruct (t3_root t _ (proj1 I)) as [[_ A]|[[_ A]|[_ A]]]; [contradiction|auto|auto].
Qed.
Print Assumptions C60_init_success.
(** ... but warnings make a successful initialisation a reported failure with a ready chain; a
    second call reports success. *)
Theorem C60_warning_refuted : exists b t c c', NoDup (ids t) /\ reached b t false c /\ off t c /\
  srv_init b t true c = Ok (c', false) /\ ready t c' /\ srv_init b t true c' = Ok (c', true).
Proof.
  set (b := fun (_ : list event) (_ : nat) (o : op) => match o with OInit => [(WARN, str "old EDS")] | _ => [] end).
  set (t := Group KStack 0 [Leaf 1]). set (c' := fst (get d0 (srv_init b t true chain0))).
  exists b, t, chain0, c'.
  split; [repeat constructor; cbn; intuition congruence|]. split; [exists []; reflexivity|]. split; [intros i _; reflexivity|].
  split; [apply ok_pair; vm_compute; reflexivity|].
  assert (R : ready t c') by (intros i [<-|[<-|[]]]; vm_compute; reflexivity).
  split; [exact R|]. unfold srv_init. unfold root. rewrite (R _ (root_in t)). reflexivity.
Qed.
Print Assumptions C60_warning_refuted.
(** Recovering a chain that is off fails and does nothing.  Otherwise success means that the
    chain is ready; failure that it is halted (or ready and untouched, if resetting the
    emergencies failed). *)
Theorem C60_recover_off : forall b t rf c rs, NoDup (ids t) -> reached b t rf c -> off t c ->
  srv_recover b t rf rs c = Ok (c, false).
Proof.
  intros b t rf c rs ND R O. destruct (recover_cases b t rf ND rs c (reached_inv b t rf ND c R)) as [c' [r [E [_ [[_ [-> ->]]|[X _]]]]]]; [exact E|contradiction].
Qed.
Print Assumptions C60_recover_off.
Theorem C60_recover : forall b t rf c rs, NoDup (ids t) -> reached b t rf c -> ~ off t c ->
  exists c' r, srv_recover b t rf rs c = Ok (c', r) /\
  ((r = true /\ ready t c') \/ (r = false /\ (halted t c' \/ (rf = true /\ ready t c' /\ ready t c)))).
Proof.
  intros b t rf c rs ND R N. destruct (recover_cases b t rf ND rs c (reached_inv b t rf ND c R)) as [c' [r [E [_ [[X _]|[_ [_ C]]]]]]]; [contradiction|].
  exists c', r. auto.
Qed.
Print Assumptions C60_recover.
Theorem C60_halt : forall b t rf c, NoDup (ids t) -> reached b t rf c ->
  exists c', srv_halt b t c = Ok (c', true) /\ (off t c -> c' = c) /\ (~ off t c -> halted t c').
Proof.
  intros b t rf c ND R. destruct (halt_cases b t ND c (reached_inv b t rf ND c R)) as [c' [E [_ [[X ->]|[X [Y _]]]]]].
  - exists c. split; [exact E|]. split; [auto|intro; contradiction].
  - exists c'. split; [exact E|]. split; [intro; contradiction|auto].
Qed.
Print Assumptions C60_halt.
Theorem C60_shutdown : forall b t rf c, NoDup (ids t) -> reached b t rf c ->
  exists c', srv_shutdown b t c = Ok (c', true) /\ off t c'.
Proof.
  intros b t rf c ND R. destruct (shutdown_cases b t ND c (reached_inv b t rf ND c R)) as [c' [E [_ [X _]]]]. eauto.
Qed.
Print Assumptions C60_shutdown.

(** A chain of two layers, the second of which fails to initialise at the first try *)
Definition tree2 : tree := Group KStack 0 [Leaf 1; Leaf 2].
Definition once : behaviour := fun l i o =>
  match o with
  | OInit => if Nat.eqb i 2 && (List.length (started OInit l) <=? 3)%nat then [(ERROR, str "no answer")] else []
  | _ => []
  end.
Example ex_C60 : NoDup (ids tree2) /\
  exists c c' c'', reached once tree2 false c /\ off tree2 c /\
    srv_init once tree2 true c = Ok (c', false) /\ off tree2 c' /\
    srv_init once tree2 true c' = Ok (c'', true) /\ ready tree2 c''.
Proof.
  split; [repeat constructor; cbn; intuition congruence|].
  set (c' := fst (get d0 (srv_init once tree2 true chain0))). set (c'' := fst (get d0 (srv_init once tree2 true c'))).
  exists chain0, c', c''. split; [exists []; reflexivity|]. split; [intros i _; reflexivity|].
  split; [apply ok_pair; vm_compute; reflexivity|]. split; [intros i [<-|[<-|[<-|[]]]]; vm_compute; reflexivity|].
  split; [apply ok_pair; vm_compute; reflexivity|]. intros i [<-|[<-|[<-|[]]]]; vm_compute; reflexivity.
Qed.
Definition quiet : behaviour := fun _ _ _ => [].
Example ex_C60_halted : exists c, crun quiet tree2 false [VInit true; VHalt] chain0 = Ok c /\ halted tree2 c /\
  exists c', srv_recover quiet tree2 false None c = Ok (c', true) /\ ready tree2 c'.
Proof.
  set (c := get chain0 (crun quiet tree2 false [VInit true; VHalt] chain0)). set (c' := fst (get d0 (srv_recover quiet tree2 false None c))).
  exists c. split; [apply ok_get; vm_compute; reflexivity|]. split; [intros i [<-|[<-|[<-|[]]]]; vm_compute; reflexivity|].
  exists c'. split; [apply ok_pair; vm_compute; reflexivity|]. intros i [<-|[<-|[<-|[]]]]; vm_compute; reflexivity.
Qed.

(** ** C71: the control loop *)

(** If every created thread begins to run before the initialisation ends, there is exactly
    one loop while the chain is initialised, and none while it is off. *)
Theorem C71_one_loop_partial : forall b t rf l c, NoDup (ids t) -> prompt l -> crun b t rf l chain0 = Ok c ->
  (off t c /\ alive c = 0%nat) \/ (~ off t c /\ alive c = 1%nat).
Proof.
  intros b t rf l c ND P E. pose proof (single_run b t rf ND l chain0 c (inv0 t) (single0 t) P E) as [H|[H1 [H2 _]]]; [left; exact H|right; auto].
Qed.
Print Assumptions C71_one_loop_partial.
Example ex_C71 : exists c, crun once tree2 false [VInit true; VInit true; VCycle 1] chain0 = Ok c /\ alive c = 1%nat /\ ready tree2 c.
Proof.
  set (c := get chain0 (crun once tree2 false [VInit true; VInit true; VCycle 1] chain0)).
  exists c. split; [apply ok_get; vm_compute; reflexivity|]. split; [vm_compute; reflexivity|]. intros i [<-|[<-|[<-|[]]]]; vm_compute; reflexivity.
Qed.
(** Otherwise a failed initialisation leaves a thread behind: it loops although the chain is
    off, and a second initialisation adds another loop. *)
Theorem C71_left_behind_refuted : exists l1 l2 c1 c2,
  crun once tree2 false l1 chain0 = Ok c1 /\ off tree2 c1 /\ nth_error (threads c1) 0 = Some TLoop /\ running c1 = true /\
  crun once tree2 false l2 c1 = Ok c2 /\ ready tree2 c2 /\ nth_error (threads c2) 0 = Some TLoop /\ nth_error (threads c2) 1 = Some TLoop.
Proof.
  set (c1 := get chain0 (crun once tree2 false [VInit false; VBegin 0] chain0)).
  set (c2 := get chain0 (crun once tree2 false [VInit true] c1)).
  exists [VInit false; VBegin 0], [VInit true], c1, c2.
  split; [apply ok_get; vm_compute; reflexivity|]. split; [intros i [<-|[<-|[<-|[]]]]; vm_compute; reflexivity|].
  split; [vm_compute; reflexivity|]. split; [vm_compute; reflexivity|].
  split; [apply ok_get; vm_compute; reflexivity|]. split; [intros i [<-|[<-|[<-|[]]]]; vm_compute; reflexivity|]. split; vm_compute; reflexivity.
Qed.
Print Assumptions C71_left_behind_refuted.
(** Whenever the chain is initialised its own thread exists. *)
Theorem C71_loop_exists : forall b t rf l c, NoDup (ids t) -> crun b t rf l chain0 = Ok c -> ~ off t c ->
  exists i, own c = Some i /\ (nth_error (threads c) i = Some TNew \/ (nth_error (threads c) i = Some TLoop /\ running c = true)).
Proof.
  intros b t rf l c ND E N. destruct (reached_inv b t rf ND c (ex_intro _ l E)) as [H3 Ho]. apply Ho. intro X. apply N.
  destruct (t3_root t _ H3) as [[_ A]|[[Y A]|[Y A]]]; [exact A| |]; unfold root in X; congruence.
Qed.
Print Assumptions C71_loop_exists.

(** A shutdown ends the chain's loop and asks every other one to end, also those left behind: none
    passes its check again. (If the chain's own thread has begun.) *)
Theorem C71_shutdown_ends_loops : forall b t rf c i, NoDup (ids t) -> reached b t rf c -> ~ off t c ->
  own c = Some i -> nth_error (threads c) i = Some TLoop ->
  exists c', srv_shutdown b t c = Ok (c', true) /\ running c' = false /\ nth_error (threads c') i = Some TEnd /\
    forall j c'' r, cstep b t rf (VCheck j) c' = Ok (c'', r) -> nth_error (threads c'') j <> Some TLoop.
Proof.
  intros b t rf c i ND R N O L. destruct (reached_inv b t rf ND c R) as [H3 Ho].
  assert (G : lgt (root t c) Init = true).
  { rewrite (root_gt t c H3). destruct (lgt (root t c) Off) eqn:X; [reflexivity|]. apply root_off in X; [contradiction|exact H3]. }
  assert (RN : running c = true).
  { destruct R as [l R]. destruct (C71_loop_exists b t rf l c ND R N) as (i' & O' & [T|[T T']]); [|exact T'].
    rewrite O in O'. injection O' as <-. congruence. }
  assert (Li : (i < List.length (threads c))%nat) by (apply nth_error_Some; congruence).
  unfold srv_shutdown. rewrite G. unfold stop_thread, do, fresh, with_lay. cbn [running own].
  rewrite RN, O. unfold begin, with_running. cbn [threads]. rewrite L. cbn [lay running threads].
  eexists. split; [reflexivity|]. split; [reflexivity|]. split; [apply nth_update_same; exact Li|].
  intros j c'' r E. cbn [cstep] in E. injection E as <- _. unfold check. cbn [threads running].
  destruct (nth_error (update_nth i TEnd (threads c)) j) as [[]|] eqn:Q; cbn [threads]; try congruence.
  unfold with_th. cbn [threads]. rewrite nth_update_same; [discriminate|]. apply nth_error_Some. congruence.
Qed.
Print Assumptions C71_shutdown_ends_loops.
Example C71_shutdown_ex : exists c, reached once tree2 false c /\ ~ off tree2 c /\ own c = Some 1%nat /\ nth_error (threads c) 1 = Some TLoop /\
  nth_error (threads c) 0 = Some TLoop.
Proof.
  set (c := get chain0 (crun once tree2 false [VInit false; VBegin 0; VInit true] chain0)).
  exists c. split; [exists [VInit false; VBegin 0; VInit true]; apply ok_get; vm_compute; reflexivity|].
  split; [intro X; specialize (X 0%nat (or_introl eq_refl)); vm_compute in X; discriminate|].
  split; [|split]; vm_compute; reflexivity.
Qed.

(** Each pass of the loop reads all layers, in order, before it writes all layers, in the order of
    writing. *)
Theorem C71_pass : forall b t rf c i, NoDup (ids t) -> reached b t rf c -> ~ off t c -> nth_error (threads c) i = Some TLoop ->
  exists c' rd wr, cstep b t rf (VCycle i) c = Ok (c', None) /\ log (lay c') = log (lay c) ++ rd ++ wr /\
    started ORead rd = order ORead t /\ started OWrite rd = [] /\ started OWrite wr = order OWrite t /\ started ORead wr = [].
Proof.
  intros b t rf c i ND R N L. destruct (reached_inv b t rf ND c R) as [H3 _].
  assert (A : ready t c \/ halted t c) by (destruct (t3_root t _ H3) as [[_ A]|[[_ A]|[_ A]]]; [contradiction|left; exact A|right; exact A]).
  destruct (pass_order b t c i ND A L) as (rd & wr & H). exists (cycle b t i c), rd, wr. split; [reflexivity|exact H].
Qed.
Print Assumptions C71_pass.
Example C71_pass_ex : exists c, reached once tree2 false c /\ ~ off tree2 c /\ nth_error (threads c) 1 = Some TLoop /\
  map (fun o => order o tree2) [ORead; OWrite] = [[0; 1; 2]; [0; 2; 1]]%nat.
Proof.
  set (c := get chain0 (crun once tree2 false [VInit true; VInit true] chain0)). exists c.
  split; [exists [VInit true; VInit true]; apply ok_get; vm_compute; reflexivity|].
  split; [intro H; pose proof (H 1%nat (or_intror (or_introl eq_refl))) as X; vm_compute in X; discriminate X|].
  split; vm_compute; reflexivity.
Qed.

(** ** C61: sync parameters *)

Theorem C61_chain_accepts : forall interval overflow update,
  setup_sync interval overflow update <> None <->
  0 <= interval /\ (interval = 0 -> update <> 0) /\ (0 < interval -> overflow <> 1 /\ overflow <= 240).
Proof.
  intros i o u. unfold setup_sync. destruct (Z.ltb_spec i 0) as [H|H]; [split; [intro X; congruence|lia]|].
  destruct (Z.eqb_spec i 0) as [->|N].
  - destruct (Z.eqb_spec u 0) as [->|M]; (split; [intro X; try congruence; lia|]); intros; [lia|discriminate].
  - rewrite (proj2 (Z.eqb_neq i 0) N). destruct (Z.eqb_spec o 1) as [->|O1]; cbn [orb]; [split; [intro X; congruence|lia]|].
    destruct (Z.ltb_spec 240 o); (split; [intro X; try congruence; lia|]); intros; [lia|discriminate].
Qed.
Print Assumptions C61_chain_accepts.
Theorem C61_chain_used_partial : forall interval overflow update r, 0 <= overflow -> interval < 65536 ->
  setup_sync interval overflow update = Some r ->
  (interval = 0 /\ r = (None, update) /\ update <> 0) \/
  (0 < interval /\ used_as_given interval overflow (fst r) /\ snd r = interval).
Proof.
  intros i o u r Ho Hi E. unfold setup_sync in E. destruct (Z.ltb_spec i 0) as [H|H]; [discriminate|].
  destruct (Z.eqb_spec i 0) as [->|N].
  - destruct (Z.eqb_spec u 0) as [->|M]; [discriminate|]. left. injection E as <-. auto.
  - rewrite (proj2 (Z.eqb_neq i 0) N) in E. destruct (Z.eqb_spec o 1) as [->|O1]; cbn [orb] in E; [discriminate|].
    destruct (Z.ltb_spec 240 o); [discriminate|]. injection E as <-. right. split; [lia|]. split; [|reflexivity].
    unfold used_as_given, u16, u8. cbn [fst]. rewrite !Z.mod_small by lia. split; [reflexivity|lia].
Qed.
Print Assumptions C61_chain_used_partial.
Theorem C61_node_used_partial : forall interval overflow r, 0 <= overflow -> interval < 65536 ->
  sync_node_properties interval overflow = Some r -> 0 < interval /\ used_as_given interval overflow (Some r).
Proof.
  intros i o r Ho Hi E. unfold sync_node_properties in E. destruct (Z.leb_spec i 0) as [H|H]; [discriminate|].
  destruct (Z.eqb_spec o 1) as [->|O1]; cbn [orb] in E; [discriminate|].
  destruct (Z.ltb_spec 240 o); [discriminate|]. injection E as <-. split; [lia|].
  unfold used_as_given, u16, u8. rewrite !Z.mod_small by lia. split; [reflexivity|lia].
Qed.
Print Assumptions C61_node_used_partial.
Example ex_C61 : setup_sync 10 240 0 = Some (Some (10, 240), 10) /\ setup_sync 0 7 5 = Some (None, 5) /\ sync_node_properties 20 0 = Some (20, 0).
Proof. repeat split; reflexivity. Qed.
(** Negative overflows and long intervals are accepted and wrapped. *)
Theorem C61_wrapped_refuted :
  setup_sync 10 (-255) 0 = Some (Some (10, 1), 10) /\ setup_sync 10 (-1) 0 = Some (Some (10, 255), 10) /\
  setup_sync 65536 0 0 = Some (Some (0, 0), 65536) /\ sync_node_properties 65537 (-255) = Some (1, 1).
Proof. repeat split; reflexivity. Qed.
Print Assumptions C61_wrapped_refuted.
(** For every overflow below 0 the value used is another one; it is forbidden for each of -255 and -1..-15 and many others. *)
Theorem C61_negative : forall interval overflow update, 0 < interval -> overflow < 0 ->
  exists p o, setup_sync interval overflow update = Some (Some (p, o), interval) /\ o <> overflow.
Proof.
  intros i o u Hi Ho. unfold setup_sync. rewrite (proj2 (Z.ltb_ge i 0)) by lia. rewrite (proj2 (Z.eqb_neq i 0)) by lia.
  rewrite (proj2 (Z.eqb_neq i 0)) by lia. rewrite (proj2 (Z.eqb_neq o 1)) by lia. rewrite (proj2 (Z.ltb_ge 240 o)) by lia.
  cbn [orb]. exists (u16 i), (u8 o). split; [reflexivity|]. unfold u8. pose proof (Z.mod_pos_bound o (2 ^ 8) ltac:(lia)). lia.
Qed.
Print Assumptions C61_negative.

(** ** C62: node parameters and defaults *)

(** Every value of the node is kept with its place, ... *)
Theorem C62_own : forall p params defaults z, proper defaults ->
  plain_at p params = Some z -> plain_at p (node_params params defaults) = Some z.
Proof. intros. apply merge_plain_own; assumption. Qed.
Print Assumptions C62_own.
(** ... every default whose place the node does not use is taken over with everything below it, ... *)
Theorem C62_default : forall p params defaults, is_struct params -> proper defaults ->
  ~ blocked p params -> ~ struct_at p params -> at_path p (node_params params defaults) = at_path p defaults.
Proof. intros. apply merge_default; assumption. Qed.
Print Assumptions C62_default.
(** ... structures of the node stay structures, ... *)
Theorem C62_structures : forall p params defaults, proper defaults ->
  struct_at p params -> struct_at p (node_params params defaults).
Proof. intros. apply merge_struct_own; assumption. Qed.
Print Assumptions C62_structures.
(** ... and values of the node hide defaults at and below their place. *)
Theorem C62_hidden : forall p params defaults, is_struct params -> proper defaults -> blocked p params ->
  at_path p (node_params params defaults) = at_path p params.
Proof. intros. apply merge_blocked; assumption. Qed.
Print Assumptions C62_hidden.
(** Hence nothing else is in the result. *)
Theorem C62_nothing_else : forall p params defaults z, is_struct params -> proper defaults ->
  plain_at p (node_params params defaults) = Some z ->
  plain_at p params = Some z \/ (plain_at p defaults = Some z /\ ~ blocked p params /\ ~ struct_at p params).
Proof.
  intros p a d z A P H.
  assert (D : struct_at p a \/ blocked p a \/ (~ struct_at p a /\ ~ blocked p a)).
  { clear H. assert (G : forall p v, struct_at p v \/ blocked p v \/ (~ struct_at p v /\ ~ blocked p v)).
    { clear. induction p as [|k p IH]; intro v.
      - destruct v as [y|ms]; [right; left; exists [], [], y; auto|left; exists ms; reflexivity].
      - destruct v as [y|ms]; [right; left; exists [], (k :: p), y; auto|].
        destruct (find k ms) as [v|] eqn:F.
        + destruct (IH v) as [[x X]|[X|[X Y]]].
          * left. exists x. cbn. rewrite F. exact X.
          * right. left. eapply blocked_cons; eassumption.
          * right. right. split; [intros [x Z]; cbn in Z; rewrite F in Z; apply X; exists x; exact Z|]. intro Z. apply Y. eapply blocked_inv; eassumption.
        + right. right. split; [intros [x Z]; cbn in Z; rewrite F in Z; discriminate|]. apply blocked_none, F. }
    apply G. }
  destruct D as [D|[D|[D1 D2]]].
  - exfalso. destruct (merge_struct_own p a d P D) as [x X]. unfold plain_at, node_params in H. rewrite X in H. discriminate.
  - left. unfold plain_at, node_params in *. rewrite (merge_blocked p a d A P D) in H. exact H.
  - right. unfold plain_at, node_params in *. rewrite (merge_default p a d A P D2 D1) in H. auto.
Qed.
Print Assumptions C62_nothing_else.
Definition node1 : value := Struct [(str "id", Plain 5); (str "motor", Struct [(str "scale", Plain 2)])].
Definition defaults1 : value := Struct [(str "id", Plain 1); (str "eds", Plain 9); (str "motor", Struct [(str "scale", Plain 1); (str "mode", Plain 3)])].
Example ex_C62 : is_struct node1 /\ proper defaults1 /\
  node_params node1 defaults1 = Struct [(str "id", Plain 5); (str "motor", Struct [(str "scale", Plain 2); (str "mode", Plain 3)]); (str "eds", Plain 9)].
Proof. split; [eexists; reflexivity|]. split; [cbn; tauto|reflexivity]. Qed.
Example ex_C62_default : ~ blocked [str "motor"; str "mode"] node1 /\ ~ struct_at [str "motor"; str "mode"] node1 /\ blocked [str "id"] node1.
Proof.
  split; [|split].
  - intros [[|a [|c q]] [r [z [E H]]]]; cbn in E.
    + discriminate H.
    + injection E as <- _. discriminate H.
    + injection E as <- <- E. destruct q; [|discriminate E]. discriminate H.
  - intros [ms H]. discriminate H.
  - exists [str "id"], [], 5. auto.
Qed.

(** ** C72: the sync node *)

(** A tick in which no layer reports more than warnings leaves the stack ready, if it was off
    or ready before. *)
Theorem C72_heals_partial : forall b t w, NoDup (ids t) -> all_in Off t w \/ all_in Ready t w ->
  fine w (sync_tick b t w) -> all_in Ready t (sync_tick b t w).
Proof.
  intros b t w ND A F. pose proof (all_together b t ND) as T. destruct A as [A|A].
  - rewrite (tick_off b t w A) in *. apply (proj1 (tg_init b t T (with_status status0 w) A)).
    apply fine_exec; [reflexivity|]. destruct F as [rs [E F]]. exists rs. auto.
  - destruct (tick_on b t ND w) as [_ E]; [exists Ready; split; [cbn; auto|exact A]|]. rewrite E in *. clear E.
    set (w0 := with_status status0 w) in *. set (w1 := exec b t ODiag (exec b t ORead w0)) in *.
    destruct (exec_status b t ORead w0) as [rs1 [E1 S1]]. destruct (exec_status b t ODiag (exec b t ORead w0)) as [rs2 [E2 S2]]. fold w1 in E2, S2.
    assert (R0 : reports (log w0) = reports (log w)) by reflexivity.
    assert (K : Forall (fun r => sev_z (fst r) <= sev_z WARN) rs1 /\ Forall (fun r => sev_z (fst r) <= sev_z WARN) rs2).
    { assert (X : exists rs3, reports (log (if okw w1 then w1 else exec b t ORecover (with_status status0 w1))) = reports (log w1) ++ rs3).
      { destruct (okw w1); [exists []; rewrite app_nil_r; reflexivity|]. apply (reports_prefix b t ORecover (with_status status0 w1)). }
      destruct X as [rs3 E3].
      assert (E12 : reports (log w1) = reports (log w) ++ (rs1 ++ rs2)) by (rewrite E2, E1, R0, app_assoc; reflexivity).
      destruct (fine_mid _ _ _ _ _ E12 E3 F) as [Y _]. apply Forall_app in Y. exact Y. }
    destruct K as [K1 K2].
    assert (S12 : stat w1 = set_all status0 (rs1 ++ rs2)) by (rewrite S2, S1; unfold set_all; rewrite fold_left_app; reflexivity).
    assert (O1 : okw w1 = true) by (unfold okw; rewrite S12; apply fine_okw; [left; reflexivity|apply Forall_app; auto]).
    rewrite O1. apply (tg_diag b t T).
    apply (proj1 (tg_cyclic b t T ORead w0 eq_refl A)).
    apply (exec_ok_before b t ODiag). exact O1.
Qed.
Print Assumptions C72_heals_partial.
(** A stack that is halted stays halted as long as its layers report nothing. *)
Theorem C72_halted_refuted : forall b t w, NoDup (ids t) -> all_in Error t w ->
  okw (exec b t ODiag (exec b t ORead (with_status status0 w))) = true -> all_in Error t (sync_tick b t w).
Proof.
  intros b t w ND A K. pose proof (all_together b t ND) as T.
  destruct (tick_on b t ND w) as [_ E]; [exists Error; split; [cbn; auto|exact A]|]. rewrite E, K.
  apply (tg_diag b t T). apply (tg_cyclic_error b t T ORead (with_status status0 w) eq_refl). exact A.
Qed.
Print Assumptions C72_halted_refuted.
(** When something is wrong with a stack that is halted it is recovered in the same tick. *)
Theorem C72_recovers : forall b t w, NoDup (ids t) -> is_group t -> all_in Ready t w \/ all_in Error t w ->
  okw (exec b t ORead (with_status status0 w)) = false ->
  all_in Ready t (sync_tick b t w) <-> okw (sync_tick b t w) = true.
Proof.
  intros b t w ND G A K. pose proof (all_together b t ND) as T.
  assert (U : uin [Ready; Error] t w) by (destruct A as [A|A]; [exists Ready|exists Error]; split; cbn; auto).
  destruct (tick_on b t ND w U) as [_ E]. rewrite E. clear E.
  set (w0 := with_status status0 w) in *.
  assert (K1 : okw (exec b t ODiag (exec b t ORead w0)) = false).
  { destruct (okw (exec b t ODiag (exec b t ORead w0))) eqn:X; [|reflexivity]. apply exec_ok_before in X. congruence. }
  rewrite K1.
  assert (Er : all_in Error t (with_status status0 (exec b t ODiag (exec b t ORead w0)))).
  { intros i Hi. cbn. revert i Hi. apply (tg_diag b t T). destruct A as [A|A].
    - apply (proj2 (proj2 (tg_cyclic b t T ORead w0 eq_refl A)) G K).
    - apply (tg_cyclic_error b t T ORead w0 eq_refl A). }
  destruct (tg_recover b t T _ Er) as [R1 R2]. split.
  - intro H. destruct (okw (exec b t ORecover _)) eqn:X; [reflexivity|]. specialize (R2 eq_refl).
    pose proof (H _ (root_in t)). pose proof (R2 _ (root_in t)). congruence.
  - exact R1.
Qed.
Print Assumptions C72_recovers.
Example ex_C72 : all_in Ready tree2 (sync_tick quiet tree2 (sync_tick quiet tree2 world0)) /\ fine world0 (sync_tick quiet tree2 world0).
Proof. split; [intros i [<-|[<-|[<-|[]]]]; vm_compute; reflexivity|]. exists []. split; [vm_compute; reflexivity|constructor]. Qed.

(** ** C73: object names *)

(** A name without "!" is taken as it is; otherwise the text before the first "!" is the name
    and reading is forced. *)
Theorem C73_plain : forall s, ~ In bang s -> parse_object_name s = (s, false).
Proof. intro s. apply parse_object_name_spec. Qed.
Print Assumptions C73_plain.
Theorem C73_forced : forall a r, ~ In bang a -> parse_object_name (a ++ bang :: r) = (a, true).
Proof. intros a r N. apply (proj2 (parse_object_name_spec _) a r N). reflexivity. Qed.
Print Assumptions C73_forced.
Example ex_C73 : parse_object_name (str "1018sub1!") = (str "1018sub1", true) /\ parse_object_name (str "6041") = (str "6041", false).
Proof. split; reflexivity. Qed.
