(** C91, C92: diagnostics. *)
From Verif Require Import Base LayerModel DiagModel DiagSpec DiagProofs.
From Verif Require MotorModel MotorSpec ModeModel HomingModel DriveModel DriveSpec DriveProps EmcyModel NodeModel.

(** ** C91: what is published *)
(** The level is the highest one said by a layer which takes part, 0 if none says anything. *)
Theorem C91_level : forall l, let L := slevel (summary (group_diag l report0)) in
  (forall s t, says l s t -> sev_z s <= L) /\ (L = 0 \/ exists s t, says l s t /\ sev_z s = L).
Proof.
  intros l L. unfold L. rewrite group_diag_eff. destruct (run_level (flat_map eff l) report0 (effs_no_throw l)) as (_ & A & B).
  split; [intros s t H; apply says_eff in H; exact (A s t H)|]. destruct B as [B|(s & t & H & B)]; [left; exact B|right; exists s, t; split; [apply says_eff, H|exact B]].
Qed.
Print Assumptions C91_level.
(** The message is made of exactly the texts said, the empty ones left out. *)
Theorem C91_message : forall l, exists ts, smsg (summary (group_diag l report0)) = join ts /\
  forall t, In t ts <-> t <> [] /\ exists s, says l s t.
Proof.
  intros l. rewrite group_diag_eff. destruct (run_reason (flat_map eff l) report0 [] (effs_no_throw l) eq_refl (Forall_nil _)) as (us & A & _ & C).
  exists us. split; [exact A|]. intros t. rewrite C. split; intros [N [s H]]; (split; [exact N|]); exists s; apply says_eff, H.
Qed.
Print Assumptions C91_message.
(** The values are exactly those given by layers which take part. *)
Theorem C91_values : forall l k v, In (k, v) (svals (summary (group_diag l report0))) <-> gives l k v.
Proof.
  intros l k v. rewrite group_diag_eff, gives_eff. cbn [svals summary]. rewrite run_values by apply effs_no_throw. cbn. tauto.
Qed.
Print Assumptions C91_values.
(** Texts and values in order: those of the layers one after the other, in each handler up to an exception. *)
Theorem C91_order : forall l, exists hs, Forall2 contributes l hs /\
  smsg (summary (group_diag l report0)) = join (texts (List.concat hs)) /\ svals (summary (group_diag l report0)) = values (List.concat hs).
Proof.
  intros l. exists (map eff l). split; [induction l; constructor; [apply contributes_eff|assumption]|].
  rewrite group_diag_eff, flat_map_concat_map. assert (N := effs_no_throw l). rewrite flat_map_concat_map in N. split.
  - exact (run_texts _ report0 [] N eq_refl (Forall_nil _)).
  - exact (run_vals _ report0 N).
Qed.
Print Assumptions C91_order.
(** There is only one such list. *)
Theorem C91_contributes : forall t h k, contributes t h -> contributes t k -> h = k.
Proof.
  induction t as [s g|s n l IH] using dlayer_nested; intros h k H K.
  - assert (X : forall s g x, contributes (DLeaf s g) x -> x = eff (DLeaf s g)).
    { clear. intros s g x H. cbn [eff]. inversion H as [? ? P N|? ? ? ? P N|? ? P| | |]; subst.
      - rewrite (proj2 (past_init_lgt _) P). rewrite <- (app_nil_r x) at 2. rewrite cut_app by exact N. cbn. symmetry. apply app_nil_r.
      - rewrite (proj2 (past_init_lgt _) P). rewrite cut_app by exact N. reflexivity.
      - destruct (lgt s Shutdown) eqn:E; [apply past_init_lgt in E; contradiction|reflexivity]. }
    rewrite (X _ _ _ H), (X _ _ _ K). reflexivity.
  - inversion H as [| | | |? ? ? P|? ? hs P F]; subst; inversion K as [| | | |? ? ? P'|? ? ks P' F']; subst; try reflexivity; try contradiction.
    f_equal. clear - IH F F'. revert ks F'. induction F; intros ks F'; inversion F'; subst; [reflexivity|]. inversion IH; subst. f_equal; auto.
Qed.
Print Assumptions C91_contributes.
Example C91_order_ex : exists hs, Forall2 contributes [DLeaf Ready [ASet WARN (str "b"); AAdd (str "k") (VN 3)]; DGroup Ready false [DLeaf Ready [AThrow (str "a"); ASet ERROR (str "c")]]] hs /\
  texts (List.concat hs) = [str "b"; str "a"] /\ values (List.concat hs) = [(str "k", VN 3)].
Proof.
  exists [[ASet WARN (str "b"); AAdd (str "k") (VN 3)]; [ASet ERROR (str "a")]]. split; [|split; reflexivity].
  constructor; [|constructor; [|constructor]].
  - constructor; [cbn; tauto|]. intros w [E|[E|[]]]; discriminate E.
  - change [ASet ERROR (str "a")] with (List.concat [[ASet ERROR (str "a")]]). constructor; [cbn; tauto|]. constructor; [|constructor].
    apply (contributes_until Ready [] (str "a") [ASet ERROR (str "c")]); [cbn; tauto|intros w []].
Qed.
(** A logger shows the objects of exactly the entries whose level does not exceed the one published,
    in their order, after the values; no other object is read, and reading does not change level
    or message. *)
Theorem C91_entries : forall l es, let s := summary (group_diag l report0) in let (p, read) := log false l es in
  slevel p = slevel s /\ smsg p = smsg s /\
  (exists vs, svals p = svals s ++ vs /\ List.length vs = List.length (filter (fun e => le_level e <=? slevel s) es) /\
     forall i e, nth_error (filter (fun e => le_level e <=? slevel s) es) i = Some e ->
       nth_error vs i = Some (le_name e, VT (match le_read e with Some t => t | None => str "<ERROR>" end))) /\
  List.length read = List.length es /\
  forall i e, nth_error es i = Some e -> nth_error read i = Some (le_level e <=? slevel s).
Proof.
  intros l es s. unfold log. fold s. pose proof (log_entries_level es s) as [A B]. pose proof (log_entries_spec es s) as [C D].
  destruct (log_entries es s) as [p read]. cbn [fst snd] in *. subst read. rewrite map_length. split; [exact A|]. split; [exact B|]. split.
  - eexists. split; [exact C|]. rewrite map_length. split; [reflexivity|]. intros i e H. rewrite (map_nth_error _ _ _ H). reflexivity.
  - split; [reflexivity|]. intros i e H. rewrite (map_nth_error _ _ _ H). reflexivity.
Qed.
Print Assumptions C91_entries.
(** For a node whose state is unknown nothing is asked. *)
Theorem C91_unknown : forall l es, log true l es = (mkStat 1 (str "Not initialized") [], []).
Proof. reflexivity. Qed.
Print Assumptions C91_unknown.

Definition pub_ex : list dlayer :=
  [DLeaf Ready [ASet WARN (str "low"); AAdd (str "level") (VN 3)]; DLeaf Init [ASet ERROR (str "never asked")];
   DGroup Ready false [DLeaf Recover [AThrow (str "timeout"); AAdd (str "lost") (VN 1)]]; DGroup Ready true [DLeaf Ready [ASet ERROR (str "hidden")]]].
Example C91_ex : fst (log false pub_ex [mkLE 0 (str "version") (Some (str "1.2")); mkLE 2 (str "voltage") None])
  = mkStat 2 (str "low; timeout") [(str "level", VN 3); (str "version", VT (str "1.2")); (str "voltage", VT (str "<ERROR>"))].
Proof. vm_compute. reflexivity. Qed.
Example C91_ex_says : says pub_ex ERROR (str "timeout") /\ gives pub_ex (str "level") (VN 3).
Proof.
  split.
  - exists (DGroup Ready false [DLeaf Recover [AThrow (str "timeout"); AAdd (str "lost") (VN 1)]]), [AThrow (str "timeout"); AAdd (str "lost") (VN 1)].
    split; [cbn; auto|]. split; [|right; split; [reflexivity|exists [], [AAdd (str "lost") (VN 1)]; split; [reflexivity|intros w []]]].
    econstructor; [cbn; auto|left; reflexivity|constructor; cbn; auto].
  - exists (DLeaf Ready [ASet WARN (str "low"); AAdd (str "level") (VN 3)]), [ASet WARN (str "low"); AAdd (str "level") (VN 3)].
    split; [cbn; auto|]. split; [constructor; cbn; auto|]. exists [ASet WARN (str "low")], []. split; [reflexivity|]. intros w [H|[]]. discriminate H.
Qed.

(** ** C92: nodes and the chain *)
(** What is published for a motor node: the node itself, its motor, its handle layer (which says
    nothing) and its emergency handler *)
Definition motor_node (sn sm sh se : lstate) (state : Z) (hb : bool) (x : DriveModel.drv) show what r n get : list dlayer :=
  [DLeaf sn (node_acts state hb); DLeaf sm (motor_acts x); DLeaf sh []; DLeaf se (emcy_acts show what r n get)].

Lemma cut_app : forall a b, (forall t, ~ In (AThrow t) a) -> cut (a ++ b) = a ++ cut b.
Proof.
  induction a as [|x a IH]; intros b N; [reflexivity|]. assert (N' : forall t, ~ In (AThrow t) a) by (intros t H; apply (N t); right; exact H).
  destruct x as [s t|k v|w]; cbn; rewrite ?IH by exact N'; try reflexivity. destruct (N w). left. reflexivity.
Qed.
Lemma cut_id : forall a, (forall t, ~ In (AThrow t) a) -> cut a = a.
Proof. intros a N. rewrite <- (app_nil_r a) at 1. rewrite cut_app by exact N. apply app_nil_r. Qed.
Lemma node_says : forall state hb s, (exists t, In (ASet s t) (cut (node_acts state hb))) <-> s = ERROR /\ (state <> 5 \/ hb = false).
Proof.
  intros state hb s. unfold node_acts, NodeModel.Operational. destruct (state =? 5) eqn:E; [apply Z.eqb_eq in E; destruct hb|apply Z.eqb_neq in E]; cbn.
  - split; [intros [t []]|intros [_ [N|N]]; congruence].
  - split; [intros [t [H|[]]]; injection H as <- _; auto|]. intros [-> _]. eauto.
  - split; [intros [t [H|[H|[]]]]; [injection H as <- _; auto|discriminate H]|]. intros [-> _]. eauto.
Qed.
Lemma motor_says : forall x s, (exists t, In (ASet s t) (cut (motor_acts x))) <->
  exists m, In m (DriveModel.diag x) /\ s = if DriveModel.is_error m then ERROR else WARN.
Proof.
  intros x s. unfold motor_acts. rewrite cut_id.
  - split.
    + intros [t H]. apply in_flat_map in H as [m [I H]]. exists m. split; [exact I|]. destruct m; cbn in H; repeat destruct H as [H|H]; try contradiction; try discriminate H; injection H as <- _; reflexivity.
    + intros [m [I ->]]. destruct m; eexists; apply in_flat_map; eexists; (split; [exact I|left; reflexivity]).
  - intros t H. apply in_flat_map in H as [m [I H]]. destruct m; cbn in H; repeat destruct H as [H|H]; try contradiction; discriminate H.
Qed.
Lemma list_none : forall get m i, EmcyModel.list_errors get i m = None <->
  exists k, i < k <= i + Z.of_nat m /\ get k = EmcyModel.EOther /\ forall j, i < j < k -> get j <> EmcyModel.ETimeout.
Proof.
  intros get. induction m as [|m IH]; intros i; cbn [EmcyModel.list_errors].
  - split; [discriminate|]. intros (k & A & _). lia.
  - assert (R : get (i + 1) <> EmcyModel.EOther -> get (i + 1) <> EmcyModel.ETimeout ->
      ((exists k, i < k <= i + Z.of_nat (S m) /\ get k = EmcyModel.EOther /\ forall j, i < j < k -> get j <> EmcyModel.ETimeout) <->
       exists k, i + 1 < k <= i + 1 + Z.of_nat m /\ get k = EmcyModel.EOther /\ forall j, i + 1 < j < k -> get j <> EmcyModel.ETimeout)).
    { intros N M. split; intros (k & A & B & C).
      - exists k. assert (k <> i + 1) by congruence. split; [lia|]. split; [exact B|]. intros j J. apply C. lia.
      - exists k. split; [lia|]. split; [exact B|]. intros j J. destruct (Z.eq_dec j (i + 1)) as [->|]; [exact M|]. apply C. lia. }
    destruct (get (i + 1)) eqn:G.
    + rewrite R by discriminate. rewrite <- IH. destruct (EmcyModel.list_errors get (i + 1) m); cbn; split; congruence.
    + rewrite R by discriminate. rewrite <- IH. destruct (EmcyModel.list_errors get (i + 1) m); cbn; split; congruence.
    + split; [discriminate|]. intros (k & A & B & C). destruct (Z.eq_dec k (i + 1)) as [->|]; [congruence|]. destruct (C (i + 1)); [lia|exact G].
    + split; [|reflexivity]. intros _. exists (i + 1). split; [lia|]. split; [exact G|]. intros j J. lia.
Qed.
Definition tail (show : list EmcyModel.item -> text) what n get : list act :=
  match n with
  | EmcyModel.NumThrows => [AThrow what]
  | _ => match EmcyModel.list_errors get 0 (Z.to_nat (match n with EmcyModel.NumVal c => c | _ => 0 end)) with
         | None => [AThrow what] | Some its => [AAdd (str "errors") (VT (show its))] end
  end.
Lemma tail_says : forall show what n get s, (exists t, In (ASet s t) (cut (tail show what n get))) <-> s = ERROR /\ list_raises n get.
Proof.
  intros show what n get s. unfold tail, list_raises. destruct n as [|c|].
  - cbn. split; [intros [t [H|[]]]; discriminate H|]. intros [_ [H|(c & k & H & _)]]; discriminate H.
  - pose proof (list_none get (Z.to_nat c) 0) as N. destruct (EmcyModel.list_errors get 0 (Z.to_nat c)) as [its|].
    + split; [intros [t [H|[]]]; discriminate H|]. intros [_ [H|(c' & k & H & A & B & C)]]; [discriminate H|]. injection H as <-.
      destruct N as [_ N]. enough (X : Some its = None) by discriminate X. apply N. exists k. split; [lia|]. split; [exact B|]. intros j J. apply C. lia.
    + split; [intros [t [H|[]]]; injection H as <- _|intros [-> _]; exists what; left; reflexivity]. split; [reflexivity|]. right.
      destruct N as [N _]. destruct (N eq_refl) as (k & A & B & C). exists c, k. split; [reflexivity|]. split; [lia|]. split; [exact B|]. intros j J. apply C. lia.
  - cbn. split; [intros [t [H|[]]]; injection H as <- _; auto|]. intros [-> _]. eauto.
Qed.
Lemma register_bits : forall v, 0 <= v < 256 -> (has v 1 = true <-> register_error v) /\ (has v 1 = false /\ EmcyModel.relevant v = true <-> register_warning v).
Proof.
  intros v V. unfold register_error, register_warning. assert (X0 : has v 1 = Z.testbit v 0) by (apply (pow2_testbit_has v 0); lia). rewrite X0. split; [tauto|].
  pose proof (forall_range 256 (fun r => Bool.eqb (negb (Z.testbit r 0) && EmcyModel.relevant r) (negb (Z.testbit r 0) && existsb (Z.testbit r) [1; 2; 3; 4; 6; 7])) eq_refl v V) as X.
  apply eqb_prop in X. split.
  - intros [A B]. rewrite A, B in X. split; [exact A|]. symmetry in X. apply existsb_exists in X. exact X.
  - intros [A B]. split; [exact A|]. rewrite A in X. cbn [negb andb] in X. rewrite X. apply existsb_exists, B.
Qed.
Lemma emcy_says : forall show what r n get s, (forall v, r = Some v -> 0 <= v < 256) ->
  (exists t, In (ASet s t) (cut (emcy_acts show what r n get))) <->
  (s = ERROR /\ (r = None \/ exists v, r = Some v /\ (register_error v \/ v <> 0 /\ list_raises n get))) \/
  (s = WARN /\ exists v, r = Some v /\ register_warning v).
Proof.
  intros show what r n get s V. unfold emcy_acts. destruct r as [v|]; [|cbn; split; [intros [t [H|[]]]; injection H as <- _; auto|]].
  2: { intros [[-> _]|[_ (v & H & _)]]; [eauto|discriminate H]. }
  specialize (V v eq_refl). destruct (register_bits v V) as [RE RW]. destruct (v =? 0) eqn:E.
  { apply Z.eqb_eq in E. subst v. cbn. split; [intros [t []]|]. intros [[_ [H|(v & H & [A|[A _]])]]|[_ (v & H & _ & i & I & T)]]; try discriminate H; injection H as <-.
    - discriminate A.
    - congruence.
    - rewrite Z.bits_0 in T. discriminate T. }
  apply Z.eqb_neq in E. fold (tail show what n get). rewrite cut_app; [rewrite cut_app|].
  2: { intros t [H|[]]. discriminate H. }
  2: { intros t H. destruct (has v 1); [|destruct (EmcyModel.relevant v)]; cbn in H; repeat destruct H as [H|H]; try contradiction; discriminate H. }
  pose proof (tail_says show what n get s) as T.
  assert (X : (exists t, In (ASet s t) ((if has v 1 then [ASet ERROR (str "Node has emergency error")] else if EmcyModel.relevant v then [ASet WARN (str "Error register is not zero")] else []) ++ [AAdd (str "error_register") (VN v)] ++ cut (tail show what n get)))
    <-> (s = ERROR /\ register_error v) \/ (s = WARN /\ register_warning v) \/ (s = ERROR /\ list_raises n get)).
  { rewrite <- T, <- RE, <- RW. split.
    - intros [t H]. rewrite !in_app_iff in H. destruct H as [H|[[H|[]]|H]]; [|discriminate H|right; right; exists t; exact H].
      destruct (has v 1); [destruct H as [H|[]]; injection H as <- _; auto|]. destruct (EmcyModel.relevant v); [|destruct H]. destruct H as [H|[]]; injection H as <- _; auto.
    - intros [[-> H]|[[-> [H H']]|[t H]]].
      + rewrite H. eexists. left. reflexivity.
      + rewrite H, H'. eexists. left. reflexivity.
      + exists t. rewrite !in_app_iff. right. right. exact H. }
  rewrite X. split.
  - intros [[-> H]|[[-> H]|[-> H]]]; [left|right|left]; (split; [reflexivity|]); eauto 6.
  - intros [[-> [H|(w & H & K)]]|[-> (w & H & K)]]; [discriminate H|injection H as <-|injection H as <-; auto]. destruct K as [K|[_ K]]; auto.
Qed.

(** In a running chain the status of a motor node is an error exactly if the node is not operational
    or its heartbeat is missing, the drive reports a quick stop, a fault, an unknown state or a limit, or
    the error register cannot be read or shows an error or the list of errors cannot be read; *)
Definition node_bad (state : Z) (hb : bool) (x : DriveModel.drv) (r : option Z) n get : Prop :=
  state <> 5 \/ hb = false \/ existsb DriveModel.is_error (DriveModel.diag x) = true \/ r = None \/
  exists v, r = Some v /\ (register_error v \/ v <> 0 /\ list_raises n get).
(** it is a warning if none of this holds but the drive is not enabled or warns, or another bit of the
    register is set; otherwise it is fine. *)
Definition node_warns (x : DriveModel.drv) (r : option Z) : Prop := DriveModel.diag x <> [] \/ exists v, r = Some v /\ register_warning v.
Theorem C92_node : forall sn sm sh se state hb x show what r n get es,
  past_init sn -> past_init sm -> past_init sh -> past_init se -> (forall v, r = Some v -> 0 <= v < 256) ->
  let L := slevel (fst (log false (motor_node sn sm sh se state hb x show what r n get) es)) in
  (L = 2 <-> node_bad state hb x r n get) /\
  (L = 1 <-> ~ node_bad state hb x r n get /\ node_warns x r) /\
  (L = 0 <-> ~ node_bad state hb x r n get /\ ~ node_warns x r).
Proof.
  intros sn sm sh se state hb x show what r n get es Hn Hm Hh He V L.
  set (ls := motor_node sn sm sh se state hb x show what r n get) in *.
  assert (EL : L = slevel (summary (group_diag ls report0))) by (unfold L, log; apply log_entries_level).
  destruct (C91_level ls) as [A B]. rewrite <- EL in A, B. clearbody L.
  assert (S0 : forall s t, says ls s t <-> In (ASet s t) (cut (node_acts state hb)) \/ In (ASet s t) (cut (motor_acts x)) \/ In (ASet s t) (cut (emcy_acts show what r n get))).
  { intros s t. rewrite says_eff. unfold ls, motor_node. cbn [flat_map eff]. rewrite !(proj2 (past_init_lgt _)) by assumption. rewrite app_nil_r, !in_app_iff. cbn. tauto. }
  pose proof (node_says state hb) as SN. pose proof (motor_says x) as SM. pose proof (fun s => emcy_says show what r n get s V) as SE.
  assert (S1 : forall s, (exists t, says ls s t) <-> (s = ERROR /\ node_bad state hb x r n get) \/ (s = WARN /\ ((exists m, In m (DriveModel.diag x) /\ DriveModel.is_error m = false) \/ exists v, r = Some v /\ register_warning v))).
  { intros s. transitivity ((exists t, In (ASet s t) (cut (node_acts state hb))) \/ (exists t, In (ASet s t) (cut (motor_acts x))) \/ (exists t, In (ASet s t) (cut (emcy_acts show what r n get)))).
    - split; [intros [t H]; apply S0 in H as [H|[H|H]]; eauto|]. intros [[t H]|[[t H]|[t H]]]; exists t; apply S0; auto.
    - rewrite SN, SM, SE. unfold node_bad. rewrite existsb_exists. split.
      + intros [[-> [H|H]]|[[m [I ->]]|[[-> [H|H]]|[-> H]]]]; auto 8. destruct (DriveModel.is_error m) eqn:K; [left|right]; (split; [reflexivity|]); eauto 8.
      + intros [[-> [H|[H|[[m [I K]]|[H|H]]]]]|[-> [[m [I K]]|H]]]; auto 8.
        * right. left. exists m. rewrite K. auto.
        * right. left. exists m. rewrite K. auto. }
  assert (K2 : node_bad state hb x r n get -> 2 <= L).
  { intros H. destruct (proj2 (S1 ERROR) (or_introl (conj eq_refl H))) as [t T]. exact (A ERROR t T). }
  assert (K1 : node_warns x r -> 1 <= L).
  { intros H. assert (X : node_bad state hb x r n get \/ ((exists m, In m (DriveModel.diag x) /\ DriveModel.is_error m = false) \/ exists v, r = Some v /\ register_warning v)).
    { destruct H as [H|H]; [|auto]. destruct (DriveModel.diag x) as [|m d] eqn:D; [congruence|]. destruct (DriveModel.is_error m) eqn:M.
      - left. right. right. left. rewrite D. cbn. rewrite M. reflexivity.
      - right. left. exists m. split; [left; reflexivity|exact M]. }
    destruct X as [X|X]; [specialize (K2 X); lia|]. destruct (proj2 (S1 WARN) (or_intror (conj eq_refl X))) as [t T]. exact (A WARN t T). }
  assert (B' : L = 0 \/ (L = 2 /\ node_bad state hb x r n get) \/ (L = 1 /\ node_warns x r)).
  { destruct B as [B|(s & t & T & B)]; [auto|]. destruct (proj1 (S1 s) (ex_intro _ t T)) as [[-> H]|[-> H]]; [right; left; cbn in B; split; [lia|exact H]|right; right].
    cbn in B. split; [lia|]. unfold node_warns. destruct H as [[m [I _]]|H]; [left; intros D; rewrite D in I; exact I|right; exact H]. }
  repeat split; intros; try (destruct B' as [?|[[? ?]|[? ?]]]; intuition lia).
Qed.
Print Assumptions C92_node.
(** With a drive that has been read the motor's part follows from its last status word. *)
Theorem C92_motor : forall sn sm sh se state hb d ready l x0 show what r n get es,
  past_init sn -> past_init sm -> past_init sh -> past_init se -> (forall v, r = Some v -> 0 <= v < 256) -> l <> [] ->
  let w := DriveSpec.last_word (DriveModel.word x0) l in
  slevel (fst (log false (motor_node sn sm sh se state hb (DriveSpec.cycles d ready l x0) show what r n get) es)) = 0 <->
  state = 5 /\ hb = true /\ MotorSpec.denotes MotorModel.OperationEnable w /\ Z.testbit w 7 = false /\ Z.testbit w 11 = false /\
  exists v, r = Some v /\ ~ register_error v /\ ~ register_warning v /\ (v = 0 \/ ~ list_raises n get).
Proof.
  intros sn sm sh se state hb d ready l x0 show what r n get es Hn Hm Hh He V N w.
  destruct (C92_node sn sm sh se state hb (DriveSpec.cycles d ready l x0) show what r n get es Hn Hm Hh He V) as (_ & _ & ->).
  pose proof (DriveProps.C90_healthy d ready l x0 N) as H. cbv zeta in H. fold w in H. unfold node_bad, node_warns. split.
  - intros [A B]. assert (D : DriveModel.diag (DriveSpec.cycles d ready l x0) = []) by (destruct (DriveModel.diag _); [reflexivity|destruct B; left; discriminate]).
    apply H in D as (D & E & F). split; [lia|]. split; [destruct hb; tauto|]. split; [exact D|]. split; [exact E|]. split; [exact F|].
    destruct r as [v|]; [|tauto]. exists v. split; [reflexivity|]. split; [intros R; apply A; eauto 10|]. split; [intros R; apply B; eauto|].
    destruct (Z.eq_dec v 0); [left; assumption|right]. intros R. apply A. eauto 10.
  - intros (-> & -> & D & E & F & v & -> & R1 & R2 & R3). assert (X : DriveModel.diag (DriveSpec.cycles d ready l x0) = []) by (apply H; auto). rewrite X. split.
    + intros [K|[K|[K|[K|(u & K & K')]]]]; try congruence; try discriminate K. injection K as <-. tauto.
    + intros [K|(u & K & K')]; [congruence|]. injection K as <-. tauto.
Qed.
Print Assumptions C92_motor.
Definition no_show (_ : list EmcyModel.item) : text := [].
Example C92_ex :
  let d := DriveSpec.cycles DriveProps.ppd true in
  let p st hb l r := fst (log false (motor_node Ready Ready Ready Ready st hb (d l DriveProps.running) no_show [] r EmcyModel.NumAbsent (fun _ => EmcyModel.EOther)) []) in
  p 5 true [(0x237, 1)] (Some 32) = mkStat 0 [] [(str "error_register", VN 32); (str "errors", VT [])] /\
  p 5 true [(0x2B1, 1)] (Some 0) = mkStat 1 (str "Motor operation is not enabled; Warning bit is set") [] /\
  p 4 true [(0x237, 1)] (Some 1) = mkStat 2 (str "Mode not operational; Node has emergency error") [(str "Node state", VN 4); (str "error_register", VN 1); (str "errors", VT [])].
Proof. vm_compute. repeat split. Qed.

(** A drive whose layers are being initialised or shut down, or are off, is reported as fine unless
    the state of its node is unknown. *)
Lemma inactive_eff : forall l, (forall c, In c l -> exists s h, c = DLeaf s h /\ ~ past_init s) -> flat_map eff l = [].
Proof.
  induction l as [|c l IH]; intros H; [reflexivity|]. cbn [flat_map]. rewrite IH by (intros c' I; apply H; right; exact I).
  destruct (H c (or_introl eq_refl)) as (s & h & -> & N). cbn [eff]. destruct (lgt s Shutdown) eqn:E; [destruct N; apply past_init_lgt, E|reflexivity].
Qed.
Lemma inactive_ok : forall l es, (forall c, In c l -> exists s h, c = DLeaf s h /\ ~ past_init s) ->
  slevel (fst (log false l es)) = 0 /\ smsg (fst (log false l es)) = [].
Proof.
  intros l es H. unfold log. destruct (log_entries_level es (summary (group_diag l report0))) as [-> ->]. rewrite group_diag_eff, inactive_eff by exact H. split; reflexivity.
Qed.
(** While a motor node is initialised: stopped, with a fault, with an emergency error. *)
Theorem C92_starting_refuted : exists state hb x r, node_bad state hb x r EmcyModel.NumAbsent (fun _ => EmcyModel.EOther) /\ state <> NodeModel.Unknown /\
  forall s show what es, s = Init \/ s = Shutdown ->
  let p := fst (log (state =? NodeModel.Unknown) (motor_node s s s s state hb x show what r EmcyModel.NumAbsent (fun _ => EmcyModel.EOther)) es) in
  slevel p = 0 /\ smsg p = [].
Proof.
  exists 4, false, (DriveSpec.cycles DriveProps.ppd true [(0x218, 1)] DriveProps.running), (Some 1). split; [left; discriminate|]. split; [discriminate|].
  intros s show what es H. apply inactive_ok. intros c I.
  assert (K : ~ past_init s) by (unfold past_init; destruct H as [->| ->]; cbn; intuition discriminate).
  destruct I as [<-|[<-|[<-|[<-|[]]]]]; eauto.
Qed.
Print Assumptions C92_starting_refuted.
(** After the shutdown of a node with heartbeat that can no longer be reached: the write to object
    1017 fails, the node keeps its state, and the layers are off. The status published is fine. *)
Theorem C92_shutdown_refuted : forall n v rd, NodeModel.n_hb n = NodeModel.HbVal v -> 0 < v -> NodeModel.n_state n <> NodeModel.Unknown ->
  let '(n1, _, ok) := NodeModel.shutdown rd false n in
  ok = false /\ NodeModel.n_state n1 = NodeModel.n_state n /\
  forall hb x show what r k get es,
    let p := fst (log (NodeModel.n_state n1 =? NodeModel.Unknown) (motor_node Off Off Off Off (NodeModel.n_state n1) hb x show what r k get) es) in
    slevel p = 0 /\ smsg p = [].
Proof.
  intros n v rd H P N. unfold NodeModel.shutdown, NodeModel.interval. rewrite H. replace (0 <? v) with true by (symmetry; apply Z.ltb_lt, P).
  unfold NodeModel.set_interval. rewrite H. split; [reflexivity|]. split; [reflexivity|]. intros hb x show what r k get es. cbn [NodeModel.with_hb NodeModel.n_state].
  replace (NodeModel.n_state n =? NodeModel.Unknown) with false by (symmetry; apply Z.eqb_neq, N). apply inactive_ok. intros c I.
  destruct I as [<-|[<-|[<-|[<-|[]]]]]; eexists; eexists; (split; [reflexivity|]); cbn; intuition discriminate.
Qed.
Print Assumptions C92_shutdown_refuted.
Example C92_shutdown_ex : let n := NodeModel.mkNode 3 false true NodeModel.Operational (NodeModel.HbVal 100) (NodeModel.HbVal 0) 100 0 in
  NodeModel.shutdown None false n = (NodeModel.with_hb n (NodeModel.HbVal 0), [NodeModel.WriteHb 0 false], false).
Proof. reflexivity. Qed.

(** The chain: its layers are the CAN layer, the sync layer if any, and groups whose diagnostics are hidden. *)
Definition chain_layers (sc ss : lstate) can sync (groups : list (lstate * list dlayer)) : list dlayer :=
  DLeaf sc can :: match sync with Some h => [DLeaf ss h] | None => [] end ++ map (fun g => DGroup (fst g) true (snd g)) groups.
(** Off: a warning; thread ended: an error; otherwise only CAN and sync layer contribute. *)
Theorem C92_chain_partial : forall s running sc ss can sync groups,
  let p := chain_log s running (chain_layers sc ss can sync groups) in
  (s = Off -> p = mkStat 1 (str "Not initialized") []) /\
  (s <> Off -> running = false -> p = mkStat 2 (str "Thread is not running") []) /\
  (s <> Off -> running = true -> ~ past_init s -> p = mkStat 0 [] []) /\
  (running = true -> past_init s -> p = summary (group_diag (DLeaf sc can :: match sync with Some h => [DLeaf ss h] | None => [] end) report0)).
Proof.
  intros s running sc ss can sync groups p. unfold p, chain_log. split; [intros ->; reflexivity|]. split; [intros N ->; destruct s; congruence || reflexivity|]. split.
  - intros N -> I. destruct s; try congruence; cbn [negb]; try reflexivity; destruct I; cbn; auto.
  - intros -> I. assert (E : lgt s Shutdown = true) by (apply past_init_lgt, I). cbn [negb]. rewrite ldiag_eff, group_diag_eff. cbn [eff]. rewrite E.
    assert (G : flat_map eff (map (fun g : lstate * list dlayer => DGroup (fst g) true (snd g)) groups) = []) by (induction groups as [|g gs IH]; [reflexivity|]; cbn; destruct (lgt (fst g) Shutdown); exact IH).
    unfold chain_layers. cbn [flat_map]. rewrite flat_map_app, G, app_nil_r. destruct s; try reflexivity. discriminate E.
Qed.
Print Assumptions C92_chain_partial.
(** So a chain whose nodes report errors, or which was halted because of an error, is reported as fine. *)
Theorem C92_chain_refuted : forall state nodes, state <> 5 -> nodes = [DLeaf Ready (node_acts state true)] ->
  slevel (summary (group_diag nodes report0)) = 2 /\
  forall s, s = Ready \/ s = Error -> chain_log s true (chain_layers Ready Ready (can_acts 2 0 0 None []) None [(s, nodes)]) = mkStat 0 [] [].
Proof.
  intros state nodes H ->. unfold node_acts, NodeModel.Operational. replace (state =? 5) with false by (symmetry; apply Z.eqb_neq, H). split; [reflexivity|].
  intros s [->| ->]; reflexivity.
Qed.
Print Assumptions C92_chain_refuted.
Example C92_chain_ex :
  chain_log Ready true (chain_layers Ready Ready (can_acts 1 5 0 None []) (Some (bcm_acts false (str "3") [])) [(Ready, [DLeaf Ready (node_acts 4 true)])])
  = mkStat 2 (str "CAN layer not ready; sync is not running") [(str "driver_state", VN 1); (str "socket_error", VN 5); (str "sync_running", VN 0); (str "known_nodes", VT (str "3")); (str "started_nodes", VT [])].
Proof. vm_compute. reflexivity. Qed.
(** What CAN and sync layer contribute, both past initialisation: the level, the message and exactly
    the values. [sync]: there is a sync layer, whether it is running, its known and started nodes *)
Theorem C92_bus : forall s sc ss driver code internal desc frame sync groups, past_init s -> past_init sc -> past_init ss ->
  let p := chain_log s true (chain_layers sc ss (can_acts driver code internal desc frame)
             (option_map (fun n => bcm_acts (fst (fst n)) (snd (fst n)) (snd n)) sync) groups) in
  let down := exists known started, sync = Some (false, known, started) in
  (slevel p = 2 <-> driver <> 2) /\ (slevel p = 1 <-> driver = 2 /\ down) /\ (slevel p = 0 <-> driver = 2 /\ ~ down) /\
  (driver = 2 -> ~ down -> smsg p = []) /\ (driver <> 2 -> ~ down -> smsg p = str "CAN layer not ready") /\
  (driver = 2 -> down -> smsg p = str "sync is not running") /\ (driver <> 2 -> down -> smsg p = str "CAN layer not ready; sync is not running") /\
  forall k v, In (k, v) (svals p) <->
    (k = str "driver_state" /\ v = VN driver /\ driver <> 2) \/
    (k = str "socket_error" /\ v = VN code /\ code <> 0) \/
    (k = str "internal_error" /\ v = VN internal /\ internal <> 0) \/
    (k = str "internal_error_desc" /\ internal <> 0 /\ exists t, desc = Some t /\ v = VT t) \/
    (k = str "can_error_frame" /\ v = VT frame /\ internal <> 0) \/
    (exists running known started, sync = Some (running, known, started) /\
      ((k = str "sync_running" /\ v = VN (if running then 1 else 0)) \/ (k = str "known_nodes" /\ v = VT known) \/ (k = str "started_nodes" /\ v = VT started))).
Proof.
  intros s sc ss driver code internal desc frame sync groups Hs Hc Hy p down.
  assert (E : p = summary (group_diag (DLeaf sc (can_acts driver code internal desc frame) :: match option_map (fun n => bcm_acts (fst (fst n)) (snd (fst n)) (snd n)) sync with Some h => [DLeaf ss h] | None => [] end) report0)).
  { unfold p. apply C92_chain_partial; [reflexivity|exact Hs]. }
  rewrite group_diag_eff in E. cbn [flat_map eff] in E. rewrite (proj2 (past_init_lgt sc) Hc) in E.
  assert (E2 : flat_map eff (match option_map (fun n => bcm_acts (fst (fst n)) (snd (fst n)) (snd n)) sync with Some h => [DLeaf ss h] | None => [] end) =
    match sync with Some n => bcm_acts (fst (fst n)) (snd (fst n)) (snd n) | None => [] end).
  { destruct sync as [[[r kn] stt]|]; [|reflexivity]. cbn [option_map flat_map eff fst snd]. rewrite (proj2 (past_init_lgt ss) Hy). rewrite app_nil_r. unfold bcm_acts. destruct r; reflexivity. }
  rewrite E2 in E. clear E2. clearbody p.
  assert (C0 : cut (can_acts driver code internal desc frame) = can_acts driver code internal desc frame).
  { unfold can_acts. destruct (driver =? 2), (code =? 0), (internal =? 0), desc; reflexivity. }
  rewrite C0 in E. clear C0.
  assert (D : down <-> match sync with Some n => fst (fst n) = false | None => False end).
  { unfold down. destruct sync as [[[r kn] stt]|]; cbn; split; [intros (a & b & H); congruence|intros ->; eauto|intros (a & b & H); discriminate|contradiction]. }
  assert (DN : ~ down <-> match sync with Some n => fst (fst n) = true | None => True end).
  { rewrite D. destruct sync as [[[[] kn] stt]|]; cbn; intuition congruence. }
  rewrite DN, D. clear D DN down.
  assert (V : forall k v, In (k, v) (svals p) <-> In (AAdd k v) (can_acts driver code internal desc frame) \/
    In (AAdd k v) (match sync with Some n => bcm_acts (fst (fst n)) (snd (fst n)) (snd n) | None => [] end)).
  { intros k v. rewrite <- in_app_iff. subst p. cbn [svals summary]. rewrite run_values; [cbn; tauto|].
    intros w H. apply in_app_iff in H as [H|H]; [|destruct sync as [[[[] ?] ?]|]; cbn in H; intuition discriminate].
    unfold can_acts in H. destruct (driver =? 2), (code =? 0), (internal =? 0), desc; cbn in H; intuition discriminate. }
  assert (L : slevel p = (if driver =? 2 then match sync with Some (false, _, _) => 1 | _ => 0 end else 2) /\
    smsg p = (if driver =? 2 then match sync with Some (false, _, _) => str "sync is not running" | _ => [] end
              else match sync with Some (false, _, _) => str "CAN layer not ready; sync is not running" | _ => str "CAN layer not ready" end)).
  { subst p. clear V. unfold can_acts. destruct (driver =? 2), (code =? 0), (internal =? 0), desc, sync as [[[[] ?] ?]|]; split; vm_compute; reflexivity. }
  clear E. destruct L as [L1 L2]. rewrite L1, L2. clear L1 L2.
  split; [destruct (Z.eqb_spec driver 2), sync as [[[[] ?] ?]|]; cbn [fst]; intuition congruence|].
  split; [destruct (Z.eqb_spec driver 2), sync as [[[[] ?] ?]|]; cbn [fst]; intuition congruence|].
  split; [destruct (Z.eqb_spec driver 2), sync as [[[[] ?] ?]|]; cbn [fst]; intuition congruence|].
  split; [intros -> H; destruct sync as [[[[] ?] ?]|]; cbn [fst] in H; congruence || reflexivity|].
  split; [intros N H; rewrite (proj2 (Z.eqb_neq _ _) N); destruct sync as [[[[] ?] ?]|]; cbn [fst] in H; congruence || reflexivity|].
  split; [intros -> H; destruct sync as [[[[] ?] ?]|]; cbn [fst] in H; congruence || reflexivity || contradiction|].
  split; [intros N H; rewrite (proj2 (Z.eqb_neq _ _) N); destruct sync as [[[[] ?] ?]|]; cbn [fst] in H; congruence || reflexivity || contradiction|].
  intros k v. rewrite V. clear V. unfold can_acts. rewrite !in_app_iff.
  assert (B : In (AAdd k v) (match sync with Some n => bcm_acts (fst (fst n)) (snd (fst n)) (snd n) | None => [] end) <->
    exists running known started, sync = Some (running, known, started) /\
      ((k = str "sync_running" /\ v = VN (if running then 1 else 0)) \/ (k = str "known_nodes" /\ v = VT known) \/ (k = str "started_nodes" /\ v = VT started))).
  { destruct sync as [[[r kn] stt]|]; [|cbn; split; [contradiction|intros (? & ? & ? & H & _); discriminate H]].
    unfold bcm_acts. rewrite in_app_iff. cbn [fst snd]. split.
    - intros [H|H]; [destruct r; cbn in H; intuition discriminate|]. exists r, kn, stt. split; [reflexivity|].
      destruct H as [H|[H|[H|[]]]]; injection H as <- <-; auto.
    - intros (r' & kn' & st' & H & I). injection H as <- <- <-. right. destruct I as [[-> ->]|[[-> ->]|[-> ->]]]; cbn; auto. }
  rewrite B. clear B.
  assert (A1 : In (AAdd k v) (if driver =? 2 then [] else [ASet ERROR (str "CAN layer not ready"); AAdd (str "driver_state") (VN driver)]) <-> k = str "driver_state" /\ v = VN driver /\ driver <> 2).
  { destruct (Z.eqb_spec driver 2) as [D|D]; [cbn; tauto|]. split; [intros [H|[H|[]]]; [discriminate H|injection H as <- <-; auto]|intros (-> & -> & _); cbn; auto]. }
  assert (A2 : In (AAdd k v) (if code =? 0 then [] else [AAdd (str "socket_error") (VN code)]) <-> k = str "socket_error" /\ v = VN code /\ code <> 0).
  { destruct (Z.eqb_spec code 0) as [D|D]; [cbn; tauto|]. split; [intros [H|[]]; injection H as <- <-; auto|intros (-> & -> & _); cbn; auto]. }
  rewrite A1, A2. clear A1 A2.
  destruct (Z.eqb_spec internal 0) as [D|D]; [cbn [In]; tauto|]. rewrite !in_app_iff.
  assert (A1 : In (AAdd k v) [AAdd (str "internal_error") (VN internal)] <-> k = str "internal_error" /\ v = VN internal /\ internal <> 0).
  { split; [intros [H|[]]; injection H as <- <-; auto|intros (-> & -> & _); cbn; auto]. }
  assert (A2 : In (AAdd k v) (match desc with Some t => [AAdd (str "internal_error_desc") (VT t)] | None => [] end) <-> k = str "internal_error_desc" /\ internal <> 0 /\ exists t, desc = Some t /\ v = VT t).
  { destruct desc as [t|]; [|cbn; split; [contradiction|intros (_ & _ & ? & H & _); discriminate H]].
    split; [intros [H|[]]; injection H as <- <-; eauto|intros (-> & _ & u & H & ->); injection H as <-; cbn; auto]. }
  assert (A3 : In (AAdd k v) [AAdd (str "can_error_frame") (VT frame)] <-> k = str "can_error_frame" /\ v = VT frame /\ internal <> 0).
  { split; [intros [H|[]]; injection H as <- <-; auto|intros (-> & -> & _); cbn; auto]. }
  rewrite A1, A2, A3. tauto.
Qed.
Print Assumptions C92_bus.
Example C92_bus_ex : past_init Ready /\ past_init Error /\ chain_log Error true (chain_layers Ready Ready (can_acts 1 0 7 (Some (str "bus off")) (str "1 ")) (Some (bcm_acts true (str "3") (str "3"))) [])
  = mkStat 2 (str "CAN layer not ready") [(str "driver_state", VN 1); (str "internal_error", VN 7); (str "internal_error_desc", VT (str "bus off")); (str "can_error_frame", VT (str "1 ")); (str "sync_running", VN 1); (str "known_nodes", VT (str "3")); (str "started_nodes", VT (str "3"))].
Proof. split; [cbn; auto|]. split; [cbn; auto|]. vm_compute. reflexivity. Qed.

(** ** The messages tell the causes apart *)
Lemma leaf_msg : forall s h, past_init s -> group_diag [DLeaf s h] report0 = run_acts h report0.
Proof. intros s h P. unfold group_diag. cbn [fold_left ldiag]. destruct s; cbn in P; try (intuition discriminate); reflexivity. Qed.
Definition motor_kinds : list (list DriveModel.dmsg) :=
  flat_map (fun a => flat_map (fun b => map (fun c => a ++ b ++ c) [[]; [DriveModel.DELimit]]) [[]; [DriveModel.DWWarning]])
    [[]; [DriveModel.DWNotEnabled]; [DriveModel.DEQuickStop]; [DriveModel.DEFault]; [DriveModel.DEUnknown]].
Definition motor_text (l : list DriveModel.dmsg) : text := smsg (summary (run_acts (flat_map (motor_act 0) l) report0)).
Lemma motor_kind : forall x, In (DriveModel.diag x) motor_kinds.
Proof.
  intros x. unfold DriveModel.diag. destruct (ModeModel.st (DriveModel.mo x)), (DriveModel.has (DriveModel.word x) DriveModel.SW_Warning), (DriveModel.has (DriveModel.word x) DriveModel.SW_Limit);
    cbn; repeat (first [left; reflexivity|right]).
Qed.
Lemma motor_text_word : forall x, smsg (summary (run_acts (motor_acts x) report0)) = motor_text (DriveModel.diag x).
Proof.
  intros x. unfold motor_acts, motor_text. cbn [summary smsg].
  enough (G : forall l r r', rst r = rst r' -> rst (run_acts (flat_map (motor_act (DriveModel.word x)) l) r) = rst (run_acts (flat_map (motor_act 0) l) r')) by (rewrite (G _ report0 report0); reflexivity).
  induction l as [|m l IH]; intros r r' E; [exact E|]. destruct m; cbn [flat_map motor_act app run_acts]; apply IH; cbn [rst]; rewrite E; reflexivity.
Qed.
Lemma motor_texts : forall l m, In l motor_kinds -> In m motor_kinds -> motor_text l = motor_text m -> l = m.
Proof.
  assert (D : NoDup (map motor_text motor_kinds)).
  { assert (U : List.nodup (list_eq_dec Z.eq_dec) (map motor_text motor_kinds) = map motor_text motor_kinds) by (vm_compute; reflexivity).
    rewrite <- U. apply NoDup_nodup. }
  intros l m. revert D. induction motor_kinds as [|k ks IH]; intros D [] []; intros E; cbn [map] in D; apply NoDup_cons_iff in D as [N D]; try congruence; subst;
    try (destruct N; first [rewrite E; apply in_map; assumption|rewrite <- E; apply in_map; assumption]). apply IH; assumption.
Qed.
(** Motors with the same message have the same reports, so the same kind of state, warning bit and limit bit; the
    status word is given exactly if the state is unknown. *)
Theorem C90_told_apart : forall sx sy x y, past_init sx -> past_init sy ->
  let p := summary (group_diag [DLeaf sx (motor_acts x)] report0) in
  (smsg p = smsg (summary (group_diag [DLeaf sy (motor_acts y)] report0)) <-> DriveModel.diag x = DriveModel.diag y) /\
  (forall k v, In (k, v) (svals p) <-> k = str "status_word" /\ v = VN (DriveModel.word x) /\ In DriveModel.DEUnknown (DriveModel.diag x)).
Proof.
  intros sx sy x y PX PY. cbv zeta. rewrite !leaf_msg by assumption. split.
  - rewrite !motor_text_word. split; [apply motor_texts; apply motor_kind|congruence].
  - intros k v. unfold motor_acts, DriveModel.diag.
    destruct (DriveModel.has (DriveModel.word x) DriveModel.SW_Warning), (DriveModel.has (DriveModel.word x) DriveModel.SW_Limit), (ModeModel.st (DriveModel.mo x));
      cbn [flat_map app motor_act run_acts summary svals rvals report0 In]; intuition (try congruence; discriminate).
Qed.
Print Assumptions C90_told_apart.
(** The node: nothing is said if it is operational with a heartbeat in time, and the texts for the state and for the
    heartbeat differ; the state is given exactly if it is not Operational. *)
Theorem C91_node_told_apart : forall sx sy a h b g, past_init sx -> past_init sy ->
  let p := summary (group_diag [DLeaf sx (node_acts a h)] report0) in
  (smsg p = smsg (summary (group_diag [DLeaf sy (node_acts b g)] report0)) <-> (a <> 5 /\ b <> 5) \/ (a = 5 /\ b = 5 /\ h = g)) /\
  (forall k v, In (k, v) (svals p) <-> k = str "Node state" /\ v = VN a /\ a <> 5).
Proof.
  intros sx sy a h b g PX PY. cbv zeta. rewrite !leaf_msg by assumption. unfold node_acts, NodeModel.Operational.
  destruct (Z.eqb_spec a 5) as [A|A], (Z.eqb_spec b 5) as [B|B], h, g; (split;
    [vm_compute smsg; intuition (try congruence; discriminate)|intros k v; cbn; intuition congruence]).
Qed.
Print Assumptions C91_node_told_apart.
Example C90_told_apart_ex :
  smsg (summary (group_diag [DLeaf Ready (motor_acts (DriveModel.mkDrv (ModeModel.mkM MotorModel.QuickStopActive MotorModel.Start 0 None 0 (fun _ => false) None) (HomingModel.mkH 0 false) 0x887 false))] report0))
    = str "Quick stop is active; Warning bit is set; Internal limit active" /\
  smsg (summary (group_diag [DLeaf Ready (node_acts 5 false)] report0)) = str "Heartbeat timeout" /\
  smsg (summary (group_diag [DLeaf Ready (node_acts 4 false)] report0)) = str "Mode not operational".
Proof. vm_compute. repeat split. Qed.
