From Verif Require Import Base DispatcherModel DispatcherSpec.

Section P.
Context {Obj : Type}.
Implicit Types (d : dispatcher) (o : Obj).

Lemma dispatch_nolock_none : forall ls o,
  dispatch_nolock ls o None = map (fun l => (l, o)) ls.
Proof. induction ls; intros; cbn; [reflexivity|]. rewrite IHls. reflexivity. Qed.

Lemma dispatch_nolock_some : forall ls o w,
  dispatch_nolock ls o (Some w) =
  map (fun l => (l, o)) (List.filter (fun l => negb (l =? w)) ls).
Proof.
  induction ls; intros; cbn; [reflexivity|]. rewrite (Z.eqb_sym w a).
  destruct (a =? w); cbn; rewrite IHls; reflexivity.
Qed.

(** The representation invariant relating the dispatcher to the living
    subscriptions. *)
Definition inv (d : dispatcher) (live : list (Z * option Z)) : Prop :=
  guards d = live /\ NoDup (map fst live) /\
  general d = subscribed live None /\
  forall k, match filtered d k with Some l => l | None => [] end = subscribed live (Some k).

Lemma subscribed_snoc : forall live id k q,
  subscribed (live ++ [(id, k)]) q =
  subscribed live q ++ (if match k, q with None, None => true | Some a, Some b => a =? b | _, _ => false end
                        then [id] else []).
Proof.
  intros. unfold subscribed. rewrite filter_app, map_app. f_equal. cbn.
  destruct k, q; cbn; try reflexivity. destruct (z =? z0); reflexivity.
Qed.

Lemma subscribed_remove : forall live id q,
  subscribed (List.filter (fun p => negb (fst p =? id)) live) q = remove_all id (subscribed live q).
Proof.
  induction live as [|[i k] live IH]; intros id q; [reflexivity|].
  unfold subscribed in *. cbn [List.filter fst].
  destruct (i =? id) eqn:E; cbn [negb].
  - rewrite IH. cbn [List.filter snd].
    destruct (match k with Some a => match q with Some b => a =? b | None => false end
              | None => match q with Some _ => false | None => true end end) eqn:K;
      cbn [map fst]; [unfold remove_all; cbn [List.filter]; rewrite E; reflexivity|reflexivity].
  - cbn [List.filter snd].
    destruct (match k with Some a => match q with Some b => a =? b | None => false end
              | None => match q with Some _ => false | None => true end end) eqn:K;
      cbn [map fst]; rewrite IH; [unfold remove_all; cbn [List.filter]; rewrite E; reflexivity|reflexivity].
Qed.

Lemma remove_all_notin : forall id l, ~ In id l -> remove_all id l = l.
Proof.
  induction l as [|x l IH]; intros H; [reflexivity|]. unfold remove_all in *. cbn.
  destruct (Z.eqb_spec x id); [subst; exfalso; apply H; left; reflexivity|].
  cbn. f_equal. apply IH. intro; apply H; right; assumption.
Qed.

Lemma guard_of_in : forall live id k, NoDup (map fst live) -> In (id, k) live -> guard_of live id = Some k.
Proof.
  induction live as [|[i q] live IH]; intros id k N H; [contradiction|].
  cbn in *. inversion N; subst. destruct H as [H|H].
  - inversion H; subst. rewrite Z.eqb_refl. reflexivity.
  - destruct (Z.eqb_spec i id); [|apply IH; assumption].
    subst. exfalso. apply H2. apply (in_map fst) in H. exact H.
Qed.

Lemma subscribed_in : forall live id q, In id (subscribed live q) -> In (id, q) live.
Proof.
  intros live id q H. unfold subscribed in H. apply in_map_iff in H.
  destruct H as [[i k] [E H]]. apply filter_In in H. destruct H as [H K]. cbn in *. subst.
  destruct k, q; try discriminate; try assumption.
  apply Z.eqb_eq in K. subst. assumption.
Qed.

Lemma nodup_filter_fst : forall (p : Z * option Z -> bool) live,
  NoDup (map fst live) -> NoDup (map fst (List.filter p live)).
Proof.
  induction live as [|x live IH]; intros H; [constructor|].
  cbn in *. inversion H; subst. destruct (p x); cbn; auto.
  constructor; auto. intro I. apply H2. apply in_map_iff in I. destruct I as [y [E I]].
  apply filter_In in I. destruct I as [I _]. rewrite <- E. apply in_map. assumption.
Qed.

Lemma dstep_inv : forall d live (op : dop Obj),
  inv d live -> well_used live [op] ->
  let '(d', out) := dstep d op in
  inv d' (alive live [op]) /\ out = expected live op.
Proof.
  intros d live op (G & N & GE & FI) W. destruct op as [id [k|]|id|k o|o|o w]; cbn [dstep alive expected].
  - cbn in W. destruct W as [W _]. split; [|reflexivity]. unfold inv. cbn [guards general filtered].
    split; [rewrite G; reflexivity|]. split.
    { rewrite map_app. cbn. apply NoDup_rev in N. rewrite <- rev_involutive.
      apply NoDup_rev. rewrite rev_app_distr. cbn. constructor; [|assumption].
      rewrite <- in_rev. assumption. }
    split. { rewrite subscribed_snoc, app_nil_r. assumption. }
    intro k'. rewrite subscribed_snoc. unfold set_key. destruct (Z.eqb_spec k' k).
    + subst. rewrite Z.eqb_refl, FI. reflexivity.
    + destruct (Z.eqb_spec k k'); [congruence|]. rewrite app_nil_r. apply FI.
  - cbn in W. destruct W as [W _]. split; [|reflexivity]. unfold inv. cbn [guards general filtered].
    split; [rewrite G; reflexivity|]. split.
    { rewrite map_app. cbn. apply NoDup_rev in N. rewrite <- rev_involutive.
      apply NoDup_rev. rewrite rev_app_distr. cbn. constructor; [|assumption].
      rewrite <- in_rev. assumption. }
    split. { rewrite subscribed_snoc. rewrite GE. reflexivity. }
    intro k'. rewrite subscribed_snoc, app_nil_r. apply FI.
  - cbn in W. destruct W as [W _]. apply in_map_iff in W. destruct W as [[i q] [E I]]. cbn in E. subst i.
    rewrite G. rewrite (guard_of_in live id q N I).
    assert (ND : NoDup (map fst (List.filter (fun p => negb (fst p =? id)) live)))
      by (apply nodup_filter_fst; assumption).
    assert (OTHER : forall q', q' <> q -> remove_all id (subscribed live q') = subscribed live q').
    { intros q' Hq. apply remove_all_notin. intro K. apply subscribed_in in K.
      pose proof (guard_of_in live id q N I). pose proof (guard_of_in live id q' N K). congruence. }
    destruct q as [k|].
    + specialize (FI k) as FIk. destruct (filtered d k) as [l|] eqn:FK.
      * split; [|reflexivity]. unfold inv. cbn [guards general filtered].
        split; [reflexivity|]. split; [assumption|].
        split. { rewrite subscribed_remove, OTHER by discriminate. assumption. }
        intro k'. rewrite subscribed_remove. unfold set_key. destruct (Z.eqb_spec k' k).
        -- subst. reflexivity.
        -- rewrite OTHER by congruence. apply FI.
      * split; [|reflexivity]. unfold inv. cbn [guards general filtered].
        split; [reflexivity|]. split; [assumption|].
        split. { rewrite subscribed_remove, OTHER by discriminate. assumption. }
        intro k'. rewrite subscribed_remove. destruct (Z.eq_dec k' k).
        -- subst. rewrite FK. rewrite <- FIk. reflexivity.
        -- rewrite OTHER by congruence. apply FI.
    + split; [|reflexivity]. unfold inv. cbn [guards general filtered].
      split; [reflexivity|]. split; [assumption|].
      split. { rewrite subscribed_remove. rewrite GE. reflexivity. }
      intro k'. rewrite subscribed_remove, OTHER by discriminate. apply FI.
  - split.
    + unfold inv. cbn [guards general filtered]. repeat split; try assumption.
      intro k'. unfold set_key. destruct (Z.eqb_spec k' k); [subst|]; apply FI.
    + rewrite map_app. rewrite dispatch_nolock_none, GE. f_equal. rewrite <- FI.
      destruct (filtered d k); [apply dispatch_nolock_none|reflexivity].
  - split; [unfold inv; auto|]. rewrite dispatch_nolock_none, GE. reflexivity.
  - split; [unfold inv; auto|]. rewrite dispatch_nolock_some, GE. reflexivity.
Qed.

Lemma alive_cons : forall (op : dop Obj) t live, alive live (op :: t) = alive (alive live [op]) t.
Proof. intros. destruct op; reflexivity. Qed.

Lemma well_used_cons : forall (op : dop Obj) t live,
  well_used live (op :: t) -> well_used live [op] /\ well_used (alive live [op]) t.
Proof. intros op t live H. destruct op; cbn in *; tauto. Qed.

Lemma drun_correct : forall (ops : list (dop Obj)) d live d' outs,
  inv d live -> well_used live ops -> drun d ops = (d', outs) ->
  List.length outs = List.length ops /\
  forall before op after, ops = before ++ op :: after ->
    nth_error outs (List.length before) = Some (expected (alive live before) op).
Proof.
  induction ops as [|op ops IH]; intros d live d' outs I W E; cbn [drun] in E.
  - inversion E; subst. split; [reflexivity|]. intros [|] ? ? H; discriminate.
  - apply well_used_cons in W. destruct W as [W1 W2].
    pose proof (dstep_inv d live op I W1) as S.
    destruct (dstep d op) as [d1 x]. destruct S as [I1 X].
    destruct (drun d1 ops) as [d2 xs] eqn:R. inversion E; subst.
    destruct (IH _ _ _ _ I1 W2 R) as [L C]. split; [cbn; lia|].
    intros [|b before] o after H; cbn in H; inversion H; subst.
    + reflexivity.
    + cbn [List.length nth_error]. rewrite alive_cons. eapply C. reflexivity.
Qed.

Lemma dispatcher_correct : forall (ops : list (dop Obj)) d outs,
  well_used [] ops -> drun dinit ops = (d, outs) -> deliveries_correct ops outs.
Proof.
  intros ops d outs W E. eapply drun_correct; [|exact W|exact E].
  unfold inv, dinit, subscribed. cbn. repeat split. constructor.
Qed.

(** ** Dummy bus *)

Lemma enqueue_ids : forall id o ifs, map if_id (enqueue id o ifs) = map (@if_id Obj) ifs.
Proof.
  intros. unfold enqueue. rewrite map_map. apply map_ext. intro i.
  destruct (if_id i =? id); reflexivity.
Qed.

Lemma fold_enqueue : forall o ls ifs, NoDup ls ->
  fold_left (fun acc c => enqueue (fst c) (snd c) acc) (map (fun l => (l, o)) ls) ifs =
  map (fun i : iface Obj => if existsb (Z.eqb (if_id i)) ls
                then mkIface (if_id i) (if_loopback i) (if_in i ++ [o]) else i) ifs.
Proof.
  intros o. induction ls as [|l ls IH]; intros ifs N; cbn [map fold_left].
  - cbn. rewrite map_id. reflexivity.
  - inversion N; subst. rewrite IH by assumption. cbn [fst snd]. unfold enqueue. rewrite map_map.
    apply map_ext. intro i. cbn [existsb].
    destruct (Z.eqb_spec (if_id i) l) as [e|n]; cbn [orb if_id if_loopback if_in].
    + destruct (existsb (Z.eqb (if_id i)) ls) eqn:X; [|reflexivity].
      apply existsb_exists in X. destruct X as [y [Y1 Y2]]. apply Z.eqb_eq in Y2.
      exfalso. apply H1. congruence.
    + reflexivity.
Qed.

Lemma existsb_filter_ids : forall (ids : list Z) s x,
  existsb (Z.eqb x) (List.filter (fun l => negb (l =? s)) ids) = existsb (Z.eqb x) ids && negb (x =? s).
Proof.
  induction ids as [|y ids IH]; intros s x; [reflexivity|]. cbn [List.filter existsb].
  destruct (Z.eqb_spec y s); cbn [negb].
  - rewrite IH. destruct (Z.eqb_spec x y); cbn [orb]; [|reflexivity].
    subst. rewrite Z.eqb_refl. cbn. rewrite !andb_false_r. reflexivity.
  - cbn [existsb]. rewrite IH. destruct (Z.eqb_spec x y); cbn [orb]; [|reflexivity].
    subst. destruct (Z.eqb_spec y s); [congruence|]. reflexivity.
Qed.

Lemma bus_send_spec : forall sender o (ifs : list (iface Obj)),
  NoDup (map if_id ifs) ->
  bus_send sender o ifs =
  map (fun i => if negb (if_id i =? sender) || if_loopback i
                then mkIface (if_id i) (if_loopback i) (if_in i ++ [o]) else i) ifs.
Proof.
  intros sender o ifs N. unfold bus_send. rewrite dispatch_nolock_some.
  rewrite fold_enqueue by (apply NoDup_filter; assumption).
  assert (LB : forall i, In i ifs -> if_id i = sender ->
             existsb (fun j => (if_id j =? sender) && if_loopback j) ifs = if_loopback i).
  { intros i Hi E. destruct (if_loopback i) eqn:L.
    - apply existsb_exists. exists i. split; [assumption|]. rewrite L, E, Z.eqb_refl. reflexivity.
    - apply not_true_is_false. intro X. apply existsb_exists in X. destruct X as [j [J1 J2]].
      apply andb_true_iff in J2. destruct J2 as [J2 J3]. apply Z.eqb_eq in J2.
      assert (i = j); [|congruence].
      clear - N Hi J1 E J2. induction ifs as [|a ifs IH]; [contradiction|].
      cbn in N. inversion N; subst. destruct Hi as [Hi|Hi], J1 as [J1|J1].
      + congruence.
      + subst. exfalso. apply H1. rewrite <- J2. apply in_map. assumption.
      + subst. exfalso. apply H1. rewrite J2. apply in_map. assumption.
      + apply IH; assumption. }
  set (lb := existsb (fun j => (if_id j =? sender) && if_loopback j) ifs) in *.
  assert (IDS : forall i, In i ifs -> existsb (Z.eqb (if_id i)) (map if_id ifs) = true).
  { intros i Hi. apply existsb_exists. exists (if_id i). split; [apply in_map; assumption|apply Z.eqb_refl]. }
  destruct lb.
  - unfold enqueue. rewrite map_map. apply map_ext_in. intros i Hi.
    rewrite existsb_filter_ids.
    destruct (Z.eqb_spec (if_id i) sender) as [e|n]; cbn [if_id if_loopback if_in negb orb].
    + rewrite e, Z.eqb_refl. cbn [negb]. rewrite andb_false_r. rewrite <- (LB i Hi e). reflexivity.
    + rewrite IDS by assumption. destruct (Z.eqb_spec (if_id i) sender); [congruence|]. reflexivity.
  - apply map_ext_in. intros i Hi. rewrite existsb_filter_ids.
    destruct (Z.eqb_spec (if_id i) sender) as [e|n]; cbn [negb orb].
    + rewrite andb_false_r. rewrite <- (LB i Hi e). reflexivity.
    + rewrite IDS by assumption. reflexivity.
Qed.

End P.
