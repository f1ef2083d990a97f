From Coq Require Import ZArith QArith Qround Qabs List Bool Lia.
From Verif Require Import Base KeyModel LayerModel HandleModel JointModel JointSpec.
Import ListNotations.
Local Open Scope Z_scope.

Lemma upd_same : forall A (f : kind -> A) k v, upd f k v k = v.
Proof. intros A f [] v; reflexivity. Qed.
Lemma upd_other : forall A (f : kind -> A) k l v, l <> k -> upd f k v l = f l.
Proof. intros A f [] [] v H; try reflexivity; congruence. Qed.
Lemma kind_dec : forall k l : kind, {k = l} + {k <> l}.
Proof. decide equality. Qed.

Section Proofs.
Variable num : Type.
Variable nan : num.
Variable junk : nat -> num.
Variable dtype : Z -> option Z.
Variable opens : Z -> bool.
Variable fstate ls : Type.
Variable fupd : fstate -> num -> fstate * option num.
Variable enf : kind -> bool -> Z -> (kind -> num) -> num -> ls -> ls * num.
Variable lrst : ls -> ls.
Variable ef et : kind -> expr num.
Variable fc : kind -> option (option fstate).

Notation getter := (getter num).
Notation getters := (getters num).
Notation hl := (hl num fstate ls).

Definition denotes (n : text) : option Z :=
  match object_name n with
  | Some k => match dtype k with
              | Some t => if numeric t && opens k then Some k else None
              | None => None
              end
  | None => None
  end.

Lemma numeric_types : forall t, numeric t = true <-> In t number_types.
Proof.
  intros t. unfold numeric. rewrite existsb_exists. split.
  - intros (u & H & E). apply Z.eqb_eq in E. subst. cbn in *. tauto.
  - intros H. exists t. split; [cbn in *; tauto|apply Z.eqb_refl].
Qed.
Lemma match_lit_app : forall lit s r, match_lit lit s = Some r <-> s = lit ++ r.
Proof.
  induction lit as [|c lit IH]; intros s r; cbn.
  - split; intros H; congruence.
  - destruct s as [|d s]; [split; discriminate|].
    destruct (Z.eqb_spec c d); [subst|].
    + rewrite IH. split; intros H; congruence.
    + split; intros H; congruence.
Qed.
Lemma denotes_stands : forall n k, denotes n = Some k <-> stands_for dtype opens n k.
Proof.
  intros n k. unfold denotes, stands_for, object_name. split.
  - intros H. destruct (match_lit (str "obj") n) as [s|] eqn:E; [|discriminate]. cbn [option_map] in H.
    apply match_lit_app in E. destruct (dtype (key_fromString s)) as [t|] eqn:D; [|discriminate].
    destruct (numeric t) eqn:N; [|discriminate]. destruct (opens (key_fromString s)) eqn:O; [|discriminate].
    cbn in H. injection H as <-. exists s, t. rewrite <- numeric_types. auto.
  - intros (s & t & -> & -> & D & N & O).
    rewrite (proj2 (match_lit_app (str "obj") (str "obj" ++ s) s) eq_refl). cbn [option_map].
    rewrite D, O. apply numeric_types in N. rewrite N. reflexivity.
Qed.
Lemma denotes_none : forall n, denotes n = None -> no_object dtype opens n.
Proof. intros n H k S0. apply denotes_stands in S0. congruence. Qed.

(** ** Getters *)

(** Equal keys have equal values, and every key denotes an object. *)
Definition coherent (g : getters) : Prop :=
  forall k v, In (k, v) g -> getter g k = Some v /\ exists t, dtype k = Some t /\ numeric t = true /\ opens k = true.
Definition extends (g g' : getters) : Prop := forall k v, getter g k = Some v -> getter g' k = Some v.

Lemma getter_in : forall g k v, getter g k = Some v -> In (k, v) g.
Proof.
  intros g k v H. unfold JointModel.getter in H. destruct (List.find _ g) as [[k' v']|] eqn:E; [|discriminate].
  apply find_some in E. destruct E as [E1 E2]. cbn in *. apply Z.eqb_eq in E2. congruence.
Qed.
Lemma getter_app : forall g h k, getter (g ++ h) k = match getter g k with Some v => Some v | None => getter h k end.
Proof.
  intros g h k. unfold JointModel.getter. induction g as [|[a v] g IH]; cbn; [reflexivity|].
  destruct (a =? k); [reflexivity|apply IH].
Qed.
Lemma put_getter_same : forall g k v, coherent g -> getter g k = Some v -> put_getter num g k v = g.
Proof.
  intros g k v H E. unfold put_getter. rewrite <- map_id. apply map_ext_in. intros [a w] I0. cbn.
  destruct (Z.eqb_spec a k); [|reflexivity]. subst. destruct (H k w I0). congruence.
Qed.
Lemma put_nth_same : forall o i, Forall (eq nan) o -> put_nth num i nan o = o.
Proof.
  induction o as [|x o IH]; intros [|i] H; cbn; try reflexivity; inversion H; subst; [reflexivity|].
  rewrite IH by assumption. reflexivity.
Qed.
Lemma nth_nan : forall (o : list num) i, Forall (eq nan) o -> nth i o nan = nan.
Proof.
  induction o as [|x o IH]; intros [|i] H; cbn; try reflexivity; inversion H; subst; auto.
Qed.

(** ** Binding of names *)

Definition refd (g : getters) (o : list num) (n : text) (r : ref) : Prop :=
  match denotes n with
  | Some k => r = RObj k /\ getter g k <> None
  | None => exists i, r = ROwn i
  end.
Definition value (g : getters) (n : text) : num :=
  match denotes n with
  | Some k => match getter g k with Some v => v | None => nan end
  | None => nan
  end.

Lemma extends_refl : forall g, extends g g. Proof. intros g k v H. exact H. Qed.
Lemma extends_trans : forall a b c, extends a b -> extends b c -> extends a c.
Proof. intros a b c H K k v E. apply K, H, E. Qed.
Lemma refd_extends : forall g g' o o' n r, extends g g' -> refd g o n r -> refd g' o' n r.
Proof.
  intros g g' o o' n r H K. unfold refd in *. destruct (denotes n) as [k|]; [|exact K].
  destruct K as [K1 K2]. split; [exact K1|]. destruct (getter g k) as [v|] eqn:E; [|congruence].
  rewrite (H k v E). discriminate.
Qed.

Lemma get_variable_spec : forall n g a, coherent g ->
  exists g' a', get_variable num junk dtype opens n g a = (denotes n, g', a') /\ coherent g' /\ extends g g' /\
    (forall k, denotes n = Some k -> getter g' k <> None).
Proof.
  intros n g a H. unfold get_variable, denotes. destruct (object_name n) as [k|].
  - destruct (getter g k) as [v|] eqn:E.
    + exists g, a. destruct (H k v (getter_in g k v E)) as (_ & t & D & N & O).
      rewrite D, N, O. cbn. split; [reflexivity|]. split; [assumption|]. split; [apply extends_refl|]. congruence.
    + destruct (dtype k) as [t|] eqn:D.
      * destruct (numeric t) eqn:N; destruct (opens k) eqn:O; cbn [andb];
          try (exists g, a; split; [reflexivity|]; split; [assumption|]; split; [apply extends_refl|discriminate]).
        exists (g ++ [(k, junk a)]), (S a). split; [reflexivity|]. split; [|split].
        { intros k' v' I0. apply in_app_or in I0. rewrite getter_app. destruct I0 as [I0|I0].
          - destruct (H k' v' I0) as [G R]. rewrite G. auto.
          - destruct I0 as [I0|[]]. injection I0 as <- <-. rewrite E. unfold JointModel.getter. cbn. rewrite Z.eqb_refl. cbn.
            split; [reflexivity|]. exists t. auto. }
        { intros k' v' G. rewrite getter_app, G. reflexivity. }
        { intros k' G. injection G as <-. rewrite getter_app, E. unfold JointModel.getter. cbn. rewrite Z.eqb_refl. discriminate. }
      * exists g, a. split; [reflexivity|]. split; [assumption|]. split; [apply extends_refl|discriminate].
  - exists g, a. split; [reflexivity|]. split; [assumption|]. split; [apply extends_refl|discriminate].
Qed.

Lemma bind_spec : forall ns g a o, coherent g -> Forall (eq nan) o ->
  exists rs g' a' o', bind num nan junk dtype opens None ns g a o = (rs, g', a', o') /\ coherent g' /\ extends g g' /\
    Forall (eq nan) o' /\ Forall2 (refd g' o') ns rs.
Proof.
  induction ns as [|n ns IH]; intros g a o H O; cbn.
  - exists [], g, a, o. split; [reflexivity|]. split; [assumption|]. split; [apply extends_refl|]. split; [assumption|constructor].
  - destruct (get_variable_spec n g a H) as (g1 & a1 & -> & C1 & E1 & D1).
    destruct (denotes n) as [k|] eqn:D.
    + destruct (IH g1 a1 o C1 O) as (rs & g2 & a2 & o2 & -> & C2 & E2 & O2 & F2).
      exists (RObj k :: rs), g2, a2, o2. split; [reflexivity|]. split; [assumption|]. split; [eapply extends_trans; eassumption|].
      split; [assumption|]. constructor; [|assumption]. unfold refd. rewrite D. split; [reflexivity|].
      specialize (D1 k eq_refl). destruct (getter g1 k) as [v|] eqn:G; [|congruence]. rewrite (E2 k v G). discriminate.
    + destruct (IH g1 a1 (o ++ [nan]) C1) as (rs & g2 & a2 & o2 & -> & C2 & E2 & O2 & F2).
      { apply Forall_app. auto. }
      exists (ROwn (List.length o) :: rs), g2, a2, o2. split; [reflexivity|]. split; [assumption|]. split; [eapply extends_trans; eassumption|].
      split; [assumption|]. constructor; [|assumption]. unfold refd. rewrite D. eauto.
Qed.

Lemma fetch_value : forall g c o ns rs, Forall (eq nan) o -> Forall2 (refd g o) ns rs ->
  map (fetch num nan g c o) rs = map (value g) ns.
Proof.
  intros g c o ns rs O H. induction H as [|n r ns rs R _ IH]; [reflexivity|]. cbn [map]. rewrite IH. f_equal.
  unfold refd in R. unfold value. destruct (denotes n) as [k|].
  - destruct R as [-> R]. reflexivity.
  - destruct R as [i ->]. apply nth_nan, O.
Qed.
Lemma store_same : forall g c o, coherent g -> Forall (eq nan) o -> forall ns rs, Forall2 (refd g o) ns rs ->
  store num rs (map (fetch num nan g c o) rs) g c o = (g, c, o).
Proof.
  intros g c o C O ns rs H. induction H as [|n r ns rs R _ IH]; [reflexivity|]. cbn [map store].
  unfold refd in R. destruct (denotes n) as [k|].
  - destruct R as [-> R]. cbn [fetch]. destruct (getter g k) as [v|] eqn:G; [|congruence].
    rewrite (put_getter_same g k v C G). exact IH.
  - destruct R as [i ->]. cbn [fetch]. rewrite (nth_nan o i O), (put_nth_same o i O). exact IH.
Qed.

(** A converter from the device: not used yet, or bound *)
Definition okconv (e : expr num) (g : getters) (c : conv num) : Prop :=
  ex num c = e /\ Forall (eq nan) (own num c) /\
  match refs num c with None => own num c = [] | Some rs => Forall2 (refd g (own num c)) (names num e) rs end.

Lemma okconv_extends : forall e g g' c, extends g g' -> okconv e g c -> okconv e g' c.
Proof.
  intros e g g' c H (A & B & D). split; [exact A|]. split; [exact B|]. destruct (refs num c) as [rs|]; [|exact D].
  clear A. revert D. generalize (names num e). intros ns D. induction D; constructor; [|assumption].
  eapply refd_extends; eassumption.
Qed.

Lemma evaluate_spec : forall e c g a w, pure num e -> okconv e g c -> coherent g ->
  exists r c' g' a', evaluate num nan junk dtype opens None c g a w = (r, c', g', a', w) /\
    coherent g' /\ extends g g' /\ okconv e g' c' /\ refs num c' <> None /\
    r = snd (eval num e (map (value g') (names num e))) /\ (refs num c <> None -> g' = g).
Proof.
  intros e c g a w P (E & O & R) C. unfold evaluate. destruct (refs num c) as [rs|] eqn:RC.
  - rewrite E. pose proof (P (map (fetch num nan g w (own num c)) rs)) as P1.
    destruct (eval num e (map (fetch num nan g w (own num c)) rs)) as [vs r] eqn:V. cbn in P1. subst vs.
    rewrite (store_same g w (own num c) C O _ _ R).
    exists r, (mkConv num e (Some rs) (own num c)), g, a. split; [reflexivity|]. split; [assumption|]. split; [apply extends_refl|].
    split; [split; [reflexivity|]; split; assumption|]. split; [discriminate|]. split; [|reflexivity].
    rewrite <- (fetch_value g w (own num c) _ _ O R), V. reflexivity.
  - rewrite E. destruct (bind_spec (names num e) g a (own num c) C O) as (rs & g' & a' & o' & -> & C' & E' & O' & F').
    pose proof (P (map (fetch num nan g' w o') rs)) as P1.
    destruct (eval num e (map (fetch num nan g' w o') rs)) as [vs r] eqn:V. cbn in P1. subst vs.
    rewrite (store_same g' w o' C' O' _ _ F').
    exists r, (mkConv num e (Some rs) o'), g', a'. split; [reflexivity|]. split; [assumption|]. split; [assumption|].
    split; [split; [reflexivity|]; split; assumption|]. split; [discriminate|]. split; [|congruence].
    rewrite <- (fetch_value g' w o' _ _ O' F'), V. reflexivity.
Qed.

(** ** States *)

Definition tos (x : hl) : Prop :=
  forall k rs r, refs num (to num fstate ls x k) = Some rs -> In r rs -> forall key, r <> RObj key.
Definition J0 (x : hl) : Prop := vars num fstate ls x = [] /\ forall k, from num fstate ls x k = new_conv num (ef k).
Definition Jg (x : hl) : Prop :=
  coherent (vars num fstate ls x) /\ forall k, okconv (ef k) (vars num fstate ls x) (from num fstate ls x k).
Definition J1 (x : hl) : Prop := Jg x /\ forall k, refs num (from num fstate ls x k) <> None.
Lemma J0_Jg : forall x, J0 x -> Jg x.
Proof.
  intros x [V F]. unfold Jg. rewrite V. split; [intros k v []|]. intros k. rewrite F. split; [reflexivity|]. split; constructor.
Qed.

Definition input (g : getters) (k : kind) : num := snd (eval num (ef k) (map (value g) (names num (ef k)))).

Hypothesis pures : forall k, pure num (ef k).

Notation rk := (read_kind num nan junk dtype opens fstate ls fupd).
Lemma read_kind_spec : forall k x, Jg x ->
  exists y, rk k x = y /\ Jg y /\ extends (vars num fstate ls x) (vars num fstate ls y) /\
    refs num (from num fstate ls y k) <> None /\
    (forall l, l <> k -> from num fstate ls y l = from num fstate ls x l /\ meas num fstate ls y l = meas num fstate ls x l /\
                         filt num fstate ls y l = filt num fstate ls x l) /\
    (filt num fstate ls y k, meas num fstate ls y k) =
      filter_step num fstate fupd (filt num fstate ls x k) (input (vars num fstate ls y) k) (meas num fstate ls x k) /\
    to num fstate ls y = to num fstate ls x /\ cmd num fstate ls y = cmd num fstate ls x /\
    (refs num (from num fstate ls x k) <> None -> vars num fstate ls y = vars num fstate ls x).
Proof.
  intros k x [C F].
  destruct (evaluate_spec (ef k) (from num fstate ls x k) (vars num fstate ls x) (alloc num fstate ls x) nan (pures k) (F k) C)
    as (r & c & g & a & E & C' & X & K & R & V & S0).
  exists (rk k x). split; [reflexivity|]. unfold rk, read_kind. rewrite E.
  destruct (filter_step num fstate fupd (filt num fstate ls x k) r (meas num fstate ls x k)) as [f m] eqn:FS.
  cbn [vars from to meas cmd filt]. split; [split|].
  - exact C'.
  - intros l. cbn [vars from]. destruct (kind_dec l k) as [->|N].
    + rewrite upd_same. exact K.
    + rewrite upd_other by exact N. eapply okconv_extends; [exact X|apply F].
  - split; [exact X|]. split; [rewrite upd_same; exact R|]. split.
    { intros l N. rewrite !upd_other by exact N. auto. }
    split; [|auto]. rewrite !upd_same. unfold input. rewrite <- V. auto.
Qed.

Definition with_vars (g : getters) (x : hl) : hl :=
  mkHl num fstate ls g (from num fstate ls x) (to num fstate ls x) (meas num fstate ls x) (cmd num fstate ls x)
    (filt num fstate ls x) (lims num fstate ls x) (limon num fstate ls x) (alloc num fstate ls x).

Lemma value_extends : forall g g' o ns rs, extends g g' -> Forall2 (refd g o) ns rs -> map (value g') ns = map (value g) ns.
Proof.
  intros g g' o ns rs X H. induction H as [|n r ns rs R _ IH]; [reflexivity|]. cbn [map]. rewrite IH. f_equal.
  unfold value, refd in *. destruct (denotes n) as [k|]; [|reflexivity]. destruct R as [_ R].
  destruct (getter g k) as [v|] eqn:G; [|congruence]. rewrite (X k v G). reflexivity.
Qed.
Lemma input_extends : forall g g' c k, extends g g' -> okconv (ef k) g c -> refs num c <> None -> input g' k = input g k.
Proof.
  intros g g' c k X (E & O & R) N. destruct (refs num c) as [rs|]; [|congruence]. unfold input.
  rewrite (value_extends g g' (own num c) _ rs X R). reflexivity.
Qed.

Lemma read3_spec : forall x, Jg x -> let y := rk KEff (rk KVel (rk KPos x)) in
  J1 y /\ extends (vars num fstate ls x) (vars num fstate ls y) /\
  (forall k, (filt num fstate ls y k, meas num fstate ls y k) =
     filter_step num fstate fupd (filt num fstate ls x k) (input (vars num fstate ls y) k) (meas num fstate ls x k)) /\
  to num fstate ls y = to num fstate ls x /\ cmd num fstate ls y = cmd num fstate ls x /\
  (J1 x -> vars num fstate ls y = vars num fstate ls x).
Proof.
  intros x H.
  destruct (read_kind_spec KPos x H) as (x1 & E1 & H1 & X1 & R1 & O1 & F1 & T1 & C1 & S1).
  destruct (read_kind_spec KVel x1 H1) as (x2 & E2 & H2 & X2 & R2 & O2 & F2 & T2 & C2 & S2).
  destruct (read_kind_spec KEff x2 H2) as (x3 & E3 & H3 & X3 & R3 & O3 & F3 & T3 & C3 & S3).
  rewrite E1, E2, E3. cbn zeta.
  assert (R1' : refs num (from num fstate ls x2 KPos) <> None) by (rewrite (proj1 (O2 KPos ltac:(discriminate))); exact R1).
  split; [|split; [|split; [|split; [|split]]]].
  - split; [exact H3|]. intros []; [| |exact R3].
    + rewrite (proj1 (O3 KPos ltac:(discriminate))). exact R1'.
    + rewrite (proj1 (O3 KVel ltac:(discriminate))). exact R2.
  - eapply extends_trans; [exact X1|]. eapply extends_trans; [exact X2|exact X3].
  - intros [].
    + destruct (O3 KPos ltac:(discriminate)) as (_ & -> & ->). destruct (O2 KPos ltac:(discriminate)) as (_ & -> & ->).
      rewrite F1. rewrite (input_extends (vars num fstate ls x1) (vars num fstate ls x3) (from num fstate ls x1 KPos) KPos); auto.
      * eapply extends_trans; [exact X2|exact X3].
      * apply H1.
    + destruct (O3 KVel ltac:(discriminate)) as (_ & -> & ->). destruct (O1 KVel ltac:(discriminate)) as (_ & <- & <-).
      rewrite F2. rewrite (input_extends (vars num fstate ls x2) (vars num fstate ls x3) (from num fstate ls x2 KVel) KVel); auto.
      apply H2.
    + destruct (O1 KEff ltac:(discriminate)) as (_ & <- & <-). destruct (O2 KEff ltac:(discriminate)) as (_ & <- & <-). exact F3.
  - congruence.
  - congruence.
  - intros [_ K]. rewrite S3, S2, S1; auto.
    + rewrite (proj1 (O1 KVel ltac:(discriminate))). apply K.
    + rewrite (proj1 (O2 KEff ltac:(discriminate))), (proj1 (O1 KEff ltac:(discriminate))). apply K.
Qed.

(** ** Synchronisation *)
Lemma sync_getter : forall rd g k, getter (fst (sync num rd g)) k =
  option_map (fun v => match rd k with Some w => w | None => v end) (getter g k).
Proof.
  intros rd g k. unfold JointModel.getter, sync. cbn [fst]. induction g as [|[a v] g IH]; [reflexivity|]. cbn [map List.find fst].
  destruct (Z.eqb_spec a k); [subst; reflexivity|apply IH].
Qed.
Lemma sync_coherent : forall rd g, coherent g -> coherent (fst (sync num rd g)).
Proof.
  intros rd g H k v I0. cbn [sync fst] in I0. apply in_map_iff in I0. destruct I0 as ([a w] & E & I0). cbn in E. injection E as <- <-.
  destruct (H a w I0) as [G R]. split; [|exact R]. rewrite sync_getter, G. reflexivity.
Qed.
Lemma sync_refd : forall rd g o ns rs, Forall2 (refd g o) ns rs -> Forall2 (refd (fst (sync num rd g)) o) ns rs.
Proof.
  intros rd g o ns rs H. induction H as [|n r ns rs R _ IH]; constructor; [|exact IH]. unfold refd in *.
  destruct (denotes n) as [k|]; [|exact R]. destruct R as [R1 R2]. split; [exact R1|]. rewrite sync_getter.
  destruct (getter g k); [discriminate|congruence].
Qed.
Lemma sync_Jg : forall rd x, Jg x -> Jg (with_vars (fst (sync num rd (vars num fstate ls x))) x).
Proof.
  intros rd x [C F]. split; [apply sync_coherent, C|]. intros k. cbn [vars from with_vars]. destruct (F k) as (E & O & R).
  split; [exact E|]. split; [exact O|]. destruct (refs num (from num fstate ls x k)); [apply sync_refd, R|exact R].
Qed.

(** Values of the variables after some reads *)
Definition G (jk : Z -> num) (ps : list (Z -> option num)) (g : getters) : Prop :=
  forall k v, getter g k = Some v -> v = latest num ps k (jk k).
Definition val (jk : Z -> num) (ps : list (Z -> option num)) (n : text) : num :=
  match denotes n with Some k => latest num ps k (jk k) | None => nan end.
Definition shownf (jk : Z -> num) (ps : list (Z -> option num)) (k : kind) : num :=
  snd (eval num (ef k) (map (val jk ps) (names num (ef k)))).
Lemma shownf_shown : forall jk ps k, shown num nan dtype opens (ef k) jk ps (shownf jk ps k).
Proof.
  intros jk ps k. exists (map (val jk ps) (names num (ef k))). split; [|reflexivity]. unfold values.
  induction (names num (ef k)) as [|n ns IH]; [constructor|]. cbn [map]. constructor; [|exact IH]. unfold val.
  destruct (denotes n) as [key|] eqn:D.
  - left. exists key. split; [apply denotes_stands, D|reflexivity].
  - right. split; [apply denotes_none, D|reflexivity].
Qed.
Lemma latest_app : forall ps rd k d, latest num (ps ++ [rd]) k d = match rd k with Some v => v | None => latest num ps k d end.
Proof. induction ps as [|p ps IH]; intros rd k d; cbn; [reflexivity|apply IH]. Qed.
Lemma G_sync : forall jk ps rd g, G jk ps g -> G jk (ps ++ [rd]) (fst (sync num rd g)).
Proof.
  intros jk ps rd g H k v E. rewrite sync_getter in E. destruct (getter g k) as [w|] eqn:K; [|discriminate]. cbn in E.
  injection E as <-. rewrite latest_app, <- (H k w K). reflexivity.
Qed.
Lemma G_input : forall jk ps g c k, G jk ps g -> okconv (ef k) g c -> refs num c <> None -> input g k = shownf jk ps k.
Proof.
  intros jk ps g c k H (E & O & R) N. destruct (refs num c) as [rs|]; [|congruence]. unfold input, shownf.
  assert (M : map (value g) (names num (ef k)) = map (val jk ps) (names num (ef k))); [|rewrite M; reflexivity].
  clear E O N. induction R as [|n r ns rs' R _ IH]; [reflexivity|]. cbn [map]. rewrite IH. f_equal. unfold value, val, refd in *.
  destruct (denotes n) as [key|]; [|reflexivity]. destruct R as [_ R]. destruct (getter g key) as [v|] eqn:K; [|congruence].
  apply H, K.
Qed.

(** ** Steps *)
Notation hread := (handle_read num nan junk dtype opens fstate ls fupd).
Notation V := (vars num fstate ls).
Notation F := (filt num fstate ls).
Notation M := (meas num fstate ls).
Notation fstep := (filter_step num fstate fupd).

Definition St (jk : Z -> num) (ps : list (Z -> option num)) (x : hl) : Prop := J1 x /\ tos x /\ G jk ps (V x).

Lemma reading_lgt : forall s, lgt s Shutdown = reading s.
Proof. intros []; reflexivity. Qed.

Lemma poll1 : forall jk ps s rd x, St jk ps x -> reading s = true ->
  St jk (ps ++ [rd]) (hread s rd x) /\ cmd num fstate ls (hread s rd x) = cmd num fstate ls x /\
  forall k, (F (hread s rd x) k, M (hread s rd x) k) = fstep (F x k) (shownf jk (ps ++ [rd]) k) (M x k).
Proof.
  intros jk ps s rd x ([Hg Hr] & T & HG) R. unfold handle_read. rewrite reading_lgt, R.
  change (mkHl num fstate ls (fst (sync num rd (V x))) (from num fstate ls x) (to num fstate ls x) (M x) (cmd num fstate ls x) (F x)
    (lims num fstate ls x) (limon num fstate ls x) (alloc num fstate ls x)) with (with_vars (fst (sync num rd (V x))) x).
  pose proof (sync_Jg rd x Hg) as H1. destruct (read3_spec _ H1) as (J & X & E & T3 & C3 & S3).
  set (y := rk KEff (rk KVel (rk KPos (with_vars (fst (sync num rd (V x))) x)))) in *.
  assert (SV : V y = fst (sync num rd (V x))) by (apply S3; split; [exact H1|exact Hr]).
  assert (GY : G jk (ps ++ [rd]) (V y)) by (rewrite SV; apply G_sync, HG).
  split; [split; [exact J|split; [|exact GY]]|].
  - intros k rs r. rewrite T3. apply T.
  - split; [rewrite C3; reflexivity|]. intros k. rewrite E. cbn [with_vars filt meas].
    rewrite (G_input jk (ps ++ [rd]) (V y) (from num fstate ls y k) k GY); [reflexivity|apply J|apply J].
Qed.

Lemma poll0 : forall s rd x, J0 x -> tos x -> reading s = true -> exists jk,
  St jk [] (hread s rd x) /\ cmd num fstate ls (hread s rd x) = cmd num fstate ls x /\
  forall k, (F (hread s rd x) k, M (hread s rd x) k) = fstep (F x k) (shownf jk [] k) (M x k).
Proof.
  intros s rd x H T R. unfold handle_read. rewrite reading_lgt, R.
  change (mkHl num fstate ls (fst (sync num rd (V x))) (from num fstate ls x) (to num fstate ls x) (M x) (cmd num fstate ls x) (F x)
    (lims num fstate ls x) (limon num fstate ls x) (alloc num fstate ls x)) with (with_vars (fst (sync num rd (V x))) x).
  pose proof (sync_Jg rd x (J0_Jg x H)) as H1. destruct (read3_spec _ H1) as (J & X & E & T3 & C3 & _).
  set (y := rk KEff (rk KVel (rk KPos (with_vars (fst (sync num rd (V x))) x)))) in *.
  exists (fun key => match getter (V y) key with Some v => v | None => nan end).
  assert (GY : G (fun key => match getter (V y) key with Some v => v | None => nan end) [] (V y)).
  { intros k v K. cbn. rewrite K. reflexivity. }
  split; [split; [exact J|split; [|exact GY]]|].
  - intros k rs r. rewrite T3. apply T.
  - split; [rewrite C3; reflexivity|]. intros k. rewrite E. cbn [with_vars filt meas].
    rewrite (G_input _ [] (V y) (from num fstate ls y k) k GY); [reflexivity|apply J|apply J].
Qed.

(** The conversions to the device do not use objects. *)
Lemma bind_cmd : forall cn ns g a o, exists rs o', bind num nan junk dtype opens (Some cn) ns g a o = (rs, g, a, o') /\
  forall r key, In r rs -> r <> RObj key.
Proof.
  intros cn. induction ns as [|n ns IH]; intros g a o; cbn.
  - exists [], o. split; [reflexivity|]. intros r key [].
  - destruct (ChainModel.text_eqb cn n).
    + destruct (IH g a o) as (rs & o' & -> & N). exists (RCmd :: rs), o'. split; [reflexivity|].
      intros r key [<-|I0]; [discriminate|apply N, I0].
    + destruct (IH g a (o ++ [nan])) as (rs & o' & -> & N). exists (ROwn (List.length o) :: rs), o'. split; [reflexivity|].
      intros r key [<-|I0]; [discriminate|apply N, I0].
Qed.
Lemma store_cmd : forall rs vs g c o, (forall r key, In r rs -> r <> RObj key) -> fst (fst (store num rs vs g c o)) = g.
Proof.
  induction rs as [|r rs IH]; intros [|v vs] g c o H; try reflexivity. cbn [store].
  destruct r as [key| |i]; [exfalso; apply (H (RObj key) key); [left; reflexivity|reflexivity]| |]; apply IH; intros r' key I0; apply H; right; exact I0.
Qed.
Lemma evaluate_cmd : forall cn c g a w, (forall rs r key, refs num c = Some rs -> In r rs -> r <> RObj key) ->
  exists v c' w', evaluate num nan junk dtype opens (Some cn) c g a w = (v, c', g, a, w') /\
    forall rs r key, refs num c' = Some rs -> In r rs -> r <> RObj key.
Proof.
  intros cn c g a w H. unfold evaluate. destruct (refs num c) as [rs|] eqn:R.
  - destruct (eval num (ex num c) (map (fetch num nan g w (own num c)) rs)) as [vs r].
    pose proof (store_cmd rs vs g w (own num c) (fun r key => H rs r key eq_refl)) as K.
    destruct (store num rs vs g w (own num c)) as [[g' w'] o']. cbn in K. subst g'.
    exists r, (mkConv num (ex num c) (Some rs) o'), w'. split; [reflexivity|]. cbn. intros rs' r' key E. injection E as <-.
    apply (H rs r' key eq_refl).
  - destruct (bind_cmd cn (names num (ex num c)) g a (own num c)) as (rs & o & -> & N).
    destruct (eval num (ex num c) (map (fetch num nan g w o) rs)) as [vs r].
    pose proof (store_cmd rs vs g w o N) as K.
    destruct (store num rs vs g w o) as [[g' w'] o']. cbn in K. subst g'.
    exists r, (mkConv num (ex num c) (Some rs) o'), w'. split; [reflexivity|]. cbn. intros rs' r' key E. injection E as <-.
    apply (N r' key).
Qed.

(** Filters and reset *)
Definition okf : bool := forallb (fun k => match fc k with Some None => false | _ => true end) [KPos; KVel; KEff].
Definition cfg (k : kind) : option fstate := match fc k with Some (Some f) => Some f | _ => None end.
Definition same (x y : hl) : Prop :=
  V y = V x /\ from num fstate ls y = from num fstate ls x /\ to num fstate ls y = to num fstate ls x /\ M y = M x /\ cmd num fstate ls y = cmd num fstate ls x.
Lemma prepare_filter_spec : forall k x, exists y b, prepare_filter num fstate ls fc k x = (y, b) /\ same x y /\
  b = (match fc k with Some None => false | _ => true end) /\ F y = upd (F x) k (cfg k).
Proof.
  intros k x. unfold prepare_filter, cfg. destruct (fc k) as [[f|]|]; (eexists; eexists; split; [reflexivity|]; repeat split).
Qed.
Lemma prepare_filters_spec : forall x, exists y, prepare_filters num fstate ls fc x = (y, okf) /\ same x y /\
  (okf = true -> forall k, F y k = cfg k) /\ (forall k, F x k = None -> fc k = None -> F y k = None).
Proof.
  intros x. unfold prepare_filters.
  destruct (prepare_filter_spec KPos x) as (x1 & b1 & -> & (A1 & A2 & A3 & A4 & A5) & B1 & F1).
  destruct (prepare_filter_spec KVel x1) as (x2 & b2 & E2 & (A6 & A7 & A8 & A9 & A10) & B2 & F2).
  destruct (prepare_filter_spec KEff x2) as (x3 & b3 & E3 & (A11 & A12 & A13 & A14 & A15) & B3 & F3).
  assert (OK : okf = b1 && (b2 && (b3 && true))) by (unfold okf; cbn [forallb]; rewrite B1, B2, B3; reflexivity).
  assert (N1 : forall k, F x k = None -> fc k = None -> F x1 k = None).
  { intros k E K. rewrite F1. destruct (kind_dec k KPos) as [->|N]; [rewrite upd_same; unfold cfg; rewrite K; reflexivity|rewrite upd_other; auto]. }
  assert (N2 : forall k, F x1 k = None -> fc k = None -> F x2 k = None).
  { intros k E K. rewrite F2. destruct (kind_dec k KVel) as [->|N]; [rewrite upd_same; unfold cfg; rewrite K; reflexivity|rewrite upd_other; auto]. }
  assert (N3 : forall k, F x2 k = None -> fc k = None -> F x3 k = None).
  { intros k E K. rewrite F3. destruct (kind_dec k KEff) as [->|N]; [rewrite upd_same; unfold cfg; rewrite K; reflexivity|rewrite upd_other; auto]. }
  destruct b1.
  - rewrite E2. destruct b2.
    + rewrite E3. exists x3. rewrite OK, andb_true_r. split; [reflexivity|]. split; [repeat split; congruence|]. split; [|auto].
      intros _ []; rewrite F3; [rewrite upd_other by discriminate; rewrite F2; rewrite upd_other by discriminate; rewrite F1| |];
        [apply upd_same|rewrite upd_other by discriminate; rewrite F2; apply upd_same|apply upd_same].
    + exists x2. rewrite OK. split; [reflexivity|]. split; [repeat split; congruence|]. split; [discriminate|auto].
  - exists x1. rewrite OK. split; [reflexivity|]. split; [repeat split; congruence|]. split; [discriminate|auto].
Qed.

Definition resetted (x : hl) : hl :=
  mkHl num fstate ls (V x) (fun k => conv_reset num nan (from num fstate ls x k)) (fun k => conv_reset num nan (to num fstate ls x k))
    (M x) (cmd num fstate ls x) (F x) (lims num fstate ls x) (limon num fstate ls x) (alloc num fstate ls x).
Lemma map_nan : forall (o : list num), Forall (eq nan) o -> map (fun _ => nan) o = o.
Proof. intros o H. induction H; cbn; congruence. Qed.
Lemma reset_ok : forall e g c, okconv e g c -> conv_reset num nan c = c.
Proof. intros e g [e' r o] (E & O & R). cbn in *. unfold conv_reset. cbn. rewrite map_nan by exact O. reflexivity. Qed.
Lemma reset_tos : forall x, tos x -> tos (resetted x).
Proof. intros x H k rs r. cbn. apply H. Qed.
Lemma same_J0 : forall x y, same x y -> J0 x -> J0 y.
Proof. intros x y (A & B & _) [C D]. split; [congruence|]. intros k. rewrite B. apply D. Qed.
Lemma same_tos : forall x y, same x y -> tos x -> tos y.
Proof. intros x y (_ & _ & A & _) H k rs r. rewrite A. apply H. Qed.
Lemma same_St : forall jk ps x y, same x y -> St jk ps x -> St jk ps y.
Proof.
  intros jk ps x y H ([[C D] E] & T & K). pose proof (same_tos x y H T) as T'. destruct H as (A & B & _).
  split; [|split; [exact T'|rewrite A; exact K]]. split; [split|]; rewrite ?A; rewrite ?B; auto.
Qed.
Lemma reset_J0 : forall x, J0 x -> J0 (resetted x).
Proof. intros x [A B]. split; [exact A|]. intros k. cbn. rewrite B. reflexivity. Qed.
Lemma reset_St : forall jk ps x, St jk ps x -> St jk ps (resetted x).
Proof.
  intros jk ps x ([[C D] E] & T & K). split; [|split; [apply reset_tos, T|exact K]]. split; [split|].
  - exact C.
  - intros k. cbn. rewrite (reset_ok _ _ _ (D k)). apply D.
  - intros k. cbn. apply E.
Qed.

(** Initialisation *)
Notation hinit := (handle_init num nan junk dtype opens fstate ls fupd fc).
Lemma init_failed : forall rd x, okf = false -> exists y, fst (hinit rd x) = y /\ same (resetted x) y /\
  forall k, F x k = None -> fc k = None -> F y k = None.
Proof.
  intros rd x E. unfold handle_init. fold (resetted x). destruct (prepare_filters_spec (resetted x)) as (y & -> & S0 & _ & N).
  rewrite E. exists y. split; [reflexivity|]. split; [exact S0|]. intros k. apply N.
Qed.
Lemma init_done : forall rd x, okf = true -> exists y, fst (hinit rd x) = hread Ready rd y /\ same (resetted x) y /\
  forall k, F y k = cfg k.
Proof.
  intros rd x E. unfold handle_init. fold (resetted x). destruct (prepare_filters_spec (resetted x)) as (y & -> & S0 & C & _).
  rewrite E. exists y. split; [reflexivity|]. split; [exact S0|]. exact (C E).
Qed.

(** Events that read nothing *)
Notation stp := (step num nan junk dtype opens fstate ls fupd enf lrst fc).
Definition quiet (e : event num ls) : Prop := polls num ls okf [e] = [] /\ is_init num ls e = false.
Lemma quiet_step : forall e x, quiet e -> tos x ->
  V (stp x e) = V x /\ from num fstate ls (stp x e) = from num fstate ls x /\ M (stp x e) = M x /\ F (stp x e) = F x /\ tos (stp x e).
Proof.
  intros e x [P I0] T. destruct e as [rd|sup hs soft l0|s rd|k v|b|p r|s a]; cbn [step].
  - discriminate.
  - repeat split; exact T.
  - cbn in P. unfold handle_read. rewrite reading_lgt. destruct (reading s); [discriminate|]. repeat split; exact T.
  - repeat split; exact T.
  - repeat split; exact T.
  - unfold enforce_limits. destruct (enforce_all _ _ _ _ _ _ _ _ _ _) as [l c]. repeat split; exact T.
  - unfold handle_write. destruct s; try (repeat split; exact T). destruct a as [k|]; [|repeat split; exact T].
    destruct (evaluate_cmd (cmd_name k) (to num fstate ls x k) (V x) (alloc num fstate ls x) (cmd num fstate ls x k)) as (v & c & w & -> & N).
    { intros rs r key E I1. apply (T k rs r E I1). }
    cbn [fst vars from meas filt]. repeat split. intros l rs r E I1 key. cbn [to] in E.
    destruct (kind_dec l k) as [->|D]; [rewrite upd_same in E; apply (N rs r key E I1)|rewrite upd_other in E by exact D; apply (T l rs r E I1)].
Qed.

(** ** Histories *)
Notation rn := (run num nan junk dtype opens fstate ls fupd enf lrst fc).
Notation pl := (polls num ls okf).
Lemma polls_app : forall a b, pl (a ++ b) = pl a ++ pl b.
Proof.
  induction a as [|e a IH]; intros b; [reflexivity|]. destruct e as [rd|sup hs soft l0|s rd|k v|q|p r|s q]; cbn -[okf]; rewrite ?IH; try reflexivity.
  - destruct okf; reflexivity.
  - destruct (reading s); reflexivity.
Qed.
Lemma run_app : forall a b x, rn (a ++ b) x = rn b (rn a x).
Proof. intros. unfold run. apply fold_left_app. Qed.
Lemma event_cases : forall e : event num ls, quiet e \/ (exists s rd, e = ERead num ls s rd /\ reading s = true) \/ (exists rd, e = EInit num ls rd).
Proof.
  intros e. destruct e as [rd|sup hs soft l0|s rd|k v|q|p r|s q]; try (left; split; reflexivity); [eauto|].
  destruct (reading s) eqn:R; [right; left; eauto|]. left. split; [cbn; rewrite R; reflexivity|reflexivity].
Qed.
Lemma quiet_St : forall e jk ps x, quiet e -> St jk ps x -> St jk ps (stp x e).
Proof.
  intros e jk ps x Q0 ([[C D] E] & T & K). destruct (quiet_step e x Q0 T) as (A & B & _ & _ & T').
  split; [|split; [exact T'|rewrite A; exact K]]. split; [split|]; rewrite ?A; rewrite ?B; auto.
Qed.
Lemma quiet_J0 : forall e x, quiet e -> tos x -> J0 x -> J0 (stp x e).
Proof.
  intros e x Q0 T [C D]. destruct (quiet_step e x Q0 T) as (A & B & _ & _ & T').
  split; [congruence|]. intros k. rewrite B. apply D.
Qed.

Definition fresh (x : hl) : Prop := J0 x /\ tos x /\ forall k, F x k = None.

Lemma history : forall l x0, fresh x0 -> let x := rn l x0 in
  tos x /\ (forall k, fc k = None -> F x k = None) /\
  match pl l with
  | [] => J0 x /\ M x = M x0
  | _ :: ps => exists jk, St jk ps x /\ forall k, fc k = None -> M x k = shownf jk ps k
  end.
Proof.
  intros l x0 H0. induction l as [|e l IH] using rev_ind.
  - cbn. destruct H0 as (A & B & C). auto.
  - cbn zeta in *. destruct IH as (T & N & IH). rewrite run_app, polls_app. set (x := rn l x0) in *. cbn [run fold_left].
    change (rn [e] x) with (stp x e).
    destruct (event_cases e) as [Q0|[(s & rd & -> & R)|(rd & ->)]].
    + destruct (quiet_step e x Q0 T) as (A & B & C & D & T'). destruct Q0 as [P Q0]. rewrite P, app_nil_r.
      split; [exact T'|]. split; [intros k K; rewrite D; auto|]. destruct (pl l) as [|p0 ps].
      * destruct IH as [I1 I2]. split; [apply quiet_J0; [split; assumption|assumption|assumption]|congruence].
      * destruct IH as (jk & I1 & I2). exists jk. split; [apply quiet_St; [split; assumption|assumption]|]. intros k K. rewrite C. auto.
    + cbn [polls step]. rewrite R. destruct (pl l) as [|p0 ps]; cbn [app].
      * destruct IH as [I1 I2]. destruct (poll0 s rd x I1 T R) as (jk & S0 & _ & E). split; [apply S0|].
        assert (FE : forall k, fc k = None -> F (hread s rd x) k = None /\ M (hread s rd x) k = shownf jk [] k).
        { intros k K. specialize (E k). rewrite (N k K) in E. cbn [filter_step] in E. injection E as E1 E2. auto. }
        split; [intros k K; apply FE, K|]. exists jk. split; [exact S0|]. intros k K. apply FE, K.
      * destruct IH as (jk & I1 & I2). destruct (poll1 jk ps s rd x I1 R) as (S0 & _ & E). split; [apply S0|].
        assert (FE : forall k, fc k = None -> F (hread s rd x) k = None /\ M (hread s rd x) k = shownf jk (ps ++ [rd]) k).
        { intros k K. specialize (E k). rewrite (N k K) in E. cbn [filter_step] in E. injection E as E1 E2. auto. }
        split; [intros k K; apply FE, K|]. exists jk. split; [exact S0|]. intros k K. apply FE, K.
    + cbn [step]. destruct (bool_dec okf true) as [OK|OK]; [|apply not_true_is_false in OK].
      * assert (PI : pl [EInit num ls rd] = [rd]) by (cbn [polls]; rewrite OK; reflexivity). rewrite PI. clear PI. destruct (init_done rd x OK) as (y & -> & S0 & C).
        assert (NY : forall k, fc k = None -> F y k = None) by (intros k K; rewrite C; unfold cfg; rewrite K; reflexivity).
        pose proof (same_tos _ _ S0 (reset_tos x T)) as TY.
        destruct (pl l) as [|p0 ps]; cbn [app].
        { destruct IH as [I1 I2]. destruct (poll0 Ready rd y (same_J0 _ _ S0 (reset_J0 x I1)) TY eq_refl) as (jk & S1 & _ & E). split; [apply S1|].
          assert (FE : forall k, fc k = None -> F (hread Ready rd y) k = None /\ M (hread Ready rd y) k = shownf jk [] k).
          { intros k K. specialize (E k). rewrite (NY k K) in E. cbn [filter_step] in E. injection E as E1 E2. auto. }
          split; [intros k K; apply FE, K|]. exists jk. split; [exact S1|]. intros k K. apply FE, K. }
        { destruct IH as (jk & I1 & I2). destruct (poll1 jk ps Ready rd y (same_St jk ps _ _ S0 (reset_St jk ps x I1)) eq_refl) as (S1 & _ & E). split; [apply S1|].
          assert (FE : forall k, fc k = None -> F (hread Ready rd y) k = None /\ M (hread Ready rd y) k = shownf jk (ps ++ [rd]) k).
          { intros k K. specialize (E k). rewrite (NY k K) in E. cbn [filter_step] in E. injection E as E1 E2. auto. }
          split; [intros k K; apply FE, K|]. exists jk. split; [exact S1|]. intros k K. apply FE, K. }
      * assert (PI : pl [EInit num ls rd] = []) by (cbn [polls]; rewrite OK; reflexivity). rewrite PI. clear PI.
        destruct (init_failed rd x OK) as (y & -> & S0 & C). rewrite app_nil_r.
        split; [apply (same_tos _ _ S0 (reset_tos x T))|]. split; [intros k K; apply C; auto|].
        destruct (pl l) as [|p0 ps].
        { destruct IH as [I1 I2]. split; [apply (same_J0 _ _ S0 (reset_J0 x I1))|]. destruct S0 as (_ & _ & _ & -> & _). exact I2. }
        { destruct IH as (jk & I1 & I2). exists jk. split; [apply (same_St jk ps _ _ S0 (reset_St jk ps x I1))|].
          destruct S0 as (_ & _ & _ & -> & _). exact I2. }
Qed.

(** Reads after an initialisation go through the filters one after the other. *)
Lemma later : forall l jk ps x k f, St jk ps x -> existsb (is_init num ls) l = false -> F x k = Some f ->
  exists vs, Forall2 (shown num nan dtype opens (ef k) jk) (grown num ps (pl l)) vs /\
    M (rn l x) k = filtered num fstate fupd f vs (M x k).
Proof.
  induction l as [|e l IH]; intros jk ps x k f S0 NI E.
  - exists []. split; [constructor|reflexivity].
  - cbn [existsb] in NI. apply orb_false_iff in NI. destruct NI as [N1 N2]. change (rn (e :: l) x) with (rn l (stp x e)).
    change (e :: l) with ([e] ++ l). rewrite polls_app.
    destruct (event_cases e) as [Q0|[(s & rd & -> & R)|(rd & ->)]]; [| |discriminate].
    + destruct (quiet_step e x Q0 (proj1 (proj2 S0))) as (A & B & C & D & T'). pose proof (quiet_St e jk ps x Q0 S0) as S1.
      destruct Q0 as [P Q0]. rewrite P. cbn [app].
      destruct (IH jk ps (stp x e) k f S1 N2) as (vs & V1 & V2); [congruence|]. exists vs. split; [exact V1|]. rewrite V2, C. reflexivity.
    + cbn [polls step]. rewrite R. cbn [app grown]. destruct (poll1 jk ps s rd x S0 R) as (S1 & _ & E1). specialize (E1 k). rewrite E in E1.
      cbn [filter_step] in E1. destruct (fupd f (shownf jk (ps ++ [rd]) k)) as [f' [r|]] eqn:U; injection E1 as E1 E2.
      * destruct (IH jk (ps ++ [rd]) (hread s rd x) k f' S1 N2 E1) as (vs & V1 & V2).
        exists (shownf jk (ps ++ [rd]) k :: vs). split; [constructor; [apply shownf_shown|exact V1]|].
        cbn [filtered]. rewrite U. cbn. rewrite V2, E2. reflexivity.
      * destruct (IH jk (ps ++ [rd]) (hread s rd x) k f' S1 N2 E1) as (vs & V1 & V2).
        exists (shownf jk (ps ++ [rd]) k :: vs). split; [constructor; [apply shownf_shown|exact V1]|].
        cbn [filtered]. rewrite U. cbn. rewrite V2, E2. reflexivity.
Qed.
Lemma grown_tl : forall qs p0 ps, map (@tl _) (grown num (p0 :: ps) qs) = grown num ps qs.
Proof. induction qs as [|q qs IH]; intros p0 ps; [reflexivity|]. cbn [grown map tl app]. rewrite IH. reflexivity. Qed.

Lemma filtered_history : forall l1 rd l2 x0, fresh x0 -> okf = true -> existsb (is_init num ls) l2 = false -> exists jk, forall k f,
  fc k = Some (Some f) -> exists vs,
    Forall2 (shown num nan dtype opens (ef k) jk) (map (@tl _) (grown num (pl l1) (rd :: pl l2))) vs /\
    M (rn (l1 ++ EInit num ls rd :: l2) x0) k = filtered num fstate fupd f vs (M (rn l1 x0) k).
Proof.
  intros l1 rd l2 x0 H0 OK NI. pose proof (history l1 x0 H0) as H. cbn zeta in H. destruct H as (T & N & H). rewrite run_app. set (x := rn l1 x0) in *.
  change (rn (EInit num ls rd :: l2) x) with (rn l2 (fst (hinit rd x))).
  destruct (init_done rd x OK) as (y & -> & S0 & C).
  pose proof (same_tos _ _ S0 (reset_tos x T)) as TY. assert (MY : M y = M x) by apply S0.
  destruct (pl l1) as [|p0 ps].
  - destruct H as [I1 I2]. destruct (poll0 Ready rd y (same_J0 _ _ S0 (reset_J0 x I1)) TY eq_refl) as (jk & S1 & _ & E).
    exists jk. intros k f K. specialize (E k). rewrite C in E. unfold cfg in E. rewrite K in E. cbn [filter_step] in E. cbn [grown app map tl].
    destruct (fupd f (shownf jk [] k)) as [f' o] eqn:U.
    assert (E1 : F (hread Ready rd y) k = Some f') by (destruct o; congruence).
    destruct (later l2 jk [] (hread Ready rd y) k f' S1 NI E1) as (vs & V1 & V2).
    exists (shownf jk [] k :: vs). split; [constructor; [apply shownf_shown|]|].
    + rewrite grown_tl. exact V1.
    + cbn [filtered]. rewrite U. cbn [fst snd]. rewrite V2. f_equal. destruct o; congruence.
  - destruct H as (jk & I1 & I2). destruct (poll1 jk ps Ready rd y (same_St jk ps _ _ S0 (reset_St jk ps x I1)) eq_refl) as (S1 & _ & E).
    exists jk. intros k f K. specialize (E k). rewrite C in E. unfold cfg in E. rewrite K in E. cbn [filter_step] in E. cbn [grown app map tl].
    destruct (fupd f (shownf jk (ps ++ [rd]) k)) as [f' o] eqn:U.
    assert (E1 : F (hread Ready rd y) k = Some f') by (destruct o; congruence).
    destruct (later l2 jk (ps ++ [rd]) (hread Ready rd y) k f' S1 NI E1) as (vs & V1 & V2).
    exists (shownf jk (ps ++ [rd]) k :: vs). split; [constructor; [apply shownf_shown|]|].
    + rewrite grown_tl. exact V1.
    + cbn [filtered]. rewrite U. cbn [fst snd]. rewrite V2. f_equal. destruct o; congruence.
Qed.
End Proofs.

(** * Limits *)
Section Limits.
Variable num ls : Type.
Variable enf : kind -> bool -> Z -> (kind -> num) -> num -> ls -> ls * num.
Variable lrst : ls -> ls.
Lemma enforce_off : forall r p m l c k, snd (enforce_all num ls enf lrst false r p m l c) k = c k.
Proof.
  intros r p m. induction l as [|[[j s] st] l IH]; intros c k; [reflexivity|]. cbn [enforce_all].
  specialize (IH (upd c j (c j)) k). destruct (enforce_all num ls enf lrst false r p m l (upd c j (c j))). cbn [snd] in *. rewrite IH.
  destruct (kind_dec k j) as [->|N]; [apply upd_same|apply upd_other, N].
Qed.
Lemma enforce_none : forall on r p m l c k, ~ In k (map (fun t => fst (fst t)) l) -> snd (enforce_all num ls enf lrst on r p m l c) k = c k.
Proof.
  intros on r p m. induction l as [|[[j s] st] l IH]; intros c k N; [reflexivity|]. cbn [map fst In] in N. cbn [enforce_all].
  destruct (if on then enf j s p m (c j) (if r then lrst st else st) else (if r then lrst st else st, c j)) as [st' v].
  specialize (IH (upd c j v) k ltac:(tauto)). destruct (enforce_all num ls enf lrst on r p m l (upd c j v)). cbn [snd] in *. rewrite IH.
  apply upd_other. intros ->. tauto.
Qed.
Lemma enforce_in : forall (R : num -> Prop) k, (forall s p m c st, R (snd (enf k s p m c st))) ->
  forall r p m l c, In k (map (fun t => fst (fst t)) l) -> R (snd (enforce_all num ls enf lrst true r p m l c) k).
Proof.
  intros R k H r p m. induction l as [|[[j s] st] l IH]; intros c N; [destruct N|]. cbn [map fst In] in N. cbn [enforce_all].
  destruct (in_dec kind_dec k (map (fun t => fst (fst t)) l)) as [I0|I0].
  - destruct (enf j s p m (c j) (if r then lrst st else st)) as [st' v].
    specialize (IH (upd c j v) I0). destruct (enforce_all num ls enf lrst true r p m l (upd c j v)). exact IH.
  - destruct N as [->|N]; [|tauto].
    pose proof (H s p m (c k) (if r then lrst st else st)) as HR. destruct (enf k s p m (c k) (if r then lrst st else st)) as [st' v]. cbn in HR.
    pose proof (enforce_none true r p m l (upd c k v) k I0) as E. destruct (enforce_all num ls enf lrst true r p m l (upd c k v)). cbn [snd] in *.
    rewrite E, upd_same. exact HR.
Qed.
End Limits.

(** * Commands *)
Section Commands.
Variable num : Type.
Variable nan : num.
Variable junk : nat -> num.
Variable dtype : Z -> option Z.
Variable opens : Z -> bool.
Variable fstate ls : Type.
Variable fupd : fstate -> num -> fstate * option num.
Variable enf : kind -> bool -> Z -> (kind -> num) -> num -> ls -> ls * num.
Variable lrst : ls -> ls.
Variable et : kind -> expr num.
Variable fc : kind -> option (option fstate).
Hypothesis pures : forall k, pure num (et k).

Notation hl := (hl num fstate ls).
Notation hread := (handle_read num nan junk dtype opens fstate ls fupd).
Notation hinit := (handle_init num nan junk dtype opens fstate ls fupd fc).
Notation stp := (step num nan junk dtype opens fstate ls fupd enf lrst fc).
Notation rn := (run num nan junk dtype opens fstate ls fupd enf lrst fc).
Notation To := (to num fstate ls).
Notation L := (lims num fstate ls).
Notation On := (limon num fstate ls).
Notation C := (cmd num fstate ls).
Notation M := (meas num fstate ls).

Definition refc (k : kind) (n : text) (r : ref) : Prop :=
  if ChainModel.text_eqb (cmd_name k) n then r = RCmd else exists i, r = ROwn i.
Definition okto (k : kind) (c : conv num) : Prop :=
  ex num c = et k /\ Forall (eq nan) (own num c) /\
  match refs num c with None => own num c = [] | Some rs => Forall2 (refc k) (names num (et k)) rs end.
Definition cval (k : kind) (w : num) (n : text) : num := if ChainModel.text_eqb (cmd_name k) n then w else nan.

Lemma bind_to : forall k ns g a o, Forall (eq nan) o -> exists rs o', bind num nan junk dtype opens (Some (cmd_name k)) ns g a o = (rs, g, a, o') /\
  Forall (eq nan) o' /\ Forall2 (refc k) ns rs.
Proof.
  intros k. induction ns as [|n ns IH]; intros g a o O; cbn.
  - exists [], o. split; [reflexivity|]. split; [exact O|constructor].
  - destruct (ChainModel.text_eqb (cmd_name k) n) eqn:E.
    + destruct (IH g a o O) as (rs & o' & -> & O' & H). exists (RCmd :: rs), o'. split; [reflexivity|]. split; [exact O'|].
      constructor; [|exact H]. unfold refc. rewrite E. reflexivity.
    + destruct (IH g a (o ++ [nan])) as (rs & o' & -> & O' & H); [apply Forall_app; auto|].
      exists (ROwn (List.length o) :: rs), o'. split; [reflexivity|]. split; [exact O'|].
      constructor; [|exact H]. unfold refc. rewrite E. eauto.
Qed.
Lemma fetch_to : forall k g w o ns rs, Forall (eq nan) o -> Forall2 (refc k) ns rs -> map (fetch num nan g w o) rs = map (cval k w) ns.
Proof.
  intros k g w o ns rs O H. induction H as [|n r ns rs R _ IH]; [reflexivity|]. cbn [map]. rewrite IH. f_equal.
  unfold refc, cval in *. destruct (ChainModel.text_eqb (cmd_name k) n).
  - subst. reflexivity.
  - destruct R as [i ->]. apply nth_nan, O.
Qed.
Lemma store_to : forall k g w o, Forall (eq nan) o -> forall ns rs, Forall2 (refc k) ns rs ->
  store num rs (map (fetch num nan g w o) rs) g w o = (g, w, o).
Proof.
  intros k g w o O ns rs H. induction H as [|n r ns rs R _ IH]; [reflexivity|]. cbn [map store].
  unfold refc in R. destruct (ChainModel.text_eqb (cmd_name k) n).
  - subst. exact IH.
  - destruct R as [i ->]. cbn [fetch]. rewrite (nth_nan _ _ o i O), (put_nth_same _ _ o i O). exact IH.
Qed.
Lemma evaluate_to : forall k c g a w, okto k c -> exists c',
  evaluate num nan junk dtype opens (Some (cmd_name k)) c g a w = (snd (eval num (et k) (map (cval k w) (names num (et k)))), c', g, a, w) /\ okto k c'.
Proof.
  intros k c g a w (E & O & R). unfold evaluate. destruct (refs num c) as [rs|].
  - rewrite E. pose proof (pures k (map (fetch num nan g w (own num c)) rs)) as P1.
    destruct (eval num (et k) (map (fetch num nan g w (own num c)) rs)) as [vs r] eqn:V. cbn in P1. subst vs.
    rewrite (store_to k g w (own num c) O _ _ R).
    exists (mkConv num (et k) (Some rs) (own num c)). rewrite <- (fetch_to k g w (own num c) _ _ O R), V. split; [reflexivity|].
    split; [reflexivity|]. split; assumption.
  - rewrite E. destruct (bind_to k (names num (et k)) g a (own num c) O) as (rs & o & -> & O' & H).
    pose proof (pures k (map (fetch num nan g w o) rs)) as P1.
    destruct (eval num (et k) (map (fetch num nan g w o) rs)) as [vs r] eqn:V. cbn in P1. subst vs.
    rewrite (store_to k g w o O' _ _ H).
    exists (mkConv num (et k) (Some rs) o). rewrite <- (fetch_to k g w o _ _ O' H), V. split; [reflexivity|].
    split; [reflexivity|]. split; assumption.
Qed.

Lemma text_eqb_true : forall a b, ChainModel.text_eqb a b = true <-> a = b.
Proof.
  induction a as [|x a IH]; intros [|y b]; cbn; try (split; [discriminate|congruence]); [split; reflexivity|].
  rewrite andb_true_iff, Z.eqb_eq, IH. split; [intros []; congruence|intros H; injection H; auto].
Qed.
Lemma target_cval : forall k w, target num nan k (et k) w (snd (eval num (et k) (map (cval k w) (names num (et k))))).
Proof.
  intros k w. exists (map (cval k w) (names num (et k))). split; [|reflexivity].
  induction (names num (et k)) as [|n ns IH]; [constructor|]. cbn [map]. constructor; [|exact IH].
  unfold cval. change (command_variable k) with (cmd_name k).
  destruct (ChainModel.text_eqb (cmd_name k) n) eqn:E.
  - apply text_eqb_true in E. split; intros H; [reflexivity|congruence].
  - split; intros H; [|reflexivity]. subst n. rewrite (proj2 (text_eqb_true _ _) eq_refl) in E. discriminate.
Qed.

(** Reads do not touch commands. *)
Definition keeps (x y : hl) : Prop := To y = To x /\ C y = C x /\ L y = L x /\ On y = On x.
Lemma keeps_trans : forall x y z, keeps x y -> keeps y z -> keeps x z.
Proof. intros x y z (A & B & D & E) (A' & B' & D' & E'). repeat split; congruence. Qed.
Lemma read_kind_keeps : forall k x, keeps x (read_kind num nan junk dtype opens fstate ls fupd k x).
Proof.
  intros k x. unfold read_kind. destruct (evaluate num nan junk dtype opens None (from num fstate ls x k) (vars num fstate ls x) (alloc num fstate ls x) nan) as [[[[v c] g] a] w].
  destruct (filter_step num fstate fupd (filt num fstate ls x k) v (meas num fstate ls x k)). repeat split.
Qed.
Lemma read_keeps : forall s rd x, keeps x (hread s rd x).
Proof.
  intros s rd x. unfold handle_read. destruct (lgt s Shutdown); [|repeat split].
  eapply keeps_trans; [|eapply keeps_trans; [|eapply keeps_trans; [|apply read_kind_keeps]]]; [|apply read_kind_keeps|apply read_kind_keeps].
  repeat split.
Qed.
Lemma prepare_keeps : forall k x, keeps x (fst (prepare_filter num fstate ls fc k x)).
Proof. intros k x. unfold prepare_filter. destruct (fc k) as [[f|]|]; repeat split. Qed.
Lemma prepares_keep : forall x, keeps x (fst (prepare_filters num fstate ls fc x)).
Proof.
  intros x. unfold prepare_filters.
  pose proof (prepare_keeps KPos x) as H1. destruct (prepare_filter num fstate ls fc KPos x) as [x1 []]; [|exact H1]. cbn [fst] in H1.
  pose proof (prepare_keeps KVel x1) as H2. destruct (prepare_filter num fstate ls fc KVel x1) as [x2 []]; cbn [fst] in H2; [|eapply keeps_trans; eassumption].
  eapply keeps_trans; [exact H1|]. eapply keeps_trans; [exact H2|]. apply prepare_keeps.
Qed.
Lemma init_keeps : forall rd x, To (fst (hinit rd x)) = (fun k => conv_reset num nan (To x k)) /\ C (fst (hinit rd x)) = C x /\
  L (fst (hinit rd x)) = L x /\ On (fst (hinit rd x)) = On x.
Proof.
  intros rd x. unfold handle_init. fold (resetted num nan fstate ls x).
  pose proof (prepares_keep (resetted num nan fstate ls x)) as H.
  destruct (prepare_filters num fstate ls fc (resetted num nan fstate ls x)) as [y []]; cbn [fst] in *.
  - exact (keeps_trans _ _ _ H (read_keeps Ready rd y)).
  - exact H.
Qed.

Definition okx (x : hl) : Prop := forall k, okto k (To x k).
Lemma reset_to : forall k c, okto k c -> okto k (conv_reset num nan c).
Proof.
  intros k [e r o] (E & O & R). unfold conv_reset, okto in *. cbn in *. rewrite (map_nan _ _ o O). auto.
Qed.

Lemma write_spec : forall s a x, okx x -> match s, a with
  | Ready, Some k => exists v, snd (handle_write num nan junk dtype opens fstate ls s a x) = Some v /\ target num nan k (et k) (C x k) v /\
      C (fst (handle_write num nan junk dtype opens fstate ls s a x)) = upd (M x) k (C x k)
  | Ready, None => handle_write num nan junk dtype opens fstate ls s a x = (with_cmd num fstate ls (M x) x, None)
  | _, _ => handle_write num nan junk dtype opens fstate ls s a x = (x, None)
  end /\ okx (fst (handle_write num nan junk dtype opens fstate ls s a x)) /\
  L (fst (handle_write num nan junk dtype opens fstate ls s a x)) = L x /\ On (fst (handle_write num nan junk dtype opens fstate ls s a x)) = On x /\
  M (fst (handle_write num nan junk dtype opens fstate ls s a x)) = M x.
Proof.
  intros s a x H. unfold handle_write. destruct s; try (split; [destruct a; reflexivity|]; repeat split; apply H).
  destruct a as [k|]; [|split; [reflexivity|]; repeat split; apply H].
  destruct (evaluate_to k (To x k) (vars num fstate ls x) (alloc num fstate ls x) (C x k) (H k)) as (c & -> & K). cbn [fst snd cmd].
  split; [|split; [|repeat split]].
  - eexists. split; [reflexivity|]. split; [apply target_cval|reflexivity].
  - intros l. cbn [to]. destruct (kind_dec l k) as [->|N]; [rewrite upd_same; exact K|rewrite upd_other by exact N; apply H].
Qed.

Lemma step_okx : forall e x, okx x -> okx (stp x e).
Proof.
  intros e x H. destruct e as [rd|sup hs soft l0|s rd|k v|b|p r|s a]; cbn [step].
  - intros k. destruct (init_keeps rd x) as (-> & _). apply reset_to, H.
  - exact H.
  - intros k. destruct (read_keeps s rd x) as (-> & _). apply H.
  - exact H.
  - exact H.
  - unfold enforce_limits. destruct (enforce_all _ _ _ _ _ _ _ _ _ _) as [l c]. exact H.
  - apply (write_spec s a x H).
Qed.
Lemma run_okx : forall l x, okx x -> okx (rn l x).
Proof. induction l as [|e l IH]; intros x H; [exact H|]. cbn. apply IH, step_okx, H. Qed.

(** ** Limits *)
Definition kinds (x : hl) : list kind := map (fun t => fst (fst t)) (L x).
Lemma enforce_kinds : forall on r p m l c, map (fun t => fst (fst t)) (fst (enforce_all num ls enf lrst on r p m l c)) = map (fun t => fst (fst t)) l.
Proof.
  intros on r p m. induction l as [|[[k s] st] l IH]; intros c; [reflexivity|]. cbn [enforce_all].
  destruct on.
  - destruct (enf k s p m (c k) (if r then lrst st else st)) as [st' v]. specialize (IH (upd c k v)).
    destruct (enforce_all num ls enf lrst true r p m l (upd c k v)). cbn in *. congruence.
  - specialize (IH (upd c k (c k))). destruct (enforce_all num ls enf lrst false r p m l (upd c k (c k))). cbn in *. congruence.
Qed.
Lemma step_kinds : forall e x k, In k (kinds (stp x e)) <-> In k (kinds x) \/ limited num ls k [e].
Proof.
  intros e x k. assert (NL : (forall sup hs soft l0, e <> ERegister num ls sup hs soft l0) -> limited num ls k [e] -> False).
  { intros N (sup & hs & soft & l0 & [I0|[]] & _). apply (N sup hs soft l0). auto. }
  unfold kinds. destruct e as [rd|sup hs soft l0|s rd|j v|b|p r|s a]; cbn [step].
  - destruct (init_keeps rd x) as (_ & _ & -> & _). split; [auto|]. intros [H|H]; [exact H|exfalso; apply NL in H; [exact H|discriminate]].
  - cbn [register_limits with_lims lims]. rewrite map_app, in_app_iff. split.
    + intros [H|H]; [auto|]. right. apply in_map_iff in H. destruct H as ([[k' s] st] & <- & H). cbn [fst]. apply in_flat_map in H.
      destruct H as (k2 & _ & H). destruct (sup k2) eqn:S1; [|destruct H]. destruct (hs k2) eqn:S2; [|destruct H]. cbn [andb] in H.
      assert (k' = k2). { destruct H as [H|H]; [congruence|]. destruct soft; [destruct H as [H|[]]; congruence|destruct H]. }
      subst. exists sup, hs, soft, l0. split; [left; reflexivity|auto].
    + intros [H|(sup' & hs' & soft' & l0' & [E|[]] & S1 & S2)]; [auto|]. injection E as -> -> -> ->. right.
      apply in_map_iff. exists (k, false, l0' k false). split; [reflexivity|]. apply in_flat_map. exists k. rewrite S1, S2. split; [destruct k; cbn; auto|left; reflexivity].
  - destruct (read_keeps s rd x) as (_ & _ & -> & _). split; [auto|]. intros [H|H]; [exact H|exfalso; apply NL in H; [exact H|discriminate]].
  - split; [auto|]. intros [H|H]; [exact H|exfalso; apply NL in H; [exact H|discriminate]].
  - split; [auto|]. intros [H|H]; [exact H|exfalso; apply NL in H; [exact H|discriminate]].
  - unfold enforce_limits. pose proof (enforce_kinds (On x) r p (M x) (L x) (C x)) as EK.
    destruct (enforce_all num ls enf lrst (On x) r p (M x) (L x) (C x)) as [l c]. cbn [fst with_cmd with_lims lims] in *. rewrite EK.
    split; [auto|]. intros [H|H]; [exact H|exfalso; apply NL in H; [exact H|discriminate]].
  - assert (LE : L (fst (handle_write num nan junk dtype opens fstate ls s a x)) = L x).
    { unfold handle_write. destruct s; try reflexivity. destruct a as [j|]; [|reflexivity].
      destruct (evaluate num nan junk dtype opens (Some (cmd_name j)) (To x j) (vars num fstate ls x) (alloc num fstate ls x) (C x j)) as [[[[v c] g] b] w].
      reflexivity. }
    rewrite LE. split; [auto|]. intros [H|H]; [exact H|exfalso; apply NL in H; [exact H|discriminate]].
Qed.
Lemma limited_cons : forall k e l, limited num ls k (e :: l) <-> limited num ls k [e] \/ limited num ls k l.
Proof.
  intros k e l. split.
  - intros (a & b & c & d & [H|H] & K); [left|right]; exists a, b, c, d; (split; [|exact K]); [left; exact H|exact H].
  - intros [(a & b & c & d & [H|[]] & K)|(a & b & c & d & H & K)]; exists a, b, c, d; (split; [|exact K]); [left; exact H|right; exact H].
Qed.
Lemma run_kinds : forall l x k, In k (kinds (rn l x)) <-> In k (kinds x) \/ limited num ls k l.
Proof.
  induction l as [|e l IH]; intros x k.
  - split; [auto|]. intros [H|(a & b & c & d & [] & _)]. exact H.
  - change (rn (e :: l) x) with (rn l (stp x e)). rewrite IH, step_kinds, (limited_cons k e l). tauto.
Qed.
Lemma step_on : forall e x, On (stp x e) = limits_on num ls (On x) [e].
Proof.
  intros e x. destruct e as [rd|sup hs soft l0|s rd|j v|b|p r|s a]; cbn [step limits_on]; try reflexivity.
  - apply init_keeps.
  - apply read_keeps.
  - unfold enforce_limits. destruct (enforce_all _ _ _ _ _ _ _ _ _ _) as [l c]. reflexivity.
  - unfold handle_write. destruct s; try reflexivity. destruct a as [j|]; [|reflexivity].
    destruct (evaluate num nan junk dtype opens (Some (cmd_name j)) (To x j) (vars num fstate ls x) (alloc num fstate ls x) (C x j)) as [[[[v c] g] b] w].
    reflexivity.
Qed.
Lemma run_on : forall l x, On (rn l x) = limits_on num ls (On x) l.
Proof.
  induction l as [|e l IH]; intros x; [reflexivity|]. change (rn (e :: l) x) with (rn l (stp x e)). rewrite IH, step_on.
  destruct e; reflexivity.
Qed.

Lemma enforce_cmd : forall p r x, C (enforce_limits num fstate ls enf lrst p r x) = snd (enforce_all num ls enf lrst (On x) r p (M x) (L x) (C x)).
Proof. intros p r x. unfold enforce_limits. destruct (enforce_all _ _ _ _ _ _ _ _ _ _). reflexivity. Qed.
End Commands.

(** * Initialisation forgets *)
Section Forget.
Variable num : Type.
Variable nan : num.
Variable junk : nat -> num.
Variable dtype : Z -> option Z.
Variable opens : Z -> bool.
Variable fstate ls : Type.
Variable fupd : fstate -> num -> fstate * option num.
Variable fc : kind -> option (option fstate).
Notation hl := (hl num fstate ls).
Notation rk := (read_kind num nan junk dtype opens fstate ls fupd).

Definition eqv (x y : hl) : Prop :=
  vars num fstate ls x = vars num fstate ls y /\ alloc num fstate ls x = alloc num fstate ls y /\
  (forall k, from num fstate ls x k = from num fstate ls y k) /\ (forall k, filt num fstate ls x k = filt num fstate ls y k).
Lemma read_eqv : (forall f v, snd (fupd f v) <> None) -> forall k x y, eqv x y ->
  eqv (rk k x) (rk k y) /\ meas num fstate ls (rk k x) k = meas num fstate ls (rk k y) k /\
  forall l, l <> k -> meas num fstate ls (rk k x) l = meas num fstate ls x l /\ meas num fstate ls (rk k y) l = meas num fstate ls y l.
Proof.
  intros NF k x y (A & B & D & E). unfold read_kind. rewrite <- A, <- B, <- (D k), <- (E k).
  destruct (evaluate num nan junk dtype opens None (from num fstate ls x k) (vars num fstate ls x) (alloc num fstate ls x) nan) as [[[[v c] g] a] w].
  assert (FS : exists f m, filter_step num fstate fupd (filt num fstate ls x k) v (meas num fstate ls x k) = (f, m) /\
                           filter_step num fstate fupd (filt num fstate ls x k) v (meas num fstate ls y k) = (f, m)).
  { unfold filter_step. destruct (filt num fstate ls x k) as [f|]; [|eauto]. pose proof (NF f v) as N. destruct (fupd f v) as [f' [r|]]; [eauto|cbn in N; congruence]. }
  destruct FS as (f & m & -> & ->). cbn [meas]. split; [|split].
  - split; [reflexivity|]. split; [reflexivity|]. cbn [from filt]. split; intros l; (destruct (kind_dec l k) as [->|N]; [rewrite !upd_same; reflexivity|rewrite !upd_other by exact N; auto]).
  - rewrite !upd_same. reflexivity.
  - intros l N. rewrite !upd_other by exact N. auto.
Qed.
Lemma read3_eqv : (forall f v, snd (fupd f v) <> None) -> forall x y, eqv x y -> forall k,
  meas num fstate ls (rk KEff (rk KVel (rk KPos x))) k = meas num fstate ls (rk KEff (rk KVel (rk KPos y))) k.
Proof.
  intros NF x y H k. destruct (read_eqv NF KPos x y H) as (H1 & M1 & O1).
  destruct (read_eqv NF KVel _ _ H1) as (H2 & M2 & O2). destruct (read_eqv NF KEff _ _ H2) as (H3 & M3 & O3).
  destruct k; [| |exact M3].
  - destruct (O3 KPos ltac:(discriminate)) as [-> ->]. destruct (O2 KPos ltac:(discriminate)) as [-> ->]. exact M1.
  - destruct (O3 KVel ltac:(discriminate)) as [-> ->]. exact M2.
Qed.
Lemma map_const : forall A (a b : list A) (c : num), List.length a = List.length b -> map (fun _ => c) a = map (fun _ => c) b.
Proof. induction a; intros [|y b] c H; try discriminate; [reflexivity|]. cbn in *. f_equal. apply IHa. congruence. Qed.
Lemma prepare_alloc : forall k x, alloc num fstate ls (fst (prepare_filter num fstate ls fc k x)) = alloc num fstate ls x.
Proof. intros k x. unfold prepare_filter. destruct (fc k) as [[f|]|]; reflexivity. Qed.
Lemma prepares_alloc : forall x, alloc num fstate ls (fst (prepare_filters num fstate ls fc x)) = alloc num fstate ls x.
Proof.
  intros x. unfold prepare_filters.
  pose proof (prepare_alloc KPos x) as H1. destruct (prepare_filter num fstate ls fc KPos x) as [x1 []]; [|exact H1]. cbn [fst] in H1.
  pose proof (prepare_alloc KVel x1) as H2. destruct (prepare_filter num fstate ls fc KVel x1) as [x2 []]; cbn [fst] in *; [|rewrite H2; exact H1].
  rewrite prepare_alloc. congruence.
Qed.
Lemma init_alike : (forall f v, snd (fupd f v) <> None) -> configurable fstate fc -> forall rd x y, alike x y -> forall k,
  meas num fstate ls (fst (handle_init num nan junk dtype opens fstate ls fupd fc rd x)) k =
  meas num fstate ls (fst (handle_init num nan junk dtype opens fstate ls fupd fc rd y)) k.
Proof.
  intros NF CF rd x y (A & B & D) k. unfold handle_init. fold (resetted num nan fstate ls x). fold (resetted num nan fstate ls y).
  assert (OK : okf fstate fc = true).
  { unfold okf. apply forallb_forall. intros j _. specialize (CF j). destruct (fc j) as [[f|]|]; congruence. }
  destruct (prepare_filters_spec num fstate ls fc (resetted num nan fstate ls x)) as (x1 & E1 & (S1 & S2 & _) & C1 & _).
  destruct (prepare_filters_spec num fstate ls fc (resetted num nan fstate ls y)) as (y1 & E2 & (S3 & S4 & _) & C2 & _).
  pose proof (prepares_alloc (resetted num nan fstate ls x)) as L1. pose proof (prepares_alloc (resetted num nan fstate ls y)) as L2.
  rewrite E1 in *. rewrite E2 in *. rewrite OK in *. cbn [fst] in *. unfold handle_read. cbn [lgt].
  change (lgt Ready Shutdown) with true. cbv iota.
  apply (read3_eqv NF). split; [|split; [|split]]; cbn [vars alloc from filt].
  - rewrite S1, S3. cbn [resetted vars]. rewrite A. reflexivity.
  - rewrite L1, L2. cbn [resetted alloc]. exact B.
  - intros j. rewrite S2, S4. cbn [resetted from]. destruct (D j) as (D1 & D2 & D3). unfold conv_reset. rewrite D1, D2.
    rewrite (map_const _ _ _ nan D3). reflexivity.
  - intros j. rewrite (C1 eq_refl), (C2 eq_refl). reflexivity.
Qed.
End Forget.

(** * Default conversions *)
Local Open Scope Q_scope.
Lemma rint_int : forall q d, q == inject_Z d -> rint q = d.
Proof.
  intros q d H. unfold rint. assert (F0 : Qfloor q = d) by (rewrite (Qfloor_comp q (inject_Z d) H); apply Qfloor_Z).
  rewrite F0. replace (q - inject_Z d ?= 1 # 2) with Lt; [reflexivity|]. symmetry. apply Qlt_alt. rewrite H. setoid_replace (inject_Z d - inject_Z d) with 0 by ring. reflexivity.
Qed.
Lemma rint_near : forall q, Qabs (inject_Z (rint q) - q) <= 1 # 2.
Proof.
  intros q. pose proof (Qfloor_le q) as A. pose proof (Qlt_floor q) as B. unfold rint. set (f := Qfloor q) in *. clearbody f.
  rewrite inject_Z_plus in B. change (inject_Z 1) with 1 in B.
  apply Qabs_Qle_condition. destruct (Qcompare (q - inject_Z f) (1 # 2)) eqn:E.
  - apply Qeq_alt in E. destruct (Z.even f); [|rewrite inject_Z_plus; change (inject_Z 1) with 1]; split.
    + setoid_replace (inject_Z f - q) with (- (q - inject_Z f)) by ring. rewrite E. apply Qle_refl.
    + setoid_replace (inject_Z f - q) with (- (q - inject_Z f)) by ring. rewrite E. discriminate.
    + setoid_replace (inject_Z f + 1 - q) with (1 - (q - inject_Z f)) by ring. rewrite E. discriminate.
    + setoid_replace (inject_Z f + 1 - q) with (1 - (q - inject_Z f)) by ring. rewrite E. apply Qle_refl.
  - apply Qlt_alt in E. split.
    + apply Qle_minus_iff. apply Qlt_le_weak in E. apply Qle_minus_iff in E. setoid_replace (inject_Z f - q + - - (1 # 2)) with ((1 # 2) + - (q - inject_Z f)) by ring. exact E.
    + apply Qle_trans with 0; [|discriminate]. apply Qle_minus_iff in A. apply Qle_minus_iff. setoid_replace (0 + - (inject_Z f - q)) with (q + - inject_Z f) by ring. exact A.
  - apply Qgt_alt in E. rewrite inject_Z_plus. change (inject_Z 1) with 1. split.
    + apply Qle_trans with 0; [discriminate|]. apply Qlt_le_weak in B. apply Qle_minus_iff in B. setoid_replace (inject_Z f + 1 - q) with (inject_Z f + 1 + - q) by ring. exact B.
    + apply Qle_minus_iff. apply Qlt_le_weak in E. apply Qle_minus_iff in E. setoid_replace ((1 # 2) + - (inject_Z f + 1 - q)) with (q - inject_Z f + - (1 # 2)) by ring. exact E.
Qed.
Lemma default_there : forall pi d, ~ pi == 0 -> default_to pi (default_from pi d) = Some d.
Proof.
  intros pi d N. unfold default_to, default_from, UnitModel.rad2deg, UnitModel.deg2rad. cbn.
  destruct (Qeq_bool pi 0) eqn:E; [apply Qeq_bool_iff in E; contradiction|]. cbn. f_equal. apply rint_int. field. exact N.
Qed.
Lemma default_back : forall pi p, 0 < pi -> exists d q, default_to pi (Some p) = Some d /\ default_from pi d = Some q /\ Qabs (q - p) <= pi / (360000 # 1).
Proof.
  intros pi p P. assert (N : ~ pi == 0) by (intros E; rewrite E in P; discriminate).
  set (y := p * inject_Z 180 / pi * inject_Z 1000). exists (rint y), (inject_Z (rint y) * pi / inject_Z 180 / inject_Z 1000).
  split; [|split; [reflexivity|]].
  { unfold default_to, UnitModel.rad2deg. cbn. destruct (Qeq_bool pi 0) eqn:E; [apply Qeq_bool_iff in E; contradiction|]. reflexivity. }
  pose proof (rint_near y) as R.
  assert (EQ : inject_Z (rint y) * pi / inject_Z 180 / inject_Z 1000 - p == (pi / (180000 # 1)) * (inject_Z (rint y) - y)).
  { set (r := inject_Z (rint y)). clearbody r. unfold y. field. exact N. }
  rewrite EQ.
  rewrite Qabs_Qmult. rewrite (Qabs_pos (pi / (180000 # 1))).
  2:{ apply Qlt_le_weak. apply Qlt_shift_div_l; [reflexivity|]. rewrite Qmult_0_l. exact P. }
  setoid_replace (pi / (360000 # 1)) with ((pi / (180000 # 1)) * (1 # 2)) by field.
  apply Qmult_le_compat_nonneg; [|split; [apply Qabs_nonneg|exact R]].
  split; [|apply Qle_refl]. apply Qlt_le_weak. apply Qlt_shift_div_l; [reflexivity|]. rewrite Qmult_0_l. exact P.
Qed.
