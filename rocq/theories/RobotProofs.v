From Coq Require Import ZArith List Bool Lia Permutation.
From Verif Require Import Base HandleModel HandleSpec HandleProofs RobotModel RobotSpec.
Import ListNotations.
Local Open Scope Z_scope.

(** * Admission *)
Lemma find_split {A} (l : list (Z * A)) j e : List.find (fun e => fst e =? j) l = Some e <->
  exists a b, l = a ++ e :: b /\ fst e = j /\ ~ In j (map fst a).
Proof.
  induction l as [|[i v] l IH]; cbn [List.find fst].
  - split; [discriminate|]. intros (a & b & E & _). destruct a; discriminate.
  - destruct (i =? j) eqn:E.
    + split.
      * intros [= <-]. exists [], l. cbn. repeat split; [lia|tauto].
      * intros (a & b & F & G & H). destruct a as [|e' a]; [now injection F as <- _|].
        injection F as <- _. exfalso. apply H. left. cbn. lia.
    + rewrite IH. split.
      * intros (a & b & -> & G & H). exists ((i, v) :: a), b. cbn. repeat split; [exact G|].
        intros [K|K]; [lia|tauto].
      * intros (a & b & F & G & H). destruct a as [|e' a].
        { injection F as <- _. cbn in G. lia. }
        { injection F as <- ->. exists a, b. repeat split; [exact G|]. cbn in H. tauto. }
Qed.

Lemma find_none_iff {A} (l : list (Z * A)) j : List.find (fun e => fst e =? j) l = None <-> ~ In j (map fst l).
Proof.
  induction l as [|[i v] l IH]; cbn [List.find fst map]; [cbn; tauto|].
  destruct (i =? j) eqn:E; cbn [In].
  - split; [discriminate|]. intros H. exfalso. apply H. left. lia.
  - rewrite IH. split; intros H; [intros [K|K]; [lia|tauto]|tauto].
Qed.

Lemma get_mode_spec p j m : get_mode p j = Some m <-> required p j m.
Proof.
  unfold get_mode, required.
  destruct (List.find (fun e => fst e =? j) (match plookup p with Some l => l | None => [] end)) as [[i n]|] eqn:E.
  - apply find_split in E. destruct E as (a & b & E & F & G). cbn in F. subst i. split.
    + intros [= <-]. left. destruct (plookup p) as [l|] eqn:P; [|destruct a; discriminate].
      exists l, a, b. auto.
    + intros [(l & a' & b' & P & L & N)|(D & N)].
      * rewrite P in E. subst l.
        assert (H : List.find (fun e => fst e =? j) (a' ++ (j, m) :: b') = Some (j, m))
          by (apply find_split; exists a', b'; auto).
        assert (K : List.find (fun e => fst e =? j) (a' ++ (j, m) :: b') = Some (j, n))
          by (apply find_split; exists a, b; auto).
        congruence.
      * destruct (plookup p) as [l|] eqn:P; [|destruct a; discriminate].
        exfalso. apply (N l eq_refl). rewrite E, map_app. cbn. apply in_elt.
  - apply find_none_iff in E. split.
    + intros D. right. split; [exact D|]. intros l L. now rewrite L in E.
    + intros [(l & a & b & P & -> & N)|(D & N)]; [|exact D]. exfalso. rewrite P in E.
      apply E. rewrite map_app. cbn. apply in_elt.
Qed.

Definition data_of (p : params) (j : Z) : sdata :=
  mkSd j (match get_mode p j with Some m => m | None => 0 end) (plimits p).
Definition good (p : params) (x : robot) (i : iface) (j : Z) : Prop :=
  present x j = true /\ exists m, get_mode p j = Some m /\ fits i m /\ offers (hands x j) m /\
    (mode (hands x j) = m \/ lready (hands x j) = true).
Definition unmixed (p : params) (n : nat) : Prop := plookup p = None -> (n <= 1)%nat.

Lemma can_switch_spec m h :
  match can_switch m h with ReadyToSwitch | NoNeedToSwitch => True | _ => False end <->
  offers h m /\ (mode h = m \/ lready h = true).
Proof.
  unfold can_switch, offers. destruct (sup h m); cbn [negb orb].
  - destruct (command (cmds h) m) eqn:C.
    + destruct (mode h =? m) eqn:M.
      * split; [intros _|tauto]. split; [split; [reflexivity|discriminate]|]. left. lia.
      * destruct (lready h); (split; [intros H|intros ((_ & _) & [H|H])]); try tauto; try discriminate; try lia.
        split; [split; [reflexivity|discriminate]|]. now right.
    + split; [tauto|]. intros ((_ & H) & _). congruence.
  - split; [tauto|]. intros ((H & _) & _). discriminate.
Qed.

Lemma check_joint_spec p x i j ifs d :
  check_joint p x i j ifs = Some d <-> good p x i j /\ unmixed p (List.length ifs) /\ d = data_of p j.
Proof.
  unfold check_joint, good, unmixed, data_of.
  assert (HM : forall m, get_mode p j = Some m -> has_modes p = true).
  { intros m. unfold get_mode, has_modes. destruct (plookup p); [now destruct (pdefault p)|]. cbn.
    now destruct (pdefault p). }
  assert (MX : (1 <? Z.of_nat (List.length ifs)) && negb (has_mixed_modes p) = false <->
               (plookup p = None -> (List.length ifs <= 1)%nat)).
  { unfold has_mixed_modes. destruct (plookup p); cbn.
    - rewrite andb_false_r. split; [discriminate|reflexivity].
    - rewrite andb_true_r, Z.ltb_ge. split; [intros; lia|intros H; specialize (H eq_refl); lia]. }
  destruct (has_modes p) eqn:H1; cbn [negb].
  2:{ split; [discriminate|]. intros ((_ & m & G & _) & _). apply HM in G. congruence. }
  destruct ((1 <? Z.of_nat (List.length ifs)) && negb (has_mixed_modes p)) eqn:H2.
  { split; [discriminate|]. intros (_ & U & _). apply MX in U. congruence. }
  pose proof (proj1 MX eq_refl) as U.
  destruct (present x j) eqn:H3; cbn [negb].
  2:{ split; [discriminate|]. intros ((P & _) & _). discriminate. }
  destruct (get_mode p j) as [m|] eqn:H4.
  2:{ split; [discriminate|]. intros ((_ & m & G & _) & _). discriminate. }
  destruct (has_conflict i m) eqn:H5.
  { split; [discriminate|]. intros ((_ & m' & G & F & _) & _). assert (m' = m) by congruence. subst m'.
    assert (has_conflict i m = false) by now apply has_conflict_spec. congruence. }
  pose proof (proj1 (has_conflict_spec i m) H5) as F.
  pose proof (can_switch_spec m (hands x j)) as C.
  destruct (can_switch m (hands x j)).
  1-2: split; [discriminate|]; intros ((_ & m' & G & _ & O & R) & _); assert (m' = m) by congruence; subst m'; exfalso; apply C; auto.
  1-2: split; [intros [= <-]; split; [split; [reflexivity|exists m; split; [reflexivity|split; [exact F|now apply C]]]|split; [exact U|reflexivity]]
             |intros (_ & _ & ->); reflexivity].
Qed.

Definition seen (i : iface) (js : list Z) (ifs : list iface) : list iface :=
  match js with [] => ifs | _ => insert_iface i ifs end.

Lemma insert_idem i l : insert_iface i (insert_iface i l) = insert_iface i l.
Proof.
  unfold insert_iface. destruct (existsb (iface_eqb i) l) eqn:E.
  - now rewrite E.
  - rewrite existsb_app. cbn. now rewrite (proj2 (iface_eqb_spec i i) eq_refl), orb_true_r.
Qed.

Lemma check_joints_spec p x i js : forall ifs acc r,
  check_joints p x i js ifs acc = Some r <->
  (forall j, In j js -> good p x i j) /\ (js <> [] -> unmixed p (List.length (insert_iface i ifs))) /\
  r = (seen i js ifs, acc ++ map (data_of p) js).
Proof.
  induction js as [|j js IH]; intros ifs acc r; cbn [check_joints].
  - cbn. rewrite app_nil_r. split; [intros [= <-]; split; [tauto|split; [congruence|reflexivity]]|intros (_ & _ & ->); reflexivity].
  - destruct (check_joint p x i j (insert_iface i ifs)) as [d|] eqn:E.
    + apply check_joint_spec in E. destruct E as (G & U & ->). rewrite IH. cbn [seen map].
      assert (S' : seen i js (insert_iface i ifs) = insert_iface i ifs).
      { destruct js; cbn; [reflexivity|apply insert_idem]. }
      rewrite S', <- app_assoc, insert_idem. cbn [app]. split.
      * intros (A & B & ->). split; [|split; [auto|reflexivity]]. intros k [<-|K]; auto.
      * intros (A & B & ->). split; [|split; [auto|reflexivity]]. intros k K. apply A. now right.
    + split; [discriminate|]. intros (A & B & ->). exfalso.
      assert (H : check_joint p x i j (insert_iface i ifs) = Some (data_of p j)).
      { apply check_joint_spec. split; [apply A; now left|split; [apply B; discriminate|reflexivity]]. }
      congruence.
Qed.

Definition all_data (p : params) (l : list (iface * list Z)) : list sdata :=
  flat_map (fun e => map (data_of p) (snd e)) l.
(** The interfaces with claimed joints. *)
Definition used (l : list (iface * list Z)) : list iface :=
  map fst (List.filter (fun e => match snd e with [] => false | _ => true end) l).
Definition same_all (l : list iface) : Prop := forall i i', In i l -> In i' l -> i = i'.

Lemma insert_one i ifs : NoDup ifs -> (List.length ifs <= 1)%nat ->
  ((List.length (insert_iface i ifs) <= 1)%nat <-> same_all (ifs ++ [i])).
Proof.
  intros _ L. unfold insert_iface, same_all. destruct ifs as [|a [|b t]]; cbn in L; try lia; cbn.
  - split; [|lia]. intros _ i1 i2 [<-|[]] [<-|[]]. reflexivity.
  - rewrite orb_false_r. destruct (iface_eqb i a) eqn:E.
    + apply iface_eqb_spec in E. subst. cbn. split; [|lia]. intros _ i1 i2 [<-|[<-|[]]] [<-|[<-|[]]]; reflexivity.
    + cbn. split; [lia|]. intros H. assert (i = a) by (apply H; auto).
      apply iface_eqb_spec in H0. congruence.
Qed.

Lemma insert_nodup i l : NoDup l -> NoDup (insert_iface i l).
Proof.
  intros N. unfold insert_iface. destruct (existsb (iface_eqb i) l) eqn:E; [exact N|].
  assert (H : ~ In i l).
  { intros H. assert (existsb (iface_eqb i) l = true) by (apply existsb_exists; exists i; split; [exact H|now apply iface_eqb_spec]). congruence. }
  clear E. induction l as [|a l IH]; cbn; [constructor; [tauto|constructor]|].
  inversion N; subst. constructor.
  - intros K. apply in_app_iff in K. destruct K as [K|[<-|[]]]; [tauto|]. apply H. now left.
  - apply IH; [assumption|]. intros K. apply H. now right.
Qed.

Lemma in_insert i k l : In k (insert_iface i l) <-> In k l \/ k = i.
Proof.
  unfold insert_iface. destruct (existsb (iface_eqb i) l) eqn:E.
  - split; [tauto|]. intros [H| ->]; [exact H|]. apply existsb_exists in E. destruct E as (a & A & B).
    apply iface_eqb_spec in B. now subst.
  - rewrite in_app_iff. cbn. intuition congruence.
Qed.

Lemma check_claims_spec p x l : forall ifs acc r, NoDup ifs -> unmixed p (List.length ifs) ->
  check_claims p x l ifs acc = Some r <->
  (forall i js j, In (i, js) l -> In j js -> good p x i j) /\
  (plookup p = None -> same_all (ifs ++ used l)) /\
  r = acc ++ all_data p l.
Proof.
  induction l as [|[i js] l IH]; intros ifs acc r N U; cbn [check_claims].
  - unfold used, all_data. cbn. rewrite !app_nil_r. split.
    + intros [= <-]. split; [intros ? ? ? []|]. split; [|reflexivity].
      intros P i i' I I'. specialize (U P). destruct ifs as [|a [|b t]]; cbn in *; try lia; intuition congruence.
    + intros (_ & _ & ->). reflexivity.
  - destruct (check_joints p x i js ifs acc) as [[ifs' acc']|] eqn:E.
    + apply check_joints_spec in E. destruct E as (G & V & E). injection E as -> ->.
      assert (N' : NoDup (seen i js ifs)) by (destruct js; cbn; [exact N|now apply insert_nodup]).
      assert (U' : unmixed p (List.length (seen i js ifs))) by (destruct js; cbn; [exact U|apply V; discriminate]).
      rewrite (IH _ _ _ N' U'). unfold all_data at 2. cbn [flat_map snd]. fold (all_data p l). rewrite <- app_assoc.
      assert (Q : same_all (seen i js ifs ++ used l) <-> same_all (ifs ++ used ((i, js) :: l))).
      { unfold same_all, used. destruct js as [|j0 js]; cbn [seen List.filter snd map fst]; [tauto|].
        assert (K : forall a, In a (insert_iface i ifs ++ map fst (List.filter (fun e => match snd e with [] => false | _ => true end) l)) <->
                         In a (ifs ++ i :: map fst (List.filter (fun e => match snd e with [] => false | _ => true end) l))).
        { intros a. rewrite !in_app_iff, in_insert. cbn [In]. intuition auto. }
        split; intros H a b A B; apply H; now apply K. }
      rewrite Q. split; intros (A & B & C); (split; [|split; [exact B|exact C]]).
      * intros a bs b [H|H] K; [injection H as <- <-; auto|eauto].
      * intros a bs b H K. apply (A a bs b); [now right|exact K].
    + split; [discriminate|]. intros (A & B & C). exfalso.
      assert (H : check_joints p x i js ifs acc = Some (seen i js ifs, acc ++ map (data_of p) js)).
      { apply check_joints_spec. split; [|split; [|reflexivity]].
        - intros j J. apply (A i js j); [now left|exact J].
        - intros J P. apply insert_one; [exact N|now apply U|]. specialize (B P).
          intros a b H K. apply B; unfold used; cbn [List.filter snd]; destruct js; try congruence; cbn [map fst];
            rewrite in_app_iff in *; cbn [In] in *; intuition auto. }
      congruence.
Qed.

Lemma check_claims_start p x c r :
  check_claims p x (claims c) [] [] = Some r <-> startable x p c /\ r = all_data p (claims c).
Proof.
  rewrite check_claims_spec; [|constructor|intros _; cbn; lia]. cbn [app]. unfold startable, claims_joint.
  assert (K : forall i, In i (used (claims c)) <-> exists j js, In (i, js) (claims c) /\ In j js).
  { intros i. unfold used. rewrite in_map_iff. split.
    - intros ([i' js] & <- & H). apply filter_In in H. destruct H as (H & F). cbn in *.
      destruct js as [|j js]; [discriminate|]. exists j, (j :: js). split; [exact H|now left].
    - intros (j & js & H & J). exists (i, js). split; [reflexivity|]. apply filter_In. split; [exact H|].
      cbn. destruct js; [destruct J|reflexivity]. }
  split.
  - intros (A & B & ->). split; [|reflexivity]. split.
    + intros i j (js & H & J). destruct (A _ _ _ H J) as (P & m & G & F & O & R). split; [exact P|].
      exists m. split; [now apply get_mode_spec|auto].
    + intros P i j i' j' (js & H & J) (js' & H' & J'). apply (B P); apply K; eauto.
  - intros ((A & B) & ->). split; [|split; [|reflexivity]].
    + intros i js j H J. destruct (A i j) as (P & m & G & F & O & R); [eauto|]. split; [exact P|].
      exists m. split; [now apply get_mode_spec|auto].
    + intros P i i' H H'. apply K in H. apply K in H'. destruct H as (j & js & H), H' as (j' & js' & H').
      apply (B P i j i' j'); eauto.
Qed.

Lemma startable_reg x r p c : startable (with_reg r x) p c <-> startable x p c.
Proof. reflexivity. Qed.

Lemma check_starts_spec ps starts : forall x,
  (fst (check_starts ps starts x) = true <-> forall c, In c starts -> startable x (ps (cname c)) c) /\
  hands (snd (check_starts ps starts x)) = hands x /\ present (snd (check_starts ps starts x)) = present x /\
  stopping (snd (check_starts ps starts x)) = stopping x.
Proof.
  induction starts as [|c t IH]; intros x; cbn [check_starts].
  - cbn. repeat split; tauto.
  - destruct (check_claims (ps (cname c)) x (claims c) [] []) as [l|] eqn:E.
    + apply check_claims_start in E. destruct E as (E & _).
      destruct (IH (with_reg (register (cname c) l (reg x)) x)) as (A & B & C & D).
      split; [|auto]. rewrite A. split.
      * intros H c' [<-|K]; [exact E|]. now apply startable_reg with (r := register (cname c) l (reg x)), H.
      * intros H c' K. apply startable_reg, H. now right.
    + cbn. split; [|auto]. split; [discriminate|]. intros H. exfalso.
      assert (K : check_claims (ps (cname c)) x (claims c) [] [] = Some (all_data (ps (cname c)) (claims c))).
      { apply check_claims_start. split; [apply H; now left|reflexivity]. }
      congruence.
Qed.

Lemma registered_none r c : registered r c = None <-> ~ In c (map fst r).
Proof.
  unfold registered. rewrite <- find_none_iff. destruct (List.find _ r); cbn; split; congruence.
Qed.

Lemma stops_known x stops :
  forallb (fun c => match registered (reg x) (cname c) with Some _ => true | None => false end) stops = true <->
  forall c, In c stops -> known x c.
Proof.
  rewrite forallb_forall. unfold known. split; intros H c K; specialize (H c K).
  - destruct (in_dec Z.eq_dec (cname c) (map fst (reg x))) as [I|I]; [exact I|].
    apply registered_none in I. now rewrite I in H.
  - destruct (registered (reg x) (cname c)) eqn:E; [reflexivity|]. apply registered_none in E. tauto.
Qed.

Lemma accepted_iff ps env order starts stops x :
  fst (prepare_switch ps env order starts stops x) = true <->
  (forall c, In c stops -> known x c) /\ (forall c, In c starts -> startable x (ps (cname c)) c).
Proof.
  unfold prepare_switch. rewrite <- stops_known. destruct (forallb _ stops) eqn:E.
  - pose proof (check_starts_spec ps starts x) as (A & _). destruct (check_starts ps starts x) as [[] y].
    + destruct (perform _ _ _ _ _ _) as [[f ts] failed]. cbn in *. rewrite <- A. tauto.
    + cbn in *. rewrite <- A. intuition congruence.
  - cbn. intuition congruence.
Qed.

Lemma rejected ps env order starts stops x :
  fst (prepare_switch ps env order starts stops x) = false ->
  hands (snd (prepare_switch ps env order starts stops x)) = hands x /\
  present (snd (prepare_switch ps env order starts stops x)) = present x /\
  stopping (snd (prepare_switch ps env order starts stops x)) = stopping x.
Proof.
  unfold prepare_switch. destruct (forallb _ stops); [|cbn; auto].
  pose proof (check_starts_spec ps starts x) as (_ & A). destruct (check_starts ps starts x) as [[] y].
  - destruct (perform _ _ _ _ _ _) as [[f ts] failed]. discriminate.
  - cbn in *. auto.
Qed.

(** What gets registered. *)
Lemma registered_app r s c : registered (r ++ s) c = match registered r c with Some l => Some l | None => registered s c end.
Proof.
  unfold registered. induction r as [|[i l] r IH]; [reflexivity|]. cbn [app List.find fst].
  destruct (i =? c); [reflexivity|exact IH].
Qed.

Lemma register_spec c l r c' :
  registered (register c l r) c' =
  match registered r c' with Some k => Some k | None => if c =? c' then Some l else None end.
Proof.
  unfold register. destruct (registered r c) eqn:E.
  - destruct (registered r c') eqn:F; [reflexivity|]. destruct (c =? c') eqn:G; [|reflexivity].
    assert (c = c') by lia. congruence.
  - rewrite registered_app. destruct (registered r c'); [reflexivity|]. unfold registered. cbn -[Z.eqb].
    now destruct (c =? c').
Qed.

Lemma check_starts_reg ps starts : forall x, fst (check_starts ps starts x) = true ->
  forall n, registered (reg (snd (check_starts ps starts x))) n =
    match registered (reg x) n with
    | Some l => Some l
    | None => option_map (fun c => all_data (ps (cname c)) (claims c)) (List.find (fun c => cname c =? n) starts)
    end.
Proof.
  induction starts as [|c t IH]; intros x H n; cbn [check_starts] in *.
  - cbn. now destruct (registered (reg x) n).
  - destruct (check_claims (ps (cname c)) x (claims c) [] []) as [l|] eqn:E; [|discriminate].
    apply check_claims_start in E. destruct E as (_ & ->). rewrite IH by exact H.
    cbn [with_reg reg]. rewrite register_spec. destruct (registered (reg x) n); [reflexivity|].
    cbn [List.find]. destruct (cname c =? n) eqn:F; [reflexivity|reflexivity].
Qed.

Lemma check_starts_known ps starts : forall x c, In c starts -> fst (check_starts ps starts x) = true ->
  exists l, registered (reg (snd (check_starts ps starts x))) (cname c) = Some l.
Proof.
  intros x c I H. rewrite check_starts_reg by exact H.
  destruct (registered (reg x) (cname c)) as [l|]; [eauto|].
  destruct (List.find (fun c' => cname c' =? cname c) starts) eqn:F; [cbn; eauto|].
  pose proof (List.find_none _ _ F _ I) as G. cbn in G. lia.
Qed.

Lemma coherent_all p l : coherent (all_data p l).
Proof.
  intros d d' H H'. unfold all_data in *. apply in_flat_map in H. apply in_flat_map in H'.
  destruct H as (e & _ & H), H' as (e' & _ & H'). apply in_map_iff in H. apply in_map_iff in H'.
  destruct H as (j & <- & _), H' as (j' & <- & _). cbn. now intros <-.
Qed.

Definition reg_coherent (r : list (Z * list sdata)) : Prop := forall n l, registered r n = Some l -> coherent l.

Lemma check_starts_coherent ps starts : forall x, reg_coherent (reg x) -> reg_coherent (reg (snd (check_starts ps starts x))).
Proof.
  induction starts as [|c t IH]; intros x H; cbn [check_starts]; [exact H|].
  destruct (check_claims (ps (cname c)) x (claims c) [] []) as [l|] eqn:E; [|exact H].
  apply check_claims_start in E. destruct E as (_ & ->). apply IH. cbn [with_reg reg].
  intros n k. rewrite register_spec. destruct (registered (reg x) n) eqn:F; [intros [= <-]; eauto|].
  destruct (cname c =? n); [|discriminate]. intros [= <-]. apply coherent_all.
Qed.
