From Verif Require Import Base CanModel CanSpec CanProofs KeyModel KeySpec KeyProofs StorageModel EdsModel EdsSpec EdsProofs IniModel IniSpec.

Lemma white_spec : forall c, white c <-> is_space c = true.
Proof. intros c. unfold white, is_space. cbn [In]. lia. Qed.
Lemma not_white : forall c, ~ white c <-> is_space c = false.
Proof. intros c. rewrite white_spec. destruct (is_space c); split; congruence. Qed.
Lemma white_spaces : forall w, spaces w <-> Forall white w.
Proof. reflexivity. Qed.

(** ** Trimming *)
Lemma drop_cons : forall c r, is_space c = false -> drop_space_end (c :: r) = c :: drop_space_end r.
Proof. intros c r H. cbn [drop_space_end]. destruct (drop_space_end r); [rewrite H|]; reflexivity. Qed.
Lemma drop_keep : forall a c r, is_space c = false -> drop_space_end (a ++ c :: r) = a ++ c :: drop_space_end r.
Proof.
  induction a as [|x a IH]; intros c r H; [apply drop_cons, H|]. cbn [app drop_space_end]. rewrite IH by exact H. destruct a; reflexivity.
Qed.
Lemma trim_keep : forall w c r, spaces w -> is_space c = false -> trim (w ++ c :: r) = c :: drop_space_end r.
Proof. intros w c r W H. unfold trim. rewrite skip_spaces by exact W. cbn [skip_space]. rewrite H. apply drop_cons, H. Qed.
Lemma trim_spaces : forall w, spaces w -> trim w = [].
Proof. intros w W. unfold trim. rewrite <- (app_nil_r w), skip_spaces by exact W. reflexivity. Qed.
Lemma trim_clean : forall w1 t w2, spaces w1 -> spaces w2 -> clean t -> trim (w1 ++ t ++ w2) = t.
Proof.
  intros w1 t w2 H1 H2 [->|((c & r & E & C) & (r' & c' & E' & C'))].
  - cbn [app]. apply trim_spaces. apply Forall_app. auto.
  - apply trim_trimmed; [assumption|assumption|]. split; [rewrite E; apply not_white, C|]. exists r', c'. split; [exact E'|apply not_white, C'].
Qed.
Lemma skip_split : forall l, exists w, spaces w /\ l = w ++ skip_space l /\ match skip_space l with [] => True | c :: _ => ~ white c end.
Proof.
  induction l as [|c l (w & W & E & H)]; [exists []; repeat split; constructor|]. cbn [skip_space]. destruct (is_space c) eqn:S0.
  - exists (c :: w). split; [constructor; [apply white_spec, S0|exact W]|]. split; [cbn [app]; f_equal; exact E|exact H].
  - exists []. split; [constructor|]. split; [reflexivity|apply not_white, S0].
Qed.
Lemma drop_split : forall l, exists w, spaces w /\ l = drop_space_end l ++ w /\ (drop_space_end l = [] \/ exists r c, drop_space_end l = r ++ [c] /\ ~ white c).
Proof.
  induction l as [|c l (w & W & E & H)]; [exists []; repeat split; [constructor|left; reflexivity]|]. cbn [drop_space_end].
  destruct (drop_space_end l) as [|d t] eqn:D.
  - cbn [app] in E. destruct (is_space c) eqn:S0.
    + exists (c :: w). split; [constructor; [apply white_spec, S0|exact W]|]. split; [cbn [app]; f_equal; exact E|left; reflexivity].
    + exists w. split; [exact W|]. split; [cbn [app]; f_equal; exact E|]. right. exists [], c. split; [reflexivity|apply not_white, S0].
  - exists w. split; [exact W|]. split; [rewrite E; reflexivity|]. right. destruct H as [H|(r & x & H & N)]; [discriminate|]. exists (c :: r), x. split; [rewrite H; reflexivity|exact N].
Qed.
Lemma trim_split : forall l, exists w w', spaces w /\ spaces w' /\ l = w ++ trim l ++ w' /\ clean (trim l).
Proof.
  intros l. destruct (skip_split l) as (w & W & E & H). destruct (drop_split (skip_space l)) as (w' & W' & E' & H'). fold (trim l) in E', H'.
  exists w, w'. split; [exact W|]. split; [exact W'|]. split; [congruence|]. destruct H' as [H'|H']; [left; exact H'|]. right. split; [|exact H'].
  destruct H' as (r & c & Q & _). destruct (trim l) as [|d t] eqn:T; [destruct r; discriminate Q|]. exists d, t. split; [reflexivity|].
  rewrite E' in H. exact H.
Qed.
Lemma in_trim : forall c l, In c (trim l) -> In c l.
Proof. intros c l H. destruct (trim_split l) as (w & w' & _ & _ & E & _). rewrite E. apply in_or_app. right. apply in_or_app. left. exact H. Qed.

(** ** Lines *)
Lemma space_not : forall c w, is_space c = false -> spaces w -> ~ In c w.
Proof. intros c w H W I. unfold spaces in W. rewrite Forall_forall in W. apply W in I. apply white_spec in I. congruence. Qed.
Lemma not_in_app : forall (c : Z) a b, ~ In c a -> ~ In c b -> ~ In c (a ++ b).
Proof. intros c a b A B I. apply in_app_or in I. tauto. Qed.
Lemma clean_cons : forall c r, clean (c :: r) -> is_space c = false.
Proof. intros c r [H|((c' & r' & E & C) & _)]; [discriminate|]. injection E as <- <-. apply not_white, C. Qed.
Lemma says_read : forall l x, says l x -> read_line l = Some x.
Proof.
  intros l x [w W|w c r W C|w w1 n w2 r W W1 W2 CN N|w k w1 w2 v w3 W W1 W2 W3 CK CV N K H]; unfold read_line.
  - rewrite trim_spaces by exact W. reflexivity.
  - rewrite trim_keep by (try exact W; destruct C as [-> | ->]; reflexivity). destruct C as [-> | ->]; reflexivity.
  - cbn [app]. rewrite trim_keep by (exact W || reflexivity). cbn [Z.eqb Pos.eqb orb].
    replace (w1 ++ n ++ w2 ++ 93 :: r) with ((w1 ++ n ++ w2) ++ 93 :: r) by (rewrite <- !app_assoc; reflexivity).
    rewrite drop_keep by reflexivity. rewrite split_at_app.
    + rewrite trim_clean by assumption. reflexivity.
    + repeat apply not_in_app; try exact N; apply space_not; try reflexivity; assumption.
  - destruct k as [|c k]; [congruence|]. cbn [hd In] in H.
    pose proof (clean_cons _ _ CK) as CC. cbn [app]. rewrite trim_keep by assumption.
    replace ((c =? 59) || (c =? 35)) with false by lia. replace (c =? 91) with false by lia.
    replace (k ++ w1 ++ 61 :: w2 ++ v ++ w3) with ((k ++ w1) ++ 61 :: w2 ++ v ++ w3) by (rewrite <- !app_assoc; reflexivity).
    rewrite drop_keep by reflexivity.
    change (c :: (k ++ w1) ++ 61 :: drop_space_end (w2 ++ v ++ w3)) with ((c :: k ++ w1) ++ 61 :: drop_space_end (w2 ++ v ++ w3)).
    rewrite split_at_app.
    + f_equal. f_equal; [exact (trim_clean [] (c :: k) w1 ltac:(constructor) W1 CK)|].
      assert (D : drop_space_end (w2 ++ v ++ w3) = match v with [] => [] | _ => w2 ++ v end).
      { destruct CV as [->|(_ & (r' & c' & -> & C'))].
        - cbn [app]. apply drop_space_all. apply Forall_app. auto.
        - rewrite app_assoc. replace (w2 ++ r' ++ [c']) with ((w2 ++ r') ++ [c']) by (rewrite app_assoc; reflexivity).
          rewrite drop_space_app by (try assumption; apply not_white, C'). destruct r'; reflexivity. }
      rewrite D. destruct v as [|d v]; [reflexivity|]. rewrite <- (app_nil_r (d :: v)) at 1. apply trim_clean; [assumption|constructor|assumption].
    + change (c :: k ++ w1) with ((c :: k) ++ w1). apply not_in_app; [exact N|apply space_not; [reflexivity|exact W1]].
Qed.
Lemma read_says : forall l x, read_line l = Some x -> says l x.
Proof.
  intros l x. unfold read_line. destruct (trim_split l) as (w & w' & W & W' & E & C). destruct (trim l) as [|c t] eqn:T.
  - intros H. injection H as <-. rewrite E. apply says_blank. apply Forall_app. auto.
  - pose proof (clean_cons _ _ C) as CC. destruct ((c =? 59) || (c =? 35)) eqn:Q.
    + intros H. injection H as <-. rewrite E. apply (says_comment w c (t ++ w') W). lia.
    + destruct (c =? 91) eqn:B.
      * apply Z.eqb_eq in B. subst c. pose proof (split_at_spec 93 t) as SP. destruct (split_at 93 t) as [[n r]|]; [|discriminate]. destruct SP as [SP1 SP2].
        intros H. injection H as <-. destruct (trim_split n) as (u & u' & U & U' & En & Cn). 
        assert (X : l = w ++ [91] ++ u ++ trim n ++ u' ++ [93] ++ (r ++ w')).
        { rewrite E, SP1. rewrite En at 1. repeat first [rewrite <- app_assoc | progress cbn [app]]. reflexivity. }
        rewrite X. apply says_begin; try assumption. intros I. apply SP2. apply in_trim, I.
      * pose proof (split_at_spec 61 (c :: t)) as SP. destruct (split_at 61 (c :: t)) as [[k v]|]; [|discriminate]. destruct SP as [SP1 SP2].
        destruct k as [|d k]; [discriminate|]. intros H. injection H as <-. injection SP1 as <- SP1.
        destruct (trim_split (c :: k)) as (u & u' & U & U' & Ek & Ck). destruct (trim_split v) as (z & z' & Zs & Zs' & Ev & Cv).
        assert (HT : trim (c :: k) = c :: drop_space_end k) by exact (trim_keep [] c k ltac:(constructor) CC).
        assert (X : l = (w ++ u) ++ trim (c :: k) ++ u' ++ [61] ++ z ++ trim v ++ (z' ++ w')).
        { rewrite E. rewrite SP1. change (c :: k ++ 61 :: v) with ((c :: k) ++ 61 :: v). rewrite Ek at 1. rewrite Ev at 1. repeat first [rewrite <- app_assoc | progress cbn [app]]. reflexivity. }
        rewrite X. apply says_item; try assumption; try (apply Forall_app; split; assumption).
        -- intros I. apply SP2. apply in_trim, I.
        -- rewrite HT. discriminate.
        -- rewrite HT. cbn [hd In]. lia.
Qed.
Lemma get_lines_nonempty : forall t, get_lines t <> [].
Proof. destruct t as [|c t]; cbn [get_lines]; [discriminate|]. destruct (c =? 10); [discriminate|]. destruct (get_lines t); discriminate. Qed.
Lemma lines_get : forall t ls, lines t ls <-> get_lines t = ls.
Proof.
  assert (A : forall l, ~ In 10 l -> get_lines l = [l]).
  { induction l as [|c l IH]; intros N; [reflexivity|]. cbn [get_lines]. cbn [In] in N. replace (c =? 10) with false by lia. rewrite IH by tauto. reflexivity. }
  assert (B : forall l t, ~ In 10 l -> get_lines (l ++ 10 :: t) = l :: get_lines t).
  { induction l as [|c l IH]; intros t N; [reflexivity|]. cbn [app get_lines]. cbn [In] in N. replace (c =? 10) with false by lia. rewrite IH by tauto. reflexivity. }
  intros t ls. split.
  - intros H. induction H as [l N|l t ls N H IH]; [apply A, N|]. rewrite B by exact N. rewrite IH. reflexivity.
  - intros <-. induction t as [|c t IH]; [apply lines_last; intros []|]. cbn [get_lines]. destruct (Z.eqb_spec c 10) as [->|N].
    + apply (lines_more [] t _); [intros []|exact IH].
    + pose proof (get_lines_nonempty t) as NE. destruct (get_lines t) as [|l ls]; [congruence|]. inversion IH as [l0 N0|l0 t0 ls0 N0 H0]; subst.
      * apply lines_last. cbn [In]. intuition.
      * apply (lines_more (c :: l) t0 ls); [cbn [In]; intuition|exact H0].
Qed.

(** ** The tree *)
Fixpoint adds (xs : list said) (s : istate) : option istate :=
  match xs with [] => Some s | x :: xs => match add_line x s with None => None | Some s => adds xs s end end.
Lemma adds_app : forall a b s, adds (a ++ b) s = match adds a s with None => None | Some s => adds b s end.
Proof. induction a as [|x a IH]; intros b s; [reflexivity|]. cbn [app adds]. destruct (add_line x s); [apply IH|reflexivity]. Qed.
Lemma add_lines_says : forall ls xs s, Forall2 says ls xs -> add_lines ls s = adds xs s.
Proof.
  intros ls xs s H. revert s. induction H as [|l x ls xs H F IH]; intros s; [reflexivity|]. cbn [add_lines adds]. rewrite (says_read _ _ H).
  destruct (add_line x s); [apply IH|reflexivity].
Qed.
Lemma add_lines_some : forall ls s s', add_lines ls s = Some s' -> exists xs, Forall2 says ls xs /\ adds xs s = Some s'.
Proof.
  induction ls as [|l ls IH]; intros s s' H; [exists []; split; [constructor|exact H]|]. cbn [add_lines] in H.
  destruct (read_line l) as [x|] eqn:R; [|discriminate]. destruct (add_line x s) as [s1|] eqn:A; [|discriminate].
  destruct (IH s1 s' H) as (xs & F & Q). exists (x :: xs). split; [constructor; [apply read_says, R|exact F]|]. cbn [adds]. rewrite A. exact Q.
Qed.

Lemma child_none : forall A (l : list (text * A)) k, child k l = None <-> ~ In (map lower k) (map (fun x => map lower (fst x)) l).
Proof.
  intros A l k. induction l as [|[k0 a] l IH]; [cbn; tauto|]. cbn [child map fst In]. destruct (same_name k k0) eqn:E.
  - apply same_name_spec in E. unfold names_equal in E. split; [discriminate|]. intros H. destruct H. left. symmetry. exact E.
  - assert (N : ~ names_equal k k0) by (rewrite <- same_name_spec; congruence). unfold names_equal in N. rewrite IH. split; intros H; [intros [X|X]; [apply N; symmetry; exact X|apply H, X]|tauto].
Qed.
Lemma unique_snoc : forall A (l : list (text * A)) k a, unique (l ++ [(k, a)]) <-> unique l /\ child k l = None.
Proof.
  intros A l k a. unfold unique. rewrite map_app. cbn [map fst]. rewrite child_none. split.
  - intros H. split; [apply NoDup_remove_1 in H; rewrite app_nil_r in H; exact H|apply NoDup_remove_2 in H; rewrite app_nil_r in H; exact H].
  - intros [U N]. apply (NoDup_Add (a := map lower k) (l := map (fun x => map lower (fst x)) l)); [|auto]. pose proof (Add_app (map lower k) (map (fun x => map lower (fst x)) l) []) as P. rewrite app_nil_r in P. exact P.
Qed.
Lemma nodup_app_l : forall (a b : list text), NoDup (a ++ b) -> NoDup a.
Proof. induction a as [|x a IH]; intros b H; [constructor|]. cbn [app] in H. inversion H; subst. constructor; [intros I; apply H2, in_or_app; auto|eauto]. Qed.
Lemma unique_app_l : forall A (a b : list (text * A)), unique (a ++ b) -> unique a.
Proof. intros A a b. unfold unique. rewrite map_app. apply nodup_app_l. Qed.

(** The items of one section *)
Lemma adds_body : forall xs d n l s, Forall no_begin xs -> unique l ->
  (adds xs (mkI d (Some (n, l))) = Some s <-> s = mkI d (Some (n, l ++ items xs)) /\ unique (l ++ items xs)).
Proof.
  induction xs as [|x xs IH]; intros d n l s F U; [cbn; rewrite app_nil_r; split; [intros H; injection H as <-; auto|intros [-> _]; reflexivity]|].
  inversion F as [|? ? N F']; subst. destruct x as [|m|k v]; [|destruct N|].
  - cbn [adds add_line items flat_map app]. apply IH; assumption.
  - cbn [adds add_line i_cur i_done items flat_map app]. fold (items xs). replace (l ++ (k, v) :: items xs) with ((l ++ [(k, v)]) ++ items xs) by (rewrite <- app_assoc; reflexivity).
    destruct (child k l) eqn:C.
    + split; [discriminate|]. intros [_ H]. apply unique_app_l in H. apply unique_snoc in H. destruct H as [_ H]. discriminate (eq_trans (eq_sym C) H).
    + apply IH; [exact F'|]. apply unique_snoc. auto.
Qed.
(** Items in front of the first section *)
Definition bare (l : section) : ini := map (fun kv => (fst kv, [])) l.
Lemma adds_front : forall xs d s, Forall no_begin xs -> unique d ->
  (adds xs (mkI d None) = Some s <-> s = mkI (d ++ bare (items xs)) None /\ unique (d ++ bare (items xs))).
Proof.
  induction xs as [|x xs IH]; intros d s F U; [cbn; rewrite app_nil_r; split; [intros H; injection H as <-; auto|intros [-> _]; reflexivity]|].
  inversion F as [|? ? N F']; subst. destruct x as [|m|k v]; [|destruct N|].
  - cbn [adds add_line items flat_map app]. apply IH; assumption.
  - cbn [adds add_line i_cur i_done items flat_map app bare map fst]. fold (items xs). fold (bare (items xs)).
    replace (d ++ (k, []) :: bare (items xs)) with ((d ++ [(k, [])]) ++ bare (items xs)) by (rewrite <- app_assoc; reflexivity).
    destruct (child k d) eqn:C.
    + split; [discriminate|]. intros [_ H]. apply unique_app_l in H. apply unique_snoc in H. destruct H as [_ H]. discriminate (eq_trans (eq_sym C) H).
    + apply IH; [exact F'|]. apply unique_snoc. auto.
Qed.
Lemma span : forall xs, exists a b, xs = a ++ b /\ Forall no_begin a /\ (b = [] \/ exists n b', b = Begin n :: b').
Proof.
  induction xs as [|x xs (a & b & -> & F & B)]; [exists [], []; auto|]. destruct x as [|n|k v].
  - exists (Nothing :: a), b. split; [reflexivity|]. split; [constructor; [exact Logic.I|exact F]|exact B].
  - exists [], (Begin n :: a ++ b). split; [reflexivity|]. split; [constructor|]. right. eauto.
  - exists (Item k v :: a), b. split; [reflexivity|]. split; [constructor; [exact Logic.I|exact F]|exact B].
Qed.
Definition named (n : text) (l : section) : ini := match l with [] => [] | kv :: l' => [(n, kv :: l')] end.
Lemma close_named : forall d n l, close (mkI d (Some (n, l))) = d ++ named n l.
Proof. intros d n [|kv l]; cbn; [rewrite app_nil_r|]; reflexivity. Qed.
Lemma wf_named : forall d n l, well_formed d -> child n d = None -> unique l -> well_formed (d ++ named n l).
Proof.
  intros d n l [U F] C L. destruct l as [|kv l]; [cbn; rewrite app_nil_r; split; assumption|]. cbn [named]. split; [apply unique_snoc; auto|].
  intros k s I. apply in_app_or in I as [I|[I|[]]]; [exact (F k s I)|]. injection I as <- <-. exact L.
Qed.
Lemma sections_sound : forall m rest s s', (List.length rest <= m)%nat -> (rest = [] \/ exists n b', rest = Begin n :: b') -> well_formed (close s) -> adds rest s = Some s' ->
  exists pt, sections rest pt /\ close s' = close s ++ pt /\ well_formed (close s').
Proof.
  induction m as [|m IH]; intros rest s s' L [->|(n & b & ->)] W A; try (cbn in L; lia);
    try (injection A as <-; exists []; rewrite app_nil_r; split; [constructor|auto]).
  cbn [adds add_line] in A. destruct (child n (close s)) eqn:C; [discriminate|].
  destruct (span b) as (xs & rest & -> & F & B). rewrite adds_app in A.
  destruct (adds xs (mkI (close s) (Some (n, [])))) as [s1|] eqn:A1; [|discriminate].
  apply adds_body in A1; [|exact F|constructor]. cbn [app] in A1. destruct A1 as [-> U1].
  pose proof (wf_named (close s) n (items xs) W C U1) as W1. rewrite <- close_named in W1.
  cbn [List.length] in L. rewrite app_length in L.
  destruct (IH rest _ s' ltac:(lia) B W1 A) as (pt & P & E & W2). exists (named n (items xs) ++ pt). split; [apply (sections_cons n xs rest pt F P)|].
  split; [|exact W2]. rewrite E, close_named, app_assoc. reflexivity.
Qed.
Lemma bare_wf : forall l, unique (bare l) -> well_formed (bare l).
Proof. intros l U. split; [exact U|]. intros k s I. unfold bare in I. apply in_map_iff in I as ([k' v] & E & _). injection E as _ <-. constructor. Qed.
Lemma read_sound : forall t pt, read_ini t = Some pt -> exists ls xs, lines t ls /\ Forall2 says ls xs /\ tells xs pt /\ well_formed pt.
Proof.
  intros t pt H. unfold read_ini in H. destruct (add_lines (get_lines t) (mkI [] None)) as [s|] eqn:A; [|discriminate]. injection H as <-.
  apply add_lines_some in A as (xs & F & A). exists (get_lines t), xs. split; [apply lines_get; reflexivity|]. split; [exact F|].
  destruct (span xs) as (a & b & -> & FA & B). rewrite adds_app in A. destruct (adds a (mkI [] None)) as [s1|] eqn:A1; [|discriminate].
  apply adds_front in A1; [|exact FA|constructor]. cbn [app] in A1. destruct A1 as [-> U].
  destruct (sections_sound _ b (mkI (bare (items a)) None) s (le_n _) B (bare_wf _ U) A) as (pt & P & E & W). cbn [close i_cur i_done] in E. rewrite E in W |- *.
  split; [apply tells_all; assumption|exact W].
Qed.

(** ** Everything that is different is read *)
Lemma begun_body : forall xs, Forall no_begin xs -> begun xs = [].
Proof. intros xs F. induction F as [|x xs N F IH]; [reflexivity|]. destruct x; [exact IH|destruct N|exact IH]. Qed.
Lemma begun_app : forall a b, begun (a ++ b) = begun a ++ begun b.
Proof. intros. apply flat_map_app. Qed.
Definition root (d : ini) : list text := map (fun x => map lower (fst x)) d.
Lemma root_app : forall a b, root (a ++ b) = root a ++ root b.
Proof. intros. apply map_app. Qed.
Lemma sections_complete : forall rest pt, sections rest pt -> forall s, NoDup (root (close s) ++ map (map lower) (begun rest)) ->
  (forall k l, In (k, l) pt -> unique l) -> exists s', adds rest s = Some s' /\ close s' = close s ++ pt.
Proof.
  intros rest pt H. induction H as [|n xs rest pt F P IH]; intros s ND U; [exists s; rewrite app_nil_r; auto|].
  cbn [adds add_line]. assert (B : begun (Begin n :: xs ++ rest) = n :: begun rest) by (cbn [begun flat_map app]; f_equal; change (begun (xs ++ rest) = begun rest); rewrite begun_app, begun_body by exact F; reflexivity).
  rewrite B in ND. cbn [map] in ND. assert (C : child n (close s) = None).
  { apply child_none. intros I. apply NoDup_remove_2 in ND. apply ND. apply in_or_app. left. exact I. }
  rewrite C. rewrite adds_app.
  assert (UI : unique (items xs)) by (destruct (items xs) as [|kv l] eqn:Q; [constructor|apply (U n); left; reflexivity]).
  pose proof (proj2 (adds_body xs (close s) n [] (mkI (close s) (Some (n, items xs))) F (NoDup_nil _)) (conj eq_refl UI)) as A. rewrite A.
  destruct (IH (mkI (close s) (Some (n, items xs)))) as (s' & A' & E').
  - rewrite close_named, root_app. destruct (items xs) as [|kv l]; cbn [named root map fst]; rewrite ?app_nil_r; [apply NoDup_remove_1 in ND; exact ND|].
    rewrite <- app_assoc. exact ND.
  - intros k l I. apply (U k l). apply in_or_app. right. exact I.
  - exists s'. split; [exact A'|]. rewrite E', close_named. fold (named n (items xs)). rewrite app_assoc. reflexivity.
Qed.
Lemma front_app : forall xs rest, Forall no_begin xs -> (rest = [] \/ exists n b, rest = Begin n :: b) -> front (xs ++ rest) = map fst (items xs).
Proof.
  intros xs rest F B. induction F as [|x xs N F IH]; [destruct B as [->|(n & b & ->)]; reflexivity|]. destruct x as [|n|k v]; [exact IH|destruct N|].
  cbn [app front items flat_map map fst]. f_equal. exact IH.
Qed.
Lemma sections_shape : forall rest pt, sections rest pt -> rest = [] \/ exists n b, rest = Begin n :: b.
Proof. intros rest pt []; eauto. Qed.
Lemma read_complete : forall t ls xs pt, lines t ls -> Forall2 says ls xs -> tells xs pt -> different (root_names xs) ->
  (forall k l, In (k, l) pt -> unique l) -> read_ini t = Some pt.
Proof.
  intros t ls xs pt L F T D U. unfold read_ini. apply lines_get in L. rewrite L, (add_lines_says ls xs _ F). destruct T as [xs rest pt FA P].
  rewrite adds_app. unfold different, root_names in D. rewrite (front_app xs rest FA (sections_shape _ _ P)), begun_app, begun_body in D by exact FA.
  cbn [app] in D. rewrite map_app, map_map in D.
  assert (RB : root (bare (items xs)) = map (fun x => map lower (fst x)) (items xs)) by (unfold root, bare; rewrite map_map; reflexivity).
  assert (UB : unique (bare (items xs))).
  { unfold unique. fold (root (bare (items xs))). rewrite RB. exact (nodup_app_l _ _ D). }
  rewrite (proj2 (adds_front xs [] (mkI (bare (items xs)) None) FA (NoDup_nil _)) (conj eq_refl UB)).
  destruct (sections_complete rest pt P (mkI (bare (items xs)) None)) as (s' & A & E).
  - cbn [close i_cur i_done]. rewrite RB. exact D.
  - intros k l I. apply (U k l). apply in_or_app. right. exact I.
  - rewrite A. f_equal. exact E.
Qed.

(** ** Nothing else is read *)
Lemma sections_fun : forall rest pt, sections rest pt -> forall s s', adds rest s = Some s' -> close s' = close s ++ pt.
Proof.
  intros rest pt H. induction H as [|n xs rest pt F P IH]; intros s s' A; [injection A as <-; rewrite app_nil_r; reflexivity|].
  cbn [adds add_line] in A. destruct (child n (close s)); [discriminate|]. rewrite adds_app in A.
  destruct (adds xs (mkI (close s) (Some (n, [])))) as [s1|] eqn:A1; [|discriminate]. apply adds_body in A1; [|exact F|constructor]. destruct A1 as [-> _].
  rewrite (IH _ _ A), close_named. cbn [app]. fold (named n (items xs)). rewrite app_assoc. reflexivity.
Qed.
Lemma read_fun : forall t ls xs pt pt', lines t ls -> Forall2 says ls xs -> tells xs pt -> read_ini t = Some pt' -> pt' = pt.
Proof.
  intros t ls xs pt pt' L F T R. unfold read_ini in R. apply lines_get in L. rewrite L, (add_lines_says ls xs _ F) in R. destruct T as [xs rest pt FA P].
  rewrite adds_app in R. destruct (adds xs (mkI [] None)) as [s1|] eqn:A1; [|discriminate]. apply adds_front in A1; [|exact FA|constructor]. destruct A1 as [-> _].
  destruct (adds rest _) as [s|] eqn:A; [|discriminate]. injection R as <-. rewrite (sections_fun rest pt P _ _ A). reflexivity.
Qed.
Lemma sections_total : forall m rest, (List.length rest <= m)%nat -> (rest = [] \/ exists n b, rest = Begin n :: b) -> exists pt, sections rest pt.
Proof.
  induction m as [|m IH]; intros rest L [->|(n & b & ->)]; try (exists []; constructor); [cbn in L; lia|].
  destruct (span b) as (xs & rest & -> & F & B). cbn [List.length] in L. rewrite app_length in L. destruct (IH rest ltac:(lia) B) as (pt & P).
  eexists. apply (sections_cons n xs rest pt F P).
Qed.
Lemma tells_total : forall xs, exists pt, tells xs pt.
Proof.
  intros xs. destruct (span xs) as (a & b & -> & F & B). destruct (sections_total _ b (le_n _) B) as (pt & P). eexists. apply (tells_all a b pt F P).
Qed.
Lemma says_fun : forall ls xs, Forall2 says ls xs -> forall ys, Forall2 says ls ys -> ys = xs.
Proof.
  intros ls xs H. induction H as [|l x ls xs H F IH]; intros ys G; inversion G as [|? y ? ys' H' G']; subst; [reflexivity|].
  apply says_read in H. apply says_read in H'. f_equal; [congruence|apply IH, G'].
Qed.

(** ** Line ends and lines without content *)
Lemma trim_cr : forall l, trim (l ++ [13]) = trim l.
Proof.
  intros l. destruct (trim_split l) as (w & w' & W & W' & E & C). rewrite E at 1. rewrite <- !app_assoc. rewrite app_assoc.
  rewrite <- app_assoc. apply trim_clean; [exact W| |exact C]. apply Forall_app. split; [exact W'|]. constructor; [apply white_spec; reflexivity|constructor].
Qed.
Lemma read_line_cr : forall l, read_line (l ++ [13]) = read_line l.
Proof. intros l. unfold read_line. rewrite trim_cr. reflexivity. Qed.
Lemma dos_line : forall l, ~ In 10 l -> dos l = l.
Proof. induction l as [|c l IH]; intros N; [reflexivity|]. cbn [dos flat_map]. cbn [In] in N. replace (c =? 10) with false by lia. cbn [app]. f_equal. apply IH. tauto. Qed.
Lemma dos_lines : forall t ls, lines t ls -> exists ls', lines (dos t) ls' /\ forall s, add_lines ls' s = add_lines ls s.
Proof.
  intros t ls H. induction H as [l N|l t ls N H (ls' & L & E)].
  - exists [l]. rewrite dos_line by exact N. split; [constructor; exact N|reflexivity].
  - exists ((l ++ [13]) :: ls'). split.
    + unfold dos. rewrite flat_map_app. cbn [flat_map]. rewrite Z.eqb_refl. fold (dos l). fold (dos t). rewrite dos_line by exact N.
      replace (l ++ [13; 10] ++ dos t) with ((l ++ [13]) ++ 10 :: dos t) by (rewrite <- app_assoc; reflexivity).
      constructor; [|exact L]. apply not_in_app; [exact N|]. cbn [In]. lia.
    + intros s. cbn [add_lines]. rewrite read_line_cr. destruct (read_line l) as [x|]; [|reflexivity]. destruct (add_line x s); [apply E|reflexivity].
Qed.
Lemma read_dos : forall t, read_ini (dos t) = read_ini t.
Proof.
  intros t. destruct (dos_lines t (get_lines t)) as (ls & L & E); [apply lines_get; reflexivity|]. unfold read_ini. apply lines_get in L. rewrite L, E. reflexivity.
Qed.
Lemma add_nothing : forall a l b s, says l Nothing -> add_lines (a ++ l :: b) s = add_lines (a ++ b) s.
Proof.
  intros a l b s H. revert s. induction a as [|x a IH]; intros s; cbn [app add_lines].
  - rewrite (says_read _ _ H). reflexivity.
  - destruct (read_line x) as [y|]; [|reflexivity]. destruct (add_line y s); [apply IH|reflexivity].
Qed.
