(** Proofs about the nodes made from the parameters. *)
From Verif Require Import Base KeyModel StorageModel EdsModel TextModel ChainModel ChainSpec MergeProofs ChainProps SetupModel SetupSpec.
From Coq Require Import Permutation.

Lemma names_parse o n f : names o n f <-> parse_object_name o = (n, f).
Proof.
  unfold names, bang. revert n. induction o as [|c o IH]; intros n; cbn [parse_object_name].
  - destruct f; split.
    + intros (r & E & _). destruct n; discriminate E.
    + discriminate.
    + intros [<- _]. reflexivity.
    + intros [= <-]. split; [reflexivity|intros []].
  - destruct (Z.eqb_spec c 33) as [->|N].
    + destruct f; split.
      * intros (r & E & I). destruct n as [|x n]; [reflexivity|]. injection E as <- _. contradiction I. left. reflexivity.
      * intros [= <-]. exists o. split; [reflexivity|intros []].
      * intros [<- I]. contradiction I. left. reflexivity.
      * discriminate.
    + destruct (parse_object_name o) as [n' f'] eqn:P. destruct f; split.
      * intros (r & E & I). destruct n as [|x n]; [injection E as E _; contradiction|]. injection E as <- E.
        assert (K : parse_object_name o = (n, true)).
        { rewrite P. apply IH. exists r. split; [exact E|]. intros J. apply I. right. exact J. }
        rewrite P in K. injection K as -> ->. reflexivity.
      * intros [= <- ->]. destruct (proj2 (IH n') eq_refl) as (r & E & I). exists r. subst o. split; [reflexivity|].
        intros [J|J]; [congruence|exact (I J)].
      * intros [<- I]. assert (K : parse_object_name o = (o, false)).
        { rewrite P. apply IH. split; [reflexivity|]. intros J. apply I. right. exact J. }
        rewrite P in K. injection K as -> ->. reflexivity.
      * intros [= <- ->]. destruct (proj2 (IH n') eq_refl) as [-> I]. split; [reflexivity|]. intros [J|J]; [congruence|exact (I J)].
Qed.

Section Proofs.
Variable plain : Z -> pval.
Variable load : text -> list (text * text) -> option EdsModel.dict.
Variable package : text -> text.
Variable join : text -> text -> text.
Variable added : value -> text -> EdsModel.dict -> bool.

Lemma texts_ok l ts : texts l = Some ts <-> l = map PText ts.
Proof.
  revert ts. induction l as [|x l IH]; intros ts; cbn [texts].
  - split; [intros [= <-]; reflexivity|]. destruct ts; [reflexivity|discriminate].
  - destruct x as [z|t|q|]; try (split; [discriminate|destruct ts; discriminate]). destruct (texts l) as [us|] eqn:E; cbn.
    + split; [intros [= <-]; cbn; f_equal; apply IH; reflexivity|]. destruct ts as [|u ts]; [discriminate|]. cbn. intros [= -> L].
      apply IH in L. congruence.
    + split; [discriminate|]. destruct ts as [|u ts]; [discriminate|]. cbn. intros [= -> L]. apply IH in L. discriminate L.
Qed.

Section Node.
Variables params defaults : value.
Hypothesis SP : is_struct params.
Hypothesis PP : proper params.
Hypothesis PD : proper defaults.
Let merged := node_params params defaults.

Lemma member_path k v : member k v = at_path [k] v.
Proof. destruct v; [reflexivity|]. cbn. destruct (find k ms); reflexivity. Qed.
Lemma combined k : member k merged = MergeProofs.combine (member k params) (member k defaults).
Proof.
  unfold merged, node_params. destruct SP as [ms ->]. destruct defaults as [z|bs].
  - cbn. destruct (find k ms) as [[|]|]; reflexivity.
  - rewrite merge_struct. cbn [member]. apply find_merge. apply PD.
Qed.
Lemma member_given k v : member k merged = Some v <-> given params defaults k v.
Proof.
  unfold given. rewrite <- !member_path. fold merged. rewrite combined. destruct (member k params) as [[z|ms]|]; cbn.
  - split; [intros [= <-]; reflexivity|intros ->; reflexivity].
  - reflexivity.
  - reflexivity.
Qed.
Lemma member_none k : member k merged = None <-> not_given params defaults k.
Proof.
  unfold not_given. rewrite <- !member_path, combined. destruct (member k params) as [[z|ms]|]; cbn.
  - split; [discriminate|intros [E _]; discriminate E].
  - split; [destruct (member k defaults) as [[|]|]; discriminate|intros [E _]; discriminate E].
  - tauto.
Qed.
Lemma text_given k t : (exists v, member k merged = Some v /\ as_text plain v = Some t) <-> given_text plain params defaults k t.
Proof.
  unfold given_text. split.
  - intros (v & M & A). destruct v as [z|ms]; [|discriminate A]. cbn in A. exists z. split; [apply member_given, M|].
    destruct (plain z); try discriminate A. congruence.
  - intros (z & G & E). exists (Plain z). split; [apply member_given, G|]. cbn. rewrite E. reflexivity.
Qed.
Lemma texts_given k l :
  match member k merged with None => Some [] | Some v => as_texts plain v end = Some l <-> given_texts plain params defaults k l.
Proof.
  unfold given_texts. destruct (member k merged) as [v|] eqn:M.
  - destruct v as [z|ms]; cbn [as_texts].
    + split.
      * intros E. right. right. exists z. split; [apply member_given, M|]. destruct (plain z); try discriminate E. f_equal. apply texts_ok, E.
      * intros [[N _]|[[G _]|(z' & G & E)]].
        -- apply member_none in N. congruence.
        -- apply member_given in G. congruence.
        -- apply member_given in G. assert (z' = z) by congruence. subst z'. rewrite E. apply texts_ok. reflexivity.
    + split.
      * intros E. right. left. destruct ms; [|discriminate E]. split; [apply member_given, M|congruence].
      * intros [[N _]|[[G ->]|(z' & G & E)]].
        -- apply member_none in N. congruence.
        -- apply member_given in G. assert (ms = []) by congruence. subst ms. reflexivity.
        -- apply member_given in G. congruence.
  - split.
    + intros [= <-]. left. split; [apply member_none, M|reflexivity].
    + intros [[_ ->]|[[G _]|(z' & G & E)]]; [reflexivity|apply member_given in G; congruence..].
Qed.

Lemma log_object_ok d lv n f x : log_object d lv n f = Some x <->
  exists e, l_forced x = f /\ object d n (l_key x) e /\ l_level x = lv /\ ((d_desc e = [] /\ l_name x = n) \/ (d_desc e <> [] /\ l_name x = d_desc e)).
Proof.
  unfold log_object, object. destruct (EdsModel.lookup d (key_fromString n)) as [e|] eqn:L.
  - destruct (type_of (d_type e)) eqn:T.
    + split.
      * intros [= <-]. exists e. cbn. repeat split; try assumption; try congruence. destruct (d_desc e); [left; auto|right; split; [discriminate|reflexivity]].
      * intros (e' & F & (K & L' & T') & V & D). rewrite K in L'. assert (e' = e) by congruence. subst e'. destruct x as [v k nm fo]. cbn in *. subst.
        destruct D as [[D ->]|[D ->]]; [rewrite D; reflexivity|]. destruct (d_desc e); [contradiction|reflexivity].
    + split; [discriminate|]. intros (e' & F & (K & L' & T') & _). rewrite K in L'. congruence.
  - split; [discriminate|]. intros (e' & F & (K & L' & T') & _). rewrite K in L'. congruence.
Qed.
Lemma log_all_ok d lv os : forall ls, log_all d lv os = Some ls <-> Forall2 (logs d lv) os ls.
Proof.
  induction os as [|o os IH]; intros ls; cbn [log_all].
  - split; [intros [= <-]; constructor|]. intros F. inversion F. reflexivity.
  - destruct (parse_object_name o) as [n f] eqn:P.
    assert (K : forall x, log_object d lv n f = Some x <-> logs d lv o x).
    { intros x. rewrite log_object_ok. unfold logs. split.
      - intros (e & F & R). exists n, e. split; [rewrite F; apply names_parse, P|exact R].
      - intros (n' & e & N & R). apply names_parse in N. rewrite P in N. injection N as <- ->. exists e. split; [reflexivity|exact R]. }
    destruct (log_object d lv n f) as [x|].
    + destruct (log_all d lv os) as [xs|].
      * cbn. split.
        -- intros [= <-]. constructor; [apply K; reflexivity|apply IH; reflexivity].
        -- intros F. inversion F as [|? y ? ys F1 F2]; subst. apply K in F1. apply IH in F2. congruence.
      * split; [discriminate|]. intros F. inversion F as [|? y ? ys F1 F2]; subst. apply IH in F2. discriminate F2.
    + split; [discriminate|]. intros F. inversion F as [|? y ? ys F1 F2]; subst. apply K in F1. discriminate F1.
Qed.
Lemma log_entries_ok d k lv ls : log_entries plain d merged k lv = Some ls <->
  exists os, given_texts plain params defaults k os /\ Forall2 (logs d lv) os ls.
Proof.
  unfold log_entries. split.
  - destruct (member k merged) as [v|] eqn:M.
    + destruct (as_texts plain v) as [os|] eqn:A; [|discriminate]. intros E. exists os. split; [apply texts_given; rewrite M; exact A|apply log_all_ok, E].
    + intros [= <-]. exists []. split; [apply texts_given; rewrite M; reflexivity|constructor].
  - intros (os & G & F). apply texts_given in G. destruct (member k merged) as [v|].
    + rewrite G. apply log_all_ok, F.
    + injection G as <-. inversion F. reflexivity.
Qed.

Lemma publish_object_ok d nn n f x : publish_object d nn n f = Some x <->
  exists e, p_forced x = f /\ object d n (p_key x) e /\ p_type x = d_type e /\ p_topic x = nn ++ str "_" ++ n.
Proof.
  unfold publish_object, object. destruct (EdsModel.lookup d (key_fromString n)) as [e|] eqn:L.
  - destruct (type_of (d_type e)) eqn:T.
    + split.
      * intros [= <-]. exists e. cbn. repeat split; try assumption; try congruence.
      * intros (e' & F & (K & L' & T') & V & D). rewrite K in L'. assert (e' = e) by congruence. subst e'. destruct x as [v k nm fo]. cbn in *. subst. reflexivity.
    + split; [discriminate|]. intros (e' & F & (K & L' & T') & _). rewrite K in L'. congruence.
  - split; [discriminate|]. intros (e' & F & (K & L' & T') & _). rewrite K in L'. congruence.
Qed.
Lemma publish_all_ok d nn os : forall ls, publish_all d nn os = Some ls <-> Forall2 (publishes d nn) os ls.
Proof.
  induction os as [|o os IH]; intros ls; cbn [publish_all].
  - split; [intros [= <-]; constructor|]. intros F. inversion F. reflexivity.
  - destruct (parse_object_name o) as [n f] eqn:P.
    assert (K : forall x, publish_object d nn n f = Some x <-> publishes d nn o x).
    { intros x. rewrite publish_object_ok. unfold publishes. split.
      - intros (e & F & R). exists n, e. split; [rewrite F; apply names_parse, P|exact R].
      - intros (n' & e & N & R). apply names_parse in N. rewrite P in N. injection N as <- ->. exists e. split; [reflexivity|exact R]. }
    destruct (publish_object d nn n f) as [x|].
    + destruct (publish_all d nn os) as [xs|].
      * cbn [option_map]. split.
        -- intros [= <-]. constructor; [apply K; reflexivity|apply IH; reflexivity].
        -- intros F. inversion F as [|? y ? ys F1 F2]; subst. apply K in F1. apply IH in F2. congruence.
      * split; [discriminate|]. intros F. inversion F as [|? y ? ys F1 F2]; subst. apply IH in F2. discriminate F2.
    + split; [discriminate|]. intros F. inversion F as [|? y ? ys F1 F2]; subst. apply K in F1. discriminate F1.
Qed.

(** Overlays *)
Let DCF := str "dcf_overlay".
Lemma merged_plain p z : plain_at p merged = Some z <->
  plain_at p params = Some z \/ (plain_at p defaults = Some z /\ ~ blocked p params /\ ~ struct_at p params).
Proof.
  split; [apply (C62_nothing_else p params defaults z SP PD)|].
  intros [H|(H & B & S)]; [apply (C62_own p params defaults z PD H)|].
  unfold plain_at, merged. rewrite (C62_default p params defaults SP PD B S). exact H.
Qed.
Lemma unique_member k ms : member k merged = Some (Struct ms) -> names_unique ms.
Proof.
  rewrite combined. assert (K : forall v, proper v -> forall ms, member k v = Some (Struct ms) -> names_unique ms).
  { intros v P xs E. destruct v as [z|ys]; [discriminate E|]. exact (proj1 (proper_find k ys (Struct xs) P E)). }
  destruct (member k params) as [[z|a]|] eqn:E1; cbn [MergeProofs.combine].
  - discriminate.
  - destruct (member k defaults) as [[z|c]|] eqn:E2.
    + intros [= <-]. exact (K params PP a E1).
    + rewrite merge_struct. intros [= <-]. apply names_merge. exact (K params PP a E1).
    + intros [= <-]. exact (K params PP a E1).
  - intros E. exact (K defaults PD ms E).
Qed.
Lemma find_in k ms (v : value) : names_unique ms -> (In (k, v) ms <-> find k ms = Some v).
Proof.
  induction ms as [|[q u] ms IH]; intros U; [split; [intros []|discriminate]|]. destruct U as [U1 U2]. cbn [find In].
  destruct (text_eqb k q) eqn:E.
  - apply text_eqb_eq in E. subst q. split.
    + intros [[= ->]|I]; [reflexivity|]. apply (IH U2) in I. congruence.
    + intros [= ->]. left. reflexivity.
  - rewrite <- (IH U2). split; [|tauto]. intros [[= -> ->]|I]; [rewrite text_eqb_refl in E; discriminate|exact I].
Qed.
Lemma overlay_of_in ms : forall ov, overlay_of plain ms = Some ov ->
  map fst ov = map fst ms /\ (forall o t, In (o, t) ov -> exists z, In (o, Plain z) ms /\ plain z = PText t) /\
  (forall o v, In (o, v) ms -> exists z t, v = Plain z /\ plain z = PText t /\ In (o, t) ov).
Proof.
  induction ms as [|[k v] ms IH]; intros ov E; cbn [overlay_of] in E.
  - injection E as <-. repeat split; intros ? ? [].
  - destruct (as_text plain v) as [t|] eqn:A; [|discriminate]. destruct (overlay_of plain ms) as [ov'|]; [|discriminate]. cbn in E. injection E as <-.
    destruct (IH ov' eq_refl) as (I1 & I2 & I3). destruct v as [z|]; [|discriminate A]. cbn in A.
    assert (Z : plain z = PText t) by (destruct (plain z); try discriminate A; congruence). repeat split.
    + cbn. congruence.
    + intros o t' [[= <- <-]|I]; [exists z; split; [left; reflexivity|exact Z]|]. destruct (I2 o t' I) as (z' & J & Q). exists z'. split; [right; exact J|exact Q].
    + intros o v [[= <- <-]|I]; [exists z, t; repeat split; [exact Z|left; reflexivity]|]. destruct (I3 o v I) as (z' & t' & J & Q & R).
      exists z', t'. repeat split; [exact J|exact Q|right; exact R].
Qed.
Lemma overlay_of_some ms : (forall o v, In (o, v) ms -> exists z t, v = Plain z /\ plain z = PText t) -> exists ov, overlay_of plain ms = Some ov.
Proof.
  induction ms as [|[k v] ms IH]; intros A; [exists []; reflexivity|]. destruct (A k v (or_introl eq_refl)) as (z & t & -> & Z).
  destruct IH as [ov E]; [intros o v I; apply (A o v); right; exact I|]. exists ((k, t) :: ov). cbn. rewrite Z, E. reflexivity.
Qed.
Lemma nodup_unique ms : names_unique ms -> NoDup (map fst ms).
Proof.
  induction ms as [|[k v] ms IH]; intros U; [constructor|]. destruct U as [U1 U2]. cbn. constructor; [|apply IH, U2].
  intros I. apply in_map_iff in I as ([k' v'] & E & I). cbn in E. subst k'. apply (find_in k ms v' U2) in I. congruence.
Qed.
Lemma merged_at o : at_path [DCF; o] merged = match member DCF merged with Some (Struct ms) => find o ms | _ => None end.
Proof.
  destruct merged as [z|ms] eqn:M; [reflexivity|]. cbn [at_path member]. destruct (find DCF ms) as [[z|xs]|]; try reflexivity.
  cbn. destruct (find o xs); reflexivity.
Qed.
Lemma overlaid_at o t : overlaid plain params defaults o t <-> exists z, plain_at [DCF; o] merged = Some z /\ plain z = PText t.
Proof.
  unfold overlaid. split.
  - intros (z & P & H). exists z. split; [apply merged_plain, H|exact P].
  - intros (z & H & P). exists z. split; [exact P|apply merged_plain, H].
Qed.
Lemma present_at o : at_path [DCF; o] merged <> None <->
  at_path [DCF; o] params <> None \/ (at_path [DCF; o] defaults <> None /\ ~ blocked [DCF; o] params).
Proof.
  clearbody DCF.
  destruct (at_path [DCF; o] params) as [[z|ms]|] eqn:A.
  - split; [left; discriminate|]. intros _. unfold merged. pose proof (C62_own [DCF; o] params defaults z PD) as H.
    unfold plain_at in H. rewrite A in H. specialize (H eq_refl). intros N. rewrite N in H. discriminate H.
  - split; [left; discriminate|]. intros _. destruct (C62_structures [DCF; o] params defaults PD (ex_intro _ ms A)) as [x X]. unfold merged. rewrite X. discriminate.
  - assert (NS : ~ struct_at [DCF; o] params) by (intros [x X]; congruence).
    assert (D : blocked [DCF; o] params \/ ~ blocked [DCF; o] params).
    { destruct SP as [ms E]. rewrite E in *. cbn [at_path] in A. destruct (find DCF ms) as [[z|xs]|] eqn:F.
      - left. exists [DCF], [o], z. split; [reflexivity|]. cbn [at_path]. rewrite F. reflexivity.
      - right. intros (q & r & z & Q1 & Q2). destruct q as [|a [|b [|c q]]]; cbn in Q1.
        + discriminate Q2.
        + injection Q1 as <- _. cbn [at_path] in Q2. rewrite F in Q2. discriminate Q2.
        + injection Q1 as <- <- _. cbn [at_path] in Q2. rewrite F in Q2. destruct (find o xs); [discriminate A|discriminate Q2].
        + discriminate Q1.
      - right. intros (q & r & z & Q1 & Q2). destruct q as [|a q]; [discriminate Q2|]. injection Q1 as <- _. cbn [at_path] in Q2. rewrite F in Q2. discriminate Q2. }
    destruct D as [B|B].
    + unfold merged. rewrite (C62_hidden [DCF; o] params defaults SP PD B), A. split; [congruence|]. intros [N|[_ N]]; [congruence|contradiction].
    + unfold merged. rewrite (C62_default [DCF; o] params defaults SP PD B NS). tauto.
Qed.

Lemma overlay_sound ov : overlay plain merged = Some ov ->
  overlay_names_once ov /\ (forall o t, In (o, t) ov <-> overlaid plain params defaults o t) /\ overlay_fine plain params defaults.
Proof.
  unfold overlay. fold DCF. intros E. destruct (member DCF merged) as [[z|ms]|] eqn:M; [discriminate E| |].
  - pose proof (unique_member DCF ms M) as U. destruct (overlay_of_in ms ov E) as (E1 & E2 & E3). split; [|split].
    + unfold overlay_names_once. rewrite E1. apply nodup_unique, U.
    + intros o t. rewrite overlaid_at. unfold plain_at. rewrite merged_at, M. split.
      * intros I. destruct (E2 o t I) as (z & I' & P). apply (find_in o ms (Plain z) U) in I'. exists z. rewrite I'. auto.
      * intros (z & F & P). destruct (find o ms) as [[z'|]|] eqn:Fo; [|discriminate F|discriminate F]. injection F as ->.
        apply (find_in o ms (Plain z) U) in Fo. destruct (E3 o _ Fo) as (z' & t' & [= <-] & P' & I). congruence.
    + split.
      * intros z G. apply member_given in G. fold DCF in G. congruence.
      * intros o H. fold DCF in H. apply present_at in H. rewrite merged_at, M in H. destruct (find o ms) as [v|] eqn:Fo; [|contradiction].
        destruct (E3 o v (proj2 (find_in o ms v U) Fo)) as (z & t & -> & P & I). exists t. apply overlaid_at. exists z. unfold plain_at. rewrite merged_at, M, Fo. auto.
  - injection E as <-. split; [constructor|]. split.
    + intros o t. split; [intros []|]. rewrite overlaid_at. unfold plain_at. rewrite merged_at, M. intros (z & F & _). discriminate F.
    + split.
      * intros z G. apply member_given in G. fold DCF in G. congruence.
      * intros o H. fold DCF in H. apply present_at in H. rewrite merged_at, M in H. contradiction.
Qed.
Lemma overlay_complete : overlay_fine plain params defaults -> exists ov, overlay plain merged = Some ov.
Proof.
  intros [N F]. unfold overlay. fold DCF. destruct (member DCF merged) as [[z|ms]|] eqn:M.
  - exfalso. apply (N z). apply member_given. exact M.
  - apply overlay_of_some. intros o v I. pose proof (unique_member DCF ms M) as U. apply (find_in o ms v U) in I.
    destruct (F o) as [t T]; [apply present_at; rewrite merged_at, M, I; discriminate|]. apply overlaid_at in T as (z & P & T).
    unfold plain_at in P. rewrite merged_at, M, I in P. destruct v as [z'|]; [|discriminate P]. injection P as ->. eauto.
  - eauto.
Qed.

Lemma eds_path_ok path : eds_path plain package join merged = Some path <-> file_of plain package join params defaults path.
Proof.
  unfold eds_path, file_of. set (F := str "eds_file"). set (Q := str "eds_pkg"). split.
  - destruct (member F merged) as [v|] eqn:M; [|discriminate]. destruct (as_text plain v) as [f|] eqn:A; [|discriminate]. intros [= <-].
    exists f. split; [apply text_given; eauto|]. destruct (member Q merged) as [w|] eqn:MQ.
    + destruct (as_text plain w) as [p|] eqn:AQ.
      * destruct (package p) as [|c cs] eqn:P.
        -- right. split; [reflexivity|]. intros p' G. apply text_given in G as (w' & MW & AW). congruence.
        -- left. exists p. split; [apply text_given; eauto|]. rewrite P. split; [discriminate|reflexivity].
      * right. split; [reflexivity|]. intros p' G. apply text_given in G as (w' & MW & AW). congruence.
    + right. split; [reflexivity|]. intros p' G. apply text_given in G as (w' & MW & AW). congruence.
  - intros (f & G & H). apply text_given in G as (v & M & A). rewrite M, A. f_equal. destruct H as [(p & G & N & ->)|[-> N]].
    + apply text_given in G as (w & MW & AW). rewrite MW, AW. destruct (package p); [contradiction|reflexivity].
    + destruct (member Q merged) as [w|] eqn:MW; [|reflexivity]. destruct (as_text plain w) as [p|] eqn:AW; [|reflexivity].
      rewrite (N p); [reflexivity|]. apply text_given. eauto.
Qed.

Lemma setup_sound name s : setup_node plain load package join added params name defaults = Some s ->
  describes plain load package join added params defaults name s.
Proof.
  unfold setup_node. fold merged. rewrite member_path. destruct (at_path [str "id"] params) as [vid|] eqn:I; [|discriminate].
  destruct (as_int plain vid) as [i|] eqn:AI; [|discriminate]. destruct (overlay plain merged) as [ov|] eqn:OV; [|discriminate].
  destruct (eds_path plain package join merged) as [path|] eqn:EP; [|discriminate]. destruct (load path ov) as [d|] eqn:LD; [|discriminate].
  destruct (added merged name d) eqn:AD; [|discriminate]. cbn [negb].
  destruct (log_entries plain d merged (str "log") 0) as [l0|] eqn:L0; [|discriminate].
  destruct (log_entries plain d merged (str "log_warn") 1) as [l1|] eqn:L1; [|discriminate].
  destruct (log_entries plain d merged (str "log_error") 2) as [l2|] eqn:L2; [|discriminate].
  destruct (match member (str "name") merged with None => Some name | Some v => as_text plain v end) as [nn|] eqn:NN; [|discriminate].
  destruct (match member (str "publish") merged with None => Some [] | Some v => match as_texts plain v with None => None | Some l => publish_all d nn l end end) as [pubs|] eqn:PB; [|discriminate].
  destruct (EdsModel.lookup d (key_index 4097)) as [e|] eqn:E1; [|discriminate]. intros [= <-].
  destruct (overlay_sound ov OV) as (O1 & O2 & O3). constructor; cbn [s_id s_dict s_diag s_name s_log s_pub].
  - destruct vid as [z|]; [|discriminate AI]. cbn in AI. exists z, i. split; [exact I|]. split; [destruct (plain z); congruence|reflexivity].
  - reflexivity.
  - destruct (member (str "name") merged) as [v|] eqn:M.
    + left. apply text_given. eauto.
    + right. split; [apply member_none, M|congruence].
  - exists path, ov. split; [apply eds_path_ok, EP|]. auto.
  - exact O3.
  - exact AD.
  - apply log_entries_ok in L0 as (o0 & G0 & F0). apply log_entries_ok in L1 as (o1 & G1 & F1). apply log_entries_ok in L2 as (o2 & G2 & F2).
    exists o0, o1, o2, l0, l1, l2. repeat split; assumption.
  - destruct (member (str "publish") merged) as [v|] eqn:M.
    + destruct (as_texts plain v) as [os|] eqn:A; [|discriminate PB]. exists os. split; [apply texts_given; rewrite M; exact A|apply publish_all_ok, PB].
    + injection PB as <-. exists []. split; [apply texts_given; rewrite M; reflexivity|constructor].
  - rewrite E1. discriminate.
Qed.

Hypothesis order_free : forall p ov ov', Permutation ov ov' -> load p ov = load p ov'.
Lemma setup_complete name s : describes plain load package join added params defaults name s ->
  setup_node plain load package join added params name defaults = Some s.
Proof.
  intros [(z & i & I & PI & ID) DG NM (path & ov & FO & O1 & O2 & LD) OF AD LG (os & G & F) EM].
  unfold setup_node. fold merged. rewrite member_path, I. cbn [as_int]. rewrite PI.
  destruct (overlay_complete OF) as [ov' OV']. rewrite OV'. destruct (overlay_sound ov' OV') as (O1' & O2' & _).
  apply eds_path_ok in FO. rewrite FO.
  assert (PM : Permutation ov' ov).
  { assert (ND : forall l : list (text * text), NoDup (map fst l) -> NoDup l).
    { induction l as [|x l IH]; intros H; [constructor|]. inversion H as [|? ? N1 N2]; subst. constructor; [|apply IH, N2].
      intros J. apply N1. apply in_map. exact J. }
    apply NoDup_Permutation; [apply ND, O1'|apply ND, O1|]. intros [o t]. rewrite O2, O2'. reflexivity. }
  rewrite (order_free path ov' ov PM), LD. fold merged in AD. rewrite AD. cbn [negb].
  destruct LG as (o0 & o1 & o2 & l0 & l1 & l2 & G0 & G1 & G2 & EL & F0 & F1 & F2).
  rewrite (proj2 (log_entries_ok (s_dict s) (str "log") 0 l0) (ex_intro _ o0 (conj G0 F0))).
  rewrite (proj2 (log_entries_ok (s_dict s) (str "log_warn") 1 l1) (ex_intro _ o1 (conj G1 F1))).
  rewrite (proj2 (log_entries_ok (s_dict s) (str "log_error") 2 l2) (ex_intro _ o2 (conj G2 F2))).
  assert (NN : match member (str "name") merged with None => Some name | Some v => as_text plain v end = Some (s_name s)).
  { destruct NM as [GN|[NG ->]].
    - apply text_given in GN as (v & -> & A). exact A.
    - apply member_none in NG. rewrite NG. reflexivity. }
  rewrite NN. apply texts_given in G.
  assert (PB : match member (str "publish") merged with None => Some [] | Some v => match as_texts plain v with None => None | Some l => publish_all (s_dict s) (s_name s) l end end = Some (s_pub s)).
  { destruct (member (str "publish") merged) as [v|]; [rewrite G; apply publish_all_ok, F|]. injection G as <-. inversion F. reflexivity. }
  rewrite PB. destruct (EdsModel.lookup (s_dict s) (key_index 4097)); [|contradiction]. f_equal. assert (U : u8 i = s_id s) by (rewrite ID; reflexivity). rewrite U.
  rewrite <- DG, <- EL. destruct s; reflexivity.
Qed.
End Node.

Lemma named_ok vs : forall l, named plain vs = Some l <-> entries_of plain (CArray vs) l.
Proof.
  unfold entries_of. induction vs as [|v vs IH]; intros l; cbn [named].
  - split; [intros [= <-]; constructor|]. intros F. inversion F. reflexivity.
  - rewrite member_path. destruct (at_path [str "name"] v) as [n|] eqn:A.
    + destruct (as_text plain n) as [t|] eqn:T.
      * assert (Z : exists z, n = Plain z /\ plain z = PText t).
        { destruct n as [z|]; [|discriminate T]. exists z. split; [reflexivity|]. cbn in T. destruct (plain z); congruence. }
        destruct Z as (z & -> & Z). destruct (named plain vs) as [xs|]; cbn.
        -- split.
           ++ intros [= <-]. constructor; [split; [reflexivity|exists z; auto]|apply IH; reflexivity].
           ++ intros F. inversion F as [|? [t' v'] ? ys [F1 (z' & F2 & F3)] F4]; subst. cbn [snd fst] in *. apply IH in F4. match type of A with ?a = _ => change (a = Some (Plain z')) in F2 end. rewrite A in F2. injection F2 as <-. congruence.
        -- split; [discriminate|]. intros F. inversion F as [|? ? ? ys F1 F4]; subst. apply IH in F4. discriminate F4.
      * split; [discriminate|]. intros F. inversion F as [|? [t' v'] ? ys [F1 (z' & F2 & F3)] F4]; subst. rewrite A in F2. injection F2 as ->. cbn in T. rewrite F3 in T. discriminate T.
    + split; [discriminate|]. intros F. inversion F as [|? [t' v'] ? ys [F1 (z' & F2 & F3)] F4]; subst. congruence.
Qed.
Lemma setup_all_ok l defaults : forall ns, setup_all plain load package join added l defaults = Some ns <->
  Forall2 (fun e s => setup_node plain load package join added (snd e) (fst e) defaults = Some s) l ns.
Proof.
  induction l as [|[n v] l IH]; intros ns; cbn [setup_all].
  - split; [intros [= <-]; constructor|]. intros F. inversion F. reflexivity.
  - destruct (setup_node plain load package join added v n defaults) as [s|] eqn:E.
    + destruct (setup_all plain load package join added l defaults) as [xs|]; cbn [option_map].
      * split; [intros [= <-]; constructor; [exact E|apply IH; reflexivity]|].
        intros F. inversion F as [|? y ? ys F1 F2]; subst. cbn [fst snd] in F1. apply IH in F2. congruence.
      * split; [discriminate|]. intros F. inversion F as [|? y ? ys F1 F2]; subst. apply IH in F2. discriminate F2.
    + split; [discriminate|]. intros F. inversion F as [|? y ? ys F1 F2]; subst. cbn [fst snd] in F1. congruence.
Qed.
Lemma setup_nodes_ok c defaults ns : setup_nodes plain load package join added c defaults = Some ns <->
  exists l, entries_of plain c l /\ Forall2 (fun e s => setup_node plain load package join added (snd e) (fst e) defaults = Some s) l ns.
Proof.
  destruct c as [vs|ms]; cbn [setup_nodes].
  - split.
    + destruct (named plain vs) as [l|] eqn:N; [|discriminate]. intros E. exists l. split; [apply named_ok, N|apply setup_all_ok, E].
    + intros (l & E & F). apply named_ok in E. rewrite E. apply setup_all_ok, F.
  - split.
    + intros E. exists ms. split; [reflexivity|apply setup_all_ok, E].
    + intros (l & E & F). cbn in E. subst l. apply setup_all_ok, F.
Qed.
End Proofs.

Lemma lookup_node_in {A} (l : list (text * A)) n a : NoDup (map fst l) -> (lookup_node n l = Some a <-> In (n, a) l).
Proof.
  induction l as [|[m b] l IH]; intros U; [split; [discriminate|intros []]|]. inversion U as [|? ? U1 U2]; subst. cbn [lookup_node In].
  destruct (text_eqb n m) eqn:E.
  - apply text_eqb_eq in E. subst m. split; [intros [= ->]; left; reflexivity|]. intros [[= ->]|I]; [reflexivity|].
    contradiction U1. apply (in_map fst) in I. exact I.
  - rewrite (IH U2). split; [tauto|]. intros [[= -> ->]|I]; [rewrite text_eqb_refl in E; discriminate|exact I].
Qed.
