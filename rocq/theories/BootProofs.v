From Coq Require Import Permutation.
From Verif Require Import Base CanModel KeyModel KeySpec KeyProofs StorageModel StorageSpec StorageProofs SdoModel SdoSpec RemoteModel RemoteSpec RemoteProofs EdsModel EdsSpec EdsProofs ServiceModel BootModel BootSpec.
From Verif Require TextProofs.

(** ** Every dictionary read from a file *)
Definition filed_under (ke : Z * dentry) : Prop :=
  exists k, okey_ok k /\ fst ke = mk_key k /\
    match k with KIndex i => d_index (snd ke) = i /\ d_sub (snd ke) = 0 | KSub i s => d_index (snd ke) = i /\ d_sub (snd ke) = s end.
Definition filed (d : dict) : Prop := NoDup (map fst d) /\ Forall filed_under d.

Lemma lookup_none_in : forall (d : dict) k, EdsModel.lookup d k = None <-> ~ In k (map fst d).
Proof.
  induction d as [|[k' e] d IH]; intros k; [cbn; tauto|]. cbn [EdsModel.lookup map fst In]. destruct (Z.eqb_spec k k') as [->|N].
  - split; [discriminate|tauto].
  - rewrite IH. split; intros H; [intros [E|I]; [congruence|tauto]|tauto].
Qed.
Lemma filed_insert : forall (b : bool) e d, filed d -> 0 <= d_index e < 2^16 -> (if b then 0 <= d_sub e < 2^8 else d_sub e = 0) -> filed (insert b e d).
Proof.
  intros b e d [ND F] Hi Hs. unfold insert. set (k := if b then key_sub (d_index e) (d_sub e) else key_index (d_index e)). destruct (EdsModel.lookup d k) eqn:L; [split; assumption|].
  apply lookup_none_in in L. split.
  - rewrite map_app. cbn [map fst]. apply (NoDup_Add (a := k) (l := map fst d)); [|auto]. pose proof (Add_app k (map fst d) []) as P. rewrite app_nil_r in P. exact P.
  - apply Forall_app. split; [exact F|]. constructor; [|constructor]. destruct b.
    + exists (KSub (d_index e) (d_sub e)). cbn. auto.
    + exists (KIndex (d_index e)). cbn. auto.
Qed.
Lemma index_range : forall s, 0 <= int_from_string U16 s < 2^16.
Proof. intros s. unfold int_from_string, wrap, U16. cbn [i_signed i_size]. apply Z.mod_pos_bound. reflexivity. Qed.
Lemma sub_range : forall s, 0 <= int_from_string U8 s < 2^8.
Proof. intros s. unfold int_from_string, wrap, U8. cbn [i_signed i_size]. apply Z.mod_pos_bound. reflexivity. Qed.

Section Files.
Variables (real : nat -> text -> option bytes) (raw_string : text -> bytes) (raw : ity -> Z -> bytes).
Lemma read_var_keys : forall e s e', read_var real raw_string raw e s = Some e' -> d_index e' = d_index e /\ d_sub e' = d_sub e.
Proof.
  intros e s e' H. unfold read_var in H. destruct (child (str "DataType") s); [|discriminate]. destruct (child (str "AccessType") s); [|discriminate].
  destruct (set_access _) as [[[r w] c]|]; [|discriminate]. destruct (read_value _ _ _ _ _); [|discriminate]. destruct (read_value _ _ _ _ _); [|discriminate].
  injection H as <-. auto.
Qed.
Lemma start_keys : forall s name e, start_entry s name = Some e -> 0 <= d_index e < 2^16 /\ d_sub e = 0.
Proof. intros s name e H. unfold start_entry in H. destruct (child _ s); [|discriminate]. injection H as <-. cbn [d_index d_sub]. split; [apply index_range|reflexivity]. Qed.
Lemma filed_sub : forall pt name i d d', filed d -> 0 <= i < 2^8 -> parse_sub real raw_string raw pt name i d = Some d' -> filed d'.
Proof.
  intros pt name i d d' F Hi H. unfold parse_sub in H. destruct (object_section pt name) as [[s|]|]; [|injection H as <-; exact F|discriminate].
  destruct (start_entry s name) as [e|] eqn:SE; [|discriminate]. destruct (read_var real raw_string raw (with_sub e i) s) as [e'|] eqn:RV; [|discriminate]. injection H as <-.
  apply start_keys in SE. apply read_var_keys in RV. cbn [with_sub d_index d_sub] in RV. destruct RV as [R1 R2].
  apply filed_insert; [exact F|rewrite R1; apply SE|rewrite R2; exact Hi].
Qed.
Lemma filed_subs : forall pt name n i d d', filed d -> 0 <= i -> i + Z.of_nat n <= 2^8 -> parse_subs real raw_string raw pt name i n d = Some d' -> filed d'.
Proof.
  intros pt name. induction n as [|n IH]; intros i d d' F Hi Hn H; cbn [parse_subs] in H; [injection H as <-; exact F|].
  destruct (parse_sub real raw_string raw pt (name ++ str "sub" ++ print_hex i true) i d) as [d1|] eqn:P; [|discriminate].
  apply (IH (i + 1) d1 d'); [|lia|lia|exact H]. apply (filed_sub _ _ _ _ _ F) in P; [exact P|lia].
Qed.
Lemma filed_compact : forall e name init n i d, filed d -> 0 <= d_index e < 2^16 -> 0 <= i -> i + Z.of_nat n <= 2^8 -> filed (compact_subs e name init i n d).
Proof.
  intros e name init. induction n as [|n IH]; intros i d F He Hi Hn; cbn [compact_subs]; [exact F|]. apply IH; [|exact He|lia|lia].
  apply filed_insert; [exact F|exact He|cbn [d_sub]; lia].
Qed.
Lemma filed_object : forall pt name d d', filed d -> parse_object real raw_string raw pt name d = Some d' -> filed d'.
Proof.
  intros pt name d d' F H. unfold parse_object in H. destruct (object_section pt name) as [[s|]|]; [|injection H as <-; exact F|discriminate].
  destruct (start_entry s name) as [e|] eqn:SE; [|discriminate]. apply start_keys in SE. destruct SE as [S1 S2].
  destruct ((d_code e =? 7) || (d_code e =? 2)).
  - destruct (read_var real raw_string raw e s) as [e'|] eqn:RV; [|discriminate]. injection H as <-. apply read_var_keys in RV. destruct RV as [R1 R2].
    apply filed_insert; [exact F|rewrite R1; exact S1|rewrite R2; exact S2].
  - destruct ((d_code e =? 8) || (d_code e =? 9)); [|discriminate]. set (n := int_from_string U8 _) in H. pose proof (sub_range (match child (str "CompactSubObj") s with Some t => t | None => [] end)) as SR. fold n in SR.
    destruct (negb (n =? 0)) eqn:N.
    + destruct (read_var real raw_string raw e s) as [e'|] eqn:RV; [|discriminate]. destruct (read_value _ _ _ _ _) as [hi|]; [|discriminate]. injection H as <-.
      apply read_var_keys in RV. destruct RV as [R1 R2]. apply filed_compact; [|rewrite R1; exact S1|lia|lia].
      apply filed_insert; [exact F|exact S1|cbn [d_sub]; lia].
    + destruct (child (str "SubNumber") s) as [t|]; [|discriminate]. pose proof (sub_range t). apply (filed_subs _ _ _ _ _ _ F) in H; [exact H|lia|lia].
Qed.
Lemma filed_names : forall pt l n i d d', filed d -> parse_names real raw_string raw pt l i n d = Some d' -> filed d'.
Proof.
  intros pt l. induction n as [|n IH]; intros i d d' F H; cbn [parse_names] in H; [injection H as <-; exact F|].
  destruct (child (print_dec (i + 1)) l) as [name|]; [|discriminate]. destruct (parse_object real raw_string raw pt name d) as [d1|] eqn:P; [|discriminate].
  exact (IH _ _ _ (filed_object _ _ _ _ F P) H).
Qed.
Lemma filed_objects : forall pt g d d', filed d -> parse_objects real raw_string raw pt g d = Some d' -> filed d'.
Proof.
  intros pt g d d' F H. unfold parse_objects in H. destruct (child g pt) as [l|]; [|injection H as <-; exact F]. exact (filed_names _ _ _ _ _ _ F H).
Qed.
Lemma filed_file : forall pt ov inf d, from_file real raw_string raw pt ov = Some (inf, d) -> filed d.
Proof.
  intros pt ov inf d H. unfold from_file in H. destruct (child (str "DeviceInfo") pt) as [di|]; [|discriminate].
  destruct (flags_ok (str "BaudRate_") di && _); [|discriminate]. destruct (apply_overlay ov pt) as [pt1|]; [|discriminate].
  destruct (parse_objects real raw_string raw pt1 (str "MandatoryObjects") []) as [d1|] eqn:P1; [|discriminate].
  destruct (parse_objects real raw_string raw pt1 (str "OptionalObjects") d1) as [d2|] eqn:P2; [|discriminate].
  destruct (parse_objects real raw_string raw pt1 (str "ManufacturerObjects") d2) as [d3|] eqn:P3; [|discriminate]. injection H as _ <-.
  assert (F0 : filed []) by (split; constructor). exact (filed_objects _ _ _ _ (filed_objects _ _ _ _ (filed_objects _ _ _ _ F0 P1) P2) P3).
Qed.
End Files.

(** ** Configured values *)
Definition spot (e : dentry) : Z * Z := (d_index e, d_sub e).
Definition sendable (e : dentry) : Prop :=
  forall b, h_data (d_init e) = Some b -> Forall byte_ok b /\ (1 <= List.length b < 256)%nat.

Lemma put_other : forall i s b o i' s', (i', s') <> (i, s) -> put_object i s b o i' s' = o i' s'.
Proof.
  intros i s b o i' s' N. unfold put_object. destruct (Z.eqb_spec i' i), (Z.eqb_spec s' s); try reflexivity. subst. congruence.
Qed.
Lemma put_same : forall i s b o, put_object i s b o i s = b.
Proof. intros. unfold put_object. rewrite !Z.eqb_refl. reflexivity. Qed.

(** What init does, whatever comes back *)
Lemma data_init_cases : forall e c wr, exists c1 ev r, data_init e c wr = Ok (c1, ev, r) /\
  ((must_write e (view c) = [] /\ ev = [] /\ r = RDone) \/
   (exists iv, must_write e (view c) = [iv] /\ h_data (e_init e) = Some iv /\ e_writable e = true /\ ev = [EvWrite (c_wr c) iv wr] /\
      r = if wr then RDone else RThrow DeviceError)).
Proof.
  intros e c wr. destruct (init_writes e c) as (c1 & r & ev & E & R & V).
  unfold data_init in *. unfold must_write in *. destruct (h_data (e_init e)) as [iv|]; [|do 3 eexists; split; [reflexivity|left; auto]].
  destruct (match h_data (e_def e) with Some dv => c_valid c && negb (bytes_eqb (c_buf c) dv) | None => false end).
  { injection E as <- <- <-. do 3 eexists. split; [reflexivity|]. left. destruct (_ && _ && _ && _); [discriminate|auto]. }
  destruct (negb (c_valid c) || negb (bytes_eqb (c_buf c) iv)).
  - destruct (e_writable e && _) eqn:W.
    + injection E as <- <- <-. do 3 eexists. split; [reflexivity|]. right. exists iv. apply andb_prop in W. destruct W as [W _].
      destruct (_ && _ && _ && _); [|discriminate]. auto.
    + injection E as <- <- <-. do 3 eexists. split; [reflexivity|]. left. destruct (_ && _ && _ && _); [discriminate|auto].
  - injection E as <- <- <-. do 3 eexists. split; [reflexivity|]. left. destruct (_ && _ && _ && _); [discriminate|auto].
Qed.
Lemma init_object_cases : forall v n k e s o, exists s1 o1 ok, init_object v n k e s o = Ok (s1, o1, ok) /\
  (forall k', k' <> k -> StorageModel.lookup k' s1 = StorageModel.lookup k' s) /\
  ((o1 = o /\ ok = true /\ (unmapped s k -> must_write (entry_of e) (held s k) = [])) \/
   (exists iv, must_write (entry_of e) (held s k) = [iv] /\ h_data (d_init e) = Some iv /\ d_writable e = true /\ unmapped s k /\
      o1 = put_object (d_index e) (d_sub e) (fst (remote_write v (d_index e) (d_sub e) (o (d_index e) (d_sub e)) n iv)) o /\
      ok = snd (remote_write v (d_index e) (d_sub e) (o (d_index e) (d_sub e)) n iv))).
Proof.
  intros v n k e s o. unfold init_object, init_nolock. cbn [entry_of e_init].
  destruct (h_data (d_init e)) as [iv|] eqn:EI.
  2:{ do 3 eexists. split; [reflexivity|]. split; [reflexivity|]. left. split; [reflexivity|]. split; [reflexivity|].
      intros _. unfold must_write. cbn [entry_of e_init]. rewrite EI. reflexivity. }
  set (w := remote_write v (d_index e) (d_sub e) (o (d_index e) (d_sub e)) n iv).
  set (c := match StorageModel.lookup k s with Some c => c | None => _ end).
  set (direct := match StorageModel.lookup k s with Some c => Nat.eqb (c_wr c) 0 | None => true end).
  assert (HV : view c = held s k) by (unfold view, held, c; destruct (StorageModel.lookup k s); reflexivity).
  assert (DU : direct = true -> unmapped s k).
  { unfold direct, unmapped. intros D c0 L. rewrite L in D. apply Nat.eqb_eq in D. exact D. }
  assert (UD : unmapped s k -> direct = true).
  { unfold direct, unmapped. intros D. destruct (StorageModel.lookup k s) as [c0|]; [|reflexivity]. apply Nat.eqb_eq. apply D. reflexivity. }
  destruct (data_init_cases (entry_of e) c (if direct then snd w else true)) as (c1 & ev & r & E & H). rewrite HV in H. rewrite E.
  do 3 eexists. split; [reflexivity|]. split; [intros k' N; apply lookup_store_neq; congruence|].
  destruct H as [(M & -> & ->)|(iv' & M & EI' & W & -> & ->)].
  - left. cbn [keyed map]. auto.
  - assert (iv' = iv) by (cbn [entry_of e_init] in EI'; congruence). subst iv'. cbn [keyed map]. destruct direct.
    + right. exists iv. split; [exact M|]. split; [reflexivity|]. split; [exact W|]. split; [auto|]. split; [reflexivity|]. fold w. destruct (snd w); reflexivity.
    + left. split; [reflexivity|]. split; [reflexivity|]. intros U. apply UD in U. discriminate.
Qed.

(** Whatever the servers do *)
Lemma init_device_content : forall v n l s o, Forall (fun ke => object_ok (d_index (snd ke)) (d_sub (snd ke)) /\ sendable (snd ke)) l ->
  exists s' o' ok, init_device v n l s o = Ok (s', o', ok) /\
  (forall i sb, o' i sb = o i sb \/ exists k e, In (k, e) l /\ spot e = (i, sb) /\ d_writable e = true /\ h_data (d_init e) = Some (o' i sb)) /\
  (ok = false -> exists k e b obj, In (k, e) l /\ d_writable e = true /\ h_data (d_init e) = Some b /\
     snd (remote_write (v k) (d_index e) (d_sub e) obj (n k) b) = false).
Proof.
  intros v n. induction l as [|[k e] l IH]; intros s o F.
  - cbn [init_device]. do 3 eexists. split; [reflexivity|]. split; [intros; left; reflexivity|discriminate].
  - inversion F as [|x l0 [OK SE] F']; subst. cbn [snd] in OK, SE. cbn [init_device].
    destruct (init_object_cases (v k) (n k) k e s o) as (s1 & o1 & ok & E & _ & H). rewrite E.
    assert (H1 : forall i sb, o1 i sb = o i sb \/ spot e = (i, sb) /\ d_writable e = true /\ h_data (d_init e) = Some (o1 i sb)).
    { intros i sb. destruct H as [(-> & _)|(iv & _ & EI & W & _ & -> & _)]; [left; reflexivity|].
      destruct (SE iv EI) as [B L]. assert (FT : fits TStr iv) by (split; [exact B|split; [exact L|exact Logic.I]]).
      destruct (Z.eq_dec i (d_index e)) as [->|N1]; [|left; apply put_other; congruence].
      destruct (Z.eq_dec sb (d_sub e)) as [->|N1]; [|left; apply put_other; congruence]. rewrite put_same.
      destruct (remote_write_content TStr (d_index e) (d_sub e) OK (v k) (o (d_index e) (d_sub e)) (n k) iv FT) as [->| ->]; [left; reflexivity|right; auto]. }
    destruct ok.
    + destruct (IH s1 o1 F') as (s' & o' & ok & E2 & C & R). exists s', o', ok. split; [exact E2|]. split.
      * intros i sb. destruct (C i sb) as [Q1|(k' & e' & I1 & Q2)]; [|right; exists k', e'; split; [right; exact I1|exact Q2]].
        rewrite Q1. destruct (H1 i sb) as [Q2|Q2]; [left; exact Q2|right; exists k, e; split; [left; reflexivity|exact Q2]].
      * intros Q1. destruct (R Q1) as (k' & e' & b & ob & I1 & Q2). exists k', e', b, ob. split; [right; exact I1|exact Q2].
    + exists s1, o1, false. split; [reflexivity|]. split.
      * intros i sb. destruct (H1 i sb) as [Q2|Q2]; [left; exact Q2|right; exists k, e; split; [left; reflexivity|exact Q2]].
      * intros _. destruct H as [(_ & Q1 & _)|(iv & _ & EI & W & _ & _ & Q1)]; [discriminate|].
        exists k, e, iv, (o (d_index e) (d_sub e)). split; [left; reflexivity|]. auto.
Qed.

(** Servers that answer *)
Lemma init_device_all : forall v n l s o, Forall (fun ke => object_ok (d_index (snd ke)) (d_sub (snd ke)) /\ sendable (snd ke)) l ->
  NoDup (map fst l) -> NoDup (map (fun ke => spot (snd ke)) l) -> (forall k, answering (n k)) ->
  exists s' o' ok, init_device v n l s o = Ok (s', o', ok) /\ ((forall k, v_veto (v k) = no_veto) -> ok = true) /\
  (ok = true -> forall k e, In (k, e) l -> unmapped s k ->
    o' (d_index e) (d_sub e) = match must_write (entry_of e) (held s k) with [] => o (d_index e) (d_sub e) | b :: _ => b end).
Proof.
  intros v n. induction l as [|[k e] l IH]; intros s o F ND NS A.
  - cbn [init_device]. do 3 eexists. split; [reflexivity|]. split; [reflexivity|]. intros _ k e [].
  - inversion F as [|x l0 [OK SE] F']; subst. cbn [snd] in OK, SE. cbn [init_device map fst snd] in *.
    apply NoDup_cons_iff in ND. destruct ND as [NI ND]. apply NoDup_cons_iff in NS. destruct NS as [NSI NS].
    destruct (init_object_cases (v k) (n k) k e s o) as (s1 & o1 & ok & E & OL & H). rewrite E. pose proof (A k) as AN.
    assert (H1 : (v_veto (v k) = no_veto -> ok = true) /\ (ok = true -> (forall i sb, spot e <> (i, sb) -> o1 i sb = o i sb) /\
      (unmapped s k -> o1 (d_index e) (d_sub e) = match must_write (entry_of e) (held s k) with [] => o (d_index e) (d_sub e) | b :: _ => b end))).
    { destruct H as [(-> & -> & M)|(iv & M & EI & W & U & -> & ->)].
      - split; [reflexivity|]. intros _. split; [reflexivity|]. intros U. rewrite (M U). reflexivity.
      - destruct (SE iv EI) as [B L]. assert (FT : fits TStr iv) by (split; [exact B|split; [exact L|exact Logic.I]]).
        destruct (remote_write_spec TStr (d_index e) (d_sub e) OK (v k) (o (d_index e) (d_sub e)) (n k) iv FT AN) as [->|[-> Q1]].
        + cbn [fst snd]. split; [reflexivity|]. intros _. split; [intros i sb N; apply put_other; unfold spot in N; congruence|].
          intros _. rewrite M. apply put_same.
        + cbn [snd]. split; [intros Q2; contradiction|discriminate]. }
    destruct H1 as [OKV H1]. destruct ok.
    2:{ exists s1, o1, false. split; [reflexivity|]. split; [intros Q1; exact (OKV (Q1 k))|discriminate]. }
    destruct (H1 eq_refl) as [H1' H2]. destruct (IH s1 o1 F' ND NS A) as (s' & o' & ok & E2 & G & C). exists s', o', ok. split; [exact E2|]. split; [exact G|].
    assert (REST : forall i sb, (forall k' e', In (k', e') l -> spot e' <> (i, sb)) -> o' i sb = o1 i sb).
    { intros i sb N. destruct (init_device_content v n l s1 o1 F') as (s'' & o'' & ok' & E3 & C3 & _). rewrite E2 in E3. injection E3 as <- <- _.
      destruct (C3 i sb) as [Q1|(k' & e' & I1 & Q1 & _)]; [exact Q1|]. exfalso. exact (N k' e' I1 Q1). }
    intros OKT k' e' [Q1|I1] U.
    + injection Q1 as <- <-. rewrite REST; [exact (H2 U)|]. intros k' e' I1 Q1. apply NSI. apply in_map_iff. exists (k', e'). auto.
    + assert (N : k' <> k). { intros ->. apply NI. apply in_map_iff. exists (k, e'). auto. }
      assert (NS' : spot e <> spot e'). { intros Q1. apply NSI. rewrite Q1. apply in_map_iff. exists (k', e'). auto. }
      rewrite (C OKT k' e' I1).
      * unfold held. rewrite (OL k' N). rewrite (H1' (d_index e') (d_sub e') NS'). reflexivity.
      * intros c L. apply U. rewrite <- (OL k' N). exact L.
Qed.

(** ** Dictionaries that describe objects *)
Section Described.
Variables (raw : ity -> Z -> bytes) (objs : list (Z * obj)) (d : EdsModel.dict).
Hypothesis RAW : forall T x, List.length (raw T x) = 16%nat /\ Forall byte_ok (raw T x).
Hypothesis FLOATS : floats_ok objs.
Hypothesis FILED : filed d.
Hypothesis WANTED : forall k, okey_ok k ->
  match wanted objs k with
  | Some (i, s, v) => exists e, EdsModel.lookup d (mk_key k) = Some e /\ describes raw i s v e
  | None => EdsModel.lookup d (mk_key k) = None
  end.

Lemma kind_size : forall c k T, kind_of c = Some k -> integers k = Some T -> 1 <= i_size T <= 8.
Proof.
  intros c k T H H1. unfold kind_of in H.
  repeat match type of H with (match ?x with _ => _ end) = _ => destruct x; try discriminate end; injection H as <-; cbn in H1; injection H1 as <- || discriminate; cbn; lia.
Qed.
Lemma float_size : forall c n, kind_of c = Some (Float n) -> (1 <= n <= 8)%nat.
Proof.
  intros c n H. unfold kind_of in H.
  repeat match type of H with (match ?x with _ => _ end) = _ => destruct x; try discriminate end; injection H as <-; lia.
Qed.
Lemma wanted_spot : forall k i s x, wanted objs k = Some (i, s, x) -> match k with KIndex j => i = j /\ s = 0 | KSub j t => i = j /\ s = t end.
Proof.
  intros [j|j t] i s x H; cbn [wanted] in H; destruct (obj_at objs j) as [[y|c l]|]; try discriminate.
  - injection H as <- <- _. auto.
  - destruct (nth_error l (Z.to_nat t)); [|discriminate]. injection H as <- <- _. auto.
Qed.
Lemma wanted_once : forall k k' i s x x', wanted objs k = Some (i, s, x) -> wanted objs k' = Some (i, s, x') -> k = k'.
Proof.
  intros k k' i s x x' H H'. pose proof (wanted_spot _ _ _ _ H) as A. pose proof (wanted_spot _ _ _ _ H') as B.
  destruct k as [j|j t], k' as [j'|j' t']; destruct A as [A1 A2], B as [B1 B2]; subst; try reflexivity; exfalso;
    cbn [wanted] in H, H'; destruct (obj_at objs j') as [[y|c l]|]; discriminate.
Qed.
Lemma in_lookup : forall (l : EdsModel.dict) k e, NoDup (map fst l) -> In (k, e) l -> EdsModel.lookup l k = Some e.
Proof.
  induction l as [|[k' e'] l IH]; intros k e ND H; [destruct H|]. cbn [map fst] in ND. apply NoDup_cons_iff in ND. destruct ND as [NI ND].
  cbn [EdsModel.lookup]. destruct H as [H|H].
  - injection H as -> ->. rewrite Z.eqb_refl. reflexivity.
  - destruct (Z.eqb_spec k k') as [->|N]; [|apply IH; assumption]. exfalso. apply NI. apply in_map_iff. exists (k', e). auto.
Qed.
Lemma lookup_in_dict : forall (l : EdsModel.dict) k e, EdsModel.lookup l k = Some e -> In (k, e) l.
Proof.
  induction l as [|[k' e'] l IH]; intros k e H; [discriminate|]. cbn [EdsModel.lookup] in H. destruct (Z.eqb_spec k k') as [->|N]; [injection H as ->; left; reflexivity|right; auto].
Qed.
Lemma entry_wanted : forall k e, In (k, e) d -> exists ok i s x, okey_ok ok /\ k = mk_key ok /\ wanted objs ok = Some (i, s, x) /\ describes raw i s x e.
Proof.
  intros k e H. destruct FILED as [ND F]. rewrite Forall_forall in F. destruct (F _ H) as (ok & OK & K & _). cbn [fst] in K.
  pose proof (in_lookup d k e ND H) as L. subst k. pose proof (WANTED ok OK) as W. destruct (wanted objs ok) as [[[i s] x]|] eqn:WW; [|congruence].
  destruct W as (e' & L' & D). assert (e' = e) by congruence. subst e'. exists ok, i, s, x. auto.
Qed.
Lemma described_sendable : forall ok i s x e, okey_ok ok -> wanted objs ok = Some (i, s, x) -> describes raw i s x e -> object_ok (d_index e) (d_sub e) /\ sendable e.
Proof.
  intros ok i s x e OK W (_ & DI & DS & _ & _ & _ & _ & _ & _ & kd & KD & _ & ST). split.
  - rewrite DI, DS. pose proof (wanted_spot _ _ _ _ W) as A. unfold object_ok. destruct ok; destruct A as [-> ->]; cbn in OK; lia.
  - intros b H. unfold stored in ST. destruct (v_init x) as [[y|y|f]|] eqn:VI.
    + destruct ST as (T & b' & IT & E & L & B & _). assert (b' = b) by (rewrite E in H; cbn in H; congruence). subst b'. split; [exact B|].
      pose proof (kind_size _ _ _ KD IT). lia.
    + destruct ST as (T & IT & E). assert (raw T y = b) by (rewrite E in H; cbn in H; congruence). subst b. destruct (RAW T y) as [L B]. split; [exact B|lia].
    + destruct ST as (m & K & E). assert (f = b) by (rewrite E in H; cbn in H; congruence). subst f kd.
      destruct (FLOATS ok i s x b m OK W VI KD) as [L B]. pose proof (float_size _ _ KD). split; [exact B|lia].
    + destruct ST as [E _]. congruence.
Qed.
Lemma order_ok : forall l, Permutation l d ->
  Forall (fun ke => object_ok (d_index (snd ke)) (d_sub (snd ke)) /\ sendable (snd ke)) l /\ NoDup (map fst l) /\ NoDup (map (fun ke => spot (snd ke)) l).
Proof.
  intros l P. split; [|split].
  - apply Forall_forall. intros [k e] H. apply (Permutation_in _ P) in H. destruct (entry_wanted k e H) as (ok & i & s & x & OK & _ & W & D).
    exact (described_sendable _ _ _ _ _ OK W D).
  - apply (Permutation_NoDup (l := map fst d)); [apply Permutation_map; symmetry; exact P|apply FILED].
  - apply (Permutation_NoDup (l := map (fun ke => spot (snd ke)) d)); [apply Permutation_map; symmetry; exact P|].
    assert (G : forall l, NoDup (map fst l) -> incl l d -> NoDup (map (fun ke => spot (snd ke)) l)).
    { clear l P. induction l as [|[k e] l IH]; intros ND IN; cbn [map fst snd] in *; [constructor|]. apply NoDup_cons_iff in ND. destruct ND as [NI ND].
      constructor; [|apply IH; [exact ND|intros y Y; apply IN; right; exact Y]]. intros Q1. apply in_map_iff in Q1. destruct Q1 as ([k' e'] & Q1 & I1). cbn [snd] in Q1.
      destruct (entry_wanted k e (IN _ (or_introl eq_refl))) as (ok & i & s & x & OK & K & W & D).
      destruct (entry_wanted k' e' (IN _ (or_intror I1))) as (ok' & i' & s' & x' & OK' & K' & W' & D').
      destruct D as (_ & DI & DS & _). destruct D' as (_ & DI' & DS' & _). unfold spot in Q1. rewrite DI, DS, DI', DS' in Q1. injection Q1 as -> ->.
      pose proof (wanted_once _ _ _ _ _ _ W W') as ->. apply NI. apply in_map_iff. exists (k', e'). cbn [fst]. split; [congruence|exact I1]. }
    apply G; [apply FILED|intros y Y; exact Y].
Qed.
Lemma stored_carries : forall kd x h b, stored raw kd (Some x) h -> h_data h = Some b -> absolute x -> carries kd x b.
Proof.
  intros kd x h b ST H A. unfold stored in ST. destruct x as [y|y|f].
  - destruct ST as (T & b' & IT & E & L & B & V). assert (b' = b) by (rewrite E in H; cbn in H; congruence). subst b'. exists T. auto.
  - exfalso. exact (A y eq_refl).
  - destruct ST as (m & _ & E). rewrite E in H. cbn in H. cbn. congruence.
Qed.
Lemma carries_inj : forall kd x b b', carries kd x b -> carries kd x b' -> b = b'.
Proof.
  intros kd [y|y|f] b b' H H'; cbn in H, H'; [|contradiction|congruence].
  destruct H as (T & I1 & L & B & V), H' as (T' & I2 & L' & B' & V'). assert (T' = T) by congruence. subst T'.
  apply TextProofs.of_le_inj; [lia|assumption|assumption|congruence].
Qed.
Lemma stored_data : forall kd x h, stored raw kd (Some x) h -> exists b, h_data h = Some b.
Proof. intros kd [y|y|f] h H; cbn in H; [destruct H as (T & b & _ & -> & _)|destruct H as (T & _ & ->)|destruct H as (n & _ & ->)]; cbn; eauto. Qed.
Lemma stored_relative : forall kd y h, stored raw kd (Some (NodeIdPlus y)) h -> exists b, h_data h = Some b /\ List.length b = 16%nat.
Proof. intros kd y h (T & _ & ->). cbn. eexists. split; [reflexivity|apply RAW]. Qed.

Lemma configured : forall l s o v n, Permutation l d -> (forall k, answering (n k)) ->
  exists s' o' ok, init_device v n l s o = Ok (s', o', ok) /\ ((forall k, v_veto (v k) = no_veto) -> ok = true) /\
  (ok = true -> forall k i sb x kd, okey_ok k -> wanted objs k = Some (i, sb, x) -> kind_of (v_type x) = Some kd -> unmapped s (mk_key k) -> unchanged s (mk_key k) kd (v_def x) ->
    match v_init x with
    | Some y => if can_write (v_access x)
                then absolute y -> (forall z, v_def x = Some z -> absolute z -> carries kd z (o i sb)) -> carries kd y (o' i sb)
                else o' i sb = o i sb
    | None => o' i sb = o i sb
    end).
Proof.
  intros l s o v n P A. destruct (order_ok l P) as (F & ND & NS). destruct (init_device_all v n l s o F ND NS A) as (s' & o' & ok & E & G & C).
  exists s', o', ok. split; [exact E|]. split; [exact G|]. intros OKT k i sb x kd OK W KD U UC. specialize (C OKT). pose proof (WANTED k OK) as WK. rewrite W in WK. destruct WK as (e & L & D).
  apply lookup_in_dict in L. apply (Permutation_in _ (Permutation_sym P)) in L. specialize (C _ _ L U).
  pose proof D as (_ & DI & DS & _ & _ & _ & DW & _ & _ & kd' & KD' & SD & SI). assert (kd' = kd) by congruence. subst kd'. rewrite DI, DS in C.
  destruct (v_init x) as [y|] eqn:VI.
  - destruct (stored_data _ _ _ SI) as [iv EI]. unfold must_write in C. cbn [entry_of e_init e_def e_writable] in C. rewrite EI, DW in C.
    destruct (can_write (v_access x)); [|exact C]. cbn [andb] in C. intros AY DEF.
    pose proof (stored_carries _ _ _ _ SI EI AY) as CI.
    assert (HH : held s (mk_key k) = None \/ exists b z, held s (mk_key k) = Some b /\ v_def x = Some z /\ carries kd z b).
    { unfold held, unchanged in *. destruct (StorageModel.lookup (mk_key k) s) as [c|]; [|left; reflexivity]. destruct (c_valid c) eqn:V; [|left; reflexivity].
      right. destruct (UC c eq_refl V) as (z & Z1 & Z2). eauto. }
    destruct (v_def x) as [z|] eqn:VD.
    + destruct (stored_data _ _ _ SD) as [dv ED]. rewrite ED in C.
      assert (AZ : carries kd z dv \/ (iv <> dv /\ ~ absolute z)).
      { destruct z as [z|z|z]; [left; apply (stored_carries _ _ _ _ SD ED); intros ? ?; discriminate| |left; apply (stored_carries _ _ _ _ SD ED); intros ? ?; discriminate].
        right. split; [|intros Q1; exact (Q1 z eq_refl)]. destruct (stored_relative _ _ _ SD) as (b & Q1 & Q2). assert (b = dv) by congruence. subst b. intros ->.
        destruct y as [y|y|f]; [|exact (AY y eq_refl)|].
        - destruct CI as (T & IT & LL & _). pose proof (kind_size _ _ _ KD IT). lia.
        - cbn in CI. subst f. destruct SI as (m & -> & _). destruct (FLOATS k i sb x dv m OK W VI KD) as [LL _]. pose proof (float_size _ _ KD). lia. }
      destruct HH as [HH|(b & z' & HH & VD' & CB)]; rewrite HH in C.
      * cbn [user_changed differs negb andb] in C. unfold differs in C. destruct (list_eq_dec Z.eq_dec iv dv) as [->|N]; cbn in C; rewrite C; [|exact CI].
        destruct AZ as [AZ|[AZ _]]; [|contradiction]. destruct z as [z|z|z]; [|destruct AZ|].
        -- rewrite (carries_inj _ _ _ _ (DEF _ eq_refl ltac:(intros ? ?; discriminate)) AZ). exact CI.
        -- rewrite (carries_inj _ _ _ _ (DEF _ eq_refl ltac:(intros ? ?; discriminate)) AZ). exact CI.
      * assert (z' = z) by congruence. subst z'. assert (AZ2 : absolute z) by (intros q ->; exact CB). destruct AZ as [AZ|[_ AZ]]; [|contradiction].
        pose proof (carries_inj _ _ _ _ CB AZ). subst b. pose proof (carries_inj _ _ _ _ (DEF _ eq_refl AZ2) AZ) as OD.
        unfold user_changed, differs in C. destruct (list_eq_dec Z.eq_dec dv dv); [|congruence]. cbn [negb andb] in C.
        destruct (list_eq_dec Z.eq_dec iv dv) as [->|N]; cbn [negb andb] in C; rewrite C; [rewrite OD; exact CI|exact CI].
    + unfold stored in SD. destruct SD as [ED _]. rewrite ED in C. destruct HH as [HH|(b & z' & _ & Q1 & _)]; [|discriminate]. rewrite HH in C.
      cbn in C. rewrite C. exact CI.
  - destruct SI as [EI _]. unfold must_write in C. cbn [entry_of e_init] in C. rewrite EI in C. exact C.
Qed.
End Described.
