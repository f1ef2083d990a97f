From Verif Require Import Base KeyModel KeySpec StorageModel StorageSpec StorageProofs SdoModel SdoSpec ChainModel MergeProofs EdsSpec EdsProofs TextModel TextSpec TextProofs
  RemoteModel RemoteSpec RemoteProofs SetupModel ServiceModel ServiceSpec.
From Verif Require EdsModel.

Lemma ity_eqb_eq : forall a b, ity_eqb a b = true -> a = b.
Proof. intros [s n] [s' n'] H. unfold ity_eqb in H. cbn in H. apply andb_true_iff in H as [A B]. apply eqb_prop in A. apply Z.eqb_eq in B. congruence. Qed.
Lemma lookup_put_eq : forall n d l a, lookup_node n l = Some a -> lookup_node n (put_node n d l) = Some d.
Proof.
  intros n d. induction l as [|[m x] l IH]; intros a H; [discriminate H|]. cbn in *. destruct (text_eqb n m) eqn:E; cbn; rewrite E; [reflexivity|].
  eapply IH, H.
Qed.
Lemma lookup_put_neq : forall n n' d l, n' <> n -> lookup_node n' (put_node n d l) = lookup_node n' l.
Proof.
  intros n n' d l N. induction l as [|[m x] l IH]; [reflexivity|]. cbn. destruct (text_eqb n m) eqn:E; cbn.
  - apply text_eqb_eq in E. subst m. apply text_eqb_neq in N. rewrite N. reflexivity.
  - rewrite IH. reflexivity.
Qed.

Lemma holds_fits : forall kd T b x c, kind_of c = Some kd -> integers kd = Some T -> holds T b x -> fits (TInt T) b.
Proof.
  intros kd T b x c K I (_ & L & B & _). destruct (kind_type c kd K) as [_ F]. destruct (F T I) as [HT _].
  split; [exact B|]. split; [unfold int_type in HT; destruct HT as [H|[H|[H|[H|[]]]]]; rewrite <- H in L; lia|]. cbn [value_ok ty_size]. lia.
Qed.
Lemma fits_holds : forall kd T b c, kind_of c = Some kd -> integers kd = Some T -> fits (TInt T) b -> holds T b (int_of T b).
Proof.
  intros kd T b c K I (B & L & V). destruct (kind_type c kd K) as [_ F]. destruct (F T I) as [HT _]. apply int_of_holds; [exact HT| |exact B].
  cbn [value_ok ty_size] in V. rewrite V. unfold int_type in HT. destruct HT as [H|[H|[H|[H|[]]]]]; rewrite <- H; reflexivity.
Qed.

(** State of a chain whose integers are sound *)
Definition dev_inv (d : dev) : Prop :=
  device_ok d /\ holds_integers d /\ forall k e T c, integer d k e T -> lookup k (v_cells d) = Some c -> cell_ok (TInt T) c.
Definition inv (w : chain) : Prop := forall m d, lookup_node m w = Some d -> dev_inv d.

Lemma find_cell_ok : forall d k e T e' c, dev_inv d -> integer d k e T -> find_cell d k = Some (e', c) -> e' = e /\ cell_ok (TInt T) c.
Proof.
  intros d k e T e' c (D & _ & CO) I H. pose proof I as [L (kd & K & IT)]. destruct (kind_type _ kd K) as [TY F]. destruct (F T IT) as [HT KT].
  unfold find_cell in H. rewrite L, TY, KT in H. destruct (lookup k (v_cells d)) as [c'|] eqn:C.
  - injection H as <- <-. split; [reflexivity|]. eapply CO; eassumption.
  - destruct (entry_cell (TInt T) (entry_of e) (v_nv d k)) as [c'|] eqn:EC; [|discriminate H]. injection H as <- <-. split; [reflexivity|].
    unfold entry_cell in EC. cbn [entry_of e_def] in EC. pose proof (dk_default d D k e T) as DD.
    assert (SZ : Z.of_nat (ty_size (TInt T)) = i_size T) by (unfold int_type in HT; cbn [ty_size]; destruct HT as [H|[H|[H|[H|[]]]]]; rewrite <- H; reflexivity).
    destruct (h_data (EdsModel.d_def e)) as [dv|] eqn:HD; destruct (h_type (EdsModel.d_def e)) as [t'|] eqn:HY; try discriminate EC.
    + destruct (DD dv I eq_refl) as [D1 D2]. destruct (ty_eqb t' (TInt T)) eqn:TE.
      * injection EC as <-. split; [reflexivity|]. cbn [data_valued c_buf value_ok].
        assert (t' = TInt T) as -> by (destruct t'; try discriminate TE; cbn in TE; f_equal; apply ity_eqb_eq, TE). specialize (D1 eq_refl). lia.
      * destruct t' as [|?|  |j]; try discriminate EC. destruct (ity_eqb T j) eqn:TE2; [|discriminate EC]. injection EC as <-. split; [reflexivity|].
        cbn [data_valued c_buf value_ok]. lia.
    + destruct (ty_eqb t' (TInt T)); [|discriminate EC]. injection EC as <-. split; [reflexivity|]. apply repeat_length.
    + injection EC as <-. split; [reflexivity|]. apply repeat_length.
Qed.

Section Service.
Variable real : nat -> text -> option bytes.
Variable raw_string : text -> bytes.
Variable raw_offset : ity -> Z -> bytes.
Variable show_real : nat -> bytes -> text.

Lemma act_defined : forall T e i s a c obj, object_ok i s -> cell_ok (TInt T) c -> fits (TInt T) obj -> act_ok (TInt T) a ->
  exists c1 obj1 ev r, act_step e i s a c obj = Ok (c1, obj1, ev, r) /\ cell_ok (TInt T) c1 /\ fits (TInt T) obj1.
Proof.
  intros T e i s a c obj O C F A. pose proof (run_defined (TInt T) e i s O [a] c obj (conj C F) (Forall_cons a A (Forall_nil _))) as D.
  cbn [act_run] in D. destruct (act_step e i s a c obj) as [[[[c1 obj1] ev] r]|] eqn:E; [|congruence].
  do 4 eexists. split; [reflexivity|]. exact (act_sound (TInt T) e i s O a c obj c1 obj1 ev r (conj C F) A E).
Qed.

(** Reading an integer *)
Lemma get_int : forall dt kd T e i s cached v n c obj, kind_of dt = Some kd -> integers kd = Some T -> object_ok i s -> cell_ok (TInt T) c -> fits (TInt T) obj ->
  exists c1 ev r, text_read show_real dt e c cached (remote_read v i s obj n) = Ok (c1, ev, r) /\ cell_ok (TInt T) c1 /\
    snd (talked v i s (sdo_read i s (c_buf (allocate c))) obj n) = obj /\
    (e_readable e = true -> cached || e_constant e = false ->
       (exists t, r = TText t /\ (i_size T <> 1 -> exists x, holds T obj x /\ usual_text t x)) \/ (r = TFail /\ ~ (v_veto v = no_veto /\ answering n))) /\
    (e_readable e = false -> r = TFail /\ ev = []).
Proof.
  intros dt kd T e i s cached v n c obj K I O C F. destruct (kind_type dt kd K) as [E G]. destruct (G T I) as [HT KT].
  assert (SV : server_ok (TInt T) v) by (intros X; discriminate X).
  destruct (remote_read_spec (TInt T) i s O c v obj n C F SV) as (TK & _ & _). pose proof C as [CT _].
  assert (TR : forall c1 ev r, step e (OGet cached (remote_read v i s obj n)) c = Ok (c1, ev, r) ->
    exists r', text_read show_real dt e c cached (remote_read v i s obj n) = Ok (c1, ev, r') /\ (forall b, r = RVal b -> exists t, r' = TText t) /\ (forall x, r = RThrow x -> r' = TFail)).
  { intros c1 ev r ST. unfold text_read. rewrite E, KT, CT. cbn [ty_eqb]. rewrite ity_eqb_refl, ST. destruct r as [b| |x].
    - cbn [format_value]. destruct (i_size T =? 1); eexists; (split; [reflexivity|]); split; intros; try discriminate; eauto.
    - eexists. split; [reflexivity|]. split; intros; discriminate.
    - eexists. split; [reflexivity|]. split; intros; [discriminate|reflexivity]. }
  destruct (e_readable e) eqn:R.
  - destruct (get_step (TInt T) e i s O cached v n c obj (conj C F) SV R) as (c1 & ev & r & ST & CO & D).
    unfold act_step in ST. destruct (step e (OGet cached (remote_read v i s obj n)) c) as [[[c1' ev'] r']|] eqn:S1; [|discriminate ST].
    injection ST as -> _ -> ->. destruct (TR c1 ev r eq_refl) as (r' & TE & TV & TX). exists c1, ev, r'. split; [exact TE|]. split; [exact CO|]. split; [exact TK|].
    split; [|discriminate]. intros _ CC. destruct D as [(_ & _ & _ & X & _)|(b & ok & _ & _ & _ & [(_ & _ & _ & RV)|(_ & RT & N)])].
    + congruence.
    + left. destruct (TV obj RV) as [t T']. exists t. split; [exact T'|]. intros N1.
      destruct (read_ok real raw_string raw_offset show_real dt kd T e c cached _ c1 ev obj K I N1 CT ltac:(rewrite S1, RV; reflexivity)) as (x & t2 & HX & UT & TR2).
      { destruct (fits_holds kd T obj dt K I F) as (_ & L & _). exact L. } { apply F. }
      exists x. split; [exact HX|]. rewrite TE in TR2. injection TR2 as X. rewrite T' in X. injection X as ->. exact UT.
    + right. split; [exact (TX _ RT)|exact N].
  - assert (S1 : step e (OGet cached (remote_read v i s obj n)) c = Ok (c, [], RThrow NoReadAccess)) by (unfold step, data_get; rewrite R; reflexivity).
    destruct (TR _ _ _ S1) as (r' & TE & _ & TX). exists c, [], r'. split; [exact TE|]. split; [exact C|]. split; [exact TK|]. split; [discriminate|].
    intros _. split; [exact (TX _ eq_refl)|reflexivity].
Qed.

(** Writing an integer *)
Lemma parsed_int : forall dt kd T s, kind_of dt = Some kd -> integers kd = Some T ->
  (exists b, EdsModel.read_value real raw_string raw_offset dt (Some s) = Some (mkHold (Some (TInt T)) (Some b)) /\ parsed real raw_string raw_offset dt s = b /\ fits (TInt T) b) \/
  (exists b, EdsModel.read_value real raw_string raw_offset dt (Some s) = Some (mkHold (Some (TOff T)) (Some b)) /\ parsed real raw_string raw_offset dt s = []).
Proof.
  intros dt kd T s K I. destruct (kind_type dt kd K) as [E G]. destruct (G T I) as [HT KT]. unfold parsed, EdsModel.read_value. rewrite E, KT.
  destruct (parse_int T s) as [x|x]; [left|right]; eexists; (split; [reflexivity|]); cbn [hold_get h_type h_data ty_eqb].
  - rewrite ity_eqb_refl. split; [reflexivity|]. destruct (of_le_bytes real raw_offset (ty_size (TInt T)) x) as (L & B & _). split; [exact B|].
    split; [rewrite L; unfold int_type in HT; cbn [ty_size]; destruct HT as [H|[H|[H|[H|[]]]]]; rewrite <- H; lia|]. exact L.
  - reflexivity.
Qed.
Lemma set_int : forall dt kd T e i s cached v n c obj txt, kind_of dt = Some kd -> integers kd = Some T -> object_ok i s -> cell_ok (TInt T) c -> fits (TInt T) obj ->
  let w := remote_write v i s obj n (handed c (parsed real raw_string raw_offset dt txt)) in
  exists c1 ev r, text_write real raw_string raw_offset dt e c cached txt (snd w) = Ok (c1, ev, r) /\ cell_ok (TInt T) c1 /\
    fits (TInt T) (match ev with [] => obj | _ => fst w end) /\
    (forall x, e_writable e = true -> cached = false -> answering n -> shows_value real kd txt (Number x) ->
       ev <> [] /\ ((r = TDone /\ holds T (fst w) x) \/ (r = TFail /\ fst w = obj /\ v_veto v <> no_veto))) /\
    (e_writable e = false -> ev = []).
Proof.
  intros dt kd T e i s cached v n c obj txt K I O C F w. destruct (kind_type dt kd K) as [E G]. destruct (G T I) as [HT KT]. pose proof C as [CT _].
  destruct (parsed_int dt kd T txt K I) as [(b & RV & PB & FB)|(b & RV & PB)].
  - set (a := if cached then ASetCached b v n else ASet b v n).
    destruct (act_defined T e i s a c obj O C F ltac:(unfold a; destruct cached; exact FB)) as (c1 & obj1 & ev & r & ST & CO & FO).
    assert (ST' : step e (if cached then OSetCached b (snd w) else OSet b (snd w)) c = Ok (c1, ev, r) /\ match ev with [] => obj | _ => fst w end = obj1).
    { unfold w. rewrite PB. unfold a in ST. destruct cached; unfold act_step in ST;
        match type of ST with context [match ?x with _ => _ end] => destruct x as [[[c1' ev'] r']|] eqn:S1; [|discriminate ST] end; injection ST as <- <- <- <-; split; reflexivity. }
    destruct ST' as [S1 OB].
    assert (TW : text_write real raw_string raw_offset dt e c cached txt (snd w) = Ok (c1, ev, match r with RDone => TDone | _ => TFail end)).
    { unfold text_write. rewrite E, KT, CT. cbn [ty_eqb]. rewrite ity_eqb_refl, RV. cbn [hold_get h_type h_data ty_eqb]. rewrite ity_eqb_refl, S1. destruct r; reflexivity. }
    exists c1, ev. eexists. split; [exact TW|]. split; [exact CO|]. split; [rewrite OB; exact FO|]. split.
    + intros x W CF AN SH. subst cached. destruct (set_step (TInt T) e i s O b v n c obj (conj C F) FB AN W) as (c2 & ok & r2 & o2 & E2 & _ & _ & _ & D).
      unfold a in ST. rewrite E2 in ST. injection ST as -> -> <- ->. split; [discriminate|].
      assert (HB : holds T b x).
      { destruct (write_ok real raw_string raw_offset dt kd T txt x e c false true K I CT SH) as (b' & HB & _).
        destruct (read_value_some real raw_string raw_offset dt kd txt (Number x) K SH) as (h & RH & (T' & b2 & I' & -> & L & B & V)).
        rewrite RV in RH. injection RH as _ <-. assert (T' = T) by congruence. subst T'. destruct HB as (X1 & _). split; [exact X1|]. auto. }
      destruct D as [[-> D]|(-> & D & VV)]; [left|right].
      * split; [reflexivity|]. rewrite OB, D. exact HB.
      * split; [reflexivity|]. split; [rewrite OB; exact D|exact VV].
    + intros W. destruct cached; unfold step, data_set, data_set_cached, ret in S1; rewrite W in S1; cbn [negb] in S1;
        destruct (c_valid c); cbn [negb] in S1; try (injection S1 as <- <- <-; reflexivity); destruct (StorageModel.access c) as [h|]; try discriminate S1;
        [destruct (val_eqb (c_type c) b h)|]; injection S1 as <- <- <-; reflexivity.
  - assert (TW : text_write real raw_string raw_offset dt e c cached txt (snd w) = Ok (c, [], TFail)).
    { unfold text_write. rewrite E, KT, CT. cbn [ty_eqb]. rewrite ity_eqb_refl, RV. reflexivity. }
    exists c, [], TFail. split; [exact TW|]. split; [exact C|]. split; [exact F|]. split.
    + intros x W CF AN SH. exfalso. destruct (read_value_some real raw_string raw_offset dt kd txt (Number x) K SH) as (h & RH & (T' & b2 & I' & -> & _)).
      rewrite RV in RH. discriminate RH.
    + intros _. reflexivity.
Qed.
End Service.

Section History.
Variable real : nat -> text -> option bytes.
Variable raw_string : text -> bytes.
Variable raw_offset : ity -> Z -> bytes.
Variable show_real : nat -> bytes -> text.
Notation serve := (serve real raw_string raw_offset show_real).
Notation serve_all := (serve_all real raw_string raw_offset show_real).

(** Shape of an answer *)
Lemma serve_cases : forall v n q w w1 a r, serve v n q w = Ok (w1, a, r) ->
  (lookup_node (addressed q) w = None /\ w1 = w /\ a = [] /\ r = mkReply false NodeNotFound []) \/
  (exists d, lookup_node (addressed q) w = Some d /\ find_cell d (key_fromString (object q)) = None /\ w1 = w /\ a = [] /\ r = mkReply false Exception []) \/
  (exists d e c c1 ev obj1, lookup_node (addressed q) w = Some d /\ find_cell d (key_fromString (object q)) = Some (e, c) /\
     w1 = put_node (addressed q) (mkDev (v_dict d) (v_nv d) (store (key_fromString (object q)) c1 (v_cells d)) (put_object (EdsModel.d_index e) (EdsModel.d_sub e) obj1 (v_objs d))) w /\
     a = map (fun x => (addressed q, EdsModel.d_index e, EdsModel.d_sub e, x)) ev /\
     (ev = [] -> obj1 = v_objs d (EdsModel.d_index e) (EdsModel.d_sub e)) /\ (success r = true <-> msg r = NoMessage) /\ msg r <> NodeNotFound).
Proof.
  intros v n q w w1 a r H. unfold ServiceModel.serve in H. fold (addressed q) in H. fold (object q) in H.
  destruct (lookup_node (addressed q) w) as [d|] eqn:L; [right|left; injection H as <- <- <-; auto].
  destruct (find_cell d (key_fromString (object q))) as [[e c]|] eqn:F; [right|left; injection H as <- <- <-; eauto 10].
  match type of H with context [let '(_, _) := ?x in _] => destruct x as [res obj'] end.
  destruct res as [[[c1 ev] res]|]; [|discriminate H]. injection H as <- <- <-. exists d, e, c, c1, ev. eexists. split; [reflexivity|]. split; [exact F|].
  split; [reflexivity|]. split; [reflexivity|]. split; [intros ->; reflexivity|]. destruct res; cbn; split; try (split; congruence); discriminate.
Qed.
Lemma find_cell_lookup : forall d k e c, find_cell d k = Some (e, c) -> EdsModel.lookup (v_dict d) k = Some e.
Proof.
  intros d k e c H. unfold find_cell in H. destruct (EdsModel.lookup (v_dict d) k) as [e'|]; [|discriminate H].
  destruct (EdsModel.type_of _); [|discriminate H]. destruct (lookup k (v_cells d)); [injection H as -> _; reflexivity|]. destruct (entry_cell _ _ _); [|discriminate H]. injection H as -> _. reflexivity.
Qed.

Lemma find_cell_some : forall d k e T, device_ok d -> integer d k e T -> exists c, find_cell d k = Some (e, c).
Proof.
  intros d k e T D I. pose proof (dk_typed d D k e T I) as TY. cbv zeta in TY. destruct I as [L (kd & K & IT)]. destruct (kind_type _ kd K) as [TE F]. destruct (F T IT) as [HT KT].
  unfold find_cell. rewrite L, TE, KT. destruct (lookup k (v_cells d)); [eauto|]. unfold entry_cell. cbn [entry_of e_def].
  destruct TY as [[-> ->]|[->|[-> N]]]; [eauto| |].
  - cbn [ty_eqb]. rewrite ity_eqb_refl. destruct (h_data (EdsModel.d_def e)); eauto.
  - destruct (h_data (EdsModel.d_def e)); [|congruence]. cbn [ty_eqb]. rewrite ity_eqb_refl. eauto.
Qed.
(** The dictionaries stay *)
Definition same_dicts (w w1 : chain) : Prop :=
  forall m, match lookup_node m w, lookup_node m w1 with
            | Some d, Some d1 => v_dict d1 = v_dict d
            | None, None => True
            | _, _ => False
            end.
Lemma same_refl : forall w, same_dicts w w.
Proof. intros w m. destruct (lookup_node m w); auto. Qed.
Lemma same_trans : forall a b c, same_dicts a b -> same_dicts b c -> same_dicts a c.
Proof. intros a b c H K m. specialize (H m). specialize (K m). destruct (lookup_node m a), (lookup_node m b), (lookup_node m c); try contradiction; congruence || exact Logic.I. Qed.
Lemma put_same : forall m d d1 w, lookup_node m w = Some d -> v_dict d1 = v_dict d -> same_dicts w (put_node m d1 w).
Proof.
  intros m d d1 w L E m'. destruct (list_eq_dec Z.eq_dec m' m) as [->|N].
  - rewrite (lookup_put_eq m d1 w d L), L. exact E.
  - rewrite lookup_put_neq by exact N. destruct (lookup_node m' w); auto.
Qed.
Lemma integer_dict : forall d d1 k e T, v_dict d1 = v_dict d -> integer d1 k e T -> integer d k e T.
Proof. intros d d1 k e T E [L H]. split; [congruence|exact H]. Qed.
Lemma event_same : forall w w1 x, same_dicts w w1 -> event_ok w x -> event_ok w1 x.
Proof.
  intros w w1 x S H. destruct x as [q v n|m i s b]; cbn [event_ok] in *.
  - intros d1 e L K. specialize (S (addressed q)). rewrite L in S. destruct (lookup_node (addressed q) w) as [d|]; [|contradiction].
    destruct (H d e eq_refl ltac:(congruence)) as [T HI]. exists T. eapply integer_dict; [|exact HI]. congruence.
  - intros d1 k e T L K. specialize (S m). rewrite L in S. destruct (lookup_node m w) as [d|] eqn:L0; [|contradiction]. apply (H d k e T eq_refl). eapply integer_dict; eassumption.
Qed.

Lemma put_inv : forall m d d1 w, inv w -> lookup_node m w = Some d -> dev_inv d1 -> inv (put_node m d1 w).
Proof.
  intros m d d1 w HI L D m' d' H. destruct (list_eq_dec Z.eq_dec m' m) as [->|N].
  - rewrite (lookup_put_eq m d1 w d L) in H. injection H as <-. exact D.
  - rewrite lookup_put_neq in H by exact N. exact (HI m' d' H).
Qed.
Lemma device_ok_dict : forall d d1, v_dict d1 = v_dict d -> v_nv d1 = v_nv d -> device_ok d -> device_ok d1.
Proof.
  intros d d1 E F [A B D C]. constructor.
  - intros k e. rewrite E. apply A.
  - intros k k' e e'. rewrite E. apply B.
  - intros k e T H. eapply D, integer_dict; eassumption.
  - intros k e T b H. rewrite F. apply C. eapply integer_dict; eassumption.
Qed.
Lemma update_inv : forall d k e T c1 obj1, dev_inv d -> integer d k e T -> cell_ok (TInt T) c1 -> fits (TInt T) obj1 ->
  dev_inv (mkDev (v_dict d) (v_nv d) (store k c1 (v_cells d)) (put_object (EdsModel.d_index e) (EdsModel.d_sub e) obj1 (v_objs d))).
Proof.
  intros d k e T c1 obj1 (D & HO & CO) HI C F. split; [eapply device_ok_dict; [| |exact D]; reflexivity|]. split.
  - intros k' e' T' HI'. apply (integer_dict d) in HI'; [|reflexivity]. cbn [v_objs]. unfold put_object.
    destruct ((EdsModel.d_index e' =? EdsModel.d_index e) && (EdsModel.d_sub e' =? EdsModel.d_sub e)) eqn:X; [|exact (HO k' e' T' HI')].
    apply andb_true_iff in X as [X Y]. apply Z.eqb_eq in X. apply Z.eqb_eq in Y.
    pose proof (dk_once d D k' k e' e (proj1 HI') (proj1 HI) X Y) as ->. destruct HI as [L (kd & K & IT)]. destruct HI' as [L' (kd' & K' & IT')].
    rewrite L in L'. injection L' as <-. rewrite K in K'. injection K' as <-. rewrite IT in IT'. injection IT' as <-.
    eexists. eapply fits_holds; eassumption.
  - intros k' e' T' c' HI' L'. apply (integer_dict d) in HI'; [|reflexivity]. cbn [v_cells] in L'. destruct (Z.eq_dec k k') as [<-|N].
    + rewrite lookup_store_eq in L'. injection L' as <-. destruct HI as [L (kd & K & IT)]. destruct HI' as [L2 (kd' & K' & IT')].
      rewrite L in L2. injection L2 as <-. rewrite K in K'. injection K' as <-. rewrite IT in IT'. injection IT' as <-. exact C.
    + rewrite lookup_store_neq in L' by exact N. exact (CO k' e' T' c' HI' L').
Qed.

Definition entry_flag (e : EdsModel.dentry) : bool := match EdsModel.d_const e with Some b => b | None => false end.
Definition device_object (d : dev) (e : EdsModel.dentry) : bytes := v_objs d (EdsModel.d_index e) (EdsModel.d_sub e).

(** One request *)
Lemma serve_step : forall v n q w, inv w -> event_ok w (Request q v n) ->
  exists w1 a r, serve v n q w = Ok (w1, a, r) /\ inv w1 /\ same_dicts w w1 /\
    forall d k e T c, lookup_node (addressed q) w = Some d -> k = key_fromString (object q) -> integer d k e T -> find_cell d k = Some (e, c) ->
    exists d1, lookup_node (addressed q) w1 = Some d1 /\
    match q with
    | GetObject _ _ cached =>
      device_object d1 e = device_object d e /\
      (EdsModel.d_readable e = true -> cached || entry_flag e = false ->
        (success r = true /\ (i_size T <> 1 -> exists x, holds T (device_object d e) x /\ usual_text (value r) x)) \/ (success r = false /\ ~ (v_veto v = no_veto /\ answering n)))
    | SetObject _ _ cached txt =>
      forall kd x, kind_of (EdsModel.d_type e) = Some kd -> EdsModel.d_writable e = true -> cached = false -> answering n -> shows_value real kd txt (Number x) ->
        (success r = true /\ holds T (device_object d1 e) x) \/ (success r = false /\ device_object d1 e = device_object d e /\ v_veto v <> no_veto)
    end.
Proof.
  intros v n q w HI HE. cbn [event_ok] in HE. unfold ServiceModel.serve. fold (addressed q). fold (object q).
  destruct (lookup_node (addressed q) w) as [d|] eqn:L.
  2: { do 3 eexists. split; [reflexivity|]. split; [exact HI|]. split; [apply same_refl|]. intros; congruence. }
  destruct (find_cell d (key_fromString (object q))) as [[e c]|] eqn:F.
  2: { do 3 eexists. split; [reflexivity|]. split; [exact HI|]. split; [apply same_refl|]. intros; congruence. }
  pose proof (find_cell_lookup d _ e c F) as LE. destruct (HE d e eq_refl LE) as [T IT]. pose proof (HI _ _ L) as DI.
  destruct (find_cell_ok d _ e T e c DI IT F) as [_ C]. pose proof DI as (DK & HO & _). destruct (HO _ _ _ IT) as [y HY].
  pose proof IT as [_ (kd & K & I)]. pose proof (holds_fits kd T _ y _ K I HY) as FO. pose proof (dk_range d DK _ e LE) as OK.
  set (obj := v_objs d (EdsModel.d_index e) (EdsModel.d_sub e)) in *.
  assert (FIN : forall c1 obj1, cell_ok (TInt T) c1 -> fits (TInt T) obj1 ->
    let d1 := mkDev (v_dict d) (v_nv d) (store (key_fromString (object q)) c1 (v_cells d)) (put_object (EdsModel.d_index e) (EdsModel.d_sub e) obj1 (v_objs d)) in
    inv (put_node (addressed q) d1 w) /\ same_dicts w (put_node (addressed q) d1 w) /\ lookup_node (addressed q) (put_node (addressed q) d1 w) = Some d1 /\ device_object d1 e = obj1).
  { intros c1 obj1 C1 F1 d1. split; [eapply put_inv; [exact HI|exact L|eapply update_inv; eassumption]|]. split; [eapply put_same; [exact L|reflexivity]|].
    split; [eapply lookup_put_eq; exact L|]. unfold device_object, d1. cbn [v_objs]. unfold put_object. rewrite !Z.eqb_refl. reflexivity. }
  destruct q as [node o cached|node o cached txt]; cbn [addressed object] in *.
  - destruct (get_int real raw_string raw_offset show_real (EdsModel.d_type e) kd T (entry_of e) _ _ cached v n c obj K I OK C FO) as (c1 & ev & r & TR & C1 & TK & RD & _).
    rewrite TR, TK.
    assert (X : match ev with [] => obj | _ => obj end = obj) by (destruct ev; reflexivity). rewrite X. destruct (FIN c1 obj C1 FO) as (A & B & Lk & Ob).
    do 3 eexists. split; [reflexivity|]. split; [exact A|]. split; [exact B|].
    intros d' k e' T' c' L' -> IT' F'. injection L' as <-. rewrite F in F'. injection F' as <- <-. eexists. split; [exact Lk|]. split; [exact Ob|].
    intros R CC. destruct IT' as [_ (kd' & K' & I')]. rewrite K in K'. injection K' as <-. rewrite I in I'. injection I' as <-.
    destruct (RD R CC) as [(t & -> & HX)|[-> N]]; [left; split; [reflexivity|exact HX]|right; split; [reflexivity|exact N]].
  - destruct (set_int real raw_string raw_offset show_real (EdsModel.d_type e) kd T (entry_of e) _ _ cached v n c obj txt K I OK C FO) as (c1 & ev & r & TW & C1 & F1 & WR & _).
    rewrite TW. destruct (FIN c1 _ C1 F1) as (A & B & Lk & Ob).
    do 3 eexists. split; [reflexivity|]. split; [exact A|]. split; [exact B|].
    intros d' k e' T' c' L' -> IT' F'. injection L' as <-. rewrite F in F'. injection F' as <- <-. eexists. split; [exact Lk|].
    intros kd' x K' W CF AN SH. rewrite K in K'. injection K' as <-. destruct IT' as [_ (kd' & K' & I')]. rewrite K in K'. injection K' as <-. rewrite I in I'. injection I' as <-.
    destruct (WR x W CF AN SH) as [NE D]. rewrite Ob. destruct ev; [congruence|]. destruct D as [[-> D]|(-> & D & V)]; [left; split; [reflexivity|exact D]|right; auto].
Qed.
Lemma change_step : forall m i s b w, inv w -> event_ok w (Changed m i s b) -> inv (device_change m i s b w) /\ same_dicts w (device_change m i s b w).
Proof.
  intros m i s b w HI HE. unfold device_change. cbn [event_ok] in HE. destruct (lookup_node m w) as [d|] eqn:L; [|split; [exact HI|apply same_refl]].
  split; [|eapply put_same; [exact L|reflexivity]]. eapply put_inv; [exact HI|exact L|]. destruct (HI m d L) as (D & HO & CO). split; [eapply device_ok_dict; [| |exact D]; reflexivity|].
  split; [|intros k e T c X; apply (CO k e T c); eapply integer_dict; [|exact X]; reflexivity].
  intros k e T X. apply (integer_dict d) in X; [|reflexivity]. cbn [v_objs]. unfold put_object.
  destruct ((EdsModel.d_index e =? i) && (EdsModel.d_sub e =? s)) eqn:Y; [|exact (HO k e T X)]. apply andb_true_iff in Y as [Y Y']. apply Z.eqb_eq in Y. apply Z.eqb_eq in Y'.
  exact (HE d k e T eq_refl X Y Y').
Qed.
Lemma history : forall l w, inv w -> Forall (event_ok w) l -> exists w1 a rs, serve_all l w = Ok (w1, a, rs) /\ inv w1 /\ same_dicts w w1.
Proof.
  induction l as [|x l IH]; intros w HI HE; [exists w, [], []; split; [reflexivity|split; [exact HI|apply same_refl]]|].
  inversion HE as [|x' l' H1 H2]; subst. destruct x as [q v n|m i s b]; cbn [ServiceModel.serve_all].
  - destruct (serve_step v n q w HI H1) as (w1 & a & r & E & I1 & S1 & _). rewrite E.
    destruct (IH w1 I1) as (w2 & a2 & rs & E2 & I2 & S2).
    { eapply Forall_impl; [|exact H2]. intros y. apply event_same, S1. }
    rewrite E2. do 3 eexists. split; [reflexivity|]. split; [exact I2|eapply same_trans; eassumption].
  - destruct (change_step m i s b w HI H1) as [I1 S1]. destruct (IH _ I1) as (w2 & a2 & rs & E2 & I2 & S2).
    { eapply Forall_impl; [|exact H2]. intros y. apply event_same, S1. }
    rewrite E2. do 3 eexists. split; [reflexivity|]. split; [exact I2|eapply same_trans; eassumption].
Qed.
Lemma start_inv : forall w, start_ok w -> inv w.
Proof. intros w S m d L. destruct (S m d L) as (A & B & C). split; [exact A|]. split; [exact B|]. intros k e T c _ H. rewrite C in H. discriminate H. Qed.
End History.
