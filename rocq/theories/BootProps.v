(** C112: configured values reach the device; C75 for every file. *)
From Coq Require Import Permutation String.
From Verif Require Import Base CanModel CanSpec KeyModel KeySpec StorageModel StorageSpec SdoModel SdoSpec RemoteModel RemoteSpec RemoteProofs EdsModel EdsSpec EdsProofs EdsProps
  IniModel IniSpec IniProofs IniProps ServiceModel BootModel BootSpec BootProofs.
Local Open Scope Z_scope. Local Open Scope list_scope.

(** Whatever the file is like: no key occurs twice in the dictionary, and every entry is found under the key of
    its own index and sub-index. *)
Theorem C75_filed : forall real raw_string raw pt ov inf d, from_file real raw_string raw pt ov = Some (inf, d) ->
  NoDup (map fst d) /\
  forall k e, In (k, e) d -> exists ok, okey_ok ok /\ k = mk_key ok /\
    (ok = KSub (d_index e) (d_sub e) \/ ok = KIndex (d_index e) /\ d_sub e = 0).
Proof.
  intros real raw_string raw pt ov inf d H. destruct (filed_file _ _ _ _ _ _ _ H) as [ND F]. split; [exact ND|]. intros k e I1. rewrite Forall_forall in F.
  destruct (F _ I1) as (ok & OK & K & M). cbn [fst snd] in K, M. exists ok. split; [exact OK|]. split; [exact K|]. destruct ok as [i|i s]; destruct M as [<- <-]; [right|left]; auto.
Qed.
Print Assumptions C75_filed.
Example C75_filed_ex : forall real raw_string raw, exists inf d e, from_file real raw_string raw ex_file [] = Some (inf, d) /\
  In (mk_key (KSub 4120 1), e) d /\ d_index e = 4120 /\ d_sub e = 1.
Proof. intros. do 3 eexists. split; [vm_compute; reflexivity|]. split; [right; right; left; vm_compute; reflexivity|]. split; reflexivity. Qed.

Section Configured.
Variables (real : nat -> text -> option bytes) (raw_string : text -> bytes) (raw : ity -> Z -> bytes).
Variables (t : text) (ls : list text) (xs : list said) (pt : ini) (objs objs' : list (Z * obj)) (ov : list (text * text)).
(** The text [t] shows the objects [objs], and [ov] configures them, which gives [objs']. *)
Definition configuration : Prop :=
  lines t ls /\ Forall2 says ls xs /\ tells xs pt /\ different (root_names xs) /\ shows_file real pt objs /\ NoDup (map fst objs) /\
  no_leading_zero pt /\ overlays real objs ov objs' /\ floats_ok objs' /\
  (forall T x, List.length (raw T x) = 16%nat /\ Forall byte_ok (raw T x)).
Lemma dictionary : configuration -> exists inf d, from_text real raw_string raw t ov = Some (inf, d) /\ filed d /\
  forall k, okey_ok k ->
      match wanted objs' k with
      | Some (i, s, v) => exists e, EdsModel.lookup d (mk_key k) = Some e /\ describes raw i s v e
      | None => EdsModel.lookup d (mk_key k) = None
      end.
Proof.
  intros (L & F & T & D & SF & ND & NZ & OV & _). destruct (C111_overlay real raw_string raw t ls xs pt objs ov objs' L F T D SF ND NZ OV) as (inf & d & E & H).
  exists inf, d. split; [exact E|]. split; [|exact H]. unfold from_text in E. destruct (read_ini t); [|discriminate]. exact (filed_file _ _ _ _ _ _ _ E).
Qed.

(** All servers answer. If none refuses, the initialisation succeeds, in whatever order the objects are
    taken. Whenever it succeeds, every object that is not connected to a PDO and has not been changed holds the
    configured value afterwards; the others have not been touched. *)
Theorem C112_configured_partial : configuration -> exists inf d, from_text real raw_string raw t ov = Some (inf, d) /\
  forall order s o v n, Permutation order d -> (forall k, answering (n k)) ->
  exists s' o' ok, init_device v n order s o = Ok (s', o', ok) /\ ((forall k, v_veto (v k) = no_veto) -> ok = true) /\
  (ok = true -> forall k i sb x kd, okey_ok k -> wanted objs' k = Some (i, sb, x) -> kind_of (v_type x) = Some kd ->
    unmapped s (mk_key k) -> unchanged s (mk_key k) kd (v_def x) ->
    match v_init x with
    | Some y => if can_write (v_access x)
                then absolute y -> (forall z, v_def x = Some z -> absolute z -> carries kd z (o i sb)) -> carries kd y (o' i sb)
                else o' i sb = o i sb
    | None => o' i sb = o i sb
    end).
Proof.
  intros C. destruct (dictionary C) as (inf & d & E & FD & W). exists inf, d. split; [exact E|]. destruct C as (_ & _ & _ & _ & _ & _ & _ & _ & FL & RW).
  intros order s o v n P A. exact (configured raw objs' d RW FL FD W order s o v n P A).
Qed.

(** Whatever the servers do and whatever is in the storage: an object is as before, or it is configured and
    writable and holds the configured value. *)
Theorem C112_only : configuration -> exists inf d, from_text real raw_string raw t ov = Some (inf, d) /\
  forall order s o v n, Permutation order d ->
  exists s' o' ok, init_device v n order s o = Ok (s', o', ok) /\
  forall i sb, o' i sb = o i sb \/
    exists k x y kd, okey_ok k /\ wanted objs' k = Some (i, sb, x) /\ kind_of (v_type x) = Some kd /\ v_init x = Some y /\ can_write (v_access x) = true /\
      (absolute y -> carries kd y (o' i sb)).
Proof.
  intros C. destruct (dictionary C) as (inf & d & E & FD & W). exists inf, d. split; [exact E|]. destruct C as (_ & _ & _ & _ & _ & _ & _ & _ & FL & RW).
  intros order s o v n P. destruct (order_ok raw objs' d RW FL FD W order P) as (F & _ & _).
  destruct (init_device_content v n order s o F) as (s' & o' & ok & E1 & C1 & _). exists s', o', ok. split; [exact E1|].
  intros i sb. destruct (C1 i sb) as [Q1|(k & e & I1 & SP & DW & EI)]; [left; exact Q1|right].
  apply (Permutation_in _ P) in I1. destruct (entry_wanted raw objs' d FD W k e I1) as (ok1 & i1 & s1 & x & OK & K & WK & D).
  pose proof D as (_ & DI & DS & _ & _ & _ & DW' & _ & _ & kd & KD & _ & SI). unfold spot in SP. rewrite DI, DS in SP. injection SP as -> ->.
  destruct (v_init x) as [y|] eqn:VI; [|destruct SI as [SI _]; congruence].
  exists ok1, x, y, kd. repeat (split; [congruence || assumption|]). intros AY. exact (stored_carries raw kd y (d_init e) _ SI EI AY).
Qed.

(** An exception leaves the initialisation only if a server did not answer or refused a configured value. *)
Theorem C112_reported : configuration -> exists inf d, from_text real raw_string raw t ov = Some (inf, d) /\
  forall order s o v n s' o', Permutation order d -> init_device v n order s o = Ok (s', o', false) ->
  exists k i sb x y, okey_ok k /\ wanted objs' k = Some (i, sb, x) /\ v_init x = Some y /\ can_write (v_access x) = true /\
    (v_veto (v (mk_key k)) <> no_veto \/ ~ answering (n (mk_key k))).
Proof.
  intros C. destruct (dictionary C) as (inf & d & E & FD & W). exists inf, d. split; [exact E|]. destruct C as (_ & _ & _ & _ & _ & _ & _ & _ & FL & RW).
  intros order s o v n s' o' P H. destruct (order_ok raw objs' d RW FL FD W order P) as (F & _ & _).
  destruct (init_device_content v n order s o F) as (s1 & o1 & ok & E1 & _ & R). rewrite E1 in H. injection H as _ _ ->.
  destruct (R eq_refl) as (k & e & b & ob & I1 & DW & EI & FA). rewrite Forall_forall in F. pose proof (F _ I1) as [OK1 SE]. cbn [snd] in OK1, SE.
  apply (Permutation_in _ P) in I1. destruct (entry_wanted raw objs' d FD W k e I1) as (ok1 & i1 & sb1 & x & OK & K & WK & D).
  pose proof D as (_ & DI & DS & _ & _ & _ & DW' & _ & _ & kd & KD & _ & SI). subst k.
  destruct (v_init x) as [y|] eqn:VI; [|destruct SI as [SI _]; congruence].
  exists ok1, i1, sb1, x, y. repeat (split; [congruence || assumption|]).
  destruct (SE b EI) as [B L]. assert (FT : fits TStr b) by (split; [exact B|split; [exact L|exact Logic.I]]).
  unfold answering. destruct (le_lt_dec 40 (n (mk_key ok1))) as [AN|AN]; [left|right; lia].
  destruct (remote_write_spec TStr (d_index e) (d_sub e) OK1 (v (mk_key ok1)) ob (n (mk_key ok1)) b FT AN) as [Q1|[_ Q1]]; [|exact Q1].
  rewrite Q1 in FA. discriminate.
Qed.
End Configured.
Print Assumptions C112_configured_partial.
Print Assumptions C112_only.
Print Assumptions C112_reported.

(** The device has another value than the default value that the file claims: a configured value that equals the
    default value is not written. *)
Theorem C112_default_refuted : exists e k, d_init e = d_def e /\ h_data (d_init e) = Some [7; 0] /\ d_writable e = true /\
  forall v n o, o (d_index e) (d_sub e) = [9; 0] ->
  exists s' o', init_device v n [(k, e)] [] o = Ok (s', o', true) /\ o' (d_index e) (d_sub e) = [9; 0].
Proof.
  exists (mkDentry 7 8192 0 6 (Some false) true true false [] (mkHold (Some (TInt U16)) (Some [7; 0])) (mkHold (Some (TInt U16)) (Some [7; 0]))), (mk_key (KIndex 8192)).
  repeat (split; [reflexivity|]). intros v n o H. do 2 eexists. split; [reflexivity|exact H].
Qed.
Print Assumptions C112_default_refuted.

(** A configured value that is relative to the node id: the device gets the bytes of a C++ object. *)
Theorem C112_nodeid_refuted : forall real raw_string (raw : ity -> Z -> bytes) pt objs,
  (forall T x, List.length (raw T x) = 16%nat /\ Forall byte_ok (raw T x)) ->
  pt = one_object [(str "2000", [(str "ParameterName", str "x"); (str "DataType", str "7"); (str "AccessType", str "rw"); (str "ParameterValue", str "$NODEID+1")])] ->
  objs = [(8192, OVar (mkVar 7 7 RW false (str "x") None (Some (NodeIdPlus 1))))] ->
  exists inf d, from_file real raw_string raw pt [] = Some (inf, d) /\
  forall v n o, (forall k, v_veto (v k) = no_veto /\ answering (n k)) ->
  exists s' o', init_device v n d [] o = Ok (s', o', true) /\ o' 8192 0 = raw (mkIty false 4) 1.
Proof.
  intros real raw_string raw pt objs R -> ->. do 2 eexists. split; [vm_compute; reflexivity|]. intros v n o A.
  match goal with |- context [init_device v n [(?k, ?e)] [] o] =>
    destruct (init_device_all v n [(k, e)] [] o) as (s' & o' & ok & E & G & C); [| | |intros q; apply A|] end.
  - constructor; [|constructor]. split; [cbn; unfold object_ok; lia|]. intros b H. cbn in H. injection H as <-. destruct (R (mkIty false 4) 1) as [L B]. split; [exact B|rewrite L; lia].
  - constructor; [intros []|constructor].
  - constructor; [intros []|constructor].
  - assert (OKT : ok = true) by (apply G; intros k; apply A). subst ok. exists s', o'. split; [exact E|]. specialize (C eq_refl _ _ (or_introl eq_refl) ltac:(intros c H; discriminate)). cbn in C. exact C.
Qed.
Print Assumptions C112_nodeid_refuted.

Definition ex_raw (T : ity) (x : Z) : bytes := repeat 0 16.
Example C112_ex : forall real, configuration real ex_raw ex_text (get_lines ex_text) ex_said ex_file ex_objs ex_objs [] /\
  wanted ex_objs (KIndex 10752) = Some (10752, 0, mkVar 7 3 RWW true (str "offset") None (Some (Number (-5)))) /\
  carries (Signed 2) (Number (-5)) [251; 255].
Proof.
  intros real. split; [|split; [reflexivity|]].
  - destruct C111_read_ex as (L & F & T & D). split; [exact L|]. split; [exact F|]. split; [exact T|]. split; [exact D|].
    split; [apply ex_shows|]. split; [repeat constructor; cbn; lia|]. split; [|split; [constructor|split]].
    + destruct (C76_ex real) as (_ & _ & NZ & _). exact NZ.
    + intros k i s x b n _ W VI KD. destruct k as [j|j m]; cbn [wanted ex_objs obj_at] in W.
      * destruct (j =? 4096); [injection W as _ _ <-; discriminate|]. destruct (j =? 4120); [discriminate|]. destruct (j =? 10752); [injection W as _ _ <-; discriminate|discriminate].
      * destruct (j =? 4096); [discriminate|]. destruct (j =? 4120); [|destruct (j =? 10752); discriminate].
        destruct (Z.to_nat m) as [|[|m']]; cbn [nth_error] in W; [injection W as _ _ <-; discriminate|injection W as _ _ <-; discriminate|]. destruct m'; discriminate.
    + intros T0 x. split; [reflexivity|]. unfold ex_raw. apply Forall_forall. intros y Y. apply repeat_spec in Y. subst y. unfold byte_ok. lia.
  - exists (mkIty true 2). repeat split; try reflexivity. repeat constructor; unfold byte_ok; lia.
Qed.
(** The run itself *)
Example C112_run_ex : forall real raw_string, exists inf d s' o', from_text real raw_string ex_raw ex_text [] = Some (inf, d) /\
  init_device (fun _ => mkServer true true true no_veto) (fun _ => 40%nat) d [] (fun _ _ => []) = Ok (s', o', true) /\ o' 10752 0 = [251; 255] /\ o' 4096 0 = [].
Proof. intros. do 4 eexists. split; [vm_compute; reflexivity|]. split; [vm_compute; reflexivity|]. split; vm_compute; reflexivity. Qed.

(** A device that does not answer at all: the initialisation succeeds, and the device holds what it held. *)
Theorem C112_silent_refuted : forall real raw_string v o, exists inf d s' o',
  from_text real raw_string ex_raw ex_text [] = Some (inf, d) /\
  init_device v (fun _ => O) d [] o = Ok (s', o', true) /\ forall i sb, o' i sb = o i sb.
Proof.
  intros. do 4 eexists. split; [vm_compute; reflexivity|]. split; [lazy -[put_object]; reflexivity|].
  intros i sb. cbv beta. unfold put_object. destruct (Z.eqb_spec i 10752) as [->|N1]; destruct (Z.eqb_spec sb 0) as [->|N2]; reflexivity.
Qed.
Print Assumptions C112_silent_refuted.
