(** C114: what initialising again and recovering make of the configuration. *)
From Coq Require Import Permutation String.
From Verif Require Import Base CanModel CanSpec KeyModel KeySpec StorageModel StorageSpec SdoModel SdoSpec RemoteModel RemoteSpec RemoteProofs NodeModel EdsModel EdsSpec EdsProofs EdsProps
  IniModel IniSpec IniProofs IniProps ServiceModel BootModel BootSpec BootProofs BootProps ReinitModel.
Local Open Scope Z_scope. Local Open Scope list_scope.

Lemma lookup_reset : forall d k s, StorageModel.lookup k (storage_reset d s) =
  match StorageModel.lookup k s with
  | Some c => Some (match StorageModel.lookup k d with Some e => data_reset e c | None => c end)
  | None => None
  end.
Proof.
  intros d k. induction s as [|[k' c] s IH]; [reflexivity|]. cbn [storage_reset map StorageModel.lookup fst snd].
  destruct (Z.eqb_spec k' k) as [->|N]; [reflexivity|exact IH].
Qed.
Lemma lookup_entries : forall (l : EdsModel.dict) k e, NoDup (map fst l) -> In (k, e) l ->
  StorageModel.lookup k (map (fun ke => (fst ke, entry_of (snd ke))) l) = Some (entry_of e).
Proof.
  induction l as [|[k' e'] l IH]; intros k e ND H; [destruct H|]. cbn [map fst snd StorageModel.lookup] in *. apply NoDup_cons_iff in ND. destruct ND as [NI ND]. destruct H as [H|H].
  - injection H as -> ->. rewrite Z.eqb_refl. reflexivity.
  - destruct (Z.eqb_spec k' k) as [->|N]; [|apply IH; assumption]. exfalso. apply NI. apply in_map_iff. exists (k, e). auto.
Qed.
Lemma reset_cell : forall e c, c_wr (data_reset e c) = c_wr c /\ (c_valid (data_reset e c) = false \/ c_valid (data_reset e c) = true /\ h_data (e_def e) = Some (c_buf (data_reset e c))).
Proof.
  intros e c. unfold data_reset. destruct (h_data (e_def e)) as [dv|]; [|cbn; auto]. destruct (h_type (e_def e)) as [t|]; [|cbn; auto].
  destruct (ty_eqb t (c_type c)); cbn; auto.
Qed.
Lemma after_reset : forall (l : EdsModel.dict) k e s, NoDup (map fst l) -> In (k, e) l -> unmapped s k ->
  let s1 := storage_reset (map (fun ke => (fst ke, entry_of (snd ke))) l) s in
  unmapped s1 k /\ (held s1 k = None \/ held s1 k = h_data (d_def e)).
Proof.
  intros l k e s ND H U s1. pose proof (lookup_reset (map (fun ke => (fst ke, entry_of (snd ke))) l) k s) as L. fold s1 in L.
  rewrite (lookup_entries l k e ND H) in L. unfold unmapped, held in *. destruct (StorageModel.lookup k s) as [c|] eqn:E; rewrite L.
  - destruct (reset_cell (entry_of e) c) as [W V]. split.
    + intros c' Q1. injection Q1 as <-. rewrite W. apply U. reflexivity.
    + destruct V as [->|[-> V]]; [left; reflexivity|right; symmetry; exact V].
  - split; [intros c' Q1; discriminate|left; reflexivity].
Qed.
Lemma booted_acts : forall b, snd (handle_init b) = None -> fst (handle_init b) = [BListen; BSdoInit; BResetCom; BPdoInit; BInitAll; BSdoInit; BStart].
Proof.
  intros b H. unfold handle_init, void, prefix in *. destruct (o_sdo b), (o_reset b), (o_pdo b), (o_all b), (o_sdo2 b), (o_start b); cbn in *; try discriminate; reflexivity.
Qed.

Section Again.
Variables (real : nat -> text -> option bytes) (raw_string : text -> bytes) (raw : ity -> Z -> bytes).
Variables (t : text) (ls : list text) (xs : list said) (pt : ini) (objs objs' : list (Z * obj)) (ov : list (text * text)).
Notation configuration := (configuration real raw t ls xs pt objs objs' ov).

(** A node is initialised, for the first time or again: whatever has been read and written before, whatever
    the device holds, and whatever it forgets when it resets its communication. All servers answer. If none
    refuses, the initialisation succeeds, and whenever it does, the device holds the configured values
    of objects that PDOs do not concern and whose configured value is not the default value of the file.
    Objects without a configured value are as the device left them. *)
Theorem C114_restored_partial : configuration -> exists inf d, from_text real raw_string raw t ov = Some (inf, d) /\
  forall order v n rebooted mapped b s o, Permutation order d -> (forall k, answering (n k)) -> snd (handle_init b) = None ->
  exists s' o' ok, initialise v n order rebooted mapped b (s, o) = Ok ((s', o'), ok) /\ ((forall k, v_veto (v k) = no_veto) -> ok = true) /\
  (ok = true -> forall k i sb x kd, okey_ok k -> wanted objs' k = Some (i, sb, x) -> kind_of (v_type x) = Some kd ->
    unmapped s (mk_key k) ->
    (forall s1 o1, StorageModel.lookup (mk_key k) (fst (mapped (s1, o1))) = StorageModel.lookup (mk_key k) s1 /\ snd (mapped (s1, o1)) i sb = o1 i sb) ->
    match v_init x with
    | Some y => if can_write (v_access x)
                then absolute y -> (forall z c, v_def x = Some z -> carries kd z c -> ~ carries kd y c) -> carries kd y (o' i sb)
                else o' i sb = rebooted o i sb
    | None => o' i sb = rebooted o i sb
    end).
Proof.
  intros C. destruct (dictionary real raw_string raw t ls xs pt objs objs' ov C) as (inf & d & E & FD & W). exists inf, d. split; [exact E|].
  destruct C as (_ & _ & _ & _ & _ & _ & _ & _ & FL & RW). intros order v n rebooted mapped b s o P A B.
  unfold initialise. rewrite (booted_acts b B). cbn [acts act fst snd].
  set (s1 := storage_reset (map (fun ke => (fst ke, entry_of (snd ke))) order) s). set (h := mapped (s1, rebooted o)).
  destruct (order_ok raw objs' d RW FL FD W order P) as (F & ND & NS).
  destruct (init_device_all v n order (fst h) (snd h) F ND NS A) as (s' & o' & ok & E1 & G & K). rewrite E1.
  exists s', o', ok. split; [destruct ok; reflexivity|]. split; [exact G|]. intros OKT k i sb x kd OK WK KD U M. specialize (K OKT).
  pose proof (W k OK) as WW. rewrite WK in WW. destruct WW as (e & L & D). apply lookup_in_dict in L. apply (Permutation_in _ (Permutation_sym P)) in L.
  destruct (M s1 (rebooted o)) as [M1 M2]. fold h in M1, M2. destruct (after_reset order (mk_key k) e s ND L U) as [U1 HH]. fold s1 in U1, HH.
  assert (U2 : unmapped (fst h) (mk_key k)) by (unfold unmapped in *; rewrite M1; exact U1).
  assert (HE : held (fst h) (mk_key k) = held s1 (mk_key k)) by (unfold held; rewrite M1; reflexivity).
  specialize (K _ _ L U2). rewrite HE in K. pose proof D as (_ & DI & DS & _ & _ & _ & DW & _ & _ & kd' & KD' & SD & SI). assert (kd' = kd) by congruence. subst kd'.
  rewrite DI, DS in K. rewrite M2 in K. unfold must_write in K. cbn [entry_of e_init e_def e_writable] in K.
  destruct (v_init x) as [y|] eqn:VI.
  - destruct (stored_data _ _ _ _ SI) as [iv EI]. rewrite EI, DW in K. destruct (can_write (v_access x)); [|exact K]. cbn [andb] in K. intros AY DF.
    pose proof (stored_carries raw kd y _ _ SI EI AY) as CI.
    assert (N : forall dv, h_data (d_def e) = Some dv -> iv <> dv).
    { intros dv ED ->. destruct (v_def x) as [z|] eqn:VD; [|destruct SD as [SD _]; congruence]. destruct z as [z|z|z].
      - exact (DF _ _ eq_refl (stored_carries raw kd _ _ _ SD ED ltac:(intros ? ?; discriminate)) CI).
      - destruct (stored_relative raw RW _ _ _ SD) as (c & Q1 & Q2). assert (c = dv) by congruence. subst c. destruct y as [y|y|f]; [|exact (AY y eq_refl)|].
        + destruct CI as (T & IT & LL & _). pose proof (kind_size _ _ _ KD IT). lia.
        + cbn in CI. subst f. destruct SI as (m & -> & _). destruct (FL k i sb x dv m OK WK VI KD) as [LL _]. pose proof (float_size _ _ KD). lia.
      - exact (DF _ _ eq_refl (stored_carries raw kd _ _ _ SD ED ltac:(intros ? ?; discriminate)) CI). }
    assert (R : o' i sb = iv); [|rewrite R; exact CI].
    destruct (h_data (d_def e)) as [dv|] eqn:ED.
    + specialize (N dv eq_refl). destruct HH as [HH|HH]; rewrite HH in K; unfold user_changed, differs in K.
      * destruct (list_eq_dec Z.eq_dec iv dv); [contradiction|]. exact K.
      * destruct (list_eq_dec Z.eq_dec dv dv); [|congruence]. destruct (list_eq_dec Z.eq_dec iv dv); [contradiction|]. exact K.
    + destruct HH as [HH|HH]; rewrite HH in K; exact K.
  - destruct SI as [EI _]. rewrite EI in K. exact K.
Qed.
End Again.
Print Assumptions C114_restored_partial.

Definition all_ok : boot := mkBoot SOk SOk SOk SOk SOk SOk.
Definition kind_server : server := mkServer true true true no_veto.
(** The configuration [ex_text] initialised twice; meanwhile the device has lost everything. *)
Example C114_restored_ex : forall real raw_string, exists inf d s1 o1 s2 o2, from_text real raw_string ex_raw ex_text [] = Some (inf, d) /\
  snd (handle_init all_ok) = None /\
  initialise (fun _ => kind_server) (fun _ => 40%nat) d (fun o => o) (fun h => h) all_ok ([], fun _ _ => []) = Ok ((s1, o1), true) /\ o1 10752 0 = [251; 255] /\
  initialise (fun _ => kind_server) (fun _ => 40%nat) d (fun o => o) (fun h => h) all_ok (s1, fun _ _ => [0; 0]) = Ok ((s2, o2), true) /\
  o2 10752 0 = [251; 255] /\ o2 4096 0 = [0; 0].
Proof.
  intros. do 6 eexists. split; [vm_compute; reflexivity|]. split; [reflexivity|]. split; [vm_compute; reflexivity|]. split; [vm_compute; reflexivity|].
  split; [vm_compute; reflexivity|]. split; vm_compute; reflexivity.
Qed.

(** Recovering changes nothing, neither in the storage nor in the objects of the device, whatever they hold. *)
Theorem C114_recover_nothing : forall v n d rebooted mapped start s o, recovered v n d rebooted mapped start (s, o) = Ok ((s, o), true).
Proof. reflexivity. Qed.
Print Assumptions C114_recover_nothing.
Example C114_recover_nothing_ex : exists s o, recovered (fun _ => kind_server) (fun _ => 40%nat) [] (fun o => o) (fun h => h) SOk (s, o) = Ok ((s, o), true) /\ s <> [] /\ o 10752 0 = [0; 0].
Proof. exists (v_cells (mkDev [] (fun _ => []) [(1, mkCell (TInt (mkIty false 1)) true [1] 0 0)] (fun _ _ => []))), (fun _ _ => [0; 0]). repeat split. discriminate. Qed.

(** A device that has lost its values, for instance because its power failed: it is recovered without any error,
    and still lacks the configured value. *)
Theorem C114_recover_refuted : forall real raw_string, exists inf d s1 o1, from_text real raw_string ex_raw ex_text [] = Some (inf, d) /\
  initialise (fun _ => kind_server) (fun _ => 40%nat) d (fun o => o) (fun h => h) all_ok ([], fun _ _ => [0; 0]) = Ok ((s1, o1), true) /\
  carries (Signed 2) (Number (-5)) (o1 10752 0) /\
  forall v n rebooted mapped start, snd (handle_recover start) = None -> exists s2 o2,
    recovered v n d rebooted mapped start (s1, fun _ _ => [0; 0]) = Ok ((s2, o2), true) /\ o2 10752 0 = [0; 0] /\ ~ carries (Signed 2) (Number (-5)) (o2 10752 0).
Proof.
  intros. do 4 eexists. split; [vm_compute; reflexivity|]. split; [vm_compute; reflexivity|]. split.
  - exists (mkIty true 2). repeat split; try reflexivity. repeat constructor; unfold byte_ok; lia.
  - intros v n rebooted mapped start H. do 2 eexists. split; [reflexivity|]. split; [reflexivity|]. intros (T & IT & L & _ & V). cbn in IT. injection IT as <-. vm_compute in V. discriminate.
Qed.
Print Assumptions C114_recover_refuted.

(** The configured value is the default value. The user writes another one, and the node is initialised again: the
    device keeps the value of the user, and get_object shows the configured one if cached values are asked for. *)
Definition ex_dev : dev :=
  mkDev [(mk_key (KIndex 8192), mkDentry 7 8192 0 6 (Some false) true true false [] (mkHold (Some (TInt U16)) (Some [7; 0])) (mkHold (Some (TInt U16)) (Some [7; 0])))]
        (fun _ => []) [] (fun _ _ => [7; 0]).
Theorem C114_default_refuted : forall real raw_string raw show, exists s1 o1 w a s2 o2 w2 a2,
  initialise (fun _ => kind_server) (fun _ => 40%nat) (v_dict ex_dev) (fun o => o) (fun h => h) all_ok (v_cells ex_dev, v_objs ex_dev) = Ok ((s1, o1), true) /\
  o1 8192 0 = [7; 0] /\
  serve real raw_string raw show kind_server 40 (SetObject (str "n") (str "2000") false (str "9")) [(str "n", mkDev (v_dict ex_dev) (v_nv ex_dev) s1 o1)]
    = Ok ([(str "n", w)], a, mkReply true NoMessage []) /\ v_objs w 8192 0 = [9; 0] /\
  initialise (fun _ => kind_server) (fun _ => 40%nat) (v_dict ex_dev) (fun o => o) (fun h => h) all_ok (v_cells w, v_objs w) = Ok ((s2, o2), true) /\
  o2 8192 0 = [9; 0] /\
  serve real raw_string raw show kind_server 40 (GetObject (str "n") (str "2000") true) [(str "n", mkDev (v_dict w) (v_nv w) s2 o2)] = Ok (w2, a2, mkReply true NoMessage (str "7")).
Proof.
  intros. do 8 eexists. split; [vm_compute; reflexivity|]. split; [vm_compute; reflexivity|]. split; [vm_compute; reflexivity|]. split; [vm_compute; reflexivity|].
  split; [vm_compute; reflexivity|]. split; [vm_compute; reflexivity|]. vm_compute. reflexivity.
Qed.
Print Assumptions C114_default_refuted.
