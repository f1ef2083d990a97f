(** C112 for objects that are sent in a PDO: their configured values are in the first frame. *)
From Verif Require Import Base CanModel CanSpec KeyModel StorageModel StorageSpec StorageProofs PdoModel PdoSpec PdoProofs PdoTxProofs PdoRxProofs PdoConfProofs PdoLiveProofs PdoProps.

Definition inits (order : list Z) : list wop := map (fun k => WObj k SInit) order.
Section Spec.
Variables (T : Z -> ty) (d : dict) (l : layout).
Definition spec_run (ops : list wop) (s : txspec) : txspec := fold_left (tx_spec_step T d l) ops s.

Lemma conforms_app : forall h ops ops' s rs, tx_conforms T d h l s (ops ++ ops') rs ->
  exists r1 r2, rs = r1 ++ r2 /\ tx_conforms T d h l (spec_run ops s) ops' r2.
Proof.
  intros h. induction ops as [|o ops IH]; intros ops' s rs H; [exists [], rs; auto|].
  destruct rs as [|r rs]; cbn [app tx_conforms] in H; [contradiction|]. destruct H as [_ H]. destruct (IH _ _ _ H) as (r1 & r2 & -> & H2).
  exists (r :: r1), r2. split; [reflexivity|exact H2].
Qed.
Lemma changed_kept : forall order s, tx_changed s = true -> tx_changed (spec_run (inits order) s) = true.
Proof.
  induction order as [|k order IH]; intros s H; [exact H|]. unfold inits, spec_run in *. cbn [map fold_left]. apply IH. cbn [tx_spec_step].
  destruct (existsb (Z.eqb k) (keys l)); [|exact H]. destruct (lookup k d) as [e|]; [|exact H]. destruct (h_data (e_init e)); [|exact H].
  destruct (user_changed _ _ || _); [exact H|reflexivity].
Qed.
(** A further initialisation of an object that holds its configured value changes nothing. *)
Lemma cur_kept : forall order s k e iv, lookup k d = Some e -> h_data (e_init e) = Some iv -> tx_cur s k = Some iv ->
  tx_cur (spec_run (inits order) s) k = Some iv.
Proof.
  induction order as [|k' order IH]; intros s k e iv L EI H; [exact H|]. unfold inits, spec_run in *. cbn [map fold_left]. apply (IH _ k e iv L EI). cbn [tx_spec_step].
  destruct (existsb (Z.eqb k') (keys l)); [|exact H]. destruct (lookup k' d) as [e'|] eqn:L'; [|exact H]. destruct (h_data (e_init e')) as [iv'|] eqn:EI'; [|exact H].
  destruct (user_changed (tx_cur s k') (h_data (e_def e')) || _); [exact H|]. cbn [tx_write tx_cur]. destruct (Z.eqb_spec k k') as [->|N]; [congruence|exact H].
Qed.
Lemma cur_written : forall order s k e iv, In k order -> In k (keys l) -> lookup k d = Some e -> must_write e (tx_cur s k) = [iv] ->
  tx_cur (spec_run (inits order) s) k = Some iv /\ tx_changed (spec_run (inits order) s) = true.
Proof.
  induction order as [|k' order IH]; intros s k e iv IN HK L M; [destruct IN|]. unfold must_write in M. destruct (h_data (e_init e)) as [iv'|] eqn:EI; [|discriminate].
  unfold inits, spec_run in *. cbn [map fold_left].
  destruct (e_writable e && negb (user_changed (tx_cur s k) (h_data (e_def e))) && differs iv' (tx_cur s k) && differs iv' (h_data (e_def e))) eqn:C; [|discriminate]. injection M as ->.
  pose proof C as C0. apply andb_true_iff in C0. destruct C0 as [C0 C4]. apply andb_true_iff in C0. destruct C0 as [C0 C3]. apply andb_true_iff in C0. destruct C0 as [C1 C2]. apply negb_true_iff in C2.
  destruct (Z.eq_dec k k') as [<-|N].
  - assert (E : tx_spec_step T d l s (WObj k SInit) = tx_write s k iv).
    { cbn [tx_spec_step]. destruct (existsb (Z.eqb k) (keys l)) eqn:X; [|exfalso; assert (existsb (Z.eqb k) (keys l) = true) by (apply existsb_exists; exists k; split; [exact HK|apply Z.eqb_refl]); congruence].
      rewrite L, EI, C2, C3. reflexivity. }
    rewrite E. split.
    + apply (cur_kept order (tx_write s k iv) k e iv L EI). cbn. rewrite Z.eqb_refl. reflexivity.
    + apply (changed_kept order (tx_write s k iv)). reflexivity.
  - destruct IN as [IN|IN]; [congruence|]. apply (IH _ k e iv IN HK L). unfold must_write. rewrite EI.
    assert (E : tx_cur (tx_spec_step T d l s (WObj k' SInit)) k = tx_cur s k).
    { cbn [tx_spec_step]. destruct (existsb (Z.eqb k') (keys l)); [|reflexivity]. destruct (lookup k' d) as [e'|]; [|reflexivity]. destruct (h_data (e_init e')); [|reflexivity].
      destruct (user_changed _ _ || _); [reflexivity|]. cbn [tx_write tx_cur]. destruct (Z.eqb_spec k k'); [contradiction|reflexivity]. }
    rewrite E, C. reflexivity.
Qed.
Lemma cur_other : forall order s k e v, lookup k d = Some e -> e_writable e = true -> tx_cur s k = Some v -> must_write e (Some v) = [] ->
  tx_cur (spec_run (inits order) s) k = Some v.
Proof.
  induction order as [|k' order IH]; intros s k e v L EW H M; [exact H|]. unfold inits, spec_run in *. cbn [map fold_left]. apply (IH _ k e v L EW); [|exact M]. cbn [tx_spec_step].
  destruct (existsb (Z.eqb k') (keys l)); [|exact H]. destruct (lookup k' d) as [e'|] eqn:L'; [|exact H]. destruct (h_data (e_init e')) as [iv'|] eqn:EI'; [|exact H].
  destruct (user_changed (tx_cur s k') (h_data (e_def e')) || negb (differs iv' (tx_cur s k'))) eqn:C; [exact H|]. cbn [tx_write tx_cur]. destruct (Z.eqb_spec k k') as [->|N]; [|exact H].
  exfalso. assert (e' = e) by congruence. subst e'. rewrite H in C. apply orb_false_iff in C. destruct C as [C1 C2]. apply negb_false_iff in C2.
  unfold must_write in M. rewrite EI', EW, C1, C2 in M. cbn [andb negb] in M. destruct (h_data (e_def e)) as [dv|]; [|discriminate].
  unfold user_changed, differs in *. destruct (list_eq_dec Z.eq_dec v dv) as [->|]; [|discriminate]. destruct (list_eq_dec Z.eq_dec iv' dv); discriminate.
Qed.
End Spec.

(** The objects of a node are initialised in any order, [order], while a transmit PDO is set up; they include
    the objects of the PDO. Then the next cycle sends a frame with the configured value of each object
    of the PDO that has to be initialised. Whenever a frame is sent it shows the values held of the objects that
    need not be. *)
Theorem C112_sent : forall T d l dv p w order s' rs, tx_mapped T d l p w -> incl (keys l) order ->
  tx_run dv d (map (fun k => WObj k SInit) order ++ [WCycle]) (p, w) = Ok (s', rs) ->
  exists rs0 sent, rs = rs0 ++ [WSent sent] /\
  (forall k e iv, In k (keys l) -> lookup k d = Some e -> must_write e (held_of w k) = [iv] ->
     exists fr, sent = Some fr /\ f_hdr fr = f_hdr (p_frame p) /\ f_dlc fr = Z.of_nat (total l) /\ slice l k (f_data fr) = Some iv) /\
  (forall k e v fr, In k (keys l) -> lookup k d = Some e -> held_of w k = Some v -> must_write e (Some v) = [] -> sent = Some fr ->
     slice l k (f_data fr) = Some v).
Proof.
  intros T d l dv p w order s' rs M INC R.
  assert (A : Forall (tx_allowed T l) (map (fun k => WObj k SInit) order ++ [WCycle])).
  { apply Forall_app. split; [|constructor; [exact Logic.I|constructor]]. apply Forall_forall. intros o H. apply in_map_iff in H. destruct H as (k & <- & _). exact Logic.I. }
  pose proof (C35_transmission_partial T d l dv _ p w M A s' rs R) as C.
  destruct (conforms_app T d l _ _ _ _ _ C) as (r1 & r2 & -> & C2). destruct r2 as [|r [|r' r2]]; [contradiction| |destruct C2 as [_ []]].
  destruct C2 as [C2 _]. destruct r as [r|sent]; [contradiction|]. exists r1, sent. split; [reflexivity|]. split.
  2:{ intros k e v fr HK L HV MW ->. destruct C2 as (_ & _ & _ & _ & SH).
      destruct (keys_entry _ _ HK) as [n Hn]. destruct (combine_left _ _ _ (p_bufs p) _ (txm_len _ _ _ _ _ M) Hn) as [i Hi].
      destruct (txm_slots _ _ _ _ _ M _ _ Hi) as (b & _ & _ & _ & c & e' & _ & L' & _ & _ & _ & _ & EW & _). cbn [fst] in *. assert (e' = e) by congruence. subst e'.
      apply (shows_slice l _ (f_data fr) k v (txm_keys _ _ _ _ _ M) SH HK). exact (cur_other T d l order (mkTx (held_of w) (some_dirty p w)) k e v L EW HV MW). }
  intros k e iv HK L MW. destruct (cur_written T d l order (mkTx (held_of w) (some_dirty p w)) k e iv (INC _ HK) HK L MW) as [CU CH].
  unfold inits in CU, CH. set (s := spec_run T d l (map (fun k => WObj k SInit) order) (mkTx (held_of w) (some_dirty p w))) in *.
  destruct sent as [fr|]; cbn [tx_result_ok] in C2; [|congruence]. destruct C2 as (_ & H1 & H2 & _ & SH). exists fr. split; [reflexivity|]. split; [exact H1|]. split; [exact H2|].
  exact (shows_slice l (tx_cur s) (f_data fr) k iv (txm_keys _ _ _ _ _ M) SH HK CU).
Qed.
Print Assumptions C112_sent.

(** The control word is configured, the mode is not. *)
Definition boot_dict : dict := rx_params 0x181 ++ tx_params 255 ++
  [(k_cw, rw (h16 0) (h16 6)); (k_mode, rw (h8 1) no_value); (k_sw, ro (typed T16) no_value); (k_disp, ro (typed T8) no_value)].
Definition boot_init := mapper_init dev boot_dict 1 junk8 4 4 (mkMapper [] []) fresh.
Definition boot_world : pw := Eval vm_compute in match boot_init with Ok (w, _, _) => w | Undef => fresh end.
Definition boot_tpdo : pdo := Eval vm_compute in match boot_init with Ok (_, m, _) => hd nopdo (tpdos m) | Undef => nopdo end.
Example C112_sent_mapped : tx_mapped ex_T boot_dict tx_layout boot_tpdo boot_world.
Proof.
  constructor.
  - vm_compute. reflexivity.
  - vm_compute. intuition discriminate.
  - vm_compute. repeat constructor; cbn; intuition discriminate.
  - vm_compute. repeat constructor; cbn; intuition discriminate.
  - vm_compute. lia.
  - vm_compute. reflexivity.
  - vm_compute. reflexivity.
  - intros x i H. vm_compute in H. destruct H as [H|[H|[H|[]]]]; injection H as <- <-.
    + eexists. split; [vm_compute; reflexivity|]. split; [reflexivity|]. split; [reflexivity|]. cbn [fst].
      do 2 eexists. repeat (split; [vm_compute; reflexivity|]). split; [vm_compute; repeat split|].
      repeat (split; [vm_compute; auto|]). vm_compute. auto.
    + eexists. split; [vm_compute; reflexivity|]. split; [reflexivity|]. split; reflexivity.
    + eexists. split; [vm_compute; reflexivity|]. split; [reflexivity|]. split; [reflexivity|]. cbn [fst].
      do 2 eexists. repeat (split; [vm_compute; reflexivity|]). split; [vm_compute; repeat split|].
      repeat (split; [vm_compute; auto; try discriminate|]). vm_compute. auto.
  - apply own_spec. vm_compute. reflexivity.
Qed.
Example C112_sent_ex : exists s rs e, tx_run dev boot_dict (map (fun k => WObj k SInit) [k_mode; k_cw] ++ [WCycle]) (boot_tpdo, boot_world) = Ok (s, rs) /\
  lookup k_cw boot_dict = Some e /\ must_write e (held_of boot_world k_cw) = [[6; 0]] /\
  rs = [WRes (inl RDone); WRes (inl RDone); WSent (Some (mkFrame (mkHeader 0x201 false false false) 4 [6; 0; 0xAA; 1; 0xAA; 0xAA; 0xAA; 0xAA]))].
Proof. do 3 eexists. split; [vm_compute; reflexivity|]. split; [vm_compute; reflexivity|]. split; vm_compute; reflexivity. Qed.
