(** C84: the nodes of a chain are those of the parameters. *)
From Verif Require Import Base KeyModel StorageModel EdsModel TextModel ChainModel ChainSpec MergeProofs SetupModel SetupSpec SetupProofs.
From Coq Require Import Permutation.

(** A set-up that succeeds yields one node per entry, in order, each as its parameters and the
    defaults describe it. *)
Theorem C84_sound : forall plain load package join added c defaults ns l,
  proper defaults -> entries_of plain c l -> Forall (fun e => is_struct (snd e) /\ proper (snd e)) l ->
  setup_nodes plain load package join added c defaults = Some ns ->
  Forall2 (fun e s => describes plain load package join added (snd e) defaults (fst e) s) l ns.
Proof.
  intros plain load package join added c defaults ns l PD E A H. apply setup_nodes_ok in H as (l' & E' & F).
  assert (l' = l) as ->.
  { destruct c as [vs|ms]; [|cbn in *; congruence]. apply named_ok in E, E'. congruence. }
  clear E E'. induction F as [|e s l ns F1 F2 IH]; [constructor|]. inversion A as [|? ? [A1 A2] A3]; subst.
  constructor; [apply setup_sound; assumption|apply IH, A3].
Qed.
Print Assumptions C84_sound.

(** It succeeds whenever the entries describe nodes (if it does not matter in which order the
    overlay is applied). *)
Theorem C84_complete : forall plain load package join added c defaults ns l,
  (forall p ov ov', Permutation ov ov' -> load p ov = load p ov') ->
  proper defaults -> entries_of plain c l -> Forall (fun e => is_struct (snd e) /\ proper (snd e)) l ->
  Forall2 (fun e s => describes plain load package join added (snd e) defaults (fst e) s) l ns ->
  setup_nodes plain load package join added c defaults = Some ns.
Proof.
  intros plain load package join added c defaults ns l O PD E A F. apply setup_nodes_ok. exists l. split; [exact E|]. clear E.
  induction F as [|e s l ns F1 F2 IH]; [constructor|]. inversion A as [|? ? [A1 A2] A3]; subst.
  constructor; [apply setup_complete; assumption|apply IH, A3].
Qed.
Print Assumptions C84_complete.

(** The identifier is the configured one if that is a byte; it is the entry's own. *)
Theorem C84_id_partial : forall plain load package join added params defaults name s i z,
  is_struct params -> proper params -> proper defaults ->
  setup_node plain load package join added params name defaults = Some s ->
  at_path [str "id"] params = Some (Plain z) -> plain z = PInt i -> 0 <= i < 256 -> s_id s = i.
Proof.
  intros plain load package join added params defaults name s i z S P D H E Z R.
  destruct (d_id _ _ _ _ _ _ _ _ _ (setup_sound plain load package join added params defaults S P D name s H)) as (z' & i' & E' & Z' & ->).
  assert (z' = z) as -> by congruence. assert (i' = i) as -> by congruence. apply Z.mod_small. exact R.
Qed.
Print Assumptions C84_id_partial.
(** No default is used for it. *)
Theorem C84_id_own : forall plain load package join added params defaults name,
  is_struct params -> proper params -> proper defaults -> (forall z i, at_path [str "id"] params = Some (Plain z) -> plain z <> PInt i) ->
  setup_node plain load package join added params name defaults = None.
Proof.
  intros plain load package join added params defaults name S P D N.
  destruct (setup_node plain load package join added params name defaults) as [s|] eqn:H; [|reflexivity]. exfalso.
  destruct (d_id _ _ _ _ _ _ _ _ _ (setup_sound plain load package join added params defaults S P D name s H)) as (z & i & E & Z & _).
  exact (N z i E Z).
Qed.
Print Assumptions C84_id_own.

(** Services find the node with the given name, if names are different. *)
Theorem C84_lookup_partial : forall (ns : list snode) s, NoDup (map s_name ns) -> In s ns ->
  lookup_node (s_name s) (map (fun s => (s_name s, s)) ns) = Some s.
Proof.
  intros ns s U I. apply lookup_node_in; [rewrite map_map; exact U|]. apply in_map_iff. exists s. auto.
Qed.
Print Assumptions C84_lookup_partial.
(** A name nobody has is not found. *)
Theorem C84_lookup_none : forall (ns : list snode) n, lookup_node n (map (fun s => (s_name s, s)) ns) = None <-> ~ In n (map s_name ns).
Proof.
  intros ns n. induction ns as [|s ns IH]; cbn [map lookup_node In]; [tauto|]. destruct (text_eqb n (s_name s)) eqn:E.
  - apply text_eqb_eq in E. split; [discriminate|]. intros N. contradiction N. left. congruence.
  - apply text_eqb_neq in E. rewrite IH. intuition congruence.
Qed.
Print Assumptions C84_lookup_none.

(** ** Examples.  Numbers stand for the plain values. *)
Definition ex_plain (z : Z) : pval :=
  if z =? 1 then PInt 5 else if z =? 2 then PText (str "motor.eds") else if z =? 3 then PText (str "config")
  else if z =? 4 then PList [PText (str "1001"); PText (str "6041!")] else if z =? 5 then PText (str "100")
  else if z =? 6 then PInt 257 else if z =? 7 then PText (str "all") else if z =? 8 then PText (str "200") else if z =? 9 then PInt 6 else POther.
Definition ex_entry (k t : Z) (desc : text) : Z * dentry :=
  (key_index k, mkDentry 7 k 0 t None true true false desc no_value no_value).
Definition ex_dict : EdsModel.dict := [ex_entry 4097 5 (str "Error register"); ex_entry 0x6041 6 []].
(** The only file is motor.eds in the package. *)
Definition ex_load (p : text) (ov : list (text * text)) : option EdsModel.dict :=
  if text_eqb p (str "/config/motor.eds") then Some ex_dict else None.
Definition ex_setup := setup_nodes ex_plain ex_load (fun p => str "/" ++ p ++ str "/") (fun a b => a ++ b) (fun _ _ _ => true).
Definition ex_defaults : value := Struct [(str "eds_file", Plain 2); (str "eds_pkg", Plain 3); (str "id", Plain 9);
  (str "dcf_overlay", Struct [(str "1017", Plain 5); (str "1016", Plain 5)])].
Definition ex_node : value := Struct [(str "id", Plain 1); (str "log", Plain 4); (str "publish", Plain 4);
  (str "dcf_overlay", Struct [(str "1017", Plain 8)])].
Example C84_ex :
  is_struct ex_node /\ proper ex_node /\ proper ex_defaults /\ entries_of ex_plain (CStruct [(str "joint1", ex_node)]) [(str "joint1", ex_node)] /\
  ex_setup (CStruct [(str "joint1", ex_node)]) ex_defaults = Some [mkSnode 5 ex_dict (str "joint1") (str "joint1")
    [mkLogged 0 (key_index 4097) (str "Error register") false; mkLogged 0 (key_index 0x6041) (str "6041") true]
    [mkPublished (str "joint1_1001") (key_index 4097) 5 false; mkPublished (str "joint1_6041") (key_index 0x6041) 6 true]] /\
  overlay ex_plain (node_params ex_node ex_defaults) = Some [(str "1017", str "200"); (str "1016", str "100")].
Proof.
  split; [eexists; reflexivity|]. split; [cbn; tauto|]. split; [cbn; tauto|]. split; [reflexivity|]. split; vm_compute; reflexivity.
Qed.
Example C84_order_ex : forall p ov ov', Permutation ov ov' -> ex_load p ov = ex_load p ov'.
Proof. reflexivity. Qed.
Example C84_id_ex : setup_node ex_plain ex_load (fun p => p) (fun a b => a) (fun _ _ _ => true) (Struct []) (str "x") ex_defaults = None.
Proof. reflexivity. Qed.

(** An identifier that is no byte is taken modulo 256, identifiers may be used twice, and a name
    in the defaults makes all nodes but the first unreachable for the services. *)
Theorem C84_refuted : exists plain load package join added defaults1 defaults2 a b ns,
  is_struct a /\ is_struct b /\ proper a /\ proper b /\ proper defaults1 /\ proper defaults2 /\
  at_path [str "id"] a = Some (Plain 6) /\ plain 6 = PInt 257 /\
  (exists s, setup_nodes plain load package join added (CStruct [(str "a", a)]) defaults1 = Some [s] /\ s_id s = 1) /\
  (exists s t, setup_nodes plain load package join added (CStruct [(str "a", b); (str "b", b)]) defaults1 = Some [s; t] /\ s_id s = s_id t) /\
  setup_nodes plain load package join added (CStruct [(str "a", a); (str "b", b)]) defaults2 = Some ns /\
  exists t, In t ns /\ s_diag t = str "b" /\ forall n, lookup_node n (map (fun s => (s_name s, s)) ns) <> Some t.
Proof.
  exists ex_plain, ex_load, (fun p => str "/" ++ p ++ str "/"), (fun a b => a ++ b), (fun _ _ _ => true), ex_defaults,
    (Struct [(str "eds_file", Plain 2); (str "eds_pkg", Plain 3); (str "name", Plain 7)]),
    (Struct [(str "id", Plain 6)]), (Struct [(str "id", Plain 1)]).
  eexists. do 2 (split; [eexists; reflexivity|]). do 4 (split; [cbn; tauto|]). do 2 (split; [reflexivity|]).
  split; [eexists; split; vm_compute; reflexivity|]. split; [do 2 eexists; split; vm_compute; reflexivity|].
  split; [vm_compute; reflexivity|]. eexists. split; [right; left; reflexivity|]. split; [reflexivity|].
  intros n. cbn [map lookup_node s_name]. match goal with |- context [text_eqb n ?m] => destruct (text_eqb n m) end; discriminate.
Qed.
Print Assumptions C84_refuted.
