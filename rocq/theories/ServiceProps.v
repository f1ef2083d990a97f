(** C93: the services for objects. *)
From Verif Require Import Base KeyModel KeySpec StorageModel StorageSpec StorageProofs SdoModel SdoSpec ChainModel MergeProofs EdsSpec EdsProofs TextModel TextSpec TextProofs
  RemoteModel RemoteSpec RemoteProofs SetupModel ServiceModel ServiceSpec ServiceProofs.
From Verif Require EdsModel.

Section Props.
Variable real : nat -> text -> option bytes.
Variable raw_string : text -> bytes.
Variable raw_offset : ity -> Z -> bytes.
Variable show_real : nat -> bytes -> text.
Notation serve := (serve real raw_string raw_offset show_real).
Notation serve_all := (serve_all real raw_string raw_offset show_real).

(** A request for a node or an object that does not exist fails without any effect. *)
Theorem C93_unknown : forall v n q w,
  (lookup_node (addressed q) w = None -> serve v n q w = Ok (w, [], mkReply false NodeNotFound [])) /\
  (forall d, lookup_node (addressed q) w = Some d -> EdsModel.lookup (v_dict d) (key_fromString (object q)) = None ->
     serve v n q w = Ok (w, [], mkReply false Exception [])).
Proof.
  intros v n q w. unfold ServiceModel.serve. fold (addressed q). fold (object q). split.
  - intros ->. reflexivity.
  - intros d -> L. unfold find_cell. rewrite L. reflexivity.
Qed.
(** A request accesses only the object named, of the device named, and changes nothing else: no other
    device, no other cell of the storage, no other object; without an access not even that object.
    It is successful if and only if there is no message. *)
Theorem C93_isolation : forall v n q w w1 a r, serve v n q w = Ok (w1, a, r) ->
  (success r = true <-> msg r = NoMessage) /\
  (forall m, m <> addressed q -> lookup_node m w1 = lookup_node m w) /\
  (forall x, In x a -> exists d e, lookup_node (addressed q) w = Some d /\ EdsModel.lookup (v_dict d) (key_fromString (object q)) = Some e /\
     fst x = (addressed q, EdsModel.d_index e, EdsModel.d_sub e)) /\
  (forall d, lookup_node (addressed q) w = Some d -> exists d1, lookup_node (addressed q) w1 = Some d1 /\ v_dict d1 = v_dict d /\
     (forall k, k <> key_fromString (object q) -> lookup k (v_cells d1) = lookup k (v_cells d)) /\
     (forall i s, v_objs d1 i s <> v_objs d i s -> exists x, In x a /\ fst x = (addressed q, i, s))).
Proof.
  intros v n q w w1 a r H. destruct (serve_cases real raw_string raw_offset show_real v n q w w1 a r H)
    as [(L & -> & -> & ->)|[(d & L & F & -> & -> & ->)|(d & e & c & c1 & ev & obj1 & L & F & -> & -> & OB & SM & _)]].
  - split; [cbn; split; discriminate|]. split; [reflexivity|]. split; [intros x []|]. intros d X. congruence.
  - split; [cbn; split; discriminate|]. split; [reflexivity|]. split; [intros x []|]. intros d' X. exists d'. split; [exact X|]. split; [reflexivity|]. split; [reflexivity|]. intros i s N. congruence.
  - split; [exact SM|]. split; [intros m N; apply lookup_put_neq, N|]. split.
    + intros x X. apply in_map_iff in X as (y & <- & _). exists d, e. split; [exact L|]. split; [eapply find_cell_lookup; exact F|reflexivity].
    + intros d' X. rewrite L in X. injection X as <-. eexists. split; [eapply lookup_put_eq; exact L|]. cbn [v_dict v_cells v_objs]. split; [reflexivity|].
      split; [intros k N; apply lookup_store_neq; congruence|]. intros i s N. unfold put_object in N.
      destruct ((i =? EdsModel.d_index e) && (s =? EdsModel.d_sub e)) eqn:E; [|congruence]. apply andb_true_iff in E as [E1 E2]. apply Z.eqb_eq in E1. apply Z.eqb_eq in E2. subst i s.
      destruct ev as [|y ev]; [destruct (N (OB eq_refl))|]. exists (addressed q, EdsModel.d_index e, EdsModel.d_sub e, y). split; [left; reflexivity|reflexivity].
Qed.

(** The next three: after any history of requests and changes by the devices. Only objects that are integers. *)

(** No request has undefined behaviour. *)
Theorem C93_defined_partial : forall w l, start_ok w -> Forall (event_ok w) l -> exists w1 a rs, serve_all l w = Ok (w1, a, rs) /\
  List.length rs = List.length (filter (fun x => match x with Request _ _ _ => true | _ => false end) l).
Proof.
  intros w l S HE. destruct (history real raw_string raw_offset show_real l w (start_inv w S) HE) as (w1 & a & rs & E & _).
  exists w1, a, rs. split; [exact E|]. clear S HE. revert w w1 a rs E. induction l as [|x l IH]; intros w w1 a rs E; cbn [ServiceModel.serve_all] in E; [injection E as <- <- <-; reflexivity|].
  destruct x as [q v n|m i s b]; cbn [filter].
  - destruct (serve v n q w) as [[[w2 a2] r2]|]; [|discriminate E]. destruct (serve_all l w2) as [[[w3 a3] r3]|] eqn:E3; [|discriminate E].
    injection E as <- <- <-. cbn [List.length]. f_equal. exact (IH w2 w3 a3 r3 E3).
  - exact (IH _ _ _ _ E).
Qed.
(** An uncached get of a readable object returns the usual text of the number the device holds, or
    fails; it does not fail if the device answers and does not refuse. Missing: objects of one byte, see below. *)
Theorem C93_get_partial : forall w l w1 a rs m o d e T v n, start_ok w -> Forall (event_ok w) l -> serve_all l w = Ok (w1, a, rs) ->
  lookup_node m w1 = Some d -> integer d (key_fromString o) e T -> i_size T <> 1 -> EdsModel.d_readable e = true -> EdsModel.d_const e = Some false ->
  exists w2 a2 r, serve v n (GetObject m o false) w1 = Ok (w2, a2, r) /\
    ((success r = true /\ exists x, holds T (v_objs d (EdsModel.d_index e) (EdsModel.d_sub e)) x /\ usual_text (value r) x) \/
     (success r = false /\ ~ (v_veto v = no_veto /\ answering n))).
Proof.
  intros w l w1 a rs m o d e T v n S HE E L IT N1 R CF. destruct (history real raw_string raw_offset show_real l w (start_inv w S) HE) as (w1' & a' & rs' & E' & HI & _).
  rewrite E in E'. injection E' as <- <- <-. destruct (serve_step real raw_string raw_offset show_real v n (GetObject m o false) w1 HI) as (w2 & a2 & r & SE & _ & _ & P).
  { cbn [event_ok addressed object]. intros d' e' L' K'. rewrite L in L'. injection L' as <-. exists T. destruct IT as [K IT]. rewrite K in K'. injection K' as <-. split; [exact K|exact IT]. }
  exists w2, a2, r. split; [exact SE|]. destruct (HI m d L) as (DK & _ & _). destruct (find_cell_some d _ e T DK IT) as [c FC].
  destruct (P d _ e T c L eq_refl IT FC) as (d1 & _ & _ & Q0). unfold entry_flag in Q0. rewrite CF in Q0. destruct (Q0 R eq_refl) as [[A B]|[A B]]; [left|right]; auto.
Qed.
(** An uncached set of a writable object with the text of a number of its type, to a device that
    answers: it succeeds, and the device holds the number, or it fails, and the device holds what it held.
    Missing: devices that do not answer, see below. *)
Theorem C93_set_partial : forall w l w1 a rs m o d e kd T txt x v n, start_ok w -> Forall (event_ok w) l -> serve_all l w = Ok (w1, a, rs) ->
  lookup_node m w1 = Some d -> integer d (key_fromString o) e T -> kind_of (EdsModel.d_type e) = Some kd -> shows_value real kd txt (Number x) ->
  EdsModel.d_writable e = true -> answering n ->
  exists w2 a2 r d2, serve v n (SetObject m o false txt) w1 = Ok (w2, a2, r) /\ lookup_node m w2 = Some d2 /\
    let held d := v_objs d (EdsModel.d_index e) (EdsModel.d_sub e) in
    ((success r = true /\ holds T (held d2) x) \/ (success r = false /\ held d2 = held d /\ v_veto v <> no_veto)).
Proof.
  intros w l w1 a rs m o d e kd T txt x v n S HE E L IT K SH W AN. destruct (history real raw_string raw_offset show_real l w (start_inv w S) HE) as (w1' & a' & rs' & E' & HI & _).
  rewrite E in E'. injection E' as <- <- <-. destruct (serve_step real raw_string raw_offset show_real v n (SetObject m o false txt) w1 HI) as (w2 & a2 & r & SE & _ & _ & P).
  { cbn [event_ok addressed object]. intros d' e' L' K'. rewrite L in L'. injection L' as <-. exists T. destruct IT as [K0 IT]. rewrite K0 in K'. injection K' as <-. split; [exact K0|exact IT]. }
  destruct (HI m d L) as (DK & _ & _). destruct (find_cell_some d _ e T DK IT) as [c FC]. destruct (P d _ e T c L eq_refl IT FC) as (d1 & L1 & Q0).
  exists w2, a2, r, d1. split; [exact SE|]. split; [exact L1|]. exact (Q0 kd x K W eq_refl AN SH).
Qed.
End Props.
Print Assumptions C93_unknown.
Print Assumptions C93_isolation.
Print Assumptions C93_defined_partial.
Print Assumptions C93_get_partial.
Print Assumptions C93_set_partial.

(** Two devices; 6040 has 16 bits, 1018sub1 32 bits and is read only, 6060 has one byte *)
Definition ent (i s dt : Z) (w : bool) : EdsModel.dentry := EdsModel.mkDentry 7 i s dt (Some false) true w false [] no_value no_value.
Definition ex_dict : EdsModel.dict := [(key_index 0x6040, ent 0x6040 0 6 true); (key_sub 0x1018 1, ent 0x1018 1 7 false); (key_index 0x6060, ent 0x6060 0 2 true)].
Definition ex_dev (x : Z) : dev := mkDev ex_dict (fun _ => []) [] (fun i _ => if i =? 0x6040 then [x; 1] else if i =? 0x6060 then [10] else [1; 2; 3; 4]).
Definition ex_chain : chain := [(str "left", ex_dev 5); (str "right", ex_dev 6)].
Definition ex_serve := serve (fun _ _ => None) (fun _ => []) (fun _ _ => []) (fun _ _ => []).
Definition ex_all := serve_all (fun _ _ => None) (fun _ => []) (fun _ _ => []) (fun _ _ => []).
Definition good : server := mkServer true true true no_veto.
Example C93_ex : exists w1 a, ex_all
  [Request (GetObject (str "right") (str "6040") false) good 40; Request (SetObject (str "left") (str "6040") false (str "0x20")) good 40;
   Changed (str "right") 0x6040 0 [9; 0]; Request (GetObject (str "left") (str "6040") true) good 0; Request (GetObject (str "right") (str "6040") false) good 40;
   Request (SetObject (str "right") (str "1018sub1") false (str "3")) good 40; Request (GetObject (str "middle") (str "6040") false) good 40;
   Request (GetObject (str "left") (str "6041") false) good 40] ex_chain
  = Ok (w1, a, [mkReply true NoMessage (str "262"); mkReply true NoMessage []; mkReply true NoMessage (str "32"); mkReply true NoMessage (str "9");
                mkReply false Exception []; mkReply false NodeNotFound []; mkReply false Exception []]) /\ List.length a = 3%nat.
Proof. eexists. eexists. split; vm_compute; reflexivity. Qed.
Lemma ex_lookup : forall k e, EdsModel.lookup ex_dict k = Some e ->
  (k = key_index 0x6040 /\ e = ent 0x6040 0 6 true) \/ (k = key_sub 0x1018 1 /\ e = ent 0x1018 1 7 false) \/ (k = key_index 0x6060 /\ e = ent 0x6060 0 2 true).
Proof.
  intros k e H. unfold ex_dict in H. cbn [EdsModel.lookup] in H. repeat (destruct (Z.eqb_spec k (key_index 0x6040)); [injection H as <-; auto|]).
  destruct (Z.eqb_spec k (key_sub 0x1018 1)); [injection H as <-; auto|]. destruct (Z.eqb_spec k (key_index 0x6060)); [injection H as <-; auto|]. discriminate H.
Qed.
Example C93_start : start_ok ex_chain.
Proof.
  assert (G : forall x, 0 <= x < 256 -> device_ok (ex_dev x) /\ holds_integers (ex_dev x) /\ v_cells (ex_dev x) = []).
  { intros x X. split; [|split; [|reflexivity]].
    - constructor.
      + intros k e H. apply ex_lookup in H as [[_ ->]|[[_ ->]|[_ ->]]]; unfold object_ok; cbn; lia.
      + intros k k' e e' H H'. apply ex_lookup in H as [[-> ->]|[[-> ->]|[-> ->]]]; apply ex_lookup in H' as [[-> ->]|[[-> ->]|[-> ->]]]; cbn; intros; congruence || lia.
      + intros k e T [H _]. left. apply ex_lookup in H as [[_ ->]|[[_ ->]|[_ ->]]]; split; reflexivity.
      + intros k e T b [H _]. apply ex_lookup in H as [[_ ->]|[[_ ->]|[_ ->]]]; discriminate.
    - intros k e T [H (kd & K & I)]. apply ex_lookup in H as [[_ ->]|[[_ ->]|[_ ->]]]; injection K as <-; injection I as <-; cbn [v_objs ex_dev ent EdsModel.d_index Z.eqb Pos.eqb].
      + exists (x + 256). split; [unfold in_type; cbn; lia|]. split; [reflexivity|]. split; [repeat constructor; unfold byte_ok; lia|]. cbn. lia.
      + exists 67305985. split; [unfold in_type; cbn; lia|]. split; [reflexivity|]. split; [repeat constructor; unfold byte_ok; lia|]. reflexivity.
      + exists 10. split; [unfold in_type; cbn; lia|]. split; [reflexivity|]. split; [repeat constructor; unfold byte_ok; lia|]. reflexivity. }
  intros m d L. unfold ex_chain in L. cbn [lookup_node] in L. destruct (text_eqb m (str "left")); [injection L as <-; apply G; lia|].
  destruct (text_eqb m (str "right")); [injection L as <-; apply G; lia|]. discriminate L.
Qed.
Example C93_integer : integer (ex_dev 5) (key_fromString (str "6040")) (ent 0x6040 0 6 true) (mkIty false 2).
Proof. split; [vm_compute; reflexivity|]. eexists. split; reflexivity. Qed.

(** A device that does not answer: the set succeeds, and a cached get returns the new value. *)
Theorem C93_silent_refuted : forall v, exists w1 a, ex_serve v 0 (SetObject (str "left") (str "6040") false (str "7")) ex_chain = Ok (w1, a, mkReply true NoMessage []) /\
  (forall d, lookup_node (str "left") w1 = Some d -> v_objs d 0x6040 0 = [5; 1]) /\
  exists w2, ex_serve v 0 (GetObject (str "left") (str "6040") true) w1 = Ok (w2, [], mkReply true NoMessage (str "7")).
Proof.
  intros v. eexists. eexists. split; [vm_compute; reflexivity|]. split; [intros d L; vm_compute in L; injection L as <-; reflexivity|].
  eexists. vm_compute. reflexivity.
Qed.
Print Assumptions C93_silent_refuted.
(** One byte: the reply is the character with the code of the value, here a line feed for 10, which is
    no text of the number; a text that is no number sets the object to 0. *)
Theorem C93_text_refuted :
  (exists w1 a, ex_serve good 40 (GetObject (str "left") (str "6060") false) ex_chain = Ok (w1, a, mkReply true NoMessage [10])) /\
  (exists w1 a, ex_serve good 40 (SetObject (str "left") (str "6040") false (str "fast")) ex_chain = Ok (w1, a, mkReply true NoMessage []) /\
     forall d, lookup_node (str "left") w1 = Some d -> v_objs d 0x6040 0 = [0; 0]).
Proof.
  split; [eexists; eexists; vm_compute; reflexivity|]. eexists. eexists. split; [vm_compute; reflexivity|]. intros d L; vm_compute in L; injection L as <-; reflexivity.
Qed.
Print Assumptions C93_text_refuted.
