(** Claims about the assembly of motor chains and their joints. *)
From Verif Require Import Base KeyModel CanModel LayerModel LayerSpec LayerProofs LayerProps EdsModel ChainModel ChainSpec SetupModel SetupSpec SetupProps AssemblyModel AssemblySpec AssemblyProofs.
From Coq Require Import Permutation.

Section Props.
Variable plain : Z -> pval.
Variable load : text -> list (text * text) -> option EdsModel.dict.
Variable package : text -> text.
Variable join : text -> text -> text.
Variable driver_ok : text -> bool.
Variable master_ok : text -> text -> bool.
Variable sync_ok : Z -> Z -> bool.
Variable urdf : text -> bool.
Variable motor_ok : text -> text -> option value -> EdsModel.dict -> bool.
Variable handle_ok : text -> value -> EdsModel.dict -> bool.
Variable junk : bytes.
Notation chain := (motor_chain plain load package join driver_ok master_ok sync_ok urdf motor_ok handle_ok junk).
Notation node_of := (fun defaults e x =>
  describes plain load package join (fun _ _ _ => true) (snd e) defaults (fst e) (fst x) /\
  drives plain urdf motor_ok handle_ok defaults (fst e) (snd e) (s_dict (fst x)) (snd x)).
Notation fine p l := (proper (p_defaults p) /\ entries_of plain (p_nodes p) l /\ Forall (fun e => is_struct (snd e) /\ proper (snd e)) l).

(** C96. What a chain that was set up consists of: the layers in their order, and for every entry of
    the list of nodes one node, motor, joint handle and emergency handler, in the same order. *)
Theorem C96_composition : forall p l b, fine p l -> chain p = Some b ->
  exists device h xs, bus_fine driver_ok master_ok (p_bus p) device /\ sync_fine sync_ok p /\ heartbeat_fine junk p h /\
    Forall2 (node_of (p_defaults p)) l xs /\
    stack b = stack_of p device /\ nodes b = map fst xs /\ motors b = map snd xs /\
    handles b = map (fun x => m_joint (snd x)) xs /\ emcys b = map (fun x => s_id (fst x)) xs /\
    update_ms b = update_of p /\ heartbeat b = h.
Proof.
  intros p l b (PD & EN & F) E. apply chain_sound in E as (device & h & l' & ns & ms & B & SF & H & EN' & A & C).
  assert (l' = l) as -> by (apply nodes_entries in EN, EN'; congruence).
  destruct (all_made_pairs _ _ _ _ _ _ _ _ _ _ _ PD F A) as (xs & -> & -> & X).
  destruct C as (C1 & C2 & C3 & C4 & C5 & C6 & C7 & _). rewrite map_map in C4, C5. exists device, h, xs. repeat split; try assumption.
  all: try apply B.
Qed.
(** A chain is set up if its parameters are fine. *)
Theorem C96_accepted : forall p l device h xs, fine p l -> (forall q ov ov', Permutation ov ov' -> load q ov = load q ov') ->
  bus_fine driver_ok master_ok (p_bus p) device -> sync_fine sync_ok p -> heartbeat_fine junk p h ->
  Forall2 (node_of (p_defaults p)) l xs -> exists b, chain p = Some b.
Proof.
  intros p l device h xs (PD & EN & F) O B SF H X.
  exact (chain_complete _ _ _ _ _ _ _ _ _ _ _ p device h l _ _ B SF H EN (pairs_all_made _ _ _ _ _ _ _ _ _ _ PD F O X)).
Qed.

Lemma shape p l b : fine p l -> chain p = Some b -> let n := List.length l in let sync := negb (p_interval p =? 0) in
  NoDup (ids (chain_tree b)) /\
  forall o, o <> ODiag -> order o (chain_tree b) = map rid (match o with OWrite | OShutdown => top_down sync n | _ => bottom_up sync n end).
Proof.
  intros (PD & EN & F) E. apply chain_sound in E as (device & h & l' & ns & ms & B & SF & H & EN' & A & C).
  assert (l' = l) as -> by (apply nodes_entries in EN, EN'; congruence).
  assert (L : List.length ns = List.length ms /\ List.length ms = List.length l).
  { clear - A. induction A as [|e l s ns m ms M A [I1 I2]]; [auto|]. cbn. auto. }
  destruct L as [L1 L2]. cbn zeta. rewrite <- L2. split; [exact (tree_nodup _ _ _ _ _ _ C L1)|intros o; exact (tree_order _ _ _ _ _ _ C L1 o)].
Qed.

(** In every cycle every layer reads once, those below first, and writes once, those above first. *)
Theorem C96_cycle : forall p l b beh s w, fine p l -> chain p = Some b -> s = Ready \/ s = Error -> all_in s (chain_tree b) w ->
  let n := List.length l in let sync := negb (p_interval p =? 0) in
  exists r wr,
    log (exec beh (chain_tree b) ORead w) = log w ++ r /\ started ORead r = map rid (bottom_up sync n) /\
    log (exec beh (chain_tree b) OWrite w) = log w ++ wr /\ started OWrite wr = map rid (top_down sync n) /\
    forall x y, present sync n x -> present sync n y -> below x y ->
      before (started ORead r) (rid x) (rid y) /\ before (started OWrite wr) (rid y) (rid x).
Proof.
  intros p l b beh s w F E S A n sync. destruct (shape p l b F E) as [ND OR]. fold n sync in OR.
  destruct (C17_order beh (chain_tree b) ORead s w ND A S) as (r & R1 & R2).
  destruct (C17_order beh (chain_tree b) OWrite s w ND A S) as (wr & W1 & W2).
  rewrite OR in R2, W2 by discriminate. exists r, wr. do 4 (split; [assumption|]). intros x y PX PY BL.
  rewrite R2, W2. destruct (order_below sync n x y PX PY BL). split; apply before_rid; assumption.
Qed.
(** For every node: the data of this cycle pass from the bus to the controllers, the commands of the
    controllers pass to the bus in the same cycle. *)
Theorem C96_flow : forall p l b beh s w i, fine p l -> chain p = Some b -> s = Ready \/ s = Error -> all_in s (chain_tree b) w ->
  (i < List.length l)%nat ->
  exists r wr,
    log (exec beh (chain_tree b) ORead w) = log w ++ r /\ log (exec beh (chain_tree b) OWrite w) = log w ++ wr /\
    (before (started ORead r) (rid RCan) (rid (RNode i)) /\ before (started ORead r) (rid (RNode i)) (rid (RMotor i)) /\
     before (started ORead r) (rid (RMotor i)) (rid (RHandle i)) /\ before (started ORead r) (rid (RHandle i)) (rid RControllers)) /\
    (before (started OWrite wr) (rid RControllers) (rid (RHandle i)) /\ before (started OWrite wr) (rid (RHandle i)) (rid (RMotor i)) /\
     before (started OWrite wr) (rid (RMotor i)) (rid (RNode i)) /\ before (started OWrite wr) (rid (RNode i)) (rid RCan)).
Proof.
  intros p l b beh s w i F E S A L. destruct (C96_cycle p l b beh s w F E S A) as (r & wr & R1 & _ & W1 & _ & X). exists r, wr. do 2 (split; [assumption|]).
  assert (B : forall x y h k, height x = Some h -> height y = Some k -> (h < k)%nat -> below x y) by (intros x y h k; exists h, k; auto).
  assert (X1 := X RCan (RNode i) Logic.I L (B RCan (RNode i) 1%nat 3%nat eq_refl eq_refl ltac:(lia))).
  assert (X2 := X (RNode i) (RMotor i) L L (B (RNode i) (RMotor i) 3%nat 4%nat eq_refl eq_refl ltac:(lia))).
  assert (X3 := X (RMotor i) (RHandle i) L L (B (RMotor i) (RHandle i) 4%nat 5%nat eq_refl eq_refl ltac:(lia))).
  assert (X4 := X (RHandle i) RControllers L Logic.I (B (RHandle i) RControllers 5%nat 6%nat eq_refl eq_refl ltac:(lia))). tauto.
Qed.

Lemma prefix_before {A} (q r : list A) a c : before (q ++ r) a c -> In c q -> before q a c.
Proof.
  intros [N (l1 & l2 & l3 & E)] I. apply in_split in I as (q1 & q2 & ->).
  assert (ND := N). rewrite <- app_assoc in E. cbn in E.
  assert (X : q1 = l1 ++ a :: l2).
  { rewrite <- app_assoc in N. cbn in N. apply NoDup_remove_2 in N. clear ND.
    assert (E' : q1 ++ c :: (q2 ++ r) = (l1 ++ a :: l2) ++ c :: l3) by (rewrite <- app_assoc; exact E). clear E.
    revert N E'. generalize (q2 ++ r), (l1 ++ a :: l2). clear. intros u v. revert v. induction q1 as [|x q1 IH]; intros v N E.
    - destruct v as [|y v]; [reflexivity|]. injection E as <- E. exfalso. apply N. cbn. rewrite E. apply in_app_iff. right. left. reflexivity.
    - destruct v as [|y v].
      + injection E as -> E. exfalso. apply N. left. reflexivity.
      + injection E as <- E. f_equal. apply IH; [|exact E]. intros J. apply N. right. exact J. }
  split.
  - revert ND. generalize (q1 ++ c :: q2). clear. intros q. induction q as [|x q IH]; intros N; [constructor|]. inversion N as [|? ? N1 N2]; subst.
    constructor; [intros I; apply N1, in_app_iff; left; exact I|exact (IH N2)].
  - exists l1, l2, q2. rewrite X, <- app_assoc. reflexivity.
Qed.

(** Initialisation goes through the layers from the bottom: either all get ready, or everything is
    off again and no layer was started before those below it. *)
Theorem C96_init : forall p l b beh w, fine p l -> chain p = Some b -> all_in Off (chain_tree b) w ->
  let n := List.length l in let sync := negb (p_interval p =? 0) in
  let w' := exec beh (chain_tree b) OInit w in
  exists new, log w' = log w ++ new /\
    ((okw w' = true /\ all_in Ready (chain_tree b) w' /\ started OInit new = map rid (bottom_up sync n)) \/
     (okw w' = false /\ all_in Off (chain_tree b) w' /\ prefix (started OInit new) (map rid (bottom_up sync n)))) /\
    (forall x y, present sync n x -> present sync n y -> below x y -> In (rid y) (started OInit new) -> before (started OInit new) (rid x) (rid y)) /\
    (forall pre i post, new = pre ++ End i OInit false :: post -> no_start OInit post).
Proof.
  intros p l b beh w F E A n sync w'. destruct (shape p l b F E) as [ND OR]. fold n sync in OR.
  destruct (C16_init_all_or_nothing beh (chain_tree b) w ND A) as (new & L & C). fold w' in L, C. rewrite (OR OInit) in C by discriminate. cbn match in C.
  exists new. split; [exact L|]. split; [exact C|]. split.
  - intros x y PX PY BL I. destruct (order_below sync n x y PX PY BL) as [O _]. apply before_rid in O.
    destruct C as [(_ & _ & EQ)|(_ & _ & r & EQ)]; [rewrite EQ; exact O|]. rewrite EQ in O. exact (prefix_before _ _ _ _ O I).
  - intros pre i post EQ. destruct (C15_nothing_starts_after_failure beh (chain_tree b) OInit w) as (new' & L' & X). fold w' in L'.
    assert (new' = new) as -> by (rewrite L in L'; apply app_inv_head in L'; congruence). exact (proj1 (X pre i OInit post EQ)).
Qed.
(** Shutting down goes from the top. *)
Theorem C96_shutdown : forall p l b beh s w, fine p l -> chain p = Some b -> s = Ready \/ s = Error -> all_in s (chain_tree b) w ->
  let n := List.length l in let sync := negb (p_interval p =? 0) in
  let w' := exec beh (chain_tree b) OShutdown w in
  exists new, log w' = log w ++ new /\ all_in Off (chain_tree b) w' /\ started OShutdown new = map rid (top_down sync n) /\
    forall x y, present sync n x -> present sync n y -> below x y -> before (started OShutdown new) (rid y) (rid x).
Proof.
  intros p l b beh s w F E S A n sync w'. destruct (shape p l b F E) as [ND OR]. fold n sync in OR.
  destruct (C17_order beh (chain_tree b) OShutdown s w ND A S) as (new & L & O). rewrite OR in O by discriminate. exists new. split; [exact L|]. split.
  - apply C15_shutdown; [exact ND|]. exists s. split; [destruct S as [->| ->]; cbn; auto|exact A].
  - split; [exact O|]. intros x y PX PY BL. rewrite O. apply before_rid. apply (order_below sync n x y PX PY BL).
Qed.

(** C97. Each node has one joint, which the URDF knows (see also C96_composition). A joint is looked up as
    the handle of the first node that has it. *)
Theorem C97_lookup : forall p l b, fine p l -> chain p = Some b ->
  exists js, Forall2 (fun e j => joint_of plain (p_defaults p) (fst e) (snd e) j) l js /\ handles b = js /\ Forall (fun j => urdf j = true) js /\
    forall j i, lookup_node j (lookup b) = Some i <-> nth_error js i = Some j /\ forall k, (k < i)%nat -> nth_error js k <> Some j.
Proof.
  intros p l b (PD & EN & F) E. apply chain_sound in E as (device & h & l' & ns & ms & B & SF & H & EN' & A & C).
  assert (l' = l) as -> by (apply nodes_entries in EN, EN'; congruence).
  destruct (all_made_pairs _ _ _ _ _ _ _ _ _ _ _ PD F A) as (xs & -> & -> & X).
  destruct C as (_ & _ & _ & C4 & _ & _ & _ & C8). exists (map m_joint (map snd xs)). split; [|split; [exact C4|split; [|exact (proj2 C8)]]].
  - clear - X. induction X as [|e x l xs [X1 X2] X IH]; [constructor|]. cbn. constructor; [exact (dr_joint _ _ _ _ _ _ _ _ _ X2)|exact IH].
  - clear - X. induction X as [|e x l xs [X1 X2] X IH]; [constructor|]. cbn. constructor; [exact (dr_urdf _ _ _ _ _ _ _ _ _ X2)|exact IH].
Qed.
(** If no two nodes have the same joint then each joint stands for its own node. *)
Theorem C97_own_partial : forall p l b i j, fine p l -> chain p = Some b -> NoDup (handles b) -> nth_error (handles b) i = Some j ->
  lookup_node j (lookup b) = Some i.
Proof.
  intros p l b i j F E N H. destruct (C97_lookup p l b F E) as (js & _ & <- & _ & X). apply X. split; [exact H|]. intros k K K2.
  rewrite NoDup_nth_error in N. assert (k = i); [|lia]. apply N; [apply nth_error_Some; congruence|congruence].
Qed.
(** However often the chain is initialised, the joints are registered once, with the handles that they
    are looked up with, and without errors. *)
Theorem C97_registered : forall p l b k, fine p l -> chain p = Some b ->
  exists x, inits urdf (lookup b) (S k) robot0 = (x, true) /\ NoDup (map fst (reg x)) /\
    (forall j, In j (map fst (reg x)) <-> In j (handles b)) /\
    (forall j i, In (j, i) (reg x) <-> lookup_node j (lookup b) = Some i).
Proof.
  intros p l b k F E. destruct (C97_lookup p l b F E) as (js & _ & HJ & U & X).
  destruct F as (PD & EN & F). apply chain_sound in E as (device & h & l' & ns & ms & B & SF & H & EN' & A & C).
  destruct C as (_ & _ & _ & C4 & _ & _ & _ & C8). rewrite C4 in HJ. subst js.
  assert (I : forall j i, In (j, i) (lookup b) <-> lookup_node j (lookup b) = Some i) by (intros j i; rewrite SetupProofs.lookup_node_in; [reflexivity|exact (proj1 C8)]).
  exists (mkRobot false (lookup b)). split; [|split; [exact (proj1 C8)|split; [|exact I]]].
  - apply inits_fine. intros j i J. apply I, X in J as [J _]. apply nth_error_In in J. rewrite Forall_forall in U. exact (U j J).
  - cbn [reg]. intros j. rewrite C4. pose proof (firsts_none _ _ j C8) as N. rewrite lookup_not in N.
    destruct (in_dec (list_eq_dec Z.eq_dec) j (map fst (lookup b))) as [Y|Y], (in_dec (list_eq_dec Z.eq_dec) j (map m_joint ms)) as [V|V]; tauto.
Qed.
End Props.
Print Assumptions C96_composition.
Print Assumptions C96_accepted.
Print Assumptions C96_cycle.
Print Assumptions C96_flow.
Print Assumptions C96_init.
Print Assumptions C96_shutdown.
Print Assumptions C97_lookup.
Print Assumptions C97_own_partial.
Print Assumptions C97_registered.

(** ** Examples. The plain values are those of SetupProps; 10 and 11 are more joints. *)
Definition ex_plain2 (z : Z) : pval := if z =? 10 then PText (str "arm") else if z =? 11 then PText (str "elbow") else ex_plain z.
Definition ex_params (ns : list (text * value)) (defaults : value) (interval : Z) : chain_params :=
  mkParams (mkBus (Some (str "can0")) None None None None) interval 0 20 (Some (str "77f#05"), Some 10) (CStruct ns) defaults false.
Definition ex_chain : chain_params -> option build :=
  motor_chain ex_plain2 ex_load (fun p => str "/" ++ p ++ str "/") (fun a b => a ++ b) (fun t => text_eqb t (str "can::SocketCANInterface"))
    (fun t d => text_eqb t (str "canopen::SimpleMaster::Allocator") && text_eqb d (str "can0")) (fun _ _ => true)
    (fun j => text_eqb j (str "arm") || text_eqb j (str "elbow") || text_eqb j (str "hand"))
    (fun a n o d => text_eqb a (str "canopen::Motor402::Allocator")) (fun _ _ _ => true) (repeat 0 8).
Definition ex_n1 : value := Struct [(str "id", Plain 1); (str "joint", Plain 10)].
Definition ex_n2 : value := Struct [(str "id", Plain 9); (str "name", Plain 11)].
Definition ex_n3 : value := Struct [(str "id", Plain 1)].
Definition ex_list : list (text * value) := [(str "a", ex_n1); (str "b", ex_n2); (str "hand", ex_n3)].
Definition ex_p : chain_params := ex_params ex_list ex_defaults 10.
Example C96_ex :
  (proper (p_defaults ex_p) /\ entries_of ex_plain2 (p_nodes ex_p) ex_list /\ Forall (fun e => is_struct (snd e) /\ proper (snd e)) ex_list) /\
  exists b, ex_chain ex_p = Some b /\
    stack b = [LCan (str "can0") false; LSync 10 0; LNodes; LMotors; LRobot; LControllers 10000000; LEmcy] /\
    map m_name (motors b) = [str "arm_motor"; str "elbow_motor"; str "hand_motor"] /\
    emcys b = [5; 6; 5] /\ lookup b = [(str "arm", 0%nat); (str "elbow", 1%nat); (str "hand", 2%nat)] /\
    all_in Off (chain_tree b) world0 /\
    let w := exec (fun _ _ _ => []) (chain_tree b) OInit world0 in
    all_in Ready (chain_tree b) w /\
    started OWrite (log (exec (fun _ _ _ => []) (chain_tree b) OWrite w)) =
      map rid [RChain; REmcys; REmcy 0; REmcy 1; REmcy 2; RControllers; RRobot; RHandle 0; RHandle 1; RHandle 2;
               RMotors; RMotor 0; RMotor 1; RMotor 2; RNodes; RNode 0; RNode 1; RNode 2; RSync; RCan].
Proof.
  split.
  - split; [cbn; tauto|]. split; [reflexivity|]. repeat constructor; try (eexists; reflexivity); cbn; tauto.
  - eexists. split; [vm_compute; reflexivity|]. do 4 (split; [reflexivity|]). split; [intros i _; reflexivity|]. split.
    + intros i I. vm_compute in I. repeat (destruct I as [<-|I]; [vm_compute; reflexivity|]). destruct I.
    + vm_compute. reflexivity.
Qed.
Example C96_accepted_ex : forall q ov ov', Permutation ov ov' -> ex_load q ov = ex_load q ov'.
Proof. reflexivity. Qed.

(** A joint the URDF does not know, a master type, an invalid heartbeat: no chain. *)
Example C96_refused_ex :
  ex_chain (ex_params [(str "leg", ex_n3)] ex_defaults 10) = None /\
  ex_chain (mkParams (mkBus (Some (str "can0")) None None (Some (str "x")) None) 10 0 0 (None, None) (CStruct ex_list) ex_defaults false) = None /\
  ex_chain (mkParams (mkBus (Some (str "can0")) None None None None) 10 0 0 (None, Some 5) (CStruct ex_list) ex_defaults false) = None /\
  ex_chain (mkParams (mkBus (Some (str "can0")) None None None None) 0 0 0 (None, None) (CStruct ex_list) ex_defaults false) = None.
Proof. repeat split; vm_compute; reflexivity. Qed.

(** Two nodes with the same joint are accepted, with a motor and a handle each: the second handle is
    never registered, however often the chain is initialised, so no controller can command that motor or read its
    position. *)
Theorem C97_refuted : exists plain load package join driver_ok master_ok sync_ok urdf motor_ok handle_ok junk p l b,
  (proper (p_defaults p) /\ entries_of plain (p_nodes p) l /\ Forall (fun e => is_struct (snd e) /\ proper (snd e)) l) /\
  motor_chain plain load package join driver_ok master_ok sync_ok urdf motor_ok handle_ok junk p = Some b /\
  List.length (motors b) = 2%nat /\ List.length (handles b) = 2%nat /\
  forall k j, ~ In (j, 1%nat) (reg (fst (inits urdf (lookup b) k robot0))).
Proof.
  exists ex_plain2, ex_load, (fun p => str "/" ++ p ++ str "/"), (fun a b => a ++ b), (fun t => text_eqb t (str "can::SocketCANInterface")),
    (fun t d => text_eqb t (str "canopen::SimpleMaster::Allocator") && text_eqb d (str "can0")), (fun _ _ => true),
    (fun j => text_eqb j (str "arm") || text_eqb j (str "elbow") || text_eqb j (str "hand")),
    (fun a n o d => text_eqb a (str "canopen::Motor402::Allocator")), (fun _ _ _ => true), (repeat 0 8),
    (ex_params [(str "a", ex_n1); (str "b", ex_n1)] ex_defaults 10), [(str "a", ex_n1); (str "b", ex_n1)].
  eexists. split; [|split; [vm_compute; reflexivity|split; [reflexivity|split; [reflexivity|]]]].
  - split; [cbn; tauto|]. split; [reflexivity|]. repeat constructor; try (eexists; reflexivity); cbn; tauto.
  - intros [|k] j I; [destruct I|]. rewrite inits_fine in I.
    + cbn in I. destruct I as [I|[]]. discriminate I.
    + intros q i [[= <- <-]|[]]. vm_compute. reflexivity.
Qed.
Print Assumptions C97_refuted.
Example C97_ex : exists b, ex_chain ex_p = Some b /\ NoDup (handles b) /\ nth_error (handles b) 1 = Some (str "elbow").
Proof.
  eexists. split; [vm_compute; reflexivity|]. split; [|reflexivity]. cbn. repeat constructor; cbn; intuition discriminate.
Qed.
