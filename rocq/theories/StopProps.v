(** A failing layer stops the drives (C113) *)
From Verif Require Import Base LayerModel LayerSpec LayerProofs LayerGroupProofs LayerOrderProofs MotorSpec StopModel StopSpec StopProofs.
From Verif Require MotorModel.

(** The handlers of every layer in a pass of the loop: if the read pass fails each layer is read, halted and then
    written, if the write pass fails it is halted at the end, otherwise it is not halted. *)
Theorem C113_calls : forall b t w i, NoDup (ids t) -> is_group t -> all_in Ready t w -> In i (ids t) ->
  let w1 := exec b t ORead (with_status status0 w) in
  exists l, log (pass b t w) = log w ++ l /\
    (okw w1 = false -> calls_of i l = [ORead; OHalt; OWrite] /\ okw (pass b t w) = false) /\
    (okw w1 = true -> okw (pass b t w) = false -> calls_of i l = [ORead; OWrite; OHalt]) /\
    (okw (pass b t w) = true -> okw w1 = true /\ calls_of i l = [ORead; OWrite]) /\
    (okw (pass b t w) = false -> all_in Error t (pass b t w)) /\ (okw (pass b t w) = true -> all_in Ready t (pass b t w)).
Proof.
  intros b t w i ND Hg A Hi w1. unfold pass. fold w1. destruct (exec_log b t ORead (with_status status0 w)) as [l1 L1]. fold w1 in L1. cbn [with_status log] in L1.
  destruct (exec_log b t OWrite w1) as [l2 L2]. exists (l1 ++ l2). split; [rewrite L2, L1, app_assoc; reflexivity|].
  destruct (group_calls b t ORead (with_status status0 w) ND Hg eq_refl A) as [R1 R2]. fold w1 in R1, R2. cbn [with_status] in R1, R2.
  assert (C1 : forall c, adds t (with_status status0 w) w1 c -> calls_of i l1 = c).
  { intros c H. specialize (H i Hi). rewrite L1, calls_app in H. exact (app_inv_head _ _ _ H). }
  assert (C2 : forall c, adds t w1 (exec b t OWrite w1) c -> calls_of i l2 = c).
  { intros c H. specialize (H i Hi). rewrite L2, calls_app in H. exact (app_inv_head _ _ _ H). }
  rewrite calls_app. destruct (okw w1) eqn:O1.
  - destruct (R1 eq_refl) as [S1 S2]. rewrite (C1 _ S2). destruct (group_calls b t OWrite w1 ND Hg eq_refl S1) as [W1 W2].
    destruct (okw (exec b t OWrite w1)) eqn:O2.
    + destruct (W1 eq_refl) as [S3 S4]. rewrite (C2 _ S4). repeat split; (congruence || auto).
    + destruct (W2 eq_refl) as [S3 S4]. rewrite (C2 _ S4). repeat split; (congruence || auto).
  - destruct (R2 eq_refl) as [S1 S2]. rewrite (C1 _ S2). destruct (ef_error b t (all_effect b t ND) OWrite w1 eq_refl S1) as [S3 S4]. rewrite (C2 _ S4).
    assert (O2 : okw (exec b t OWrite w1) = false) by (destruct (okw (exec b t OWrite w1)) eqn:X; [apply exec_ok_before in X; congruence|reflexivity]).
    rewrite O2. repeat split; (congruence || auto).
Qed.
Print Assumptions C113_calls.

(** If the read pass fails, a drive that is enabled then gets nothing but quick stops from then on: in the write pass of the same cycle and
    until someone recovers, initialises or shuts down the chain. One is sent in every write pass, unless the write of a target throws. *)
Theorem C113_stops_partial : forall b t v w d calls i, NoDup (ids t) -> is_group t -> all_in Ready t w -> In i (ids t) ->
  let w1 := exec b t ORead (with_status status0 w) in
  let w3 := exec_all b t calls (pass b t w) in
  okw w1 = false -> Forall quiet (map fst calls) ->
  exists l1 l3, log w1 = log w ++ l1 /\ log w3 = log w1 ++ l3 /\
    let '(d1, ws1) := follow i v (log w) l1 d in
    let '(d3, ws) := follow i v (log w1) l3 d1 in
    ws1 = [] /\ (forall sw, (forall past, sees v past = Some sw) -> known d1 = MotorModel.decode sw) /\
    ((forall past, sees v past = None) -> known d1 = known d) /\
    (known d1 = MotorModel.OperationEnable -> Forall stops ws) /\
    ((forall past, throws v past = false) -> List.length ws = S (writes calls)).
Proof.
  intros b t v w d calls i ND Hg A Hi w1 w3 O1 Q. unfold pass in w3. fold w1 in w3.
  destruct (exec_log b t ORead (with_status status0 w)) as [l1 L1]. fold w1 in L1. cbn [with_status log] in L1.
  assert (E3 : w3 = exec_all b t ((OWrite, stat w1) :: calls) w1).
  { unfold w3, exec_all. cbn [fold_left fst snd]. f_equal. f_equal. unfold with_status. destruct w1; reflexivity. }
  assert (Q3 : Forall quiet (map fst ((OWrite, stat w1) :: calls))) by (constructor; [right; left; reflexivity|exact Q]).
  rewrite E3 in *. clear E3. destruct (exec_all_log b t ((OWrite, stat w1) :: calls) w1) as [l3 L3]. exists l1, l3. split; [exact L1|]. split; [exact L3|].
  destruct (group_calls b t ORead (with_status status0 w) ND Hg eq_refl A) as [_ R2]. fold w1 in R2. destruct (R2 O1) as [S1 S2].
  specialize (S2 i Hi). cbn [with_status log] in S2. rewrite L1, calls_app in S2. apply app_inv_head in S2.
  destruct (follow_replay i v l1 (log w) d) as (xs & X1 & ->). rewrite S2 in X1.
  destruct xs as [|[p1 o1] [|[p2 o2] [|]]]; try discriminate X1. cbn in X1. injection X1 as -> ->. cbn [replay react_op fst snd].
  set (dr := drive_read (sees v p1) d). destruct (halt_word dr) as (K1 & _ & K2 & _).
  destruct (follow_replay i v l3 (log w1) (drive_halt dr)) as (ys & Y1 & ->).
  pose proof (exec_all_quiet b t _ w1 i l3 Q3 L3) as QY. rewrite <- Y1 in QY.
  destruct (replay v ys (drive_halt dr)) as [d3 ws] eqn:RP. split; [reflexivity|]. split; [|split; [|split]].
  - intros sw H. rewrite K1. unfold dr. rewrite H. reflexivity.
  - intros H. rewrite K1. unfold dr. rewrite H. reflexivity.
  - rewrite K1. intros K. pose proof (replay_stops v ys (drive_halt dr) QY (K2 K)) as [P _]. rewrite RP in P. exact P.
  - intros T. pose proof (replay_count v ys (drive_halt dr) QY T) as P. rewrite RP in P. cbn [snd] in P. rewrite P, Y1.
    rewrite (exec_all_error b t _ w1 i l3 ND S1 Hi Q3 L3). reflexivity.
Qed.
Print Assumptions C113_stops_partial.

(** If the write pass fails, the drives that are enabled get nothing but quick stops after that pass; the word of the pass has the commands it had
    before. *)
Theorem C113_next_cycle : forall b t v w d calls i, NoDup (ids t) -> is_group t -> all_in Ready t w -> In i (ids t) ->
  let w1 := exec b t ORead (with_status status0 w) in
  let w3 := exec_all b t calls (pass b t w) in
  okw w1 = true -> okw (pass b t w) = false -> Forall quiet (map fst calls) ->
  exists l2 l3, log (pass b t w) = log w ++ l2 /\ log w3 = log (pass b t w) ++ l3 /\
    let '(d2, ws2) := follow i v (log w) l2 d in
    let '(d3, ws) := follow i v (log (pass b t w)) l3 d2 in
    Forall (same_command (word d)) ws2 /\ (List.length ws2 <= 1)%nat /\
    (known d2 = MotorModel.OperationEnable -> Forall stops ws) /\
    ((forall past, throws v past = false) -> List.length ws2 = 1%nat /\ List.length ws = writes calls).
Proof.
  intros b t v w d calls i ND Hg A Hi w1 w3 O1 O2 Q. destruct (C113_calls b t w i ND Hg A Hi) as (l2 & L2 & _ & C2 & _ & C3 & _). fold w1 in C2.
  specialize (C2 O1 O2). specialize (C3 O2). destruct (exec_all_log b t calls (pass b t w)) as [l3 L3]. fold w3 in L3.
  exists l2, l3. split; [exact L2|]. split; [exact L3|].
  destruct (follow_replay i v l2 (log w) d) as (xs & X1 & ->). rewrite C2 in X1.
  destruct xs as [|[p1 o1] [|[p2 o2] [|[p3 o3] [|]]]]; try discriminate X1. cbn in X1. injection X1 as -> -> ->. cbn [replay].
  destruct (react_op v (p1, ORead) d) as [da wa] eqn:Ea. destruct (react_op v (p2, OWrite) da) as [db wb] eqn:Eb.
  destruct (react_same _ _ _ _ _ _ Ea) as [Sa1 Sa2]; [left; reflexivity|discriminate|]. destruct (react_same _ _ _ _ _ _ Eb) as [Sb1 Sb2]; [right; left; reflexivity|discriminate|].
  cbn [react_op fst snd] in Ea |- *. injection Ea as Ea <-.
  destruct (halt_word db) as (K1 & _ & K2 & _). destruct (follow_replay i v l3 (log (pass b t w)) (drive_halt db)) as (ys & Y1 & ->).
  pose proof (exec_all_quiet b t _ _ i l3 Q L3) as QY. rewrite <- Y1 in QY.
  destruct (replay v ys (drive_halt db)) as [d3 ws] eqn:RP. split; [|split; [|split]].
  - destruct wb as [x|]; constructor; [|constructor]. exact (same_trans _ _ _ Sa1 (Sb2 x eq_refl)).
  - destruct wb; cbn; lia.
  - rewrite K1. intros K. pose proof (replay_stops v ys (drive_halt db) QY (K2 K)) as [P _]. rewrite RP in P. exact P.
  - intros T. split.
    + cbn [react_op fst snd] in Eb. destruct (write_known _ _ _ _ _ _ Eb) as [_ W]. rewrite (T p2) in W. destruct (W eq_refl) as [x ->]. reflexivity.
    + pose proof (replay_count v ys (drive_halt db) QY T) as P. rewrite RP in P. cbn [snd] in P. rewrite P, Y1. exact (exec_all_error b t _ _ i l3 ND C3 Hi Q L3).
Qed.
Print Assumptions C113_next_cycle.

(** No drive is stopped without a failure, and a failure does not change the commands of a drive that is not enabled. *)
Theorem C113_no_other : forall b t v w d i, NoDup (ids t) -> is_group t -> all_in Ready t w -> In i (ids t) ->
  exists l1 l2, log (exec b t ORead (with_status status0 w)) = log w ++ l1 /\ log (pass b t w) = log (exec b t ORead (with_status status0 w)) ++ l2 /\
    let '(d1, ws1) := follow i v (log w) l1 d in
    let '(d2, ws2) := follow i v (log w ++ l1) l2 d1 in
    okw (pass b t w) = true \/ known d1 <> MotorModel.OperationEnable ->
    ws1 = [] /\ Forall (same_command (word d)) ws2 /\ same_command (word d) (word d2) /\ known d2 = known d1 /\
    ((forall past, throws v past = false) -> List.length ws2 = 1%nat).
Proof.
  intros b t v w d i ND Hg A Hi. set (w1 := exec b t ORead (with_status status0 w)).
  destruct (exec_log b t ORead (with_status status0 w)) as [l1 L1]. fold w1 in L1. cbn [with_status log] in L1.
  destruct (exec_log b t OWrite w1) as [l2 L2]. exists l1, l2. split; [exact L1|]. split; [exact L2|].
  assert (CR : (okw w1 = true /\ all_in Ready t w1 /\ calls_of i l1 = [ORead]) \/ (okw w1 = false /\ all_in Error t w1 /\ calls_of i l1 = [ORead; OHalt])).
  { destruct (group_calls b t ORead (with_status status0 w) ND Hg eq_refl A) as [R1 R2]. fold w1 in R1, R2.
    destruct (okw w1); [left; destruct (R1 eq_refl) as [S1 S2]|right; destruct (R2 eq_refl) as [S1 S2]]; (split; [reflexivity|]); (split; [exact S1|]);
      specialize (S2 i Hi); cbn [with_status log] in S2; rewrite L1, calls_app in S2; exact (app_inv_head _ _ _ S2). }
  assert (CW : (okw (pass b t w) = true /\ calls_of i l2 = [OWrite]) \/ (okw (pass b t w) = false /\ (calls_of i l2 = [OWrite] \/ calls_of i l2 = [OWrite; OHalt]))).
  { unfold pass. fold w1. assert (IV : forall c, adds t w1 (exec b t OWrite w1) c -> calls_of i l2 = c).
    { intros c H. specialize (H i Hi). rewrite L2, calls_app in H. exact (app_inv_head _ _ _ H). }
    destruct CR as [(O1 & S1 & _)|(O1 & S1 & _)].
    - destruct (group_calls b t OWrite w1 ND Hg eq_refl S1) as [W1 W2].
      destruct (okw (exec b t OWrite w1)); [left; split; [reflexivity|]; apply IV, W1; reflexivity|right; split; [reflexivity|]; right; apply IV, W2; reflexivity].
    - right. split; [destruct (okw (exec b t OWrite w1)) eqn:X; [apply exec_ok_before in X; congruence|reflexivity]|]. left. apply IV.
      apply (ef_error b t (all_effect b t ND) OWrite w1 eq_refl S1). }
  assert (OKR : okw (pass b t w) = true -> okw w1 = true) by (apply exec_ok_before).
  destruct (follow_replay i v l1 (log w) d) as (xs & X1 & ->).
  assert (HA : forall x y, react_op v (x, ORead) d = y -> y = (drive_read (sees v x) d, None)) by (intros x y <-; reflexivity).
  destruct (replay v xs d) as [d1 ws1] eqn:RX. destruct (follow_replay i v l2 (log w ++ l1) d1) as (ys & Y1 & ->).
  destruct (replay v ys d1) as [d2 ws2] eqn:RY. intros NO.
  assert (P1 : ws1 = [] /\ same_command (word d) (word d1)).
  { destruct CR as [(O1 & _ & C)|(O1 & _ & C)]; rewrite C in X1.
    - destruct xs as [|[p1 o1] [|]]; try discriminate X1. cbn in X1. injection X1 as ->. cbn in RX. injection RX as <- <-. split; [reflexivity|]. destruct (sees v p1); apply same_refl.
    - destruct xs as [|[p1 o1] [|[p2 o2] [|]]]; try discriminate X1. cbn in X1. injection X1 as -> ->. cbn [replay react_op fst snd] in RX. injection RX as <- <-. split; [reflexivity|].
      destruct (halt_word (drive_read (sees v p1) d)) as (K1 & _ & _ & K2). rewrite K1 in NO. destruct NO as [NO|NO]; [apply OKR in NO; congruence|].
      rewrite (K2 NO). destruct (sees v p1); apply same_refl. }
  destruct P1 as [-> P1]. split; [reflexivity|].
  assert (P2 : Forall (same_command (word d1)) ws2 /\ same_command (word d1) (word d2) /\ known d2 = known d1 /\ ((forall past, throws v past = false) -> List.length ws2 = 1%nat)).
  { assert (C : calls_of i l2 = [OWrite] \/ (okw (pass b t w) = false /\ calls_of i l2 = [OWrite; OHalt])) by tauto.
    destruct C as [C|[O C]]; rewrite C in Y1.
    - destruct ys as [|[p1 o1] [|]]; try discriminate Y1. cbn in Y1. injection Y1 as ->. cbn [replay] in RY. destruct (react_op v (p1, OWrite) d1) as [db wb] eqn:Eb.
      destruct (react_same _ _ _ _ _ _ Eb) as [Sb1 Sb2]; [right; left; reflexivity|discriminate|]. cbn [react_op fst snd] in Eb. destruct (write_known _ _ _ _ _ _ Eb) as [Kb W]. injection RY as <- <-.
      split; [destruct wb; constructor; auto|]. split; [exact Sb1|]. split; [exact Kb|]. intros T. rewrite (T p1) in W. destruct (W eq_refl) as [x ->]. reflexivity.
    - destruct ys as [|[p1 o1] [|[p2 o2] [|]]]; try discriminate Y1. cbn in Y1. injection Y1 as -> ->. cbn [replay] in RY. destruct (react_op v (p1, OWrite) d1) as [db wb] eqn:Eb.
      destruct (react_same _ _ _ _ _ _ Eb) as [Sb1 Sb2]; [right; left; reflexivity|discriminate|]. cbn [react_op fst snd] in Eb, RY. destruct (write_known _ _ _ _ _ _ Eb) as [Kb W]. injection RY as <- <-.
      destruct NO as [NO|NO]; [congruence|]. destruct (halt_word db) as (K1 & _ & _ & K2). rewrite (K2 ltac:(congruence)), K1.
      split; [destruct wb; constructor; auto|]. split; [exact Sb1|]. split; [exact Kb|]. intros T. rewrite (T p1) in W. destruct (W eq_refl) as [x ->]. reflexivity. }
  destruct P2 as (P2 & P3 & P4 & P5). split; [|split; [exact (same_trans _ _ _ P1 P3)|split; [exact P4|exact P5]]].
  rewrite Forall_forall in *. intros x Hx. exact (same_trans _ _ _ P1 (P2 x Hx)).
Qed.
Print Assumptions C113_no_other.

(** A drive whose mode throws when it writes the target (the device refuses it, or does not answer, and the object is not mapped) is not told to stop:
    the quick stop is never written, however often the loop goes on. *)
Definition refusing : behaviour := fun _ id o => if Nat.eqb id 5 && op_eqb o OWrite then [(ERROR, str "refused")] else [].
Definition chain_of : tree := Group KStack 0 [Leaf 1; Group KGroup 2 [Leaf 3; Leaf 4]; Leaf 5].
Definition ready_chain : world := mkW (fun _ => Ready) status0 [].
(** Enabled, in profiled velocity mode with the target 5 *)
Definition enabled_env (bad : bool) : env :=
  mkEnv (fun _ => Some 0x27) (fun _ => Some (3, MotorModel.forward_beh 0 (MotorModel.mkTgt 5 true))) (fun _ => 3) (fun _ => bad).
Definition enabled_drive : drive := mkDrive MotorModel.OperationEnable 15 false.

(** Whoever throws in every write pass gets nothing. *)
Lemma thrown_out : forall b t v w d i calls, Forall quiet (map fst calls) -> known d = MotorModel.OperationEnable ->
  (forall past, sees v past = None \/ exists sw, sees v past = Some sw /\ MotorModel.decode sw = MotorModel.OperationEnable) ->
  (forall past, throws v past = true /\ exists bh, uses v past = Some (displays v past, bh)) ->
  exists l, log (exec_all b t calls (pass b t w)) = log w ++ l /\ snd (follow i v (log w) l d) = [].
Proof.
  intros b t v w d i calls Q K Se Th.
  set (all := (ORead, status0) :: (OWrite, stat (exec b t ORead (with_status status0 w))) :: calls).
  assert (E : exec_all b t calls (pass b t w) = exec_all b t all w).
  { unfold exec_all, all. cbn [fold_left fst snd]. unfold pass. set (w1 := exec b t ORead (with_status status0 w)). destruct w1; reflexivity. }
  rewrite E. destruct (exec_all_log b t all w) as [l L].
  exists l. split; [exact L|]. destruct (follow_replay i v l (log w) d) as (xs & X & ->).
  apply replay_throws; [|exact Se|exact K|exact Th].
  rewrite X. refine (exec_all_quiet b t all w i l _ L). constructor; [left; reflexivity|]. constructor; [right; left; reflexivity|exact Q].
Qed.
Theorem C113_refused_refuted : exists b t v w d i, NoDup (ids t) /\ is_group t /\ all_in Ready t w /\ In i (ids t) /\
  okw (pass b t w) = false /\ known d = MotorModel.OperationEnable /\
  forall calls, Forall quiet (map fst calls) ->
    exists l, log (exec_all b t calls (pass b t w)) = log w ++ l /\ snd (follow i v (log w) l d) = [].
Proof.
  exists refusing, chain_of, (enabled_env true), ready_chain, enabled_drive, 5%nat.
  split; [repeat constructor; cbn; intuition congruence|]. split; [exact Logic.I|]. split; [intros i _; reflexivity|]. split; [cbn; tauto|].
  split; [vm_compute; reflexivity|]. split; [reflexivity|]. intros calls Q.
  apply thrown_out; [exact Q|reflexivity|intros past; right; exists 0x27; split; reflexivity|].
  intros past. split; [reflexivity|]. eexists. reflexivity.
Qed.
Print Assumptions C113_refused_refuted.

(** The heartbeat of the node behind layer 3 is lost; the drive of layer 5 is enabled in velocity mode and told 0x000F (enable, no halt) before. It gets
    0x000B: quick stop, in this cycle and in the next one. *)
Definition lost : behaviour := fun _ id o => if Nat.eqb id 3 && op_eqb o ORead then [(ERROR, str "heartbeat problem")] else [].
Example C113_example :
  let w1 := exec lost chain_of ORead (with_status status0 ready_chain) in
  let w2 := pass lost chain_of ready_chain in
  let w3 := exec_all lost chain_of [(ORead, status0); (OWrite, status0)] w2 in
  okw w1 = false /\ calls_of 5 (log w2) = [ORead; OHalt; OWrite] /\
  snd (follow 5 (enabled_env false) [] (log w2) enabled_drive) = [0x0B] /\
  snd (follow 5 (enabled_env false) [] (log w3) enabled_drive) = [0x0B; 0x0B] /\
  (stops 0x0B /\ ~ stops 0x0F) /\
  snd (follow 5 (enabled_env false) [] (log (pass (fun _ _ _ => []) chain_of ready_chain)) enabled_drive) = [0x0F] /\
  snd (follow 5 (enabled_env false) [] (log (exec_all refusing chain_of [(ORead, status0); (OWrite, status0)] (pass refusing chain_of ready_chain))) enabled_drive) = [0x0F; 0x0B].
Proof.
  split; [vm_compute; reflexivity|]. split; [vm_compute; reflexivity|]. split; [vm_compute; reflexivity|]. split; [vm_compute; reflexivity|].
  split; [split; [apply stops_bits; repeat split|intros H; apply stops_bits in H as (_ & H & _); discriminate H]|].
  split; vm_compute; reflexivity.
Qed.
