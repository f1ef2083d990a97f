(** Further cases of earlier properties, found missing by wrong versions of the model *)
From Coq Require Import Lia.
From Verif Require Import Base CanModel KeyModel KeySpec KeyProofs StorageModel.
From Verif Require EdsModel EdsSpec TextModel EmcyModel SyncModel CtrlModel RobotModel PdoModel PdoSpec EdsProofs PdoProofs DriveProofs StorageProofs MotorModel.
From Verif Require DriveModel ModeModel HomingModel LifeModel.
Local Open Scope Z_scope.

(** ** C24: numbers too large for the C library are read as the largest value of an unsigned type *)
Theorem C24_too_large : forall T t x r, int_type T -> i_signed T = false -> numeral t x -> 2^64 <= x -> ends r ->
  int_from_string T (t ++ r) = 2^(8 * i_size T) - 1.
Proof.
  intros T t x r HT U H X Hr. destruct (scan_numeral t x r H Hr) as (neg & v & E & Hv & Hx).
  unfold int_from_string. rewrite U. unfold strtoul. rewrite E.
  assert (neg = false) as -> by (destruct neg; [lia|reflexivity]). cbn iota in Hx. subst x.
  replace (v >? 2^64 - 1) with true by lia. unfold wrap, i_bits. rewrite U.
  destruct HT as [K|[K|[K|[K|[]]]]]; rewrite <- K; reflexivity.
Qed.
Print Assumptions C24_too_large.
Example C24_too_large_ex : int_from_string (mkIty false 2) (str "18446744073709551616") = 65535 /\ int_from_string (mkIty false 2) (str "65536") = 0.
Proof. split; vm_compute; reflexivity. Qed.

(** ** C75: a list of objects with a gap is refused *)
Lemma missing_names : forall real raw_string raw pt objects n i k d, i < k <= i + Z.of_nat n ->
  EdsModel.child (EdsModel.print_dec k) objects = None -> EdsModel.parse_names real raw_string raw pt objects i n d = None.
Proof.
  intros real raw_string raw pt objects n. induction n as [|n IH]; intros i k d K C; [lia|]. cbn [EdsModel.parse_names].
  destruct (Z.eq_dec k (i + 1)) as [->|N]; [rewrite C; reflexivity|].
  destruct (EdsModel.child (EdsModel.print_dec (i + 1)) objects) as [name|]; [|reflexivity]. destruct (EdsModel.parse_object _ _ _ _ name d) as [d1|]; [|reflexivity].
  apply IH with (k := k); [lia|exact C].
Qed.
Theorem C75_missing_name : forall real raw_string raw (pt : EdsModel.ini) key (objects : EdsModel.section) (count : text) k,
  In key [str "MandatoryObjects"; str "OptionalObjects"; str "ManufacturerObjects"] ->
  EdsModel.child key pt = Some objects -> EdsModel.child (str "SupportedObjects") objects = Some count ->
  1 <= k <= int_from_string (mkIty false 2) count -> EdsModel.child (EdsModel.print_dec k) objects = None ->
  EdsModel.from_file real raw_string raw pt [] = None.
Proof.
  intros real raw_string raw pt key objects count k I C N K M.
  assert (P : forall d, EdsModel.parse_objects real raw_string raw pt key d = None).
  { intros d. unfold EdsModel.parse_objects. rewrite C, N. apply missing_names with (k := k); [|exact M].
    change EdsModel.U16 with (mkIty false 2). lia. }
  clear C. unfold EdsModel.from_file. destruct (EdsModel.child (str "DeviceInfo") pt); [|reflexivity]. destruct (_ && _); [|reflexivity]. cbn [EdsModel.apply_overlay].
  destruct I as [<-|[<-|[<-|[]]]]; [rewrite P; reflexivity| |]; (destruct (EdsModel.parse_objects _ _ _ pt (str "MandatoryObjects") []) as [d1|]; [|reflexivity]);
    [rewrite P; reflexivity|]. destruct (EdsModel.parse_objects _ _ _ pt (str "OptionalObjects") d1) as [d2|]; [|reflexivity]. rewrite P. reflexivity.
Qed.
Print Assumptions C75_missing_name.
Example C75_missing_name_ex : let l := [(str "SupportedObjects", str "2"); (str "1", str "0x1000")] in
  EdsModel.child (str "SupportedObjects") l = Some (str "2") /\ 1 <= 2 <= int_from_string (mkIty false 2) (str "2") /\ EdsModel.child (EdsModel.print_dec 2) l = None.
Proof. split; [vm_compute; reflexivity|]. split; [vm_compute; split; discriminate|vm_compute; reflexivity]. Qed.

(** ** C77: objects of unknown types cannot be read or written as text *)
Theorem C77_unknown_type : forall show_real real raw_string raw dt e c cached rd s wr, EdsSpec.kind_of dt = None ->
  TextModel.text_read show_real dt e c cached rd = Ok (c, [], TextModel.TFail) /\
  TextModel.text_write real raw_string raw dt e c cached s wr = Ok (c, [], TextModel.TFail).
Proof.
  intros show_real real raw_string raw dt e c cached rd s wr K.
  assert (N : EdsModel.type_of dt = None).
  { unfold EdsModel.type_of. repeat match goal with |- context [dt =? ?n] => destruct (Z.eqb_spec dt n) as [->|_]; [discriminate K|] end. reflexivity. }
  unfold TextModel.text_read, TextModel.text_write. rewrite N. auto.
Qed.
Print Assumptions C77_unknown_type.
Example C77_unknown_type_ex : EdsSpec.kind_of 1 = None /\ EdsSpec.kind_of 12 = None.
Proof. split; reflexivity. Qed.

(** ** C43: an initialisation succeeds if the device has no generic error and its list can be cleared *)
Theorem C43_init_succeeds : forall h v, EmcyModel.in_phase (fst (EmcyModel.run h EmcyModel.new_emcy)) = EmcyModel.Idle -> Z.testbit v 0 = false ->
  let s := fst (EmcyModel.run h EmcyModel.new_emcy) in
  snd (EmcyModel.run [EmcyModel.ReadRegister (Some v); EmcyModel.ClearList true] s) = [EmcyModel.Nothing; EmcyModel.InitOk] /\
  EmcyModel.read_error true (fst (EmcyModel.run [EmcyModel.ReadRegister (Some v); EmcyModel.ClearList true] s)) = false.
Proof.
  intros h v P B s. fold s in P. cbn [EmcyModel.run EmcyModel.step]. rewrite P.
  assert (N : has v 1 = false).
  { unfold has. rewrite (proj2 (Z.eqb_eq _ _)); [reflexivity|]. apply Z.bits_inj'. intros i Hi. rewrite Z.land_spec, Z.bits_0.
    destruct (Z.eq_dec i 0) as [->|Ne]; [rewrite B; reflexivity|]. change 1 with (2^0). rewrite Z.pow2_bits_false by lia. apply andb_false_r. }
  rewrite N. cbn. split; reflexivity.
Qed.
Print Assumptions C43_init_succeeds.
Example C43_init_succeeds_ex : EmcyModel.in_phase (fst (EmcyModel.run [EmcyModel.Emergency [0; 0x10; 0x81; 0; 0; 0; 0; 0]] EmcyModel.new_emcy)) = EmcyModel.Idle.
Proof. reflexivity. Qed.

(** ** C46: after a recovery the SYNC layer listens if socket and filter could be set up, and nothing is sent *)
Theorem C46_recovered : forall es s f b, let b1 := SyncModel.brun (es ++ [SyncModel.BRecover s f]) b in
  SyncModel.b_sock b1 = s /\ SyncModel.b_handler b1 = s && f /\ SyncModel.b_tx b1 = false /\ SyncModel.b_started b1 = [].
Proof.
  intros es s f b. cbv zeta. unfold SyncModel.brun. rewrite fold_left_app. cbn. destruct s, f; auto.
Qed.
Print Assumptions C46_recovered.

(** ** C64: a controller that was never prepared is not started but stopped *)
Theorem C64_unprepared : forall starts x c, In c starts -> RobotModel.registered (RobotModel.reg x) (RobotModel.cname c) = None ->
  In (RobotModel.cname c) (RobotModel.stopping (RobotModel.do_switch starts x)).
Proof.
  intros starts x c I N. unfold RobotModel.do_switch.
  assert (G : forall l f, In (RobotModel.cname c) l -> In (RobotModel.cname c) (snd (RobotModel.do_starts (RobotModel.reg x) l f))).
  { clear I. induction l as [|a l IH]; intros f I; [destruct I|]. cbn [RobotModel.do_starts].
    destruct (Z.eq_dec a (RobotModel.cname c)) as [->|Ne].
    - rewrite N. destruct (RobotModel.do_starts _ l f). left. reflexivity.
    - destruct I as [E|I]; [congruence|]. destruct (RobotModel.registered _ a) as [k|].
      + destruct (RobotModel.forward_all _ k f) as [ok f1]. specialize (IH f1 I). destruct (RobotModel.do_starts _ l f1) as [f2 bad]. cbn [snd] in *. destruct ok; [exact IH|right; exact IH].
      + specialize (IH f I). destruct (RobotModel.do_starts _ l f). right. exact IH. }
  specialize (G _ (RobotModel.hands x) (in_map RobotModel.cname _ _ I)).
  destruct (RobotModel.do_starts _ _ _) as [f bad]. cbn. apply in_or_app. right. exact G.
Qed.
Print Assumptions C64_unprepared.
Example C64_unprepared_ex : RobotModel.registered [] 5 = None.
Proof. reflexivity. Qed.

(** ** C83: the time of the controllers is the one that passed, whatever was called *)
Definition passed (e : CtrlModel.cevent) : Z := match e with CtrlModel.CTick d => Z.max 0 d | _ => 0 end.
Theorem C83_clock : forall fixed es x y, CtrlModel.run fixed es x = Ok y ->
  CtrlModel.clock y = CtrlModel.clock x + fold_right Z.add 0 (map passed es).
Proof.
  intros fixed es. induction es as [|e es IH]; intros x y H; cbn [CtrlModel.run map fold_right] in *; [injection H as ->; lia|].
  destruct (CtrlModel.step fixed e x) as [x1|] eqn:E; [|discriminate H]. rewrite (IH _ _ H).
  assert (K : CtrlModel.clock x1 = CtrlModel.clock x + passed e); [|lia].
  assert (Sh : forall x, CtrlModel.clock (CtrlModel.shutdown x) = CtrlModel.clock x).
  { intros z. unfold CtrlModel.shutdown, CtrlModel.handle_shutdown. destruct (CtrlModel.ls z); try reflexivity; cbn; destruct (CtrlModel.cm z); reflexivity. }
  assert (Ha : forall x, CtrlModel.clock (CtrlModel.halt x) = CtrlModel.clock x).
  { intros z. unfold CtrlModel.halt. match goal with |- context [if ?c then _ else _] => destruct c; reflexivity end. }
  destruct e; cbn [CtrlModel.step passed] in *; try (injection E as <-).
  - cbn. lia.
  - unfold CtrlModel.init. destruct (CtrlModel.ls x); try lia. destruct ok; [|rewrite Sh; lia].
    unfold CtrlModel.handle_init. cbn [CtrlModel.with_ls CtrlModel.cm]. destruct (CtrlModel.cm x); [cbn; lia|].
    destruct fails; [rewrite Sh; cbn; lia|cbn; lia].
  - unfold CtrlModel.recover. destruct (CtrlModel.ls x); try lia. destruct ok; [|rewrite Ha; lia].
    unfold CtrlModel.handle_recover. cbn [CtrlModel.with_ls CtrlModel.cm]. destruct (CtrlModel.cm x); [cbn; lia|rewrite Ha; cbn; lia].
  - rewrite Ha. lia.
  - rewrite Sh. lia.
  - unfold CtrlModel.loop in E.
    repeat match type of E with context [match ?z with _ => _ end] => destruct z; try discriminate E end; injection E as <-; cbn; lia.
Qed.
Print Assumptions C83_clock.
Example C83_clock_ex : match CtrlModel.run 0 [CtrlModel.CInit true false; CtrlModel.CTick 7; CtrlModel.CShutdown; CtrlModel.CTick 3] (CtrlModel.ctrl0 false 4 1000) with
  | Ok y => CtrlModel.clock y = 1010 | Undef => False end.
Proof. reflexivity. Qed.

(** ** C86: the value of an object whose default is relative to the node id *)
Theorem C86_relative_default : forall dv d nid k e ptr off w, lookup k (PdoModel.w_store w) = None -> lookup k d = Some e ->
  0 <= off < 2^32 -> 0 <= nid -> nid + off < 2^32 -> e_readable e = true ->
  h_data (e_def e) = h_data (hold_offset (mkIty false 4) ptr off) -> h_type (e_def e) = h_type (hold_offset (mkIty false 4) ptr off) ->
  exists w1, PdoModel.entry_of d nid 4 k w = Ok (w1, inl tt) /\
    exists w2, PdoModel.obj dv d k (PdoModel.SGet true) w1 = Ok (w2, inl (RVal (le_bytes 4 (nid + off)))).
Proof.
  intros dv d nid k e ptr off w L D Ho Hn Hs Rd H1 H2. unfold PdoModel.entry_of. rewrite L, D, H1.
  cbn [hold_offset h_data h_type i_size] in H1, H2 |- *. change (Z.to_nat 4) with 4%nat in *.
  assert (V : (nid + of_le (firstn 4 (le_bytes 4 off ++ repeat 0 (8 - 4) ++ ptr))) mod 2 ^ (8 * 4) = nid + off).
  { assert (F : firstn 4 (le_bytes 4 off ++ repeat 0 (8 - 4) ++ ptr) = le_bytes 4 off) by reflexivity.
    rewrite F, (proj2 (proj2 (EdsProofs.of_le_bytes (fun _ _ => None) (fun _ _ => []) 4 off))). change (8 * Z.of_nat 4) with 32. change (8 * 4) with 32. rewrite (Z.mod_small off) by lia. apply Z.mod_small. lia. }
  cbn iota. rewrite V. unfold entry_cell. rewrite H1, H2. cbn [ty_eqb ity_eqb Bool.eqb i_signed i_size Z.eqb Pos.eqb andb].
  eexists. split; [reflexivity|]. unfold PdoModel.obj. cbn [PdoModel.w_store]. rewrite StorageProofs.lookup_store_eq, D.
  unfold PdoModel.cell_op. cbn [PdoModel.to_op step]. unfold data_get. rewrite Rd. cbn. eexists. reflexivity.
Qed.
Print Assumptions C86_relative_default.

(** ** C88: a recovery while homing is selected takes its start bit back *)
Theorem C88_recover_homing : forall d x l y e, ModeModel.sel (DriveModel.mo x) = Some 6 ->
  DriveModel.drun d l (x, DriveModel.RMode) = (y, DriveModel.Done e) -> HomingModel.execute (DriveModel.ho y) = false.
Proof.
  intros d x l y e Sx E.
  set (J := fun s : DriveModel.drv * DriveModel.dpc => match snd s with
    | DriveModel.RMode => ModeModel.sel (DriveModel.mo (fst s)) = Some 6
    | DriveModel.REnable _ | DriveModel.Done _ => HomingModel.execute (DriveModel.ho (fst s)) = false
    | _ => False end).
  assert (K : J (DriveModel.drun d l (x, DriveModel.RMode))); [|rewrite E in K; exact K]. clear E.
  assert (St : forall ev s, J s -> J (DriveModel.dstep d ev s)).
  { intros ev [z p] H.
    assert (Fo : DriveProofs.foreign ev -> J (DriveModel.dstep d ev (z, p))).
    { intros F. pose proof (DriveProofs.foreign_frame d ev z p F) as (P & A & _ & _ & B). unfold J in *. rewrite P. cbn [fst snd] in H.
      destruct p; try exact H; congruence. }
    unfold J in H. cbn [fst snd] in H. destruct p; try contradiction.
    all: destruct ev; try (apply Fo; exact Logic.I); clear Fo; cbn [DriveModel.dstep DriveModel.thread DriveModel.timeout DriveModel.throw]; try exact H.
    all: try (rewrite H; unfold J; cbn [fst snd]; destruct (ModeModel.startok _ _); reflexivity).
    all: unfold J, DriveModel.in_switch; cbn [fst snd DriveModel.with_mo DriveModel.ho].
    all: match goal with |- context [match ?q with ModeModel.SRet _ => _ | _ => _ end] => destruct q; try exact H end.
    all: unfold DriveModel.enabled_then; destruct b; exact H. }
  assert (G : forall l s, J s -> J (DriveModel.drun d l s)).
  { clear l. induction l as [|a l IH]; intros s H; [exact H|]. apply (IH (DriveModel.dstep d a s)), St, H. }
  apply G. exact Sx.
Qed.
Print Assumptions C88_recover_homing.
Example C88_recover_homing_ex : ModeModel.sel (DriveModel.mo (DriveModel.mkDrv (ModeModel.mkM MotorModel.Fault MotorModel.OperationEnable 15 (Some 6) 6 (fun _ => true) None) (HomingModel.mkH 0 true) 0x218 false)) = Some 6.
Proof. reflexivity. Qed.


(** ** C79: what a call reports is decided by the calling thread alone *)
Theorem C79_reports_own : forall s e, (forall o, e <> LifeModel.Call o) -> (forall ok, e <> LifeModel.Layer ok) -> e <> LifeModel.Deadline ->
  LifeModel.err (LifeModel.step s e) = LifeModel.err s /\ LifeModel.warn (LifeModel.step s e) = LifeModel.warn s /\
  LifeModel.res (LifeModel.step s e) = LifeModel.res s /\ LifeModel.lp (LifeModel.step s e) = LifeModel.lp s.
Proof.
  assert (D : forall x s, LifeModel.err (LifeModel.set_ds x s) = LifeModel.err s /\ LifeModel.warn (LifeModel.set_ds x s) = LifeModel.warn s /\
    LifeModel.res (LifeModel.set_ds x s) = LifeModel.res s /\ LifeModel.lp (LifeModel.set_ds x s) = LifeModel.lp s).
  { intros x s. unfold LifeModel.set_ds. match goal with |- context [if ?c then _ else _] => destruct c; cbn; auto end. }
  intros s e A B C. destruct e; try congruence; try (exfalso; eapply A; reflexivity); try (exfalso; eapply B; reflexivity); cbn [LifeModel.step].
  - unfold LifeModel.driver_step. destruct (LifeModel.rt s); cbn; auto; try apply D. destruct (LifeModel.stopped s); cbn; auto.
  - apply D.
  - cbn. auto.
  - destruct (nth_error _ _); [|auto]. cbn. apply D.
Qed.
Print Assumptions C79_reports_own.
