From Verif Require Import Base MotorModel MotorSpec MotorProofs ModeModel ModeSpec ModeProofs HomingModel HomingSpec HomingProofs DriveModel DriveSpec.

Lemma drun_snoc : forall d l e s, drun d (l ++ [e]) s = dstep d e (drun d l s).
Proof. intros. unfold drun. rewrite fold_left_app. reflexivity. Qed.

Lemma read_in_snoc : forall l e sw m, read_in l sw m -> read_in (l ++ [e]) sw m.
Proof. intros l e sw m [H|H]; [left|right]; apply in_or_app; auto. Qed.
Lemma read_in_own : forall l sw m, read_in (l ++ [Own sw m]) sw m.
Proof. intros. left. apply in_or_app. right. left. reflexivity. Qed.
Lemma read_in_loop : forall l sw m, read_in (l ++ [Loop sw m]) sw m.
Proof. intros. right. apply in_or_app. right. left. reflexivity. Qed.
Lemma saw_snoc : forall l e s, saw l s -> saw (l ++ [e]) s.
Proof. intros l e s [sw [m [H D]]]. exists sw, m. split; [apply read_in_snoc|]; assumption. Qed.
Lemma saw_mode_snoc : forall l e m, saw_mode l m -> saw_mode (l ++ [e]) m.
Proof. intros l e m [sw H]. exists sw. apply read_in_snoc, H. Qed.
Lemma saw_homed_snoc : forall l e, saw_homed l -> saw_homed (l ++ [e]).
Proof. intros l e (l1 & sw & l2 & -> & H & E). exists l1, sw, (l2 ++ [e]). rewrite <- app_assoc. auto. Qed.

(** The known state comes from a word read, or is the one of the beginning *)
Definition known (x0 : drv) (l : list devent) (s : state402) : Prop := s = st (mo x0) \/ exists sw m, read_in l sw m /\ decode sw = s.
Lemma known_snoc : forall x0 l e s, known x0 l s -> known x0 (l ++ [e]) s.
Proof. intros x0 l e s [H|[sw [m [H D]]]]; [left; exact H|right; exists sw, m; split; [apply read_in_snoc; exact H|exact D]]. Qed.
Lemma known_saw : forall x0 l s, s <> Start -> known x0 l s -> s = st (mo x0) \/ saw l s.
Proof. intros x0 l s N [H|[sw [m [H D]]]]; [left; exact H|right]. exists sw, m. split; [exact H|]. apply decode_denotes; assumption. Qed.

(** What the steps of switchState leave alone *)
Lemma switch_frame : forall t q y, let y' := fst (switch_step t q y) in
  st y' = st y /\ sel y' = sel y /\ shown y' = shown y /\ hast y' = hast y.
Proof.
  intros t q y. destruct q as [|l|l|l|l|b]; cbn; auto.
  - destruct (state_eqb l (tst y)); cbn; auto.
  - destruct (set_transition (mcw y) l (tst y) true) as [[ok c] n]. destruct ok; cbn; auto.
  - destruct (state_eqb (st y) l); cbn; auto.
Qed.
Lemma halt_frame : forall y, st (halt y) = st y /\ sel (halt y) = sel y /\ shown (halt y) = shown y /\ hast (halt y) = hast y.
Proof.
  intros y. unfold halt. destruct (hloc y) as [s|]; [|auto]. destruct (_ || _); [cbn; auto|]. destruct (state_eqb s OperationEnable); [|cbn; auto].
  destruct (set_transition (mcw y) s QuickStopActive false) as [[ok c] n]. cbn. auto.
Qed.

(** Events of other threads: what they leave alone, and what is known afterwards *)
Definition foreign (e : devent) : Prop := match e with Loop _ _ | HaltState | Halt => True | _ => False end.
Lemma foreign_frame : forall d e x p, foreign e -> let y := fst (dstep d e (x, p)) in
  snd (dstep d e (x, p)) = p /\ sel (mo y) = sel (mo x) /\ hast (mo y) = hast (mo x) /\ sfr y = sfr x /\ execute (ho y) = execute (ho x).
Proof.
  intros d e x p F. destruct e; try contradiction; cbn [dstep fst snd].
  - unfold read_state. cbn [fst snd mo ho sfr step]. cbn [sel hast]. repeat split. destruct (_ && _); reflexivity.
  - cbn. auto.
  - unfold with_mo. cbn [mo sfr ho step fst]. destruct (halt_frame (mo x)) as (_ & A & _ & B). auto.
Qed.
Lemma foreign_known : forall d e x p x0 l, foreign e -> known x0 l (st (mo x)) -> known x0 (l ++ [e]) (st (mo (fst (dstep d e (x, p))))).
Proof.
  intros d e x p x0 l F K. destruct e; try contradiction; cbn [dstep fst snd].
  - right. exists sw, m. split; [apply read_in_loop|reflexivity].
  - apply known_snoc. exact K.
  - apply known_snoc. unfold with_mo. cbn [mo step fst]. rewrite (proj1 (halt_frame (mo x))). exact K.
Qed.

(** ** Init *)
Section Init.
Variables (d : dcfg) (x0 : drv).
Let s0 := (x0, IRead).
(** State and mode known were read *)
Definition fresh_read (l : list devent) (x : drv) : Prop :=
  exists sw, read_in l sw (shown (mo x)) /\ exists m' sw', read_in l sw' m' /\ decode sw' = st (mo x).
Definition local_read (l : list devent) (q : spc) : Prop := forall u, spc_local q = Some u -> exists sw m, read_in l sw m /\ decode sw = u.
(** The word the homing handler has stored: none, or one read in homing mode, after the drive was seen enabled *)
Definition stored_word (l : list devent) (x : drv) : Prop :=
  status (ho x) = 0 \/ exists l1 sw l2, l = l1 ++ Loop sw HOMING :: l2 /\ status (ho x) = Z.land sw HMASK /\ saw l1 OperationEnable.
Definition homing_found (l : list devent) (x : drv) : Prop :=
  fresh_read l x /\ saw l OperationEnable /\ alloc (dc d) HOMING = true /\ is_homing d = true.
Definition IM (l : list devent) (x : drv) (p : pc) : Prop :=
  match p with
  | M0 k => k = HOMING
  | M1 k | M2 k | M3 k => k = HOMING /\ stored_word l x
  | S1 k q => k = HOMING /\ stored_word l x /\ (forall b, q <> SRet b)
  | S2 k ok q => k = HOMING /\ stored_word l x /\ (ok = true -> saw_mode l HOMING) /\ (forall b, q <> SRet b)
  | _ => False
  end.
Definition one_error (e : list hmsg) : Prop :=
  e = [ENotEnabled] \/ e = [ETrans; ENotEnabled] \/ e = [ELate; ENotEnabled] \/ e = [EWrongHandler] \/ e = [EEnter] \/ e = [EHome].
Definition II (l : list devent) (x : drv) (p : dpc) : Prop :=
  match p with
  | IRead => sel (mo x) = sel (mo x0)
  | IClear => fresh_read l x /\ sel (mo x) = sel (mo x0)
  | IEnable q => fresh_read l x /\ sel (mo x) = sel (mo x0) /\ local_read l q /\ (forall b, q <> SRet b)
  | IAlloc => fresh_read l x /\ sel (mo x) = sel (mo x0) /\ saw l OperationEnable
  | IMode p => homing_found l x /\ IM l x p
  | IHomeStart => homing_found l x /\ stored_word l x /\ saw_mode l HOMING
  | IHome q => homing_found l x /\ stored_word l x /\ saw_mode l HOMING /\ hvalid d = true /\ hmethod d <> 0 /\ (forall b, q <> HDone b)
  | INoMode => homing_found l x /\ saw_mode l HOMING /\ hvalid d = true /\ (hmethod d = 0 \/ saw_homed l)
  | Done [] => saw l OperationEnable /\
      (alloc (dc d) HOMING = false /\ sel (mo x) = sel (mo x0) \/
       alloc (dc d) HOMING = true /\ is_homing d = true /\ hvalid d = true /\ saw_mode l HOMING /\ sel (mo x) = None /\ (hmethod d = 0 \/ saw_homed l))
  | Done e => one_error e
  | Thrown => True
  | _ => False
  end.

Lemma fresh_snoc : forall l e x x', fresh_read l x -> shown (mo x') = shown (mo x) -> st (mo x') = st (mo x) -> fresh_read (l ++ [e]) x'.
Proof.
  intros l e x x' [sw [H (m & sw' & H' & D)]] A B. exists sw. rewrite A, B. split; [apply read_in_snoc, H|].
  exists m, sw'. split; [apply read_in_snoc, H'|exact D].
Qed.
Lemma local_snoc : forall l e q, local_read l q -> local_read (l ++ [e]) q.
Proof. intros l e q H u E. destruct (H u E) as [sw [m [A B]]]. exists sw, m. split; [apply read_in_snoc, A|exact B]. Qed.
Lemma stored_snoc : forall l e x x', stored_word l x -> status (ho x') = status (ho x) -> stored_word (l ++ [e]) x'.
Proof.
  intros l e x x' [H|(l1 & sw & l2 & -> & H & S)] E; [left; congruence|right]. exists l1, sw, (l2 ++ [e]).
  rewrite <- app_assoc. split; [reflexivity|]. split; [congruence|exact S].
Qed.
Lemma found_snoc : forall l e x x', homing_found l x -> shown (mo x') = shown (mo x) -> st (mo x') = st (mo x) -> homing_found (l ++ [e]) x'.
Proof. intros l e x x' (A & B & C & D) E F. split; [eapply fresh_snoc; eassumption|]. split; [apply saw_snoc, B|auto]. Qed.
Lemma local_move : forall l e q x q', fresh_read l x -> local_read l q -> (forall u, spc_local q' = Some u -> spc_local q = Some u \/ u = st (mo x)) ->
  local_read (l ++ [e]) q'.
Proof.
  intros l e q x q' [_ [_ (m & sw & H & D)]] L M u E. destruct (M u E) as [X| ->]; [exact (local_snoc l e q L u X)|].
  exists sw, m. split; [apply read_in_snoc, H|exact D].
Qed.
Lemma local_enabled : forall l q, local_read l q -> spc_local q = Some OperationEnable -> saw l OperationEnable.
Proof. intros l q L E. destruct (L _ E) as [sw [m [A B]]]. exists sw, m. split; [exact A|]. apply decode_denotes; [discriminate|exact B]. Qed.

(** Steps of other threads *)
Lemma II_foreign : forall l e x p, foreign e -> II l x p -> II (l ++ [e]) (fst (dstep d e (x, p))) (snd (dstep d e (x, p))).
Proof.
  intros l e x p F. pose proof (foreign_frame d e x p F) as (P & S1 & _ & _ & _). rewrite P. set (y := fst (dstep d e (x, p))) in *.
  assert (FR : fresh_read l x -> fresh_read (l ++ [e]) y).
  { intros H. unfold y. destruct e; try contradiction.
    - exists sw. split; [apply read_in_loop|]. exists m, sw. split; [apply read_in_loop|reflexivity].
    - eapply fresh_snoc; [exact H|reflexivity|reflexivity].
    - destruct (halt_frame (mo x)) as (A & _ & B & _). eapply fresh_snoc; [exact H|exact B|exact A]. }
  assert (HF : homing_found l x -> homing_found (l ++ [e]) y).
  { intros (A & B & C & D). split; [apply FR, A|]. split; [apply saw_snoc, B|auto]. }
  assert (SW : saw l OperationEnable -> stored_word l x -> stored_word (l ++ [e]) y).
  { intros E H. unfold y. destruct e; try contradiction; try (eapply stored_snoc; [exact H|reflexivity]).
    cbn [dstep fst read_state ho]. unfold stored_word. cbn [ho]. destruct (_ && (m =? HOMING)) eqn:B; [|eapply stored_snoc; [exact H|reflexivity]].
    apply andb_prop in B as [_ B]. apply Z.eqb_eq in B. subst m. right. exists l, sw, []. auto. }
  clearbody y.
  destruct p as [| |q| |p'| |q| | |q| |q|er|]; cbn [II]; auto.
  - intros H. congruence.
  - intros [A B]. split; [auto|congruence].
  - intros (A & B & C & D). split; [auto|]. split; [congruence|]. split; [apply local_snoc, C|exact D].
  - intros (A & B & C). split; [auto|]. split; [congruence|apply saw_snoc, C].
  - intros [A B]. split; [auto|]. destruct p'; cbn [IM] in *; try exact B; destruct A as (_ & A & _);
      repeat match goal with H : _ /\ _ |- _ => destruct H end; repeat split; auto.
    intros X. apply saw_mode_snoc. auto.
  - intros (A & B & C). pose proof A as (_ & A' & _). split; [auto|]. split; [auto|apply saw_mode_snoc, C].
  - intros (A & B & C & D & E & G). pose proof A as (_ & A' & _). split; [auto|]. split; [auto|]. split; [apply saw_mode_snoc, C|auto].
  - intros (A & B & C & D). split; [auto|]. split; [apply saw_mode_snoc, B|]. split; [exact C|]. destruct D; [auto|right; apply saw_homed_snoc; assumption].
  - destruct er as [|er0 er]; [|auto]. intros [A B]. split; [apply saw_snoc, A|].
    destruct B as [[B C]|(B & C & D & E & G & H)]; [left; split; [exact B|congruence]|right].
    split; [exact B|]. split; [exact C|]. split; [exact D|]. split; [apply saw_mode_snoc, E|]. split; [congruence|].
    destruct H; [auto|right; apply saw_homed_snoc; assumption].
Qed.

(** Steps of the thread in the handler *)
Lemma II_switch : forall l e x q y q', II l x (IEnable q) -> (y = mo x /\ q' = switch_timeout q (mo x) \/ (y, q') = switch_step OperationEnable q (mo x)) ->
  II (l ++ [e]) (fst (in_switch x q (y, q') IEnable (enabled_then IAlloc))) (snd (in_switch x q (y, q') IEnable (enabled_then IAlloc))).
Proof.
  intros l e x q y q' (FR & SE & LR & NR) H.
  assert (Y : st y = st (mo x) /\ sel y = sel (mo x) /\ shown y = shown (mo x)).
  { destruct H as [[-> _]|H]; [auto|]. pose proof (switch_frame OperationEnable q (mo x)) as F. rewrite <- H in F. cbn in F. tauto. }
  destruct Y as (Y1 & Y2 & Y3).
  assert (L : forall u, spc_local q' = Some u -> spc_local q = Some u \/ u = st (mo x)).
  { intros u E. destruct H as [[_ ->]|H]; [apply timeout_local; exact E|].
    apply (switch_local OperationEnable q (mo x) u). rewrite <- H. exact E. }
  assert (D : q' = SRet true -> spc_local q = Some OperationEnable).
  { intros E. destruct H as [[_ ->]|H].
    - apply timeout_done in E. exfalso. apply (NR _ E).
    - pose proof (switch_done OperationEnable q (mo x)) as X. rewrite <- H in X. destruct (X E) as [[A _]|A]; [exact A|exfalso; apply (NR _ A)]. }
  assert (FR' : fresh_read (l ++ [e]) (with_mo x y)) by (eapply fresh_snoc; [exact FR|exact Y3|exact Y1]).
  unfold in_switch. cbn [fst snd].
  destruct q' as [|u|u|u|u|b]; cbn [II];
    try (split; [exact FR'|]; split; [cbn [with_mo mo]; congruence|]; split; [eapply local_move; [exact FR|exact LR|exact L]|discriminate]).
  destruct b; cbn [enabled_then].
  - split; [exact FR'|]. split; [cbn [with_mo mo]; congruence|]. apply saw_snoc. eapply local_enabled; [exact LR|apply D; reflexivity].
  - destruct q; cbn; unfold one_error; auto.
Qed.

Lemma II_mode : forall l e x p y p' h, II l x (IMode p) -> st y = st (mo x) -> shown y = shown (mo x) ->
  match p' with
  | Ret true => stored_word (l ++ [e]) (mkDrv y h (word x) (sfr x)) /\ saw_mode (l ++ [e]) HOMING
  | Ret false | Exc => True
  | _ => IM (l ++ [e]) (mkDrv y h (word x) (sfr x)) p'
  end ->
  II (l ++ [e]) (mkDrv y h (word x) (sfr x)) (after_mode p').
Proof.
  intros l e x p y p' h [A _] Y1 Y3 H.
  assert (F : homing_found (l ++ [e]) (mkDrv y h (word x) (sfr x))) by (eapply found_snoc; [exact A|exact Y3|exact Y1]).
  destruct p' as [t q|k|k|k q|k|k|k ok q|b|]; cbn [after_mode II]; try (split; [exact F|exact H]); try exact Logic.I.
  destruct b; cbn [II]; [split; [exact F|exact H]|]. unfold one_error. auto 10.
Qed.

Lemma II_thread_mode : forall l e x p, II l x (IMode p) -> II (l ++ [e]) (fst (thread d x (IMode p))) (snd (thread d x (IMode p))).
Proof.
  intros l e x p H. pose proof H as [A B]. pose proof A as (A1 & A2 & A3 & A4). cbn [thread].
  destruct (step (dc d) EThread (mo x, p)) as [y p'] eqn:E. cbn [fst snd].
  destruct p as [t q|k|k|k q|k|k|k ok q|b|]; cbn [IM] in B; try contradiction; cbn [step] in E.
  - (* M0 *) subst k. unfold m0 in E. change (HOMING =? 0) with false in E. rewrite A3 in E. cbn [negb] in E.
    destruct (startok (dc d) HOMING); injection E as <- <-; (eapply II_mode; [exact H|reflexivity|reflexivity|]).
    + cbn [IM]. split; [reflexivity|]. rewrite A3. left. cbn [ho hstart hread status]. apply Z.land_0_l.
    + exact Logic.I.
  - (* M1 *) destruct B as [-> B]. unfold m1 in E.
    assert (SW : forall y, stored_word (l ++ [e]) (mkDrv y (ho x) (word x) (sfr x))) by (intros; eapply stored_snoc; [exact B|reflexivity]).
    destruct (sel (mo x)) as [k|] eqn:Es; [|injection E as <- <-; (eapply II_mode; [exact H|reflexivity|reflexivity|]); cbn [IM]; repeat split; auto; discriminate].
    destruct ((shown (mo x) =? HOMING) && (k =? HOMING)) eqn:C; injection E as <- <-; (eapply II_mode; [exact H|reflexivity|reflexivity|]).
    + split; [apply SW|]. apply andb_prop in C as [C _]. apply Z.eqb_eq in C. destruct A1 as [sw [R _]]. rewrite C in R. exists sw. apply read_in_snoc, R.
    + cbn [IM]. repeat split; auto; discriminate.
  - (* S1 *) destruct B as (-> & B & N). unfold after_switch in E. destruct (switch_step (swst (dc d)) q (mo x)) as [y' q'] eqn:Eq. cbn [fst snd] in E. injection E as <- <-.
    pose proof (switch_frame (swst (dc d)) q (mo x)) as F. rewrite Eq in F. cbn [fst] in F. destruct F as (F1 & F2 & F3 & _).
    eapply II_mode; [exact H|exact F1|exact F3|].
    assert (SW : stored_word (l ++ [e]) (mkDrv y' (ho x) (word x) (sfr x))) by (eapply stored_snoc; [exact B|reflexivity]).
    destruct q' as [|u|u|u|u|b]; cbn [IM]; try (repeat split; auto; discriminate). destruct b; cbn [IM]; auto.
  - (* M2 *) destruct B as [-> B]. injection E as <- <-. eapply II_mode; [exact H|reflexivity|reflexivity|]. cbn [IM]. split; [reflexivity|]. eapply stored_snoc; [exact B|reflexivity].
  - (* M3 *) destruct B as [-> B]. unfold m3 in E.
    assert (SW : forall y, stored_word (l ++ [e]) (mkDrv y (ho x) (word x) (sfr x))) by (intros; eapply stored_snoc; [exact B|reflexivity]).
    destruct (Z.eqb_spec (shown (mo x)) HOMING) as [C|C]; injection E as <- <-; (eapply II_mode; [exact H|reflexivity|reflexivity|]); cbn [IM].
    + repeat split; auto; [|discriminate]. intros _. destruct A1 as [sw [R _]]. rewrite C in R. exists sw. apply read_in_snoc, R.
    + auto.
  - (* S2 *) destruct B as (-> & B & Ok & N). unfold after_switch in E. destruct (switch_step OperationEnable q (mo x)) as [y' q'] eqn:Eq. cbn [fst snd] in E. injection E as <- <-.
    pose proof (switch_frame OperationEnable q (mo x)) as F. rewrite Eq in F. cbn [fst] in F. destruct F as (F1 & F2 & F3 & _).
    eapply II_mode; [exact H|exact F1|exact F3|].
    assert (SW : stored_word (l ++ [e]) (mkDrv y' (ho x) (word x) (sfr x))) by (eapply stored_snoc; [exact B|reflexivity]).
    assert (Ok' : ok = true -> saw_mode (l ++ [e]) HOMING) by (intros; apply saw_mode_snoc; auto).
    destruct q' as [|u|u|u|u|b]; cbn [IM]; try (repeat split; auto; discriminate). destruct b, ok; cbn; auto.
Qed.
Lemma II_timeout_mode : forall l e x p, II l x (IMode p) -> II (l ++ [e]) (fst (timeout d x (IMode p))) (snd (timeout d x (IMode p))).
Proof.
  intros l e x p H. pose proof H as [A B]. pose proof A as (A1 & A2 & A3 & A4). cbn [timeout].
  destruct (step (dc d) ETimeout (mo x, p)) as [y p'] eqn:E. cbn [fst snd]. unfold with_mo.
  assert (Same : y = mo x -> p' = p -> II (l ++ [e]) (mkDrv y (ho x) (word x) (sfr x)) (after_mode p')).
  { intros -> ->. eapply II_mode; [exact H|reflexivity|reflexivity|].
    destruct p as [t q|k|k|k q|k|k|k ok q|b|]; cbn [IM] in *; try contradiction; try exact B;
      repeat match goal with H : _ /\ _ |- _ => destruct H end; repeat split; auto; try (eapply stored_snoc; [eassumption|reflexivity]).
    intros X. apply saw_mode_snoc. auto. }
  destruct p as [t q|k|k|k q|k|k|k ok q|b|]; cbn [IM] in B; try contradiction; cbn [step] in E; try (injection E as <- <-; apply Same; reflexivity).
  - (* S1 *) destruct B as (-> & B & N). unfold after_switch in E. cbn [fst snd] in E. injection E as <- <-.
    eapply II_mode; [exact H|reflexivity|reflexivity|].
    assert (SW : stored_word (l ++ [e]) (mkDrv (mo x) (ho x) (word x) (sfr x))) by (eapply stored_snoc; [exact B|reflexivity]).
    destruct (switch_timeout q (mo x)) as [|u|u|u|u|b]; cbn [IM]; try (repeat split; auto; discriminate). destruct b; cbn [IM]; auto.
  - (* M3 *) destruct B as [-> B]. unfold m3 in E.
    assert (SW : forall y, stored_word (l ++ [e]) (mkDrv y (ho x) (word x) (sfr x))) by (intros; eapply stored_snoc; [exact B|reflexivity]).
    destruct (Z.eqb_spec (shown (mo x)) HOMING) as [C|C]; injection E as <- <-; (eapply II_mode; [exact H|reflexivity|reflexivity|]); cbn [IM].
    + repeat split; auto; [|discriminate]. intros _. destruct A1 as [sw [R _]]. rewrite C in R. exists sw. apply read_in_snoc, R.
    + repeat split; auto; discriminate.
  - (* S2 *) destruct B as (-> & B & Ok & N). unfold after_switch in E. cbn [fst snd] in E. injection E as <- <-.
    eapply II_mode; [exact H|reflexivity|reflexivity|].
    assert (SW : stored_word (l ++ [e]) (mkDrv (mo x) (ho x) (word x) (sfr x))) by (eapply stored_snoc; [exact B|reflexivity]).
    assert (Ok' : ok = true -> saw_mode (l ++ [e]) HOMING) by (intros; apply saw_mode_snoc; auto).
    destruct (switch_timeout q (mo x)) as [|u|u|u|u|b]; cbn [IM]; try (repeat split; auto; discriminate). destruct b, ok; cbn; auto.
Qed.

(** Homing succeeds only with a word that says so *)
Lemma advance_done : forall p h, (forall b, p <> HDone b) -> snd (advance p h) = HDone true ->
  has_mask (status h) SW_Reached = true /\ has_mask (status h) SW_Attained = true /\ has_mask (status h) SW_Error = false.
Proof.
  intros p h N. unfold advance. destruct (has_mask (status h) SW_Error) eqn:E; [discriminate|].
  destruct p; try discriminate; [|intros X; destruct (N b); reflexivity].
  destruct (has_mask (status h) SW_Reached); [|discriminate]. destruct (has_mask (status h) SW_Attained); [auto|discriminate].
Qed.
Lemma advance_status : forall p h, status (fst (advance p h)) = status h.
Proof. intros p h. unfold advance. destruct (has_mask _ SW_Error); [reflexivity|]. destruct p; try reflexivity. destruct (_ && _); reflexivity. Qed.
Lemma homed_stored : forall l x, stored_word l x -> has_mask (status (ho x)) SW_Reached = true -> has_mask (status (ho x)) SW_Attained = true ->
  has_mask (status (ho x)) SW_Error = false -> saw_homed l.
Proof.
  intros l x [Z0|(l1 & sw & l2 & -> & Es & En)] R A E; [rewrite Z0 in R; discriminate R|].
  exists l1, sw, l2. split; [reflexivity|]. split; [|exact En]. rewrite Es in *.
  assert (M : forall i, In i [10; 12; 13] -> has_mask (Z.land sw HMASK) i = Z.testbit sw i).
  { intros i Hi. rewrite has_mask_bit by (destruct Hi as [<-|[<-|[<-|[]]]]; lia). apply mask_bits, Hi. }
  unfold SW_Reached, SW_Attained, SW_Error in *. rewrite M in R, A, E by (cbn; auto). repeat split; assumption.
Qed.
Lemma II_home : forall l e x q h q', II l x (IHome q) ->
  (h, q') = advance q (ho x) \/ (h, q') = (ho x, q) \/ (h, q') = failed (ho x) ->
  II (l ++ [e]) (with_ho x h) (after_home q').
Proof.
  intros l e x q h q' (A & B & C & D & E & N) H.
  assert (F : homing_found (l ++ [e]) (with_ho x h)) by (eapply found_snoc; [exact A|reflexivity|reflexivity]).
  assert (SW : stored_word (l ++ [e]) (with_ho x h)).
  { eapply stored_snoc; [exact B|]. cbn. destruct H as [H|[H|H]].
    - pose proof (advance_status q (ho x)) as X. rewrite <- H in X. exact X.
    - injection H as -> _. reflexivity.
    - injection H as -> _. reflexivity. }
  assert (SM : saw_mode (l ++ [e]) HOMING) by (apply saw_mode_snoc, C).
  destruct q' as [| | | |b]; cbn [after_home II]; try (repeat split; auto; try discriminate; fail); try (split; [exact F|]; repeat split; auto; discriminate).
  destruct b; cbn [II]; [|unfold one_error; auto 10].
  split; [exact F|]. split; [exact SM|]. split; [exact D|]. right. apply saw_homed_snoc.
  destruct H as [H|[H|H]]; [|injection H as _ X; destruct (N true); congruence|discriminate].
  destruct (advance_done q (ho x) N) as (R1 & R2 & R3); [rewrite <- H; reflexivity|]. eapply homed_stored; eassumption.
Qed.

Lemma II_step : forall l e x p, II l x p -> II (l ++ [e]) (fst (dstep d e (x, p))) (snd (dstep d e (x, p))).
Proof.
  intros l e x p H.
  assert (Same : II (l ++ [e]) x p).
  { pose proof (II_foreign l HaltState x p Logic.I H) as X. cbn [dstep fst snd] in X. unfold with_mo in X. cbn [step fst] in X.
    assert (Gen : II l x p -> II (l ++ [e]) x p); [|exact (Gen H)]. clear X H.
    destruct p as [| |q| |p'| |q| | |q| |q|er|]; cbn [II]; auto.
    - intros [A B]. split; [eapply fresh_snoc; eauto|exact B].
    - intros (A & B & C & D). split; [eapply fresh_snoc; eauto|]. split; [exact B|]. split; [apply local_snoc, C|exact D].
    - intros (A & B & C). split; [eapply fresh_snoc; eauto|]. split; [exact B|apply saw_snoc, C].
    - intros [A B]. split; [eapply found_snoc; eauto|]. destruct p'; cbn [IM] in *; try exact B;
        repeat match goal with H : _ /\ _ |- _ => destruct H end; repeat split; auto; try (eapply stored_snoc; [eassumption|reflexivity]).
      intros X. apply saw_mode_snoc. auto.
    - intros (A & B & C). split; [eapply found_snoc; eauto|]. split; [eapply stored_snoc; eauto|apply saw_mode_snoc, C].
    - intros (A & B & C & D). split; [eapply found_snoc; eauto|]. split; [eapply stored_snoc; eauto|]. split; [apply saw_mode_snoc, C|exact D].
    - intros (A & B & C & D). split; [eapply found_snoc; eauto|]. split; [apply saw_mode_snoc, B|]. split; [exact C|]. destruct D; [auto|right; apply saw_homed_snoc; assumption].
    - destruct er as [|er0 er]; [|auto]. intros [A B]. split; [apply saw_snoc, A|].
      destruct B as [[B C]|(B & C & D & E & G & I)]; [left; auto|right].
      split; [exact B|]. split; [exact C|]. split; [exact D|]. split; [apply saw_mode_snoc, E|]. split; [exact G|].
      destruct I; [auto|right; apply saw_homed_snoc; assumption]. }
  destruct e; try (apply II_foreign; [exact Logic.I|exact H]); cbn [dstep].
  - (* Thread *) destruct p as [| |q| |p'| |q| | |q| |q|er|]; try contradiction; try exact Same; cbn [thread].
    + destruct H as [A B]. cbn [fst snd II]. split; [eapply fresh_snoc; [exact A|reflexivity|reflexivity]|]. split; [exact B|]. split; [intros u E; discriminate E|discriminate].
    + destruct (switch_step OperationEnable q (mo x)) as [y q'] eqn:E. apply II_switch; [exact H|right; auto].
    + destruct H as (A & B & C). cbn [fst snd]. destruct (alloc (dc d) HOMING) eqn:Al; cbn [negb].
      * destruct (is_homing d) eqn:Ih; cbn [II]; [|unfold one_error; auto 10].
        split; [|reflexivity]. split; [eapply fresh_snoc; eauto|]. split; [apply saw_snoc, C|auto].
      * cbn [II]. split; [apply saw_snoc, C|left; auto].
    + apply II_thread_mode, H.
    + destruct H as (A & B & C). unfold execute_homing.
      assert (F : forall h, homing_found (l ++ [Thread]) (with_ho x h)) by (intros; eapply found_snoc; [exact A|reflexivity|reflexivity]).
      destruct (hvalid d) eqn:Hv; cbn [negb]; [|cbn; unfold one_error; auto 10].
      destruct (Z.eqb_spec (hmethod d) 0); cbn [fst snd after_home II].
      * split; [apply F|]. split; [apply saw_mode_snoc, C|auto].
      * split; [apply F|]. split; [eapply stored_snoc; [exact B|reflexivity]|]. split; [apply saw_mode_snoc, C|]. repeat split; auto; discriminate.
    + destruct (hstep HThread (ho x, q)) as [h q'] eqn:E. cbn [fst snd]. eapply II_home; [exact H|]. cbn [hstep] in E. destruct (ready q (status (ho x))); [left|right; left]; auto.
    + destruct H as (A & B & C & D). pose proof A as (A1 & A2 & A3 & A4). cbn [fst snd II]. split; [apply saw_snoc, A2|]. right.
      split; [exact A3|]. split; [exact A4|]. split; [exact C|]. split; [apply saw_mode_snoc, B|]. split; [reflexivity|].
      destruct D; [auto|right; apply saw_homed_snoc; assumption].
  - (* Timeout *) destruct p as [| |q| |p'| |q| | |q| |q|er|]; try contradiction; try exact Same; cbn [timeout].
    + apply II_switch; [exact H|left; auto].
    + apply II_timeout_mode, H.
    + destruct (hstep HTimeout (ho x, q)) as [h q'] eqn:E. cbn [fst snd]. eapply II_home; [exact H|]. cbn [hstep] in E.
      destruct H as (_ & _ & _ & _ & _ & N). destruct q; try (destruct (ready _ (status (ho x))); [left|right; right]; congruence). destruct (N b); reflexivity.
  - (* Throw *) destruct p as [| |q| |p'| |q| | |q| |q|er|]; try contradiction; try exact Same; cbn [throw]; try exact Logic.I.
    pose proof H as [A B]. destruct (step (dc d) EThrow (mo x, p')) as [y p''] eqn:E. cbn [fst snd]. unfold with_mo.
    destruct p' as [t q|k|k|k q|k|k|k ok q|b|]; cbn [IM] in B; try contradiction; cbn [step] in E; try (injection E as <- <-; exact Same); try (injection E as <- <-; exact Logic.I).
    subst k. injection E as <- <-. exact Logic.I.
  - (* Own *) destruct p as [| |q| |p'| |q| | |q| |q|er|]; try exact Same. cbn [fst snd II]. split.
    + exists sw. split; [apply read_in_own|]. exists m, sw. split; [apply read_in_own|reflexivity].
    + exact H.
Qed.
Lemma II_run : forall l, II l (fst (drun d l s0)) (snd (drun d l s0)).
Proof.
  induction l as [|e l IH] using rev_ind; [reflexivity|]. rewrite drun_snoc. destruct (drun d l s0) as [x p]. apply II_step, IH.
Qed.
End Init.

(** The start bit is requested in the homing part of init only *)
Lemma execute_in_home : forall d x0 l, execute (ho x0) = false -> execute (ho (fst (drun d l (x0, IRead)))) = true ->
  exists q, snd (drun d l (x0, IRead)) = IHome q.
Proof.
  intros d x0 l E0. induction l as [|e l IH] using rev_ind; [cbn; congruence|]. rewrite drun_snoc.
  pose proof (II_run d x0 l) as V. destruct (drun d l (x0, IRead)) as [x p]. cbn [fst snd] in *. intros E.
  destruct e;
  try (match goal with |- context [dstep d ?e0 (x, p)] =>
    pose proof (foreign_frame d e0 x p Logic.I) as (P & _ & _ & _ & X); cbv zeta in X; rewrite X in E; rewrite P; exact (IH E) end).
  - cbn [dstep] in *. destruct p as [| |q| |p'| |q| | |q| |q|er|]; cbn [thread] in *;
      try (destruct V; fail); try (destruct (IH E) as [? K]; discriminate K; fail); try (cbn in E; destruct (IH E) as [? K]; discriminate K; fail).
    + destruct (step (dc d) EThread (mo x, p')) as [y p'']. cbn in E.
      assert (Z : execute (ho x) = true). { destruct p'; try exact E. destruct (alloc (dc d) m); [discriminate E|exact E]. }
      destruct (IH Z) as [? K]; discriminate K.
    + unfold execute_homing in E. destruct (negb (hvalid d)); [discriminate E|]. destruct (hmethod d =? 0); cbn in E; destruct (IH E) as [? K]; discriminate K.
    + destruct V as (_ & _ & _ & _ & _ & N). cbn [hstep] in *. destruct (ready q (status (ho x))) eqn:R.
      * unfold advance in *. destruct (has_mask (status (ho x)) SW_Error); [discriminate E|].
        destruct q as [| | | |b]; [| | | |destruct (N b); reflexivity]; cbn [fst snd with_ho ho after_home] in *; try (eexists; reflexivity).
        destruct (_ && _); discriminate E.
      * cbn [fst snd]. destruct q as [| | | |b]; [| | | |destruct (N b); reflexivity]; eexists; reflexivity.
  - cbn [dstep] in *. destruct p as [| |q| |p'| |q| | |q| |q|er|]; cbn [timeout] in *;
      try (destruct V; fail); try (destruct (IH E) as [? K]; discriminate K; fail); try (cbn in E; destruct (IH E) as [? K]; discriminate K; fail).
    + destruct (step (dc d) ETimeout (mo x, p')) as [y p'']. cbn in E. destruct (IH E) as [? K]; discriminate K.
    + destruct V as (_ & _ & _ & _ & _ & N). cbn [hstep] in *. unfold advance, failed in *.
      destruct q as [| | | |b]; [| | | |destruct (N b); reflexivity]; (destruct (ready _ (status (ho x))) eqn:R; [|discriminate E]);
        (destruct (has_mask (status (ho x)) SW_Error); [discriminate E|]); cbn [fst snd with_ho ho after_home] in *; try (eexists; reflexivity).
      destruct (_ && _); discriminate E.
  - cbn [dstep] in *. destruct p as [| |q| |p'| |q| | |q| |q|er|]; cbn [throw] in *;
      try (destruct V; fail); try (destruct (IH E) as [? K]; discriminate K; fail).
    + destruct (step (dc d) EThrow (mo x, p')) as [y p'']. cbn in E. destruct (IH E) as [? K]; discriminate K.
    + eexists. reflexivity.
  - cbn [dstep] in *. destruct p; try exact (IH E).
    cbn [fst snd read_state ho] in E. destruct (_ && _) in E; cbn in E; destruct (IH E) as [? K]; discriminate K.
Qed.

(** ** Recover *)
Section Recover.
Variables (d : dcfg) (x0 : drv).
Definition restarted (x : drv) : Prop := forall k, sel (mo x0) = Some k -> startok (dc d) k = true /\ hast (mo x) k = false.
Definition RI (l : list devent) (x : drv) (p : dpc) : Prop :=
  known x0 l (st (mo x)) /\ sel (mo x) = sel (mo x0) /\
  match p with
  | RMode => True
  | REnable q => sfr x = true /\ restarted x /\ (forall u, spc_local q = Some u -> known x0 l u) /\ (forall b, q <> SRet b)
  | Done [] => sfr x = true /\ restarted x /\ known x0 l OperationEnable
  | Done e => (e = [ERestart] /\ exists k, sel (mo x0) = Some k /\ startok (dc d) k = false) \/
              (sfr x = true /\ restarted x /\ (e = [ENotEnabled] \/ e = [ETrans; ENotEnabled] \/ e = [ELate; ENotEnabled]))
  | _ => False
  end.
Lemma RI_mono : forall l e x x' p, RI l x p -> known x0 (l ++ [e]) (st (mo x')) -> sel (mo x') = sel (mo x) -> hast (mo x') = hast (mo x) -> sfr x' = sfr x ->
  RI (l ++ [e]) x' p.
Proof.
  intros l e x x' p (K & S1 & H) K' Se Ha Sf. split; [exact K'|]. split; [congruence|].
  assert (R : restarted x -> restarted x') by (intros R k E; rewrite Ha; exact (R k E)).
  destruct p as [| |q| |p'| |q| | |q| |q|er|]; auto.
  - destruct H as (A & B & C & D). split; [congruence|]. split; [auto|]. split; [intros u E; apply known_snoc, C, E|exact D].
  - destruct er as [|er0 er].
    + destruct H as (A & B & C). split; [congruence|]. split; [auto|apply known_snoc, C].
    + destruct H as [H|(A & B & C)]; [left; exact H|right]. split; [congruence|auto].
Qed.
Lemma RI_switch : forall l e x q y q', RI l x (REnable q) -> (y = mo x /\ q' = switch_timeout q (mo x) \/ (y, q') = switch_step OperationEnable q (mo x)) ->
  RI (l ++ [e]) (fst (in_switch x q (y, q') REnable (enabled_then (Done [])))) (snd (in_switch x q (y, q') REnable (enabled_then (Done [])))).
Proof.
  intros l e x q y q' (K & S1 & SF & RE & LO & NR) H.
  assert (Y : st y = st (mo x) /\ sel y = sel (mo x) /\ hast y = hast (mo x)).
  { destruct H as [[-> _]|H]; [auto|]. pose proof (switch_frame OperationEnable q (mo x)) as F. rewrite <- H in F. cbn in F. tauto. }
  destruct Y as (Y1 & Y2 & Y3).
  assert (L : forall u, spc_local q' = Some u -> known x0 (l ++ [e]) u).
  { intros u E. assert (X : spc_local q = Some u \/ u = st (mo x)).
    { destruct H as [[_ ->]|H]; [apply timeout_local; exact E|]. apply (switch_local OperationEnable q (mo x) u). rewrite <- H. exact E. }
    apply known_snoc. destruct X as [X| ->]; [apply LO, X|exact K]. }
  assert (D : q' = SRet true -> known x0 (l ++ [e]) OperationEnable).
  { intros E. apply known_snoc, LO. destruct H as [[_ ->]|H].
    - apply timeout_done in E. exfalso. apply (NR _ E).
    - pose proof (switch_done OperationEnable q (mo x)) as X. rewrite <- H in X. destruct (X E) as [[A _]|A]; [exact A|exfalso; apply (NR _ A)]. }
  assert (R' : restarted (with_mo x y)) by (intros k E; cbn [with_mo mo]; rewrite Y3; exact (RE k E)).
  assert (K' : known x0 (l ++ [e]) (st (mo (with_mo x y)))) by (cbn [with_mo mo]; rewrite Y1; apply known_snoc, K).
  unfold in_switch. cbn [fst snd]. split; [exact K'|]. split; [cbn [with_mo mo]; congruence|].
  destruct q' as [|u|u|u|u|b]; try (split; [exact SF|]; split; [exact R'|]; split; [exact L|discriminate]).
  destruct b; cbn [enabled_then].
  - split; [exact SF|]. split; [exact R'|]. apply D. reflexivity.
  - destruct q; cbn; right; auto.
Qed.
Lemma RI_run : forall l, RI l (fst (drun d l (x0, RMode))) (snd (drun d l (x0, RMode))).
Proof.
  induction l as [|e l IH] using rev_ind; [split; [left; reflexivity|split; [reflexivity|exact Logic.I]]|].
  rewrite drun_snoc. destruct (drun d l (x0, RMode)) as [x p]. cbn [fst snd] in IH.
  assert (Same : RI (l ++ [e]) x p) by (eapply RI_mono; [exact IH|apply known_snoc, IH|reflexivity|reflexivity|reflexivity]).
  assert (F : foreign e -> RI (l ++ [e]) (fst (dstep d e (x, p))) (snd (dstep d e (x, p)))).
  { intros F. pose proof (foreign_frame d e x p F) as (P & A & B & C & _). rewrite P.
    eapply RI_mono; [exact IH|apply foreign_known; [exact F|apply IH]|exact A|exact B|exact C]. }
  destruct e; try (apply F; exact Logic.I); cbn [dstep].
  - pose proof IH as (K & S1 & H). destruct p as [| |q| |p'| |q| | |q| |q|er|]; try contradiction; try exact Same; cbn [thread].
    + destruct (sel (mo x)) as [k|] eqn:Es.
      * cbn [fst snd]. split; [apply known_snoc, K|]. split; [cbn; congruence|].
        destruct (startok (dc d) k) eqn:So.
        -- split; [reflexivity|]. split; [|split; [intros u E; discriminate E|discriminate]].
           intros j Ej. assert (j = k) by congruence. subst j. split; [exact So|]. cbn. rewrite Z.eqb_refl. reflexivity.
        -- left. split; [reflexivity|]. exists k. split; [congruence|exact So].
      * cbn [fst snd]. split; [apply known_snoc, K|]. split; [cbn; congruence|]. split; [reflexivity|].
        split; [intros k E; congruence|]. split; [intros u E; discriminate E|discriminate].
    + destruct (switch_step OperationEnable q (mo x)) as [y q'] eqn:E. apply RI_switch; [exact IH|right; auto].
  - pose proof IH as (K & S1 & H). destruct p as [| |q| |p'| |q| | |q| |q|er|]; try contradiction; try exact Same; cbn [timeout].
    apply RI_switch; [exact IH|left; auto].
  - pose proof IH as (K & S1 & H). destruct p as [| |q| |p'| |q| | |q| |q|er|]; try contradiction; exact Same.
  - pose proof IH as (K & S1 & H). destruct p as [| |q| |p'| |q| | |q| |q|er|]; try contradiction; exact Same.
Qed.
End Recover.

(** ** Shutdown *)
Section Shutdown.
Variables (d : dcfg) (x0 : drv).
Definition TG (q : spc) (x : drv) : Prop := match q with SLoop _ | STrans _ | SWait _ => tst (mo x) = SwitchOnDisabled | _ => True end.
Definition SI (l : list devent) (x : drv) (p : dpc) : Prop :=
  known x0 l (st (mo x)) /\
  match p with
  | DMode => True
  | DDisable q => sel (mo x) = None /\ (forall u, spc_local q = Some u -> known x0 l u) /\ (forall b, q <> SRet b) /\ (In Halt l \/ TG q x)
  | Done [] => sel (mo x) = None /\ (In Halt l \/ known x0 l SwitchOnDisabled)
  | Done e => sel (mo x) = None /\ (e = [ETrans] \/ e = [ELate])
  | _ => False
  end.
Lemma in_snoc : forall (e e' : devent) l, In e l -> In e (l ++ [e']).
Proof. intros. apply in_or_app. auto. Qed.
Lemma SI_mono : forall l e x x' p, SI l x p -> known x0 (l ++ [e]) (st (mo x')) -> sel (mo x') = sel (mo x) -> (e = Halt \/ tst (mo x') = tst (mo x)) ->
  SI (l ++ [e]) x' p.
Proof.
  intros l e x x' p (K & H) K' Se T. split; [exact K'|].
  assert (HL : e = Halt -> In Halt (l ++ [e])) by (intros ->; apply in_or_app; right; left; reflexivity).
  destruct p as [| |q| |p'| |q| | |q| |q|er|]; auto.
  - destruct H as (A & B & C & D). split; [congruence|]. split; [intros u E; apply known_snoc, B, E|]. split; [exact C|].
    destruct T as [T|T]; [left; auto|]. destruct D as [D|D]; [left; apply in_snoc, D|right]. destruct q; cbn in *; congruence.
  - destruct er as [|er0 er].
    + destruct H as (A & [C|C]); (split; [congruence|]); [left; apply in_snoc, C|right; apply known_snoc, C].
    + destruct H as [A B]. split; [congruence|exact B].
Qed.
Lemma switch_tst : forall q y, match q with SEnter | SRet _ => False | _ => True end -> match q with SSet _ => True | _ => tst y = SwitchOnDisabled end ->
  match snd (switch_step SwitchOnDisabled q y) with SLoop _ | STrans _ | SWait _ => tst (fst (switch_step SwitchOnDisabled q y)) = SwitchOnDisabled | _ => True end.
Proof.
  intros q y N T. destruct q as [|u|u|u|u|b]; try contradiction; cbn; auto.
  - destruct (state_eqb u (tst y)); cbn; auto.
  - destruct (set_transition (mcw y) u (tst y) true) as [[ok c] n]. destruct ok; cbn; auto. destruct (state_eqb _ _); auto.
  - destruct (state_eqb (st y) u); cbn; auto.
Qed.
Lemma SI_switch : forall l e x q y q', SI l x (DDisable q) -> (y = mo x /\ q' = switch_timeout q (mo x) \/ (y, q') = switch_step SwitchOnDisabled q (mo x)) ->
  SI (l ++ [e]) (fst (in_switch x q (y, q') DDisable (fun _ e => Done e))) (snd (in_switch x q (y, q') DDisable (fun _ e => Done e))).
Proof.
  intros l e x q y q' (K & S1 & LO & NR & T) H.
  assert (Y : st y = st (mo x) /\ sel y = sel (mo x)).
  { destruct H as [[-> _]|H]; [auto|]. pose proof (switch_frame SwitchOnDisabled q (mo x)) as F. rewrite <- H in F. cbn in F. tauto. }
  destruct Y as (Y1 & Y2).
  assert (L : forall u, spc_local q' = Some u -> known x0 (l ++ [e]) u).
  { intros u E. assert (X : spc_local q = Some u \/ u = st (mo x)).
    { destruct H as [[_ ->]|H]; [apply timeout_local; exact E|]. apply (switch_local SwitchOnDisabled q (mo x) u). rewrite <- H. exact E. }
    apply known_snoc. destruct X as [X| ->]; [apply LO, X|exact K]. }
  assert (T' : In Halt (l ++ [e]) \/ TG q' (with_mo x y)).
  { destruct T as [T|T]; [left; apply in_snoc, T|right]. destruct H as [[-> ->]|H].
    - destruct q; cbn in *; auto. destruct (state_eqb (st (mo x)) l0); cbn; auto.
    - destruct q as [|u|u|u|u|b]; try (injection H as -> ->; cbn; auto; fail);
        match type of H with _ = switch_step _ ?q0 _ => pose proof (switch_tst q0 (mo x) Logic.I T) as X; rewrite <- H in X; cbn [fst snd] in X; unfold TG; cbn [with_mo mo]; exact X end. }
  assert (K' : known x0 (l ++ [e]) (st (mo (with_mo x y)))) by (cbn [with_mo mo]; rewrite Y1; apply known_snoc, K).
  unfold in_switch. cbn [fst snd]. split; [exact K'|].
  destruct q' as [|u|u|u|u|b]; try (split; [cbn [with_mo mo]; congruence|]; split; [exact L|]; split; [discriminate|exact T']).
  assert (S2 : sel (mo (with_mo x y)) = None) by (cbn [with_mo mo]; congruence).
  (* how it ended *)
  destruct H as [[-> H]|H].
  - destruct q as [|u|u|u|u|b']; cbn in H; try discriminate; [|destruct (NR b'); reflexivity].
    destruct (state_eqb (st (mo x)) u); [|discriminate]. injection H as ->. cbn [own_error]. split; [exact S2|auto].
  - destruct q as [|u|u|u|u|b']; cbn in H; try discriminate; [| | |destruct (NR b'); reflexivity].
    + destruct (state_eqb u (tst (mo x))) eqn:E; [|discriminate]. cbn [own_error]. split; [exact S2|].
      destruct T as [T|T]; [left; apply in_snoc, T|right]. cbn in T. apply state_eqb_eq in E. apply known_snoc, LO. cbn. congruence.
    + destruct (set_transition (mcw (mo x)) u (tst (mo x)) true) as [[ok c] n]. destruct ok; [destruct (state_eqb _ _); discriminate|].
      injection H as -> ->. cbn [own_error]. split; [exact S2|auto].
    + destruct (state_eqb (st (mo x)) u); discriminate.
Qed.
Lemma SI_run : forall l, SI l (fst (drun d l (x0, DMode))) (snd (drun d l (x0, DMode))).
Proof.
  induction l as [|e l IH] using rev_ind; [split; [left; reflexivity|exact Logic.I]|].
  rewrite drun_snoc. destruct (drun d l (x0, DMode)) as [x p]. cbn [fst snd] in IH.
  assert (Same : SI (l ++ [e]) x p) by (eapply SI_mono; [exact IH|apply known_snoc, IH|reflexivity|right; reflexivity]).
  assert (F : foreign e -> SI (l ++ [e]) (fst (dstep d e (x, p))) (snd (dstep d e (x, p)))).
  { intros F. pose proof (foreign_frame d e x p F) as (P & A & _). rewrite P.
    eapply SI_mono; [exact IH|apply foreign_known; [exact F|apply IH]|exact A|]. destruct e; try contradiction; [right|right|left]; reflexivity. }
  destruct e; try (apply F; exact Logic.I); cbn [dstep].
  - pose proof IH as (K & H). destruct p as [| |q| |p'| |q| | |q| |q|er|]; try contradiction; try exact Same; cbn [thread].
    + cbn [fst snd]. split; [apply known_snoc, K|]. split; [reflexivity|]. split; [intros u E; discriminate E|]. split; [discriminate|right; exact Logic.I].
    + destruct (switch_step SwitchOnDisabled q (mo x)) as [y q'] eqn:E. apply SI_switch; [exact IH|right; auto].
  - pose proof IH as (K & H). destruct p as [| |q| |p'| |q| | |q| |q|er|]; try contradiction; try exact Same; cbn [timeout].
    apply SI_switch; [exact IH|left; auto].
  - pose proof IH as (K & H). destruct p as [| |q| |p'| |q| | |q| |q|er|]; try contradiction; exact Same.
  - pose proof IH as (K & H). destruct p as [| |q| |p'| |q| | |q| |q|er|]; try contradiction; exact Same.
Qed.
End Shutdown.

(** ** What the errors mean *)
Section Causes.
Variables (d : dcfg) (x0 : drv).
Definition TGE (q : spc) (x : drv) : Prop := match q with SLoop _ | STrans _ | SWait _ => tst (mo x) = OperationEnable | _ => True end.
Definition caused (l : list devent) (e : list hmsg) : Prop :=
  (In ELate e -> In Timeout l) /\ (In ETrans e \/ e = [ENotEnabled] -> In Halt l) /\
  (In EWrongHandler e -> saw l OperationEnable /\ alloc (dc d) HOMING = true /\ is_homing d = false) /\
  (In EEnter e -> saw l OperationEnable /\ alloc (dc d) HOMING = true /\ is_homing d = true) /\
  (In EHome e -> saw l OperationEnable /\ alloc (dc d) HOMING = true /\ is_homing d = true /\ saw_mode l HOMING /\ (hvalid d = true -> hmethod d <> 0)).
Definition CI (l : list devent) (x : drv) (p : dpc) : Prop :=
  match p with
  | IEnable q | REnable q => (In Halt l \/ TGE q x) /\ (forall b, q <> SRet b)
  | Done e => caused l e
  | _ => True
  end.
Lemma caused_snoc : forall l e m, caused l m -> caused (l ++ [e]) m.
Proof.
  intros l e m (A & B & C & D & E). split; [intros H; apply in_snoc; auto|]. split; [intros H; apply in_snoc; auto|].
  split; [intros H; destruct (C H); split; [apply saw_snoc|]; assumption|]. split; [intros H; destruct (D H); split; [apply saw_snoc|]; assumption|].
  intros H. destruct (E H) as (E1 & E2 & E3 & E4 & E5). split; [apply saw_snoc, E1|]. split; [exact E2|]. split; [exact E3|]. split; [apply saw_mode_snoc, E4|exact E5].
Qed.
Lemma caused_nil : forall l, caused l [].
Proof. intros l. unfold caused. cbn. intuition discriminate. Qed.
Lemma CI_mono : forall l e x x' p, CI l x p -> (e = Halt \/ tst (mo x') = tst (mo x)) -> CI (l ++ [e]) x' p.
Proof.
  intros l e x x' p H T.
  assert (HL : e = Halt -> In Halt (l ++ [e])) by (intros ->; apply in_or_app; right; left; reflexivity).
  assert (G : forall q, In Halt l \/ TGE q x -> In Halt (l ++ [e]) \/ TGE q x').
  { intros q [D|D]; [left; apply in_snoc, D|]. destruct T as [T|T]; [left; auto|right]. destruct q; cbn in *; congruence. }
  destruct p as [| |q| |p'| |q| | |q| |q|er|]; cbn [CI] in *; auto; try (apply caused_snoc, H); destruct H as [H1 H2]; split; auto.
Qed.
(** Enabling never lacks a transition *)
Lemma enable_transition : forall cw u, u <> OperationEnable -> fst (fst (set_transition cw u OperationEnable true)) = true.
Proof. intros cw u N. destruct u; reflexivity. Qed.
Lemma CI_switch : forall l e x q y q' (k : spc -> dpc) next, (k = IEnable \/ k = REnable) ->
  (In Halt l \/ TGE q x) -> (forall b, q <> SRet b) ->
  (y = mo x /\ q' = switch_timeout q (mo x) /\ e = Timeout \/ (y, q') = switch_step OperationEnable q (mo x)) ->
  (forall l x, CI l x next) ->
  CI (l ++ [e]) (fst (in_switch x q (y, q') k (enabled_then next))) (snd (in_switch x q (y, q') k (enabled_then next))).
Proof.
  intros l e x q y q' k next Kk T NR H Hn.
  assert (Go : match q' with SRet _ => True | _ => In Halt (l ++ [e]) \/ TGE q' (with_mo x y) end).
  { destruct T as [T|T]; [destruct q'; auto using in_snoc|]. destruct H as [(-> & -> & _)|H].
    - destruct q; cbn in *; auto. destruct (state_eqb (st (mo x)) l0); cbn; auto.
    - destruct q as [|u|u|u|u|b]; cbn in *; try (injection H as -> ->; cbn; auto; fail).
      + destruct (state_eqb u (tst (mo x))); injection H as -> ->; cbn; auto.
      + destruct (set_transition (mcw (mo x)) u (tst (mo x)) true) as [[ok c] n]. destruct ok; [destruct (state_eqb _ _)|]; injection H as -> ->; cbn; auto.
      + destruct (state_eqb (st (mo x)) u); injection H as -> ->; cbn; auto. }
  assert (Kq : forall q1, (forall b, q1 <> SRet b) -> In Halt (l ++ [e]) \/ TGE q1 (with_mo x y) -> CI (l ++ [e]) (with_mo x y) (k q1)) by (intros q1 N G; destruct Kk as [->| ->]; split; auto).
  unfold in_switch. cbn [fst snd]. destruct q' as [|u|u|u|u|b]; try (apply Kq; [discriminate|exact Go]).
  destruct b; cbn [enabled_then]; [apply Hn|]. cbn [CI].
  assert (HH : forall m, In Halt l -> m = [] \/ m = [ETrans] -> caused (l ++ [e]) (m ++ [ENotEnabled])).
  { intros m Hh [->| ->]; (split; [cbn; intuition discriminate|]); (split; [intros _; apply in_snoc, Hh|]); cbn; intuition discriminate. }
  destruct H as [(-> & H & ->)|H].
  - destruct q as [|u|u|u|u|b']; cbn in H; try discriminate; [|destruct (NR b'); reflexivity].
    cbn [own_error]. split; [intros _; apply in_or_app; right; left; reflexivity|]. cbn. intuition discriminate.
  - destruct q as [|u|u|u|u|b']; cbn in H; try discriminate; [| | |destruct (NR b'); reflexivity].
    + cbn [own_error]. destruct T as [T|T]; [apply (HH [] T); auto|]. cbn in T. rewrite T in H.
      destruct (state_eqb u OperationEnable) eqn:E; discriminate H.
    + cbn [own_error]. destruct T as [T|T]; [apply (HH [ETrans] T); auto|]. cbn in T. rewrite T in H.
      destruct (state_eqb u OperationEnable) eqn:E.
      * apply state_eqb_eq in E. subst u. cbn in H. discriminate H.
      * pose proof (enable_transition (mcw (mo x)) u) as X.
        destruct (set_transition (mcw (mo x)) u OperationEnable true) as [[ok c] n]. cbn [fst] in X. rewrite X in H by (intros ->; discriminate E). destruct (state_eqb _ _); discriminate.
    + destruct (state_eqb (st (mo x)) u); discriminate.
Qed.
Lemma CI_init : forall l, CI l (fst (drun d l (x0, IRead))) (snd (drun d l (x0, IRead))).
Proof.
  induction l as [|e l IH] using rev_ind; [exact Logic.I|]. rewrite drun_snoc. pose proof (II_run d x0 l) as V.
  destruct (drun d l (x0, IRead)) as [x p]. cbn [fst snd] in *.
  assert (Same : CI (l ++ [e]) x p) by (eapply CI_mono; [exact IH|right; reflexivity]).
  assert (EN : homing_found d l x -> caused (l ++ [e]) [EEnter]).
  { intros (_ & A & B & C). split; [cbn; intuition discriminate|]. split; [cbn; intuition discriminate|]. split; [cbn; intuition discriminate|].
    split; [intros _; split; [apply saw_snoc, A|auto]|cbn; intuition discriminate]. }
  assert (HN : homing_found d l x -> saw_mode l HOMING -> (hvalid d = true -> hmethod d <> 0) -> caused (l ++ [e]) [EHome]).
  { intros (_ & A & B & C) M N. split; [cbn; intuition discriminate|]. split; [cbn; intuition discriminate|]. split; [cbn; intuition discriminate|].
    split; [cbn; intuition discriminate|]. intros _. split; [apply saw_snoc, A|]. split; [exact B|]. split; [exact C|]. split; [apply saw_mode_snoc, M|exact N]. }
  assert (AM : homing_found d l x -> forall x' p', CI (l ++ [e]) x' (after_mode p')).
  { intros Hf x' p'. destruct p' as [t q|k|k|k q|k|k|k ok q|b|]; cbn; auto. destruct b; cbn; auto. }
  assert (AH : homing_found d l x -> saw_mode l HOMING -> (hvalid d = true -> hmethod d <> 0) -> forall x' p', CI (l ++ [e]) x' (after_home p')).
  { intros Hf M N x' p'. destruct p' as [| | | |b]; cbn; auto. destruct b; cbn; auto. }
  destruct e.
  - (* Thread *) cbn [dstep]. destruct p as [| |q| |p'| |q| | |q| |q|er|]; try exact Same; try contradiction; cbn [thread].
    + cbn. split; [right; exact Logic.I|discriminate].
    + destruct IH as [IH1 IH2]. destruct (switch_step OperationEnable q (mo x)) as [y q'] eqn:E. apply CI_switch; [auto|exact IH1|exact IH2|right; auto|intros; exact Logic.I].
    + destruct V as (_ & _ & V). cbn [fst snd]. destruct (alloc (dc d) HOMING) eqn:Al; cbn [negb]; [|apply caused_nil]. destruct (is_homing d) eqn:Ih; [exact Logic.I|].
      cbn [CI]. split; [cbn; intuition discriminate|]. split; [cbn; intuition discriminate|]. split; [intros _; split; [apply saw_snoc, V|auto]|].
      split; cbn; intuition discriminate.
    + destruct V as [V _]. destruct (step (dc d) EThread (mo x, p')) as [y p'']. cbn [fst snd]. apply AM, V.
    + destruct V as (V & _ & M). unfold execute_homing. destruct (hvalid d) eqn:Hv; cbn [negb fst snd after_home CI].
      * destruct (Z.eqb_spec (hmethod d) 0); exact Logic.I.
      * apply HN; [exact V|exact M|discriminate].
    + destruct V as (V & _ & M & _ & N & _). destruct (hstep HThread (ho x, q)) as [h q']. cbn [fst snd]. apply AH; auto.
    + cbn. apply caused_nil.
  - (* Timeout *) cbn [dstep]. destruct p as [| |q| |p'| |q| | |q| |q|er|]; try exact Same; try contradiction; cbn [timeout].
    + destruct IH as [IH1 IH2]. apply CI_switch; [auto|exact IH1|exact IH2|left; auto|intros; exact Logic.I].
    + destruct V as [V _]. destruct (step (dc d) ETimeout (mo x, p')) as [y p'']. cbn [fst snd]. apply AM, V.
    + destruct V as (V & _ & M & _ & N & _). destruct (hstep HTimeout (ho x, q)) as [h q']. cbn [fst snd]. apply AH; auto.
  - (* Throw *) cbn [dstep]. destruct p as [| |q| |p'| |q| | |q| |q|er|]; try exact Same; try contradiction; cbn [throw]; try exact Logic.I.
    destruct V as [V _]. destruct (step (dc d) EThrow (mo x, p')) as [y p'']. cbn [fst snd]. apply AM, V.
  - (* Own *) cbn [dstep]. destruct p as [| |q| |p'| |q| | |q| |q|er|]; try exact Same.
  - (* Loop *) cbn [dstep fst snd]. eapply CI_mono; [exact IH|right; reflexivity].
  - cbn [dstep fst snd]. eapply CI_mono; [exact IH|right; reflexivity].
  - cbn [dstep fst snd]. eapply CI_mono; [exact IH|left; reflexivity].
Qed.
Lemma CI_recover : forall l, CI l (fst (drun d l (x0, RMode))) (snd (drun d l (x0, RMode))).
Proof.
  induction l as [|e l IH] using rev_ind; [exact Logic.I|]. rewrite drun_snoc. pose proof (RI_run d x0 l) as (_ & _ & V).
  destruct (drun d l (x0, RMode)) as [x p]. cbn [fst snd] in *.
  assert (Same : CI (l ++ [e]) x p) by (eapply CI_mono; [exact IH|right; reflexivity]).
  destruct e.
  - cbn [dstep]. destruct p as [| |q| |p'| |q| | |q| |q|er|]; try exact Same; try contradiction; cbn [thread].
    + destruct (sel (mo x)); cbn; [|split; [right; exact Logic.I|discriminate]]. destruct (startok (dc d) z); cbn; [split; [right; exact Logic.I|discriminate]|].
      unfold caused. cbn. intuition discriminate.
    + destruct IH as [IH1 IH2]. destruct (switch_step OperationEnable q (mo x)) as [y q'] eqn:E. apply CI_switch; [auto|exact IH1|exact IH2|right; auto|intros; apply caused_nil].
  - cbn [dstep]. destruct p as [| |q| |p'| |q| | |q| |q|er|]; try exact Same; try contradiction; cbn [timeout].
    destruct IH as [IH1 IH2]. apply CI_switch; [auto|exact IH1|exact IH2|left; auto|intros; apply caused_nil].
  - cbn [dstep]. destruct p as [| |q| |p'| |q| | |q| |q|er|]; try exact Same; contradiction.
  - cbn [dstep]. destruct p as [| |q| |p'| |q| | |q| |q|er|]; try exact Same; contradiction.
  - cbn [dstep fst snd]. eapply CI_mono; [exact IH|right; reflexivity].
  - cbn [dstep fst snd]. eapply CI_mono; [exact IH|right; reflexivity].
  - cbn [dstep fst snd]. eapply CI_mono; [exact IH|left; reflexivity].
Qed.

(** Once homing is executed, what follows is its end *)
Definition late_init (p : dpc) : Prop := match p with IHome _ | INoMode | Done [] | Thrown => True | Done [EHome] => True | _ => False end.
Lemma late_step : forall e x p, late_init p -> late_init (snd (dstep d e (x, p))).
Proof.
  intros e x p H.
  assert (AH : forall q, late_init (after_home q)) by (intros [| | | |[]]; exact Logic.I).
  destruct e; cbn [dstep]; try exact H.
  - destruct p as [| |q| |p'| |q| | |q| |q|er|]; cbn [thread]; try exact H; try contradiction; try exact Logic.I.
    destruct (hstep HThread (ho x, q)) as [h q']. apply AH.
  - destruct p as [| |q| |p'| |q| | |q| |q|er|]; cbn [timeout]; try exact H; try contradiction.
    destruct (hstep HTimeout (ho x, q)) as [h q']. apply AH.
  - destruct p as [| |q| |p'| |q| | |q| |q|er|]; cbn [throw]; try exact H; contradiction.
  - destruct p as [| |q| |p'| |q| | |q| |q|er|]; try exact H; contradiction.
Qed.
Lemma late_run : forall l s, late_init (snd s) -> late_init (snd (drun d l s)).
Proof.
  induction l as [|e l IH] using rev_ind; intros s H; [exact H|]. rewrite drun_snoc. specialize (IH s H). destruct (drun d l s). apply late_step, IH.
Qed.
Lemma home_after : forall l1 l2 x e, execute (ho x0) = false -> execute (ho (fst (drun d l1 (x0, IRead)))) = true ->
  drun d (l1 ++ l2) (x0, IRead) = (x, Done e) -> e = [] \/ e = [EHome].
Proof.
  intros l1 l2 x e X E R. destruct (execute_in_home d x0 l1 X E) as [q Q].
  assert (L : late_init (snd (drun d l2 (drun d l1 (x0, IRead))))) by (apply late_run; rewrite Q; exact Logic.I).
  unfold drun in *. rewrite fold_left_app in R. rewrite R in L. cbn in L. destruct e as [|[] [|]]; cbn in L; tauto || auto.
Qed.
End Causes.

(** Shutdown *)
Lemma shutdown_late : forall d x0 l y e, drun d l (x0, DMode) = (y, Done e) -> In ELate e -> In Timeout l.
Proof.
  intros d x0 l y e. revert y e.
  assert (G : match snd (drun d l (x0, DMode)) with Done e => In ELate e -> In Timeout l | DMode => True | DDisable q => forall b, q <> SRet b | _ => False end).
  { induction l as [|e l IH] using rev_ind; [exact Logic.I|]. rewrite drun_snoc. destruct (drun d l (x0, DMode)) as [x p]. cbn [snd] in IH.
    assert (Same : match p with Done e0 => In ELate e0 -> In Timeout (l ++ [e]) | DMode => True | DDisable q => forall b, q <> SRet b | _ => False end).
    { destruct p; auto. intros H. apply in_snoc. auto. }
    destruct e; cbn [dstep]; try exact Same.
    - destruct p as [| |q| |p'| |q| | |q| |q|er|]; try exact Same; try contradiction; cbn [thread]; [cbn; discriminate|].
      unfold in_switch. cbn [snd]. destruct (switch_step SwitchOnDisabled q (mo x)) as [y q'] eqn:E. cbn [snd]. destruct q' as [|u|u|u|u|b]; try discriminate.
      destruct q as [|u|u|u|u|b']; cbn in E; try discriminate.
      + destruct b; cbn; intuition.
      + destruct b; cbn; intuition discriminate.
      + destruct (state_eqb (st (mo x)) u); discriminate E.
      + destruct (IH b'). reflexivity.
    - destruct p as [| |q| |p'| |q| | |q| |q|er|]; try exact Same; try contradiction; cbn [timeout].
      unfold in_switch. cbn [snd]. destruct (switch_timeout q (mo x)); try discriminate. intros _. apply in_or_app. right. left. reflexivity.
    - destruct p; try exact Same; contradiction.
    - destruct p; try exact Same; contradiction. }
  intros y e R. rewrite R in G. exact G.
Qed.

(** ** Cycles *)
Lemma has_testbit : forall w b, 0 <= b -> has w b = Z.testbit w b.
Proof. exact has_mask_bit. Qed.
Lemma cycles_snoc : forall d r l c x, cycles d r (l ++ [c]) x = fst (read_state d r (fst c) (snd c) (cycles d r l x)).
Proof. intros. unfold cycles. rewrite fold_left_app. reflexivity. Qed.
Lemma last_word_snoc : forall w l c, last_word w (l ++ [c]) = fst c.
Proof. intros. unfold last_word. rewrite map_app. cbn. apply last_last. Qed.
Lemma cycles_word : forall d r l x, word (cycles d r l x) = last_word (word x) l /\ sel (mo (cycles d r l x)) = sel (mo x).
Proof.
  intros d r l x. induction l as [|c l [IH1 IH2]] using rev_ind; [split; reflexivity|]. rewrite cycles_snoc, last_word_snoc. cbn. auto.
Qed.
Lemma cycles_state : forall d r l x, l <> [] -> st (mo (cycles d r l x)) = decode (last_word (word x) l).
Proof.
  intros d r l x. destruct l as [|c l] using rev_ind; [congruence|]. intros _. rewrite cycles_snoc, last_word_snoc. reflexivity.
Qed.

(** While homing is executed, homing mode is the selected one; and only a failing transfer makes
    the handler throw *)
Definition mode_of (p : pc) : option Z :=
  match p with M0 m | M1 m | S1 m _ | M2 m | M3 m | S2 m _ _ => Some m | _ => None end.
Definition mode_inv (y : mot) (p : pc) : Prop :=
  match p with
  | Ret true => sel y = Some HOMING
  | Ret false => True
  | S2 m true _ => m = HOMING /\ sel y = Some HOMING
  | p => mode_of p = Some HOMING
  end.
Lemma switch_sel : forall t q y, sel (fst (switch_step t q y)) = sel y.
Proof. intros t q y. exact (proj1 (proj2 (switch_frame t q y))). Qed.
Lemma mode_inv_m0 : forall c y, mode_inv (fst (m0 c HOMING y)) (snd (m0 c HOMING y)).
Proof. intros. unfold m0. change (HOMING =? 0) with false. cbv iota. destruct (negb _); [exact Logic.I|]. cbv zeta. destruct (startok c HOMING); cbn; auto. Qed.
Lemma mode_inv_m1 : forall y, mode_inv (fst (m1 HOMING y)) (snd (m1 HOMING y)).
Proof.
  intros. unfold m1. destruct (sel y) as [k|] eqn:K; [|reflexivity]. destruct (_ && _) eqn:J; [|reflexivity].
  apply andb_true_iff in J. destruct J as [_ J]. apply Z.eqb_eq in J. cbn. congruence.
Qed.
Lemma mode_inv_m3 : forall y b, mode_inv (fst (m3 HOMING y b)) (snd (m3 HOMING y b)).
Proof. intros. unfold m3. destruct (shown y =? HOMING); [cbn; auto|]. destruct b; reflexivity. Qed.
Lemma mode_inv_step : forall c e y p, e = EThread \/ e = ETimeout -> mode_of p = Some HOMING -> mode_inv y p ->
  mode_inv (fst (step c e (y, p))) (snd (step c e (y, p))).
Proof.
  intros c e y p He M H. destruct p as [t q|m|m|m q|m|m|m ok q|b|]; try discriminate M; cbn [mode_of] in M; injection M as ->;
    destruct He as [-> | ->]; cbn [step]; try exact H; try apply mode_inv_m0; try apply mode_inv_m1; try apply mode_inv_m3; try reflexivity;
    unfold after_switch; cbn [fst snd].
  - destruct (snd _) as [| | | | |[]]; reflexivity.
  - destruct (switch_timeout q y) as [| | | | |[]]; reflexivity.
  - destruct ok; [|destruct (snd _) as [| | | | |[]]; reflexivity]. destruct H as [_ H]. rewrite <- (switch_sel OperationEnable q y) in H.
    destruct (snd _) as [| | | | |[]]; cbn [andb mode_inv]; auto.
  - destruct ok; [|destruct (switch_timeout q y) as [| | | | |[]]; reflexivity]. destruct H as [_ H].
    destruct (switch_timeout q y) as [| | | | |[]]; cbn [andb mode_inv]; auto.
Qed.
Definition HS (l : list devent) (x : drv) (p : dpc) : Prop :=
  match p with
  | IHomeStart | IHome _ => sel (mo x) = Some HOMING
  | IMode p => mode_of p = Some HOMING /\ mode_inv (mo x) p
  | Thrown => In Throw l
  | _ => True
  end.
Lemma HS_mono : forall l e x y p, HS l x p -> sel (mo y) = sel (mo x) -> HS (l ++ [e]) y p.
Proof.
  intros l e x y p H E. destruct p as [| |q| |p'| |q| | |q| |q|er|]; cbn [HS] in *; try exact Logic.I; try congruence; [|apply in_or_app; auto].
  destruct H as [M H]. split; [exact M|]. destruct p' as [t q|m|m|m q|m|m|m [] q|[]|]; cbn [mode_inv] in *; rewrite ?E; exact H.
Qed.
Lemma HS_mode : forall l y h w s p, mode_inv y p -> HS l (mkDrv y h w s) (after_mode p).
Proof.
  intros l y h w s p H. destruct p as [t q|m|m|m q|m|m|m [] q|[]|]; cbn [mode_inv mode_of] in H; try discriminate H; cbn [after_mode HS]; auto.
  cbn [mode_inv mode_of mo]. destruct H as [-> H]. auto.
Qed.
Lemma HS_home : forall l x h p, sel (mo x) = Some HOMING -> HS l (with_ho x h) (after_home p).
Proof. intros l x h p H. destruct p as [| | | |[]]; cbn; auto. Qed.
Lemma HS_switch : forall l x q r k done, (forall q y, HS l y (k q)) -> (forall b e y, HS l y (done b e)) -> HS l (fst (in_switch x q r k done)) (snd (in_switch x q r k done)).
Proof. intros l x q r k done A B. unfold in_switch. cbn [fst snd]. destruct (snd r); auto. Qed.
Lemma HS_step : forall d e l x p, HS l x p -> HS (l ++ [e]) (fst (dstep d e (x, p))) (snd (dstep d e (x, p))).
Proof.
  intros d e l x p H.
  destruct e;
  try (match goal with |- context [dstep d ?e0 (x, p)] =>
    pose proof (foreign_frame d e0 x p Logic.I) as (P & S1' & _); cbv zeta in S1'; rewrite P; exact (HS_mono _ _ _ _ _ H S1') end).
  - cbn [dstep]. destruct p as [| |q| |p'| |q| | |q| |q|er|]; cbn [thread];
      try (apply HS_switch; [intros; exact Logic.I|intros []; intros; exact Logic.I]; fail); try exact Logic.I.
    + cbn [fst snd]. destruct (negb _); [exact Logic.I|]. destruct (is_homing d); cbn; auto.
    + cbn [HS] in H. destruct H as [M H]. pose proof (mode_inv_step (dc d) EThread (mo x) p' (or_introl eq_refl) M H) as K.
      destruct (step (dc d) EThread (mo x, p')) as [y p'']. apply HS_mode, K.
    + destruct (execute_homing (hvalid d) (hmethod d) (ho x)) as [h p']. apply HS_home, H.
    + destruct (hstep HThread (ho x, q)) as [h p']. apply HS_home, H.
    + destruct (sel (mo x)); [|exact Logic.I]. cbn [fst snd]. destruct (startok _ _); exact Logic.I.
    + cbn [fst snd HS] in *. apply in_or_app. auto.
  - cbn [dstep]. destruct p as [| |q| |p'| |q| | |q| |q|er|]; cbn [timeout];
      try (apply HS_switch; [intros; exact Logic.I|intros []; intros; exact Logic.I]; fail); try exact Logic.I.
    + cbn [HS] in H. destruct H as [M H]. pose proof (mode_inv_step (dc d) ETimeout (mo x) p' (or_intror eq_refl) M H) as K.
      destruct (step (dc d) ETimeout (mo x, p')) as [y p'']. apply HS_mode, K.
    + exact H.
    + destruct (hstep HTimeout (ho x, q)) as [h p']. apply HS_home, H.
    + cbn [fst snd HS] in *. apply in_or_app. auto.
  - assert (T : In Throw (l ++ [Throw])) by (apply in_or_app; right; left; reflexivity).
    cbn [dstep]. destruct p as [| |q| |p'| |q| | |q| |q|er|]; cbn [throw]; try exact Logic.I; try exact T; try exact H.
    cbn [HS] in H. destruct H as [M H]. destruct p' as [t q|m|m|m q|m|m|m ok q|b|]; cbn [step fst snd after_mode HS with_mo mo]; auto; try discriminate M.
    + destruct (m =? 0); cbn; auto.
  - cbn [dstep]. destruct p as [| |q| |p'| |q| | |q| |q|er|]; cbn [fst snd]; try exact (HS_mono _ _ _ _ _ H eq_refl). exact Logic.I.
Qed.
Lemma HS_run : forall d x l p, HS [] x p -> HS l (fst (drun d l (x, p))) (snd (drun d l (x, p))).
Proof.
  intros d x l p H. induction l as [|e l IH] using rev_ind; [exact H|]. rewrite drun_snoc. destruct (drun d l (x, p)) as [y q]. apply HS_step, IH.
Qed.
