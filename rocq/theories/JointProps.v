(** Values and commands of joints (C94, C95) *)
From Coq Require Import ZArith QArith Qabs List Bool Lia.
From Verif Require Import Base KeyModel LayerModel HandleModel JointModel JointSpec JointProofs JointRoundProofs.
Import ListNotations.
Local Open Scope Z_scope.

Section Props.
Variable num : Type.
Variable nan : num.
Variable junk : nat -> num.
Variable dtype : Z -> option Z.
Variable opens : Z -> bool.
Variable fstate ls : Type.
Variable fupd : fstate -> num -> fstate * option num.
Variable enf : kind -> bool -> Z -> (kind -> num) -> num -> ls -> ls * num.
Variable lrst : ls -> ls.
Variable ef et : kind -> expr num.
Variable fc : kind -> option (option fstate).
Variable m0 c0 : kind -> num.
Notation history l := (run num nan junk dtype opens fstate ls fupd enf lrst fc l (new_hl num fstate ls ef et m0 c0)).

Lemma new_fresh : fresh num fstate ls ef (new_hl num fstate ls ef et m0 c0).
Proof.
  split; [|split].
  - split; reflexivity.
  - intros k rs r E. discriminate.
  - reflexivity.
Qed.
Lemma configured : configurable fstate fc -> okf fstate fc = true.
Proof. intros H. unfold okf. apply forallb_forall. intros j _. specialize (H j). destruct (fc j) as [[f|]|]; congruence. Qed.

(** Without filters, the measured value is that of its expression, after whatever history: names of objects
    stand for the value read last, all other names are undefined. The first read of all does not count. *)
Theorem C94_value_partial : forall l p0 ps, (forall k, pure num (ef k)) -> configurable fstate fc -> polls num ls true l = p0 :: ps ->
  exists jk, forall k, fc k = None -> shown num nan dtype opens (ef k) jk ps (meas num fstate ls (history l) k).
Proof.
  intros l p0 ps P CF E. pose proof (JointProofs.history num nan junk dtype opens fstate ls fupd enf lrst ef fc P l _ new_fresh) as H.
  cbn zeta in H. destruct H as (_ & _ & H). rewrite (configured CF), E in H. destruct H as (jk & _ & H).
  exists jk. intros k K. rewrite (H k K). apply shownf_shown.
Qed.

(** If the device answers, the measured value is the current one, from the second read on. *)
Theorem C94_current_partial : forall l p0 ps rd k, (forall k, pure num (ef k)) -> configurable fstate fc ->
  polls num ls true l = p0 :: ps ++ [rd] -> fc k = None ->
  (forall n key, In n (names num (ef k)) -> stands_for dtype opens n key -> rd key <> None) ->
  exists vs, Forall2 (fun n v => (exists key, stands_for dtype opens n key /\ rd key = Some v) \/ (no_object dtype opens n /\ v = nan)) (names num (ef k)) vs /\
    meas num fstate ls (history l) k = snd (eval num (ef k) vs).
Proof.
  intros l p0 ps rd k P CF E K A. destruct (C94_value_partial l p0 (ps ++ [rd]) P CF E) as (jk & H).
  destruct (H k K) as (vs & V & ->). exists vs. split; [|reflexivity]. clear H E.
  unfold values in V. induction V as [|n v ns vs R _ IH]; [constructor|]. constructor.
  - destruct R as [(key & S0 & ->)|R]; [|right; exact R]. left. exists key. split; [exact S0|].
    rewrite latest_app. specialize (A n key (or_introl eq_refl) S0). destruct (rd key); [reflexivity|congruence].
  - apply IH. intros n' key I0. apply A. right. exact I0.
Qed.

(** With filters, the measured value is the output of a newly configured filter that was fed with the values of
    the expression at each read since the last initialisation. *)
Theorem C94_filtered_partial : forall l1 rd l2, (forall k, pure num (ef k)) -> configurable fstate fc -> existsb (is_init num ls) l2 = false ->
  exists jk, forall k f, fc k = Some (Some f) -> exists vs,
    Forall2 (shown num nan dtype opens (ef k) jk) (map (@tl _) (grown num (polls num ls true l1) (rd :: polls num ls true l2))) vs /\
    meas num fstate ls (history (l1 ++ EInit num ls rd :: l2)) k = filtered num fstate fupd f vs (meas num fstate ls (history l1) k).
Proof.
  intros l1 rd l2 P CF NI.
  pose proof (filtered_history num nan junk dtype opens fstate ls fupd enf lrst ef fc P l1 rd l2 _ new_fresh (configured CF) NI) as H.
  rewrite (configured CF) in H. exact H.
Qed.

(** Values are not touched otherwise: not by reads while the layer is off, starting or shutting down, and not by commands. *)
Theorem C94_untouched : forall l1 l2 k, (forall k, pure num (ef k)) -> polls num ls true l2 = [] ->
  meas num fstate ls (history (l1 ++ l2)) k = meas num fstate ls (history l1) k.
Proof.
  intros l1 l2 k P. rewrite run_app. pose proof (JointProofs.history num nan junk dtype opens fstate ls fupd enf lrst ef fc P l1 _ new_fresh) as H.
  cbn zeta in H. destruct H as (T & _ & _). revert T. set (x := history l1). clearbody x. revert x.
  induction l2 as [|e l2 IH]; intros x T E; [reflexivity|].
  assert (Q0 : quiet num fstate ls fc e /\ polls num ls true l2 = []).
  { destruct e as [rd|sup hs soft h0|s rd|j v|b|p r|s a]; cbn in E; try discriminate; try (split; [split; reflexivity|exact E]).
    destruct (reading s) eqn:R; [discriminate|]. split; [split; [cbn; rewrite R; reflexivity|reflexivity]|exact E]. }
  destruct Q0 as [Q0 E'].
  destruct (quiet_step num nan junk dtype opens fstate ls fupd enf lrst fc e x Q0 T) as (_ & _ & M0 & _ & T').
  cbn [run fold_left]. etransitivity; [apply IH; [exact T'|exact E']|]. rewrite M0. reflexivity.
Qed.

(** An initialisation forgets what expressions have stored in variables of their own before. *)
Theorem C94_forgets : (forall f v, snd (fupd f v) <> None) -> configurable fstate fc -> forall rd (x y : hl num fstate ls), alike x y -> forall k,
  meas num fstate ls (fst (handle_init num nan junk dtype opens fstate ls fupd fc rd x)) k =
  meas num fstate ls (fst (handle_init num nan junk dtype opens fstate ls fupd fc rd y)) k.
Proof. exact (init_alike num nan junk dtype opens fstate ls fupd fc). Qed.

(** An initialisation fails if and only if a filter cannot be configured; whether the device answers does not matter. *)
Theorem C94_init_result : forall rd (x : hl num fstate ls),
  snd (handle_init num nan junk dtype opens fstate ls fupd fc rd x) = true <-> configurable fstate fc.
Proof.
  intros rd x. unfold handle_init.
  match goal with |- context [prepare_filters _ _ _ _ ?y] => destruct (prepare_filters_spec num fstate ls fc y) as (z & -> & _) end.
  split.
  - intros E k. unfold okf in E. cbn [forallb] in E. destruct k; destruct (fc KPos) as [[?|]|], (fc KVel) as [[?|]|], (fc KEff) as [[?|]|]; cbn in E; congruence.
  - intros H. rewrite (configured H). reflexivity.
Qed.

(** Commands: the forwarded one becomes a target, the others follow the measured values. *)
Lemma new_okx : okx num nan fstate ls et (new_hl num fstate ls ef et m0 c0).
Proof. intros k. split; [reflexivity|]. split; [constructor|reflexivity]. Qed.

Theorem C95_target : forall l k, (forall k, pure num (et k)) -> let x := history l in
  exists y v, handle_write num nan junk dtype opens fstate ls Ready (Some k) x = (y, Some v) /\
    target num nan k (et k) (cmd num fstate ls x k) v /\
    cmd num fstate ls y k = cmd num fstate ls x k /\ (forall j, j <> k -> cmd num fstate ls y j = meas num fstate ls x j) /\
    (forall j, meas num fstate ls y j = meas num fstate ls x j).
Proof.
  intros l k P x. pose proof (run_okx num nan junk dtype opens fstate ls fupd enf lrst et fc P l _ new_okx) as K. fold x in K.
  destruct (write_spec num nan junk dtype opens fstate ls et P Ready (Some k) x K) as ((v & A & B & D) & _ & _ & _ & M0).
  destruct (handle_write num nan junk dtype opens fstate ls Ready (Some k) x) as [y o]. cbn [fst snd] in *. subst o.
  exists y, v. split; [reflexivity|]. split; [exact B|]. rewrite D. split; [apply upd_same|]. split; [intros j N; apply upd_other, N|].
  intros j. rewrite M0. reflexivity.
Qed.

(** No target otherwise; without a forwarding handle all commands follow. *)
Theorem C95_idle : forall s a (x : hl num fstate ls), s <> Ready \/ a = None ->
  snd (handle_write num nan junk dtype opens fstate ls s a x) = None /\
  forall k, cmd num fstate ls (fst (handle_write num nan junk dtype opens fstate ls s a x)) k =
            match s with Ready => meas num fstate ls x k | _ => cmd num fstate ls x k end.
Proof.
  intros s a x H. unfold handle_write. destruct s; try (split; reflexivity). destruct a; [|split; reflexivity].
  destruct H; congruence.
Qed.

(** In a cycle with limits, what becomes a target was limited. *)
Theorem C95_limited : forall l k period reset (R : num -> Prop), (forall k, pure num (et k)) ->
  (forall s p m c st, R (snd (enf k s p m c st))) -> limited num ls k l -> limits_on num ls true l = true ->
  exists c y v, handle_write num nan junk dtype opens fstate ls Ready (Some k) (history (l ++ [EEnforce num ls period reset])) = (y, Some v) /\
    R c /\ target num nan k (et k) c v /\ cmd num fstate ls y k = c.
Proof.
  intros l k period reset R P HR HL HO.
  destruct (C95_target (l ++ [EEnforce num ls period reset]) k P) as (y & v & E & T & CK & _).
  exists (cmd num fstate ls (history (l ++ [EEnforce num ls period reset])) k), y, v. split; [exact E|]. split; [|split; [exact T|exact CK]].
  rewrite run_app. cbn [run fold_left step]. rewrite enforce_cmd.
  pose proof (run_on num nan junk dtype opens fstate ls fupd enf lrst fc l (new_hl num fstate ls ef et m0 c0)) as ON.
  rewrite ON. cbn [new_hl limon]. rewrite HO. apply enforce_in; [exact HR|].
  apply (run_kinds num nan junk dtype opens fstate ls fupd enf lrst fc l (new_hl num fstate ls ef et m0 c0) k). right. exact HL.
Qed.

(** Limits leave commands alone if the joint has none of the kind, or they are switched off. *)
Theorem C95_unlimited : forall l k period reset, ~ limited num ls k l \/ limits_on num ls true l = false ->
  cmd num fstate ls (history (l ++ [EEnforce num ls period reset])) k = cmd num fstate ls (history l) k.
Proof.
  intros l k period reset H. rewrite run_app. cbn [run fold_left step]. rewrite enforce_cmd.
  pose proof (run_on num nan junk dtype opens fstate ls fupd enf lrst fc l (new_hl num fstate ls ef et m0 c0)) as ON.
  rewrite ON. cbn [new_hl limon]. destruct H as [H|H].
  - apply enforce_none. intros I0. apply H.
    apply (run_kinds num nan junk dtype opens fstate ls fupd enf lrst fc l (new_hl num fstate ls ef et m0 c0) k) in I0.
    destruct I0 as [[]|I0]. exact I0.
  - rewrite H. apply enforce_off.
Qed.
(** What the limits do: the command passes the saturation of its kind, and its soft limits if there are any, with the
    measured values; the other kinds have no influence. *)
Definition other (e : event num ls) : Prop := match e with ERegister _ _ _ _ _ _ | EEnforce _ _ _ _ => False | _ => True end.
Lemma other_lims e (x : hl num fstate ls) : other e -> lims num fstate ls (step num nan junk dtype opens fstate ls fupd enf lrst fc x e) = lims num fstate ls x.
Proof.
  assert (RD : forall s rd (y : hl num fstate ls), lims num fstate ls (handle_read num nan junk dtype opens fstate ls fupd s rd y) = lims num fstate ls y).
  { assert (RK : forall k (y : hl num fstate ls), lims num fstate ls (read_kind num nan junk dtype opens fstate ls fupd k y) = lims num fstate ls y).
    { intros k y. unfold read_kind. destruct (evaluate _ _ _ _ _ _ _ _ _ _) as [[[[? ?] ?] ?] ?]. destruct (filter_step _ _ _ _ _ _). reflexivity. }
    intros s rd y. unfold handle_read. destruct (lgt s Shutdown); [|reflexivity]. rewrite !RK. reflexivity. }
  intros O. destruct e as [rd|sup hs soft l0|s rd|k v|b|p r|s a]; cbn [step]; try destruct O; try reflexivity.
  - unfold handle_init, prepare_filters, prepare_filter. destruct (fc KPos) as [[?|]|]; destruct (fc KVel) as [[?|]|]; destruct (fc KEff) as [[?|]|]; cbn [fst]; rewrite ?RD; reflexivity.
  - apply RD.
  - unfold handle_write. destruct s; try reflexivity. destruct a; [|reflexivity].
    destruct (evaluate _ _ _ _ _ _ _ _ _ _) as [[[[? ?] ?] ?] ?]. reflexivity.
Qed.
Lemma enforce_two on r p m a b c : snd (enforce_all num ls enf lrst on r p m (a ++ b) c) = snd (enforce_all num ls enf lrst on r p m b (snd (enforce_all num ls enf lrst on r p m a c))).
Proof.
  revert c. induction a as [|[[k s] st] a IH]; intros c; [reflexivity|]. cbn [app enforce_all].
  destruct (if on then enf k s p m (c k) (if r then lrst st else st) else (if r then lrst st else st, c k)) as [st' v]. specialize (IH (upd c k v)).
  destruct (enforce_all num ls enf lrst on r p m (a ++ b) (upd c k v)). destruct (enforce_all num ls enf lrst on r p m a (upd c k v)). cbn [snd] in *. exact IH.
Qed.
Lemma others_lims l (x : hl num fstate ls) : Forall other l -> lims num fstate ls (run num nan junk dtype opens fstate ls fupd enf lrst fc l x) = lims num fstate ls x.
Proof. intros F. revert x. induction F as [|e l H _ IH]; intros x; [reflexivity|]. cbn [run fold_left]. fold (run num nan junk dtype opens fstate ls fupd enf lrst fc l (step num nan junk dtype opens fstate ls fupd enf lrst fc x e)). rewrite IH. apply other_lims, H. Qed.
Theorem C95_enforced : forall l1 sup has (soft : bool) l0 l2 period (reset : bool) k, Forall other l1 -> Forall other l2 ->
  let l := l1 ++ ERegister num ls sup has soft l0 :: l2 in limits_on num ls true l = true -> sup k = true -> has k = true ->
  let x := history l in let st (s : bool) := if reset then lrst (l0 k s) else l0 k s in
  let c := snd (enf k false period (meas num fstate ls x) (cmd num fstate ls x k) (st false)) in
  cmd num fstate ls (history (l ++ [EEnforce num ls period reset])) k = if soft then snd (enf k true period (meas num fstate ls x) c (st true)) else c.
Proof.
  intros l1 sup has soft l0 l2 period reset k O1 O2 l ON SK HK x st c. rewrite run_app. fold x. cbn [run fold_left step]. rewrite enforce_cmd.
  pose proof (run_on num nan junk dtype opens fstate ls fupd enf lrst fc l (new_hl num fstate ls ef et m0 c0)) as E. fold x in E. rewrite E. cbn [new_hl limon]. rewrite ON.
  assert (L : lims num fstate ls x = flat_map (fun k => if sup k && has k then (k, false, l0 k false) :: (if soft then [(k, true, l0 k true)] else []) else []) [KPos; KVel; KEff]).
  { unfold x, l. rewrite run_app. etransitivity; [exact (others_lims l2 _ O2)|]. cbn [step register_limits with_lims lims]. unfold register_limits. cbn [with_lims lims].
    rewrite (others_lims l1 _ O1). reflexivity. }
  rewrite L. set (B := fun k => if sup k && has k then (k, false, l0 k false) :: (if soft then [(k, true, l0 k true)] else []) else []).
  change (flat_map B [KPos; KVel; KEff]) with (B KPos ++ B KVel ++ B KEff ++ []). rewrite app_nil_r, !enforce_two. set (m := meas num fstate ls x) in *.
  assert (NK : forall j c1, j <> k -> snd (enforce_all num ls enf lrst true reset period m (B j) c1) k = c1 k).
  { intros j c1 N. apply enforce_none. unfold B. destruct (sup j && has j); [destruct soft|]; cbn; intuition congruence. }
  assert (KK : forall c1, c1 k = cmd num fstate ls x k -> snd (enforce_all num ls enf lrst true reset period m (B k) c1) k =
    if soft then snd (enf k true period m c (st true)) else c).
  { intros c1 E1. unfold B. rewrite SK, HK. cbn [andb enforce_all]. fold (st false). rewrite E1. unfold c. destruct (enf k false period m (cmd num fstate ls x k) (st false)) as [s1 v1] eqn:E2.
    destruct soft; cbn [enforce_all snd]; [|apply upd_same]. rewrite upd_same. fold (st true). destruct (enf k true period m v1 (st true)) as [s2 v2]. cbn [snd]. apply upd_same. }
  destruct k; rewrite ?(NK KEff), ?(NK KVel) by discriminate; rewrite KK; rewrite ?(NK KVel), ?(NK KPos) by discriminate; reflexivity.
Qed.
End Props.

Print Assumptions C94_value_partial.
Print Assumptions C94_current_partial.
Print Assumptions C94_filtered_partial.
Print Assumptions C94_untouched.
Print Assumptions C94_forgets.
Print Assumptions C94_init_result.
Print Assumptions C95_target.
Print Assumptions C95_idle.
Print Assumptions C95_limited.
Print Assumptions C95_unlimited.
Print Assumptions C95_enforced.

(** ** Counterexamples and examples *)

(** Values are integers, 6064 is an INTEGER32; the position is its value in thousandths, the velocity uses a name
    that does not exist. *)
Definition ex_dtype (k : Z) : option Z := if k =? key_index 24676 then Some 4 else None.
Definition ex_from (k : kind) : expr (option Z) :=
  match k with
  | KPos => mkExpr (option Z) [str "obj6064"] (fun vs => (vs, option_map (fun v => v / 1000) (List.hd None vs)))
  | KVel => mkExpr (option Z) [str "obj6065"] (fun vs => (vs, List.hd None vs))
  | KEff => mkExpr (option Z) [] (fun vs => (vs, Some 0))
  end.
Definition ex_to (k : kind) : expr (option Z) :=
  match k with
  | KPos => mkExpr (option Z) [str "pos"] (fun vs => (vs, option_map (fun v => v * 1000) (List.hd None vs)))
  | KVel => mkExpr (option Z) [str "pos"] (fun vs => (vs, List.hd None vs))
  | KEff => mkExpr (option Z) [str "eff"] (fun vs => (vs, List.hd None vs))
  end.
Definition ex_enf (k : kind) (soft : bool) (p : Z) (m : kind -> option Z) (c : option Z) (st : unit) : unit * option Z :=
  (st, option_map (Z.min 10) c).
Definition ex_run (junk : Z) (l : list (event (option Z) unit)) : hl (option Z) unit unit :=
  run (option Z) None (fun _ => Some junk) ex_dtype (fun _ => true) unit unit (fun f v => (f, Some v)) ex_enf (fun st => st) (fun _ => None) l
    (new_hl (option Z) unit unit ex_from ex_to (fun _ => None) (fun _ => None)).
Definition answers (v : Z) : Z -> option (option Z) := fun _ => Some (Some v).
Definition silent : Z -> option (option Z) := fun _ => None.

(** C94 without restriction fails: the position after the first initialisation comes from memory that was never
    written, although the device answers. *)
Theorem C94_first_refuted : exists v, forall junk,
  meas (option Z) unit unit (ex_run junk [EInit (option Z) unit (answers v)]) KPos = Some (junk / 1000).
Proof. exists 0. intros junk. reflexivity. Qed.
Print Assumptions C94_first_refuted.

(** A device that does not answer any more leaves the last position for ever. *)
Theorem C94_stale_refuted : forall junk n,
  meas (option Z) unit unit (ex_run junk (EInit (option Z) unit (answers 5000) :: ERead (option Z) unit Ready (answers 7000) :: repeat (ERead (option Z) unit Ready silent) n)) KPos = Some 7.
Proof.
  intros junk n.
  destruct (C94_value_partial (option Z) None (fun _ => Some junk) ex_dtype (fun _ => true) unit unit (fun f v => (f, Some v)) ex_enf (fun st => st)
    ex_from ex_to (fun _ => None) (fun _ => None) (fun _ => None)
    (EInit (option Z) unit (answers 5000) :: ERead (option Z) unit Ready (answers 7000) :: repeat (ERead (option Z) unit Ready silent) n)
    (answers 5000) (answers 7000 :: repeat silent n)) as (jk & H).
  - intros [] vs; reflexivity.
  - intros k. discriminate.
  - cbn. do 2 f_equal. induction n; [reflexivity|]. cbn. f_equal. exact IHn.
  - destruct (H KPos eq_refl) as (vs & V & E).
    match goal with |- ?a = _ => match type of E with ?b = _ => change (b = Some 7) end end. rewrite E.
    cbn [ex_from names] in V. inversion V as [|? v ? ? R R2]; subst. inversion R2; subst. destruct R as [(key & _ & ->)|[R _]].
    + cbn. assert (L0 : forall m d, latest (option Z) (repeat silent m) key d = d) by (induction m; intros d; [reflexivity|apply IHm]).
      rewrite L0. reflexivity.
    + exfalso. apply (R (key_index 24676)). exists (str "6064"), 4. repeat split; vm_compute; auto.
Qed.
Print Assumptions C94_stale_refuted.

Example C94_value_ex : meas (option Z) unit unit (ex_run 77 [EInit (option Z) unit (answers 5000); ERead (option Z) unit Ready (answers 7000); ERead (option Z) unit Shutdown (answers 8000)]) KPos = Some 7
  /\ meas (option Z) unit unit (ex_run 77 [EInit (option Z) unit (answers 5000); ERead (option Z) unit Ready (answers 7000)]) KVel = None.
Proof. vm_compute. auto. Qed.
Example C94_current_ex : let l := [EInit (option Z) unit (answers 5000); ERead (option Z) unit Error (answers 9000)] in
  (forall k, pure (option Z) (ex_from k)) /\ polls (option Z) unit true l = answers 5000 :: [] ++ [answers 9000] /\
  stands_for ex_dtype (fun _ => true) (str "obj6064") (key_index 24676) /\ no_object ex_dtype (fun _ => true) (str "obj6065") /\
  meas (option Z) unit unit (ex_run 77 l) KPos = Some 9.
Proof.
  cbn zeta. split; [intros [] vs; reflexivity|]. split; [reflexivity|]. split; [|split].
  - exists (str "6064"), 4. repeat split; vm_compute; auto.
  - intros k (s & t & E & -> & D & _). change (str "obj6065") with (str "obj" ++ str "6065") in E. apply app_inv_head in E. subst s. vm_compute in D. discriminate.
  - vm_compute. reflexivity.
Qed.
(** A filter that adds up *)
Example C94_filtered_ex :
  meas (option Z) (option Z) unit
    (run (option Z) None (fun _ => Some 0) ex_dtype (fun _ => true) (option Z) unit
      (fun f v => match f, v with Some a, Some b => (Some (a + b), Some (Some (a + b))) | _, _ => (f, None) end) ex_enf (fun st => st)
      (fun k => match k with KPos => Some (Some (Some 100)) | _ => None end)
      [EInit (option Z) unit (answers 5000); ERead (option Z) unit Ready (answers 7000); ERead (option Z) unit Ready silent]
      (new_hl (option Z) (option Z) unit ex_from ex_to (fun _ => None) (fun _ => None))) KPos = Some 114.
Proof. vm_compute. reflexivity. Qed.
Example C94_untouched_ex : polls (option Z) unit true [ERead (option Z) unit Init (answers 3); ECommand (option Z) unit KPos (Some 4); EWrite (option Z) unit Ready (Some KPos)] = [].
Proof. reflexivity. Qed.
(** An expression that counts in its own variable "n" starts again. *)
Definition ex_count (k : kind) : expr (option Z) :=
  mkExpr (option Z) [str "n"] (fun vs => match vs with [Some n] => ([Some (n + 1)], Some (n + 1)) | _ => ([Some 0], Some 0) end).
Example C94_forgets_ex : let go := fun l => run (option Z) None (fun _ => Some 0) ex_dtype (fun _ => true) unit unit (fun f v => (f, Some v)) ex_enf (fun st => st) (fun _ => None) l
    (new_hl (option Z) unit unit ex_count ex_to (fun _ => None) (fun _ => None)) in
  let x := go [EInit (option Z) unit silent; ERead (option Z) unit Ready silent] in
  let y := go [EInit (option Z) unit silent; ERead (option Z) unit Ready silent; ERead (option Z) unit Ready silent] in
  alike x y /\ meas (option Z) unit unit x KPos = Some 1 /\ meas (option Z) unit unit y KPos = Some 2 /\
  meas (option Z) unit unit (go [EInit (option Z) unit silent; ERead (option Z) unit Ready silent; EInit (option Z) unit silent]) KPos = Some 0.
Proof. cbn zeta. split; [|vm_compute; auto]. split; [reflexivity|]. split; [reflexivity|]. intros []; vm_compute; auto. Qed.

Definition ex_limits : list (event (option Z) unit) :=
  [ERegister (option Z) unit (fun _ => true) (fun k => match k with KPos => true | _ => false end) true (fun _ _ => tt); EInit (option Z) unit (answers 5000);
   ERead (option Z) unit Ready (answers 6000); ECommand (option Z) unit KPos (Some 25); ECommand (option Z) unit KEff (Some 30)].
Example C95_limited_ex : limited (option Z) unit KPos ex_limits /\ limits_on (option Z) unit true ex_limits = true /\
  (forall s p m c st, (fun c => match c with Some v => v <= 10 | None => True end) (snd (ex_enf KPos s p m c st))) /\
  snd (handle_write (option Z) None (fun _ => Some 1) ex_dtype (fun _ => true) unit unit Ready (Some KPos) (ex_run 1 (ex_limits ++ [EEnforce (option Z) unit 1 false]))) = Some (Some 10000).
Proof.
  split; [|split; [reflexivity|split]].
  - do 4 eexists. split; [left; reflexivity|]. split; reflexivity.
  - intros s p m [c|] st; cbn; [lia|exact Logic.I].
  - vm_compute. reflexivity.
Qed.
Example C95_unlimited_ex : ~ limited (option Z) unit KEff ex_limits /\
  cmd (option Z) unit unit (ex_run 1 (ex_limits ++ [EEnforce (option Z) unit 1 false])) KEff = Some 30 /\
  cmd (option Z) unit unit (ex_run 1 (ex_limits ++ [ELimits (option Z) unit false; EEnforce (option Z) unit 1 false])) KPos = Some 25.
Proof.
  split; [|vm_compute; auto]. intros (a & b & c & d & H & _ & K). cbn in H. repeat (destruct H as [H|H]; [try discriminate H; injection H as <- <- <- <-; discriminate|]). exact H.
Qed.
(** The expression for velocities uses a variable that it does not have. *)
Example C95_target_ex : snd (handle_write (option Z) None (fun _ => Some 1) ex_dtype (fun _ => true) unit unit Ready (Some KVel) (ex_run 1 (ex_limits ++ [ECommand (option Z) unit KVel (Some 3)]))) = Some None
  /\ snd (handle_write (option Z) None (fun _ => Some 1) ex_dtype (fun _ => true) unit unit Ready (Some KEff) (ex_run 1 ex_limits)) = Some (Some 30).
Proof. vm_compute. auto. Qed.

(** ** Default conversions, with exact numbers: a measured position, commanded back, is the same position of the
    device, and a command is met up to half a thousandth of a degree. *)
Local Open Scope Q_scope.
Theorem C95_exact_same : forall pi d, ~ pi == 0 -> default_to pi (default_from pi d) = Some d.
Proof. exact default_there. Qed.
Print Assumptions C95_exact_same.
Theorem C95_exact_near : forall pi p, 0 < pi ->
  exists d q, default_to pi (Some p) = Some d /\ default_from pi d = Some q /\ Qabs (q - p) <= pi / (360000 # 1).
Proof. exact default_back. Qed.
Print Assumptions C95_exact_near.
Example C95_default_ex : default_to (355 # 113) (Some (1 # 2)) = Some 28648%Z /\ default_to (355 # 113) (default_from (355 # 113) (-90000)) = Some (-90000)%Z.
Proof. vm_compute. auto. Qed.

(** ** The same with IEEE doubles: rint may be that of the C library or floor(x+0.5). Every 32-bit position (or
    velocity) that was measured comes back when it is commanded; a command of up to 2^30 is met up to half a
    thousandth of a degree, and 2^-50 of the command. *)
Theorem C95_rint : rounds rint_c /\ rounds rint_floor.
Proof. exact (conj rint_c_rounds rint_floor_rounds). Qed.
Print Assumptions C95_rint.
Theorem C95_default_same : forall rnd d, rounds rnd -> (- 2 ^ 31 <= d < 2 ^ 31)%Z ->
  exists q, dvalue (default_to_d rnd (default_from_d d)) = Some q /\ q == inject_Z d.
Proof. exact there. Qed.
Print Assumptions C95_default_same.
Theorem C95_default_near : forall rnd p v, rounds rnd -> dvalue p = Some v -> (v == 0 \/ Qpower 2 (-800) <= Qabs v) -> Qabs v <= Qpower 2 30 ->
  exists pi z n w, dvalue M_PI = Some pi /\ dvalue (default_to_d rnd p) = Some z /\ z == inject_Z n /\ dvalue (default_from_d n) = Some w /\
    Qabs (w - v) <= pi / 360000 * (1 + Qpower 2 (-50)) + Qpower 2 (-50) * Qabs v.
Proof.
  intros rnd p v R D L H. destruct (back rnd p v R D L H) as (z & n & w & A & B & C & E). exists PI, z, n, w. split; [reflexivity|]. auto.
Qed.
Print Assumptions C95_default_near.
(** 1.25 rad are 71.62 degrees; the two roundings differ for a half: rint(0.5) is 0 or 1. *)
Example C95_doubles_ex : default_to_d rint_c (SpecFloat.S754_finite false 5 (-2)) = UnitModel.double_of_int 71620 /\
  default_to_d rint_floor (default_from_d (-2147483648)) = UnitModel.double_of_int (-2147483648) /\
  rint_c (SpecFloat.S754_finite false 1 (-1)) = SpecFloat.S754_zero false /\ rint_floor (SpecFloat.S754_finite false 1 (-1)) = UnitModel.double_of_int 1.
Proof. vm_compute. auto. Qed.
(** A command of 25 with a saturation at 10 and soft limits that halve *)
Local Open Scope Z_scope.
Example C95_enforced_ex :
  let soft_enf := fun (k : kind) (soft : bool) (p : Z) (m : kind -> option Z) (c : option Z) (st : unit) =>
    (st, option_map (fun v => if soft then v / 2 else Z.min 10 v) c) in
  cmd (option Z) unit unit (run (option Z) None (fun _ => Some 0) ex_dtype (fun _ => true) unit unit (fun f v => (f, Some v)) soft_enf (fun st => st) (fun _ => None)
    ([ECommand (option Z) unit KPos (Some 25)] ++ ERegister (option Z) unit (fun _ => true) (fun k => match k with KPos => true | _ => false end) true (fun _ _ => tt) :: [] ++ [EEnforce (option Z) unit 1 false])
    (new_hl (option Z) unit unit ex_from ex_to (fun _ => None) (fun _ => None))) KPos = Some 5.
Proof. vm_compute. reflexivity. Qed.
Example C94_init_ex : ~ configurable unit (fun k => match k with KVel => Some None | _ => None end) /\ configurable unit (fun k => match k with KPos => Some (Some tt) | _ => None end).
Proof. split; [intros H; exact (H KVel eq_refl)|intros []; discriminate]. Qed.
