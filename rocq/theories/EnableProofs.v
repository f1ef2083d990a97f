(** The enabling procedure reaches Operation Enabled: by abstraction to the bits that
    matter and a chain of closed sets of abstract states. *)
From Verif Require Import Base MotorModel MotorSpec MotorProofs EnableModel EnableSpec.

(** ** Sets of positives *)
Inductive tree := Leaf | Node (l : tree) (b : bool) (r : tree).
Fixpoint mem (t : tree) (p : positive) : bool :=
  match t with
  | Leaf => false
  | Node l b r => match p with xH => b | xO p => mem l p | xI p => mem r p end
  end.
Fixpoint add (p : positive) (t : tree) : tree :=
  match p, t with
  | xH, Leaf => Node Leaf true Leaf
  | xH, Node l _ r => Node l true r
  | xO p, Leaf => Node (add p Leaf) false Leaf
  | xO p, Node l b r => Node (add p l) b r
  | xI p, Leaf => Node Leaf false (add p Leaf)
  | xI p, Node l b r => Node l b (add p r)
  end.
Fixpoint all (t : tree) (k : positive -> positive) (f : positive -> bool) : bool :=
  match t with
  | Leaf => true
  | Node l b r => (if b then f (k xH) else true) && all l (fun p => k (xO p)) f && all r (fun p => k (xI p)) f
  end.
Lemma all_mem : forall t k f p, all t k f = true -> mem t p = true -> f (k p) = true.
Proof.
  induction t as [|l IHl b r IHr]; intros k f p A M; [discriminate M|]. cbn in A, M.
  apply andb_prop in A. destruct A as [A Ar]. apply andb_prop in A. destruct A as [Ab Al].
  destruct p as [p|p|].
  - exact (IHr (fun p => k (xI p)) f p Ar M).
  - exact (IHl (fun p => k (xO p)) f p Al M).
  - rewrite M in Ab. exact Ab.
Qed.
Fixpoint elements (t : tree) (k : positive -> positive) (acc : list positive) : list positive :=
  match t with
  | Leaf => acc
  | Node l b r => let acc := elements r (fun p => k (xI p)) acc in
                  let acc := elements l (fun p => k (xO p)) acc in if b then k xH :: acc else acc
  end.

(** ** Abstract states *)
Record word := mkWord { b0 : bool; b1 : bool; b2 : bool; b3 : bool; b7 : bool }.
Definition absw (w : Z) : word := mkWord (Z.testbit w 0) (Z.testbit w 1) (Z.testbit w 2) (Z.testbit w 3) (Z.testbit w 7).
Record asys := mkA { adrive : state402; areceived : word; apending : bool; areported : state402;
  aknown : state402; alocal : state402; awaiting : bool; acw : word; asfr : bool; afinished : bool }.
Definition abst (s : sys) : asys :=
  mkA (drive s) (absw (received s)) (pending s) (reported s) (known s) (local s) (waiting s) (absw (cw s)) (sfr s) (finished s).

Definition acommand (w : word) : option command := command_bits (b0 w) (b1 w) (b2 w) (b3 w) (b7 w).
Definition adrive_step (s : state402) (edge : bool) (w : word) : state402 :=
  match s with
  | Start => NotReady
  | NotReady => SwitchOnDisabled
  | FaultReactionActive => Fault
  | Fault => if edge then SwitchOnDisabled else Fault
  | _ => obey s (acommand w)
  end.
Definition aapply (o : op) (w : word) : word :=
  mkWord ((b0 w && negb (Z.testbit (to_reset o) 0)) || Z.testbit (to_set o) 0)
         ((b1 w && negb (Z.testbit (to_reset o) 1)) || Z.testbit (to_set o) 1)
         ((b2 w && negb (Z.testbit (to_reset o) 2)) || Z.testbit (to_set o) 2)
         ((b3 w && negb (Z.testbit (to_reset o) 3)) || Z.testbit (to_set o) 3)
         ((b7 w && negb (Z.testbit (to_reset o) 7)) || Z.testbit (to_set o) 7).
Lemma absw_apply : forall o w, absw (apply_op o w) = aapply o (absw w).
Proof. intros o w. unfold absw. rewrite !apply_op_bit by lia. reflexivity. Qed.

Definition astep (s : asys) (k : kind) : asys :=
  match k with
  | KThread =>
    if afinished s then s
    else if awaiting s then
      if state_eqb (aknown s) (alocal s) then s
      else mkA (adrive s) (areceived s) (apending s) (areported s) (aknown s) (aknown s) false (acw s) (asfr s) false
    else if state_eqb (alocal s) OperationEnable then
      mkA (adrive s) (areceived s) (apending s) (areported s) (aknown s) (alocal s) false (acw s) (asfr s) true
    else
      let c := match transition (alocal s) (next_for_enabling (alocal s)) with Some o => aapply o (acw s) | None => acw s end in
      mkA (adrive s) (areceived s) (apending s) (areported s) (aknown s) (alocal s) true c (asfr s) false
  | KWrite =>
    let c := acw s in
    let sent := mkWord (b0 c) (b1 c) (b2 c) (b3 c) (b7 c && negb (asfr s)) in
    mkA (adrive s) sent (apending s || (negb (b7 (areceived s)) && b7 sent)) (areported s) (aknown s) (alocal s) (awaiting s) c false (afinished s)
  | KDrive =>
    mkA (adrive_step (adrive s) (apending s) (areceived s)) (areceived s) false (areported s) (aknown s) (alocal s) (awaiting s) (acw s) (asfr s) (afinished s)
  | KStatus => mkA (adrive s) (areceived s) (apending s) (adrive s) (aknown s) (alocal s) (awaiting s) (acw s) (asfr s) (afinished s)
  | KRead => mkA (adrive s) (areceived s) (apending s) (areported s) (areported s) (alocal s) (awaiting s) (acw s) (asfr s) (afinished s)
  end.

Lemma simulation : forall s e, abst (step s e) = astep (abst s) (kind_of e).
Proof.
  intros s e. destruct e as [|sel shown| | |]; cbn [kind_of].
  - unfold step, astep. cbn [abst afinished awaiting aknown alocal].
    destruct (finished s) eqn:F; [reflexivity|]. destruct (waiting s) eqn:W.
    + destruct (state_eqb (known s) (local s)); reflexivity.
    + destruct (state_eqb (local s) OperationEnable) eqn:L; [reflexivity|].
      unfold set_transition. rewrite L. cbn [andb state_eqb]. rewrite state_eqb_refl. cbn [acw].
      destruct (transition (local s) (next_for_enabling (local s))); [|reflexivity].
      unfold abst. cbn [drive received pending reported known local waiting cw sfr finished]. rewrite absw_apply. reflexivity.
  - unfold step. destruct (handle_write (known s) sel shown (sfr s) (cw s)) as [[c sent] f] eqn:H.
    pose proof (hw_sfr _ _ _ _ _ _ _ _ H) as ->.
    assert (C : absw c = absw (cw s)) by (unfold absw; rewrite !(hw_state _ _ _ _ _ _ _ _ H) by (unfold mode_bit; lia); reflexivity).
    assert (S : absw sent = mkWord (b0 (absw c)) (b1 (absw c)) (b2 (absw c)) (b3 (absw c)) (b7 (absw c) && negb (sfr s))).
    { unfold absw. rewrite !(hw_sent_bits _ _ _ _ _ _ _ _ H) by lia. cbn [b0 b1 b2 b3 b7 Z.eqb Pos.eqb]. rewrite !andb_false_r, !andb_true_r. reflexivity. }
    unfold abst, astep. cbn [drive received pending reported known local waiting cw sfr finished adrive areceived apending areported aknown alocal awaiting acw asfr afinished].
    rewrite S, C. f_equal. f_equal. unfold rising. f_equal. 
    change (Z.testbit sent 7) with (b7 (absw sent)). rewrite S, C. reflexivity.
  - reflexivity.
  - reflexivity.
  - reflexivity.
Qed.
Definition arun (l : list kind) (s : asys) : asys := fold_left astep l s.
Lemma simulation_run : forall l s, abst (run l s) = arun (map kind_of l) (abst s).
Proof. induction l as [|e l IH]; intro s; [reflexivity|]. cbn. rewrite <- simulation. apply IH. Qed.

(** ** Encoding *)
Definition enc_b (b : bool) (k : positive) : positive := if b then xI k else xO k.
Definition dec_b (p : positive) : bool * positive := match p with xI k => (true, k) | xO k => (false, k) | xH => (false, xH) end.
Definition enc_s (s : state402) (k : positive) : positive :=
  match s with
  | Start => xO (xO (xO (xO k))) | NotReady => xI (xO (xO (xO k))) | SwitchOnDisabled => xO (xI (xO (xO k)))
  | ReadyToSwitchOn => xI (xI (xO (xO k))) | SwitchedOn => xO (xO (xI (xO k))) | OperationEnable => xI (xO (xI (xO k)))
  | QuickStopActive => xO (xI (xI (xO k))) | FaultReactionActive => xI (xI (xI (xO k))) | Fault => xO (xO (xO (xI k)))
  end.
Definition dec_s (p : positive) : state402 * positive :=
  let (x, p) := dec_b p in let (y, p) := dec_b p in let (z, p) := dec_b p in let (u, p) := dec_b p in
  (match u, z, y, x with
   | false, false, false, false => Start | false, false, false, true => NotReady | false, false, true, false => SwitchOnDisabled
   | false, false, true, true => ReadyToSwitchOn | false, true, false, false => SwitchedOn | false, true, false, true => OperationEnable
   | false, true, true, false => QuickStopActive | false, true, true, true => FaultReactionActive | _, _, _, _ => Fault
   end, p).
Definition enc_w (w : word) (k : positive) : positive := enc_b (b0 w) (enc_b (b1 w) (enc_b (b2 w) (enc_b (b3 w) (enc_b (b7 w) k)))).
Definition dec_w (p : positive) : word * positive :=
  let (x0, p) := dec_b p in let (x1, p) := dec_b p in let (x2, p) := dec_b p in let (x3, p) := dec_b p in let (x7, p) := dec_b p in
  (mkWord x0 x1 x2 x3 x7, p).
Definition enc (s : asys) : positive :=
  enc_s (adrive s) (enc_w (areceived s) (enc_b (apending s) (enc_s (areported s) (enc_s (aknown s) (enc_s (alocal s)
    (enc_b (awaiting s) (enc_w (acw s) (enc_b (asfr s) (enc_b (afinished s) xH))))))))).
Definition dec (p : positive) : asys :=
  let (d, p) := dec_s p in let (r, p) := dec_w p in let (pe, p) := dec_b p in let (re, p) := dec_s p in
  let (k, p) := dec_s p in let (l, p) := dec_s p in let (w, p) := dec_b p in let (c, p) := dec_w p in
  let (f, p) := dec_b p in let (fi, p) := dec_b p in
  mkA d r pe re k l w c f fi.
Lemma dec_enc_b : forall b k, dec_b (enc_b b k) = (b, k). Proof. intros [] k; reflexivity. Qed.
Lemma dec_enc_s : forall s k, dec_s (enc_s s k) = (s, k). Proof. intros [] k; reflexivity. Qed.
Lemma dec_enc_w : forall w k, dec_w (enc_w w k) = (w, k). Proof. intros [[] [] [] [] []] k; reflexivity. Qed.
Lemma dec_enc : forall s, dec (enc s) = s.
Proof. intros []. unfold dec, enc. cbn [adrive areceived apending areported aknown alocal awaiting acw asfr afinished].
  rewrite dec_enc_s, dec_enc_w, dec_enc_b, !dec_enc_s, dec_enc_b, dec_enc_w, !dec_enc_b. reflexivity. Qed.

(** ** Sets of abstract states *)
Definition inset (t : tree) (s : asys) : Prop := mem t (enc s) = true.
Definition kinds : list kind := [KThread; KWrite; KDrive; KStatus; KRead].
Definition closed (t : tree) : bool :=
  all t (fun p => p) (fun p => forallb (fun k => mem t (enc (astep (dec p) k))) kinds).
Definition leads (t : tree) (k : kind) (t' : tree) : bool := all t (fun p => p) (fun p => mem t' (enc (astep (dec p) k))).
Definition holds (t : tree) (f : asys -> bool) : bool := all t (fun p => p) (fun p => f (dec p)).
Lemma closed_step : forall t s k, closed t = true -> inset t s -> inset t (astep s k).
Proof.
  intros t s k C I. pose proof (all_mem _ _ _ _ C I) as H. cbv beta in H. rewrite forallb_forall in H. rewrite dec_enc in H.
  apply H. destruct k; cbn; tauto.
Qed.
Lemma leads_step : forall t k t' s, leads t k t' = true -> inset t s -> inset t' (astep s k).
Proof. intros t k t' s L I. pose proof (all_mem _ _ _ _ L I) as H. cbv beta in H. rewrite dec_enc in H. exact H. Qed.
Lemma holds_in : forall t f s, holds t f = true -> inset t s -> f s = true.
Proof. intros t f s L I. pose proof (all_mem _ _ _ _ L I) as H. cbv beta in H. rewrite dec_enc in H. exact H. Qed.
Lemma closed_run : forall t l s, closed t = true -> inset t s -> inset t (arun l s).
Proof. intros t. induction l as [|k l IH]; intros s C I; [exact I|]. cbn. apply IH; [exact C|]. apply closed_step; assumption. Qed.

(** A chain of closed sets, each reached from the one before by an event *)
Fixpoint chain (t : tree) (l : list (kind * tree)) : bool :=
  match l with
  | [] => closed t
  | (k, t') :: r => closed t && leads t k t' && chain t' r
  end.
Definition last_set (t : tree) (l : list (kind * tree)) : tree := snd (List.last l (KThread, t)).
Lemma last_set_cons : forall t k t' r, last_set t ((k, t') :: r) = last_set t' r.
Proof.
  intros t k t' r. unfold last_set. destruct r as [|p r]; [reflexivity|]. cbn [List.last].
  revert p. induction r as [|q r IH]; intro p; [reflexivity|]. exact (IH q).
Qed.
Lemma chain_closed : forall t l, chain t l = true -> closed t = true.
Proof. intros t [|[k t'] r] H; [exact H|]. cbn in H. apply andb_prop in H. destruct H as [H _]. apply andb_prop in H. exact (proj1 H). Qed.
Lemma chain_run : forall ks r, subseq ks r -> forall t l s, chain t l = true -> map fst l = ks -> inset t (abst s) -> inset (last_set t l) (abst (run r s)).
Proof.
  intros ks r H. induction H as [r|k ks e r K H IH|ks e r H IH]; intros t l s C M I.
  - destruct l; [|discriminate]. unfold last_set. cbn. rewrite simulation_run. apply closed_run; [exact C|exact I].
  - destruct l as [|[k' t'] l]; [discriminate|]. cbn in M. injection M as -> M. rewrite last_set_cons. cbn [run fold_left].
    cbn in C. apply andb_prop in C. destruct C as [C1 C2]. apply andb_prop in C1. destruct C1 as [C0 C1].
    apply (IH t' l (step s e) C2 M). rewrite simulation, K. exact (leads_step _ _ _ _ C1 I).
  - cbn [run fold_left]. apply (IH t l (step s e) C M). rewrite simulation. apply closed_step; [exact (chain_closed _ _ C)|exact I].
Qed.

(** Computing the sets *)
Fixpoint explore (fuel : nat) (todo : list positive) (t : tree) : tree :=
  match fuel with
  | O => t
  | S fuel =>
    match todo with
    | [] => t
    | _ =>
      let (todo', t') := fold_left (fun acc p =>
        fold_left (fun (acc : list positive * tree) k =>
          let q := enc (astep (dec p) k) in let (l, t) := acc in
          if mem t q then acc else (q :: l, add q t)) kinds acc) todo ([], t) in
      explore fuel todo' t'
    end
  end.
Definition closure (l : list positive) : tree := explore 200 l (fold_left (fun t p => add p t) l Leaf).
Definition image (t : tree) (k : kind) : list positive := map (fun p => enc (astep (dec p) k)) (elements t (fun p => p) []).
Fixpoint mkchain (t : tree) (ks : list kind) : list (kind * tree) :=
  match ks with
  | [] => []
  | k :: ks => let t' := closure (image t k) in (k, t') :: mkchain t' ks
  end.

(** Start states *)
Definition bools := [false; true].
Definition words : list word :=
  flat_map (fun x0 => flat_map (fun x1 => flat_map (fun x2 => flat_map (fun x3 => map (mkWord x0 x1 x2 x3) bools) bools) bools) bools) bools.
Lemma in_words : forall w, In w words.
Proof. intros [[] [] [] [] []]; vm_compute; tauto. Qed.
Definition aentered (d : state402) (r c : word) : asys := mkA d r false d d d false c true false.
Definition zero_word := mkWord false false false false false.
Definition is_shutdown (w : word) : bool := match acommand w with Some CShutdown => true | _ => false end.
Definition astartable (d : state402) (r c : word) : bool :=
  negb (state_eqb d OperationEnable) &&
  (existsb (state_eqb d) [Start; NotReady; FaultReactionActive] || state_eqb (adrive_step d false r) d) &&
  (state_eqb d Fault || negb (b7 c)) &&
  (negb (existsb (state_eqb d) [Start; NotReady]) || negb (is_shutdown r)).
Definition starts (ok : state402 -> bool) : list positive :=
  flat_map (fun d => if ok d then flat_map (fun r => map (fun c => enc (aentered d r c)) (List.filter (astartable d r) [zero_word; r])) words else []) all_states.
Definition enable_set : tree := closure (starts (fun _ => true)).
Definition enable_chain : list (kind * tree) := mkchain enable_set (rounds 6).

Lemma enable_chain_ok : chain enable_set enable_chain = true.
Proof. vm_cast_no_check (eq_refl true). Qed.

Definition starts_in (t : tree) (ok : state402 -> bool) : bool :=
  forallb (fun d => negb (ok d) || forallb (fun r => forallb (fun c => negb (astartable d r c) || mem t (enc (aentered d r c))) [zero_word; r]) words) all_states.
Lemma adrive_step_abs : forall d e w, adrive_step d e (absw w) = drive_step d e w.
Proof. intros [] e w; reflexivity. Qed.
Lemma existsb_state : forall d l, existsb (state_eqb d) l = true <-> In d l.
Proof.
  intros d l. rewrite existsb_exists. split.
  - intros [x [I E]]. apply state_eqb_eq in E. subst. exact I.
  - intro I. exists d. split; [exact I|apply state_eqb_refl].
Qed.
Lemma startable_abs : forall d rec c, startable d rec c ->
  astartable d (absw rec) (absw c) = true /\ In (absw c) [zero_word; absw rec].
Proof.
  intros d rec c [N [R [A [F B]]]]. split.
  - unfold astartable. rewrite (state_eqb_neq _ _ N). cbn [negb andb]. repeat (apply andb_true_intro; split).
    + apply orb_true_intro. destruct R as [R|R]; [left; apply existsb_state, R|right]. rewrite adrive_step_abs. apply state_eqb_eq, R.
    + apply orb_true_intro. destruct (state_eq_dec d Fault) as [->|D]; [left; reflexivity|right]. unfold absw. cbn [b7]. rewrite (F D). reflexivity.
    + apply orb_true_intro. destruct (existsb (state_eqb d) [Start; NotReady]) eqn:E; [right|left; reflexivity].
      apply existsb_state in E. specialize (B E). unfold is_shutdown. change (acommand (absw rec)) with (command_of rec).
      destruct (command_of rec) as [[]|]; try reflexivity. contradiction.
  - destruct A as [->|A]; [left; reflexivity|right; left]. unfold absw. rewrite !A by (unfold state_bit; lia). reflexivity.
Qed.
Lemma startable_in : forall t ok d rec c, starts_in t ok = true -> ok d = true -> startable d rec c -> inset t (abst (entered d rec c)).
Proof.
  intros t ok d rec c S O H. destruct (startable_abs d rec c H) as [A I]. unfold starts_in in S. rewrite forallb_forall in S.
  specialize (S d (in_all_states d)). rewrite O in S. cbn [negb orb] in S. rewrite forallb_forall in S. specialize (S (absw rec) (in_words _)).
  rewrite forallb_forall in S. specialize (S (absw c) I). rewrite A in S. exact S.
Qed.
Lemma enable_start : starts_in enable_set (fun _ => true) = true.
Proof. vm_cast_no_check (eq_refl true). Qed.
Definition good (s : asys) : bool := afinished s && state_eqb (adrive s) OperationEnable.
Lemma enable_end : holds (last_set enable_set enable_chain) good = true.
Proof. vm_cast_no_check (eq_refl true). Qed.
Lemma enable_kinds : map fst enable_chain = rounds 6.
Proof. vm_cast_no_check (eq_refl (rounds 6)). Qed.

Lemma reaches : forall d rec c r, startable d rec c -> subseq (rounds 6) r ->
  finished (run r (entered d rec c)) = true /\ drive (run r (entered d rec c)) = OperationEnable.
Proof.
  intros d rec c r S Q.
  pose proof (chain_run _ _ Q _ _ _ enable_chain_ok enable_kinds (startable_in _ _ _ _ _ enable_start eq_refl S)) as I.
  pose proof (holds_in _ _ _ enable_end I) as G. unfold good in G. apply andb_prop in G. destruct G as [G1 G2].
  split; [exact G1|]. apply state_eqb_eq in G2. exact G2.
Qed.

(** Safety *)
Definition safe (s : asys) : bool := negb (afinished s) || state_eqb (adrive s) OperationEnable.
Lemma enable_safe : holds enable_set safe = true.
Proof. vm_cast_no_check (eq_refl true). Qed.
Lemma never_early : forall d rec c r, startable d rec c -> finished (run r (entered d rec c)) = true -> drive (run r (entered d rec c)) = OperationEnable.
Proof.
  intros d rec c r S F.
  pose proof (closed_run _ (map kind_of r) _ (chain_closed _ _ enable_chain_ok) (startable_in _ _ _ _ _ enable_start eq_refl S)) as I.
  rewrite <- simulation_run in I. pose proof (holds_in _ _ _ enable_safe I) as G. unfold safe in G. cbn [afinished adrive abst] in G.
  rewrite F in G. apply state_eqb_eq in G. exact G.
Qed.

(** Quick stop: never entered, and never again once left *)
Definition leaves (t : tree) : bool :=
  all t (fun p => p) (fun p => forallb (fun k => state_eqb (adrive (dec p)) QuickStopActive || negb (state_eqb (adrive (astep (dec p) k)) QuickStopActive)) kinds).
Lemma enable_leaves : leaves enable_set = true.
Proof. vm_cast_no_check (eq_refl true). Qed.
Lemma leaves_step : forall t s k, leaves t = true -> inset t s -> adrive s <> QuickStopActive -> adrive (astep s k) <> QuickStopActive.
Proof.
  intros t s k L I N E. pose proof (all_mem _ _ _ _ L I) as H. cbv beta in H. rewrite dec_enc, forallb_forall in H.
  assert (K : In k kinds) by (destruct k; cbn; tauto). specialize (H k K). rewrite (state_eqb_neq _ _ N), E in H. discriminate H.
Qed.
Lemma quick_stop_left : forall s k, inset enable_set s -> adrive s <> QuickStopActive -> adrive (astep s k) <> QuickStopActive.
Proof. intros s k. exact (leaves_step enable_set s k enable_leaves). Qed.
Lemma no_quick_stop_run : forall l s, inset enable_set s -> adrive s <> QuickStopActive -> adrive (arun l s) <> QuickStopActive.
Proof.
  induction l as [|k l IH]; intros s I N; [exact N|]. cbn. apply IH.
  - apply closed_step; [exact (chain_closed _ _ enable_chain_ok)|exact I].
  - apply quick_stop_left; assumption.
Qed.
Lemma no_quick_stop : forall d rec c r1 r2, startable d rec c -> drive (run r1 (entered d rec c)) <> QuickStopActive ->
  drive (run (r1 ++ r2) (entered d rec c)) <> QuickStopActive.
Proof.
  intros d rec c r1 r2 S N. unfold run. rewrite fold_left_app. fold (run r1 (entered d rec c)).
  change (fold_left step r2 (run r1 (entered d rec c))) with (run r2 (run r1 (entered d rec c))).
  change (drive (run r2 (run r1 (entered d rec c)))) with (adrive (abst (run r2 (run r1 (entered d rec c))))). rewrite simulation_run.
  apply no_quick_stop_run; [|exact N]. rewrite simulation_run. apply closed_run; [exact (chain_closed _ _ enable_chain_ok)|].
  exact (startable_in _ _ _ _ _ enable_start eq_refl S).
Qed.

(** Stuck executions: from an abstract state all of whose successors satisfy a predicate *)
Definition always (s : asys) (f : asys -> bool) : bool := let t := closure [enc s] in closed t && mem t (enc s) && holds t f.
Lemma always_run : forall s f r, always (abst s) f = true -> f (abst (run r s)) = true.
Proof.
  intros s f r H. unfold always in H. cbv zeta in H. apply andb_prop in H. destruct H as [H H3]. apply andb_prop in H. destruct H as [H1 H2].
  apply (holds_in _ _ _ H3). rewrite simulation_run. apply closed_run; [exact H1|exact H2].
Qed.
