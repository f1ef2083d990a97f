(** Proofs about the assembly of motor chains. *)
From Verif Require Import Base KeyModel CanModel LayerModel LayerSpec LayerProofs EdsModel ChainModel ChainSpec SetupModel SetupSpec SetupProofs MergeProofs AssemblyModel AssemblySpec.
From Verif Require CtrlModel.
From Coq Require Import Permutation.

Lemma with_added plain load package join added params name defaults s :
  SetupModel.setup_node plain load package join added params name defaults = Some s <->
  SetupModel.setup_node plain load package join (fun _ _ _ => true) params name defaults = Some s /\
  added (node_params params defaults) name (s_dict s) = true.
Proof.
  unfold SetupModel.setup_node. set (merged := node_params params defaults).
  destruct (member (str "id") params) as [vid|]; [|split; [discriminate|intros [E _]; discriminate E]].
  destruct (as_int plain vid) as [i|]; [|split; [discriminate|intros [E _]; discriminate E]].
  destruct (overlay plain merged) as [ov|]; [|split; [discriminate|intros [E _]; discriminate E]].
  destruct (eds_path plain package join merged) as [path|]; [|split; [discriminate|intros [E _]; discriminate E]].
  destruct (load path ov) as [d|]; [|split; [discriminate|intros [E _]; discriminate E]].
  cbn [negb].
  destruct (log_entries plain d merged (str "log") 0) as [l0|]; [|destruct (negb _); split; [discriminate|intros [E _]; discriminate E|discriminate|intros [E _]; discriminate E]].
  destruct (log_entries plain d merged (str "log_warn") 1) as [l1|]; [|destruct (negb _); split; [discriminate|intros [E _]; discriminate E|discriminate|intros [E _]; discriminate E]].
  destruct (log_entries plain d merged (str "log_error") 2) as [l2|]; [|destruct (negb _); split; [discriminate|intros [E _]; discriminate E|discriminate|intros [E _]; discriminate E]].
  match goal with |- context [match ?x with Some _ => _ | None => None end] => destruct x as [nn|] end; [|destruct (negb _); split; [discriminate|intros [E _]; discriminate E|discriminate|intros [E _]; discriminate E]].
  match goal with |- context [match ?x with Some _ => _ | None => None end] => destruct x as [pubs|] end; [|destruct (negb _); split; [discriminate|intros [E _]; discriminate E|discriminate|intros [E _]; discriminate E]].
  destruct (EdsModel.lookup d (key_index 4097)) as [e|]; [|destruct (negb _); split; [discriminate|intros [E _]; discriminate E|discriminate|intros [E _]; discriminate E]].
  destruct (added merged name d) eqn:A; cbn [negb].
  - split; [intros [= <-]; split; [reflexivity|exact A]|intros [[= <-] _]; reflexivity].
  - split; [discriminate|]. intros [[= <-] B]. cbn in B. congruence.
Qed.

(** The first handle of each joint *)
Definition firsts (js : list text) (lk : list (text * nat)) : Prop :=
  NoDup (map fst lk) /\
  forall j i, lookup_node j lk = Some i <-> nth_error js i = Some j /\ forall k, (k < i)%nat -> nth_error js k <> Some j.
Lemma firsts_nil : firsts [] [].
Proof. split; [constructor|]. intros j i. cbn. split; [discriminate|]. intros [E _]. destruct i; discriminate E. Qed.
Lemma lookup_app {A} j (l : list (text * A)) k a :
  lookup_node j (l ++ [(k, a)]) = match lookup_node j l with Some x => Some x | None => if text_eqb j k then Some a else None end.
Proof. induction l as [|[m b] l IH]; cbn; [reflexivity|]. destruct (text_eqb j m); [reflexivity|exact IH]. Qed.
Lemma lookup_not {A} j (l : list (text * A)) : lookup_node j l = None <-> ~ In j (map fst l).
Proof.
  induction l as [|[m b] l IH]; cbn [map In lookup_node]; [tauto|]. destruct (text_eqb j m) eqn:E.
  - apply text_eqb_eq in E. split; [discriminate|]. intros N. contradiction N. left. cbn. congruence.
  - apply text_eqb_neq in E. rewrite IH. cbn. intuition congruence.
Qed.
Lemma firsts_none js lk j : firsts js lk -> (lookup_node j lk = None <-> ~ In j js).
Proof.
  intros [_ F]. split.
  - intros N I. assert (X : exists i, nth_error js i = Some j /\ forall k, (k < i)%nat -> nth_error js k <> Some j).
    { clear F N. induction js as [|x js IH]; [destruct I|]. destruct (text_eqb x j) eqn:E.
      - apply text_eqb_eq in E. subst x. exists 0%nat. split; [reflexivity|]. intros k K. lia.
      - apply text_eqb_neq in E. destruct I as [I|I]; [contradiction|]. destruct (IH I) as (i & A & B). exists (S i). split; [exact A|].
        intros [|k] K; cbn; [congruence|]. apply B. lia. }
    destruct X as (i & X). apply F in X. congruence.
  - intros N. destruct (lookup_node j lk) as [i|] eqn:E; [|reflexivity]. apply F in E as [E _]. apply nth_error_In in E. contradiction.
Qed.
Lemma firsts_add js lk j : firsts js lk ->
  firsts (js ++ [j]) (match lookup_node j lk with Some _ => lk | None => lk ++ [(j, List.length js)] end).
Proof.
  intros F. pose proof (firsts_none js lk j F) as FN. destruct F as [U F]. destruct (lookup_node j lk) as [i0|] eqn:L.
  - split; [exact U|]. intros q i. rewrite F. split.
    + intros [A B]. assert (I : (i < List.length js)%nat) by (apply nth_error_Some; congruence). split; [rewrite nth_error_app1 by exact I; exact A|].
      intros k K. rewrite nth_error_app1 by lia. apply B, K.
    + intros [A B]. destruct (Nat.lt_ge_cases i (List.length js)) as [I|I].
      * rewrite nth_error_app1 in A by exact I. split; [exact A|]. intros k K. specialize (B k K). rewrite nth_error_app1 in B by lia. exact B.
      * assert (i = List.length js) as ->.
        { assert (i < List.length (js ++ [j]))%nat by (apply nth_error_Some; congruence). rewrite app_length in H. cbn in H. lia. }
        rewrite nth_error_app2, Nat.sub_diag in A by lia. injection A as <-. apply F in L as [L1 L2].
        assert (I0 : (i0 < List.length js)%nat) by (apply nth_error_Some; congruence).
        specialize (B i0 I0). rewrite nth_error_app1 in B by exact I0. contradiction.
  - assert (NI : ~ In j js) by (apply FN; reflexivity). split.
    + rewrite map_app. cbn. apply lookup_not in L. assert (P : Permutation (j :: map fst lk) (map fst lk ++ [j])) by apply Permutation_cons_append.
      apply (Permutation_NoDup P). constructor; assumption.
    + intros q i. rewrite lookup_app. destruct (lookup_node q lk) as [i0|] eqn:Lq.
      * rewrite <- Lq. rewrite F. assert (Q : In q js). { apply F in Lq as [Lq _]. apply nth_error_In in Lq. exact Lq. }
        split.
        -- intros [A B]. assert (I : (i < List.length js)%nat) by (apply nth_error_Some; congruence). split; [rewrite nth_error_app1 by exact I; exact A|].
           intros k K. rewrite nth_error_app1 by lia. apply B, K.
        -- intros [A B]. destruct (Nat.lt_ge_cases i (List.length js)) as [I|I].
           ++ rewrite nth_error_app1 in A by exact I. split; [exact A|]. intros k K. specialize (B k K). rewrite nth_error_app1 in B by lia. exact B.
           ++ exfalso. assert (i = List.length js) as ->.
              { assert (i < List.length (js ++ [j]))%nat by (apply nth_error_Some; congruence). rewrite app_length in H. cbn in H. lia. }
              rewrite nth_error_app2, Nat.sub_diag in A by lia. injection A as <-. contradiction.
      * destruct (text_eqb q j) eqn:E.
        -- apply text_eqb_eq in E. subst q. split.
           ++ intros [= <-]. split; [rewrite nth_error_app2, Nat.sub_diag by lia; reflexivity|].
              intros k K. rewrite nth_error_app1 by exact K. intros X. apply nth_error_In in X. contradiction.
           ++ intros [A B]. f_equal. destruct (Nat.lt_ge_cases i (List.length js)) as [I|I].
              ** rewrite nth_error_app1 in A by exact I. apply nth_error_In in A. contradiction.
              ** assert (i < List.length (js ++ [j]))%nat by (apply nth_error_Some; congruence). rewrite app_length in H. cbn in H. lia.
        -- apply text_eqb_neq in E. split; [discriminate|]. intros [A B]. destruct (Nat.lt_ge_cases i (List.length js)) as [I|I].
           ++ rewrite nth_error_app1 in A by exact I. assert (X : ~ In q js).
              { intros X. assert (Y : exists i, lookup_node q lk = Some i).
                { destruct (lookup_node q lk) eqn:Z; [eauto|]. exfalso. clear - Z X F U. exact (proj1 (firsts_none js lk q (conj U F)) Z X). }
                destruct Y as [y Y]. congruence. }
              apply nth_error_In in A. contradiction.
           ++ assert (i = List.length js) as ->.
              { assert (i < List.length (js ++ [j]))%nat by (apply nth_error_Some; congruence). rewrite app_length in H. cbn in H. lia. }
              rewrite nth_error_app2, Nat.sub_diag in A by lia. injection A as A. congruence.
Qed.

Section Each.
Variable plain : Z -> pval.
Variable load : text -> list (text * text) -> option EdsModel.dict.
Variable package : text -> text.
Variable join : text -> text -> text.
Variable urdf : text -> bool.
Variable motor_ok : text -> text -> option value -> EdsModel.dict -> bool.
Variable handle_ok : text -> value -> EdsModel.dict -> bool.
Variable defaults : value.

Let NA := node_added plain urdf motor_ok handle_ok.
Let SN := AssemblyModel.setup_node plain load package join urdf motor_ok handle_ok.
Let SE := setup_each plain load package join urdf motor_ok handle_ok.
Definition made (e : text * value) (s : snode) (m : motor) : Prop :=
  SetupModel.setup_node plain load package join (fun _ _ _ => true) (snd e) (fst e) defaults = Some s /\
  NA (node_params (snd e) defaults) (fst e) (s_dict s) = Some m.

Definition extended (b : build) (ns : list snode) (ms : list motor) (b' : build) : Prop :=
  stack b' = stack b /\ nodes b' = nodes b ++ ns /\ motors b' = motors b ++ ms /\ handles b' = handles b ++ map m_joint ms /\
  emcys b' = emcys b ++ map s_id ns /\ update_ms b' = update_ms b /\ heartbeat b' = heartbeat b /\
  (firsts (handles b) (lookup b) -> firsts (handles b') (lookup b')).
Lemma node_step params name b b' : SN params name defaults b = Some b' ->
  exists s m, made (name, params) s m /\ extended b [s] [m] b'.
Proof.
  unfold SN, AssemblyModel.setup_node. destruct (SetupModel.setup_node _ _ _ _ _ params name defaults) as [s|] eqn:S1; [|discriminate].
  apply with_added in S1 as [S1 S2]. unfold added in S2. fold NA in S2 |- *. destruct (NA _ name (s_dict s)) as [m|] eqn:A; [|discriminate].
  intros [= <-]. exists s, m. split; [split; assumption|]. unfold extended. cbn. do 7 (split; [reflexivity|]).
  intros F. apply firsts_add. exact F.
Qed.
Lemma node_step_back params name b s m : made (name, params) s m -> exists b', SN params name defaults b = Some b'.
Proof.
  intros [S1 A]. cbn [fst snd] in *. unfold SN, AssemblyModel.setup_node. fold NA.
  rewrite (proj2 (with_added plain load package join (added plain urdf motor_ok handle_ok) params name defaults s)).
  - rewrite A. eauto.
  - split; [exact S1|]. unfold added. fold NA. rewrite A. reflexivity.
Qed.
Inductive all_made : list (text * value) -> list snode -> list motor -> Prop :=
| am_nil : all_made [] [] []
| am_cons e l s ns m ms : made e s m -> all_made l ns ms -> all_made (e :: l) (s :: ns) (m :: ms).
Lemma each_step l : forall b b', SE l defaults b = Some b' -> exists ns ms, all_made l ns ms /\ extended b ns ms b'.
Proof.
  induction l as [|[n v] l IH]; intros b b' E; cbn in E.
  - injection E as <-. exists [], []. split; [constructor|]. unfold extended. cbn. rewrite !app_nil_r. tauto.
  - fold SN SE in E. destruct (SN v n defaults b) as [b1|] eqn:E1; [|discriminate]. apply node_step in E1 as (s & m & M & X1).
    apply IH in E as (ns & ms & AM & X2). exists (s :: ns), (m :: ms). split; [constructor; assumption|].
    destruct X1 as (a1 & a2 & a3 & a4 & a5 & a6 & a7 & a8), X2 as (c1 & c2 & c3 & c4 & c5 & c6 & c7 & c8). unfold extended.
    rewrite c1, c2, c3, c4, c5, c6, c7, a1, a2, a3, a4, a5, a6, a7, <- !app_assoc. cbn. rewrite c4, a4, <- app_assoc in c8. rewrite a4 in a8. cbn in c8, a8. tauto.
Qed.
Lemma each_back l ns ms : all_made l ns ms -> forall b, exists b', SE l defaults b = Some b'.
Proof.
  induction 1 as [|[n v] l s ns m ms M AM IH]; intros b; [exists b; reflexivity|]. destruct (node_step_back v n b s m M) as [b1 E1].
  cbn. fold SN SE. rewrite E1. apply IH.
Qed.
End Each.

(** ** Motors of nodes *)
Section Motor.
Variable plain : Z -> pval.
Variable urdf : text -> bool.
Variable motor_ok : text -> text -> option value -> EdsModel.dict -> bool.
Variable handle_ok : text -> value -> EdsModel.dict -> bool.
Variables params defaults : value.
Hypothesis SP : is_struct params.
Hypothesis PP : proper params.
Hypothesis PD : proper defaults.
Lemma optional_text k dflt t :
  match member k (node_params params defaults) with None => Some dflt | Some v => as_text plain v end = Some t <->
  given_text plain params defaults k t \/ (not_given params defaults k /\ t = dflt).
Proof.
  pose proof (text_given plain params defaults SP PP PD k t) as TG. pose proof (member_none (fun _ _ => None) (fun t => t) (fun t _ => t) (fun _ _ _ => true) params defaults SP PP PD k) as MN. cbn zeta in TG, MN.
  rewrite <- TG, <- MN. destruct (member k (node_params params defaults)) as [v|].
  - split; [intros E; left; eauto|]. intros [(v' & [= <-] & E)|[E _]]; [exact E|discriminate E].
  - split; [intros [= <-]; right; auto|]. intros [(v' & E & _)|[_ ->]]; [discriminate E|reflexivity].
Qed.
Lemma motor_iff name d m :
  node_added plain urdf motor_ok handle_ok (node_params params defaults) name d = Some m <->
  drives plain urdf motor_ok handle_ok defaults name params d m.
Proof.
  unfold node_added.
  pose proof (optional_text (str "name") name) as N.
  destruct (match member (str "name") (node_params params defaults) with None => Some name | Some v => as_text plain v end) as [n|].
  2:{ split; [discriminate|]. intros [[NG|[t G]] _ _ _ _ _].
      - pose proof (proj2 (N name) (or_intror (conj NG eq_refl))) as X. discriminate X.
      - pose proof (proj2 (N t) (or_introl G)) as X. discriminate X. }
  pose proof (optional_text (str "joint") n) as J.
  assert (NF : name_fine plain defaults params).
  { destruct (proj1 (N n) eq_refl) as [G|[G _]]; [right; eauto|left; exact G]. }
  assert (JO : forall j, joint_of plain defaults name params j <-> given_text plain params defaults (str "joint") j \/ (not_given params defaults (str "joint") /\ j = n)).
  { intros j. unfold joint_of. rewrite <- N. split; intros [G|[G E]]; [left; exact G|right; split; [exact G|congruence]|left; exact G|right; split; [exact G|congruence]]. }
  destruct (match member (str "joint") (node_params params defaults) with None => Some n | Some v => as_text plain v end) as [j|].
  2:{ split; [discriminate|]. intros [_ H _ _ _ _]. apply JO, J in H. discriminate H. }
  assert (JE : forall x, joint_of plain defaults name params x <-> x = j).
  { intros x. rewrite JO, <- J. split; congruence. }
  pose proof (optional_text (str "motor_allocator") (str "canopen::Motor402::Allocator")) as AL.
  assert (SE : forall o, settings_of defaults params o <-> o = member (str "motor_layer") (node_params params defaults)).
  { intros [v|]; cbn [settings_of].
    - rewrite <- (member_given params defaults SP PP PD). cbn zeta. split; congruence.
    - rewrite <- (member_none (fun _ _ => None) (fun t => t) (fun t _ => t) (fun _ _ _ => true) params defaults SP PP PD). cbn zeta. split; congruence. }
  destruct (urdf j) eqn:U; cbn [negb].
  2:{ split; [discriminate|]. intros [_ H _ H2 _ _]. apply JE in H. congruence. }
  destruct (match member (str "motor_allocator") (node_params params defaults) with None => _ | Some v => as_text plain v end) as [a|].
  2:{ split; [discriminate|]. intros [_ _ _ _ (a & o & H & _) _]. apply AL in H. discriminate H. }
  assert (AE : forall x, allocator_of plain defaults params x <-> x = a).
  { intros x. unfold allocator_of. rewrite <- AL. split; congruence. }
  destruct (motor_ok a (j ++ str "_motor") (member (str "motor_layer") (node_params params defaults)) d) eqn:MO; cbn [negb].
  2:{ split; [discriminate|]. intros [_ H H1 _ (a' & o & A & O & M) _]. apply JE in H. apply AE in A. apply SE in O. congruence. }
  destruct (handle_ok j (node_params params defaults) d) eqn:HO; cbn [negb].
  2:{ split; [discriminate|]. intros [_ H _ _ _ X]. apply JE in H. congruence. }
  split.
  - intros [= <-]. constructor; cbn [m_joint m_name]; try assumption; try reflexivity.
    + apply JE. reflexivity.
    + exists a, (member (str "motor_layer") (node_params params defaults)). split; [apply AE; reflexivity|]. split; [apply SE; reflexivity|exact MO].
  - intros [_ H H1 _ _ _]. apply JE in H. destruct m as [mn mj]. cbn in *. congruence.
Qed.
End Motor.

(** ** The whole chain *)
Section Chain.
Variable plain : Z -> pval.
Variable load : text -> list (text * text) -> option EdsModel.dict.
Variable package : text -> text.
Variable join : text -> text -> text.
Variable driver_ok : text -> bool.
Variable master_ok : text -> text -> bool.
Variable sync_ok : Z -> Z -> bool.
Variable urdf : text -> bool.
Variable motor_ok : text -> text -> option value -> EdsModel.dict -> bool.
Variable handle_ok : text -> value -> EdsModel.dict -> bool.
Variable junk : bytes.
Let MC := motor_chain plain load package join driver_ok master_ok sync_ok urdf motor_ok handle_ok junk.
Let AM := all_made plain load package join urdf motor_ok handle_ok.

Lemma bus_iff p b b' : setup_bus driver_ok master_ok p b = Some b' <->
  exists device, bus_fine driver_ok master_ok p device /\ b' = add (LCan device (or_default false (b_loopback p))) b.
Proof.
  unfold setup_bus, bus_fine, or_default. destruct (b_device p) as [dev|]; [|split; [discriminate|intros (d & (E & _) & _); discriminate E]].
  destruct (driver_ok _) eqn:D; cbn [negb]; [|split; [discriminate|intros (d & (_ & _ & E & _) & _); congruence]].
  destruct (b_master_type p); [split; [discriminate|intros (d & (_ & E & _) & _); discriminate E]|].
  destruct (master_ok _ dev) eqn:M; cbn [negb].
  - split; [intros [= <-]; exists dev; auto|]. intros (d & ([= <-] & _) & ->). reflexivity.
  - split; [discriminate|]. intros (d & ([= <-] & _ & _ & E) & _). congruence.
Qed.
Lemma sync_iff p b b' : AssemblyModel.setup_sync sync_ok p b = Some b' <->
  sync_fine sync_ok p /\ b' = mkBuild (stack b ++ (if p_interval p =? 0 then [] else [LSync (p_interval p mod 65536) (p_overflow p mod 256)]))
    (nodes b) (motors b) (handles b) (lookup b) (emcys b) (update_of p) (heartbeat b).
Proof.
  unfold AssemblyModel.setup_sync, ChainModel.setup_sync, sync_fine, update_of. destruct (Z.ltb_spec (p_interval p) 0); [split; [discriminate|intros [[?|?] _]; lia]|].
  destruct (Z.eqb_spec (p_interval p) 0) as [E|E].
  - destruct (Z.eqb_spec (p_update p) 0); [split; [discriminate|intros [[?|?] _]; lia]|]. rewrite app_nil_r.
    split; [intros [= <-]; split; [left; lia|reflexivity]|]. intros [_ ->]. reflexivity.
  - destruct (Z.eqb_spec (p_interval p) 0); [lia|].
    destruct (Z.eqb_spec (p_overflow p) 1); cbn [orb]; [split; [discriminate|intros [[?|?] _]; lia]|].
    destruct (Z.ltb_spec 240 (p_overflow p)); [split; [discriminate|intros [[?|?] _]; lia]|].
    change (u16 (p_interval p)) with (p_interval p mod 65536). change (u8 (p_overflow p)) with (p_overflow p mod 256).
    destruct (sync_ok (p_interval p mod 65536) (p_overflow p mod 256)) eqn:SO.
    + split; [intros [= <-]; split; [right; repeat split; lia|reflexivity]|]. intros [_ ->]. reflexivity.
    + split; [discriminate|]. intros [[?|(_ & _ & _ & X)] _]; [lia|congruence].
Qed.
Lemma empty_frame : frame_isValid (toframe junk []) = false.
Proof. reflexivity. Qed.
Lemma hb_iff p b b' : setup_heartbeat junk p b = Some b' <->
  exists h, heartbeat_fine junk p h /\
    b' = mkBuild (stack b) (nodes b) (motors b) (handles b) (lookup b) (emcys b) (update_ms b) (match h with None => heartbeat b | _ => h end).
Proof.
  unfold setup_heartbeat, heartbeat_fine. destruct (p_hb p) as [m r]. cbn [fst snd].
  destruct m as [m|].
  - destruct r as [r|].
    + destruct (Z.leb_spec r 0).
      * split; [discriminate|]. intros ([[f r']|] & X & _); [|discriminate X]. destruct X as (X & [= <-] & _). lia.
      * destruct (frame_isValid (toframe junk m)) eqn:V; cbn [negb].
        -- split; [intros [= <-]; exists (Some (toframe junk m, r)); split; [split; [lia|split; [reflexivity|exists m; auto]]|reflexivity]|].
           intros ([[f r']|] & X & ->); [|discriminate X]. destruct X as (_ & [= <-] & m' & [= <-] & -> & _). reflexivity.
        -- split; [discriminate|]. intros ([[f r']|] & X & ->); [|discriminate X]. destruct X as (_ & [= <-] & m' & [= <-] & -> & X). congruence.
    + cbn. split; [discriminate|]. intros ([[f r']|] & X & _); [|discriminate X]. destruct X as (_ & X & _). discriminate X.
  - destruct r as [r|].
    + destruct (r <=? 0); [|rewrite empty_frame]; cbn [negb]; (split; [discriminate|]; intros ([[f r']|] & X & _); [|discriminate X]; destruct X as (_ & _ & m' & X & _); discriminate X).
    + split; [intros [= <-]; exists None; split; [reflexivity|destruct b; reflexivity]|]. intros ([[f r']|] & X & ->); [destruct X as (_ & X & _); discriminate X|destruct b; reflexivity].
Qed.
Lemma nodes_entries c l : entries_of plain c l -> (match c with CArray vs => named plain vs | CStruct ms => Some ms end) = Some l.
Proof. destruct c as [vs|ms]; intros E; [apply named_ok, E|cbn in E; congruence]. Qed.
Lemma nodes_entries' c l : (match c with CArray vs => named plain vs | CStruct ms => Some ms end) = Some l -> entries_of plain c l.
Proof. destruct c as [vs|ms]; intros E; [apply named_ok, E|cbn; congruence]. Qed.

Definition complete (p : chain_params) (device : text) (h : option (frame * Z)) (ns : list snode) (ms : list motor) (b : build) : Prop :=
  stack b = stack_of p device /\ nodes b = ns /\ motors b = ms /\ handles b = map m_joint ms /\ emcys b = map s_id ns /\
  update_ms b = update_of p /\ heartbeat b = h /\ firsts (map m_joint ms) (lookup b).
Lemma chain_sound p b : MC p = Some b -> exists device h l ns ms,
  bus_fine driver_ok master_ok (p_bus p) device /\ sync_fine sync_ok p /\ heartbeat_fine junk p h /\
  entries_of plain (p_nodes p) l /\ AM (p_defaults p) l ns ms /\ complete p device h ns ms b.
Proof.
  unfold MC, motor_chain, setup, motor_setup_chain, ros_setup_chain.
  destruct (setup_bus driver_ok master_ok (p_bus p) build0) as [b1|] eqn:E1; [|discriminate]. apply bus_iff in E1 as (device & B & ->).
  match goal with |- context [AssemblyModel.setup_sync sync_ok p ?x] => destruct (AssemblyModel.setup_sync sync_ok p x) as [b2|] eqn:E2 end; [|discriminate]. apply sync_iff in E2 as (SF & E2).
  destruct (setup_heartbeat junk p b2) as [b3|] eqn:E3; [|discriminate]. apply hb_iff in E3 as (h & H & E3).
  unfold AssemblyModel.setup_nodes. destruct (match p_nodes p with CArray l => named plain l | CStruct ms => Some ms end) as [l|] eqn:EN; [|discriminate].
  apply nodes_entries' in EN. match goal with |- context [setup_each _ _ _ _ _ _ _ ?l ?d ?x] => destruct (setup_each plain load package join urdf motor_ok handle_ok l d x) as [b4|] eqn:E4 end; [|discriminate].
  apply each_step in E4 as (ns & ms & A & X). intros [= <-]. exists device, h, l, ns, ms. do 4 (split; [assumption|]). split; [exact A|].
  destruct X as (X1 & X2 & X3 & X4 & X5 & X6 & X7 & X8). subst b3 b2. cbn in X1, X2, X3, X4, X5, X6, X7, X8. unfold complete. cbn.
  rewrite X1, X2, X3, X5, X6, X7. rewrite X4 in X8 |- *. cbn. split.
  { unfold stack_of, CtrlModel.fixed_period, update_of. cbn. destruct (p_interval p =? 0); cbn; destruct (p_realtime p); try reflexivity; rewrite (Z.mul_comm _ 1000000); reflexivity. }
  do 5 (split; [reflexivity|]). split; [destruct h; reflexivity|]. apply X8. apply firsts_nil.
Qed.
Lemma chain_complete p device h l ns ms :
  bus_fine driver_ok master_ok (p_bus p) device -> sync_fine sync_ok p -> heartbeat_fine junk p h ->
  entries_of plain (p_nodes p) l -> AM (p_defaults p) l ns ms -> exists b, MC p = Some b.
Proof.
  intros B SF H EN A. unfold MC, motor_chain, setup, motor_setup_chain, ros_setup_chain.
  rewrite (proj2 (bus_iff (p_bus p) build0 _) (ex_intro _ device (conj B eq_refl))).
  rewrite (proj2 (sync_iff p _ _) (conj SF eq_refl)). rewrite (proj2 (hb_iff p _ _) (ex_intro _ h (conj H eq_refl))).
  unfold AssemblyModel.setup_nodes. rewrite (nodes_entries _ _ EN).
  match goal with |- context [setup_each _ _ _ _ _ _ _ ?l ?d ?x] => destruct (each_back plain load package join urdf motor_ok handle_ok d l ns ms A x) as [b E] end.
  rewrite E. eauto.
Qed.
End Chain.

(** ** The tree of layers *)
Lemma rid_inj a b : rid a = rid b -> a = b.
Proof. destruct a, b; unfold rid; intros E; try reflexivity; try lia; f_equal; lia. Qed.
Lemma nodup_rid l : NoDup l -> NoDup (map rid l).
Proof. apply FinFun.Injective_map_NoDup. exact rid_inj. Qed.
Lemma concat_members o f n : List.concat (map (order o) (members f n)) = map rid (each f n).
Proof. unfold members, each. rewrite !map_map. induction (seq 0 n) as [|x l IH]; cbn; [reflexivity|]. f_equal. exact IH. Qed.
Lemma concat_member_ids f n : List.concat (map ids (members f n)) = map rid (each f n).
Proof. unfold members, each. rewrite !map_map. induction (seq 0 n) as [|x l IH]; cbn; [reflexivity|]. f_equal. exact IH. Qed.
Lemma each_nodup f n : (forall i j, f i = f j -> i = j) -> NoDup (each f n).
Proof. intros I. apply FinFun.Injective_map_NoDup; [exact I|apply seq_NoDup]. Qed.
Lemma nodup_app {A} (a b : list A) : NoDup a -> NoDup b -> (forall x, In x a -> ~ In x b) -> NoDup (a ++ b).
Proof.
  induction a as [|x a IH]; intros NA NB D; [exact NB|]. inversion NA as [|? ? N1 N2]; subst. cbn. constructor.
  - intros I. apply in_app_iff in I as [I|I]; [contradiction|]. apply (D x); [left; reflexivity|exact I].
  - apply IH; [exact N2|exact NB|]. intros y Y. apply D. right. exact Y.
Qed.
Lemma bottom_up_nodup sync n : NoDup (bottom_up sync n).
Proof.
  unfold bottom_up, levels. cbn [List.concat app].
  assert (E : forall f i, In i (each f n) -> exists k, i = f k).
  { intros f i I. unfold each in I. apply in_map_iff in I as (k & <- & _). eauto. }
  assert (X : NoDup (List.concat [RNodes :: each RNode n; RMotors :: each RMotor n; RRobot :: each RHandle n; [RControllers]; REmcys :: each REmcy n])).
  { cbn [List.concat]. rewrite app_nil_r.
    repeat (apply nodup_app; [first [apply NoDup_cons; [intros I; try (apply E in I as [k K]; discriminate K); destruct I|]; try (apply each_nodup; intros i j [= ->]; reflexivity); try constructor]| |]).
    all: try (apply NoDup_cons; [intros I; apply E in I as [k K]; discriminate K|apply each_nodup; intros i j [= ->]; reflexivity]).
    all: intros x [<-|I] J; repeat (apply in_app_iff in J as [J|J]); try (destruct J as [J|J]); try discriminate J; try (apply E in J as [k K]); try discriminate K; try (apply E in I as [q Q]; subst x; try discriminate K; try discriminate J); try destruct J as [J|J]; try discriminate J; try destruct J; try destruct I. }
  assert (Y : forall r, (r = RChain \/ r = RCan \/ r = RSync) -> ~ In r (List.concat [RNodes :: each RNode n; RMotors :: each RMotor n; RRobot :: each RHandle n; [RControllers]; REmcys :: each REmcy n])).
  { intros r R I. cbn [List.concat] in I. rewrite app_nil_r in I.
    repeat (apply in_app_iff in I as [I|I]); destruct I as [I|I]; try (subst r; intuition discriminate); try (apply E in I as [k K]; subst r; intuition discriminate); try destruct I. }
  destruct sync; cbn [app List.concat].
  - apply NoDup_cons; [intros [I|[I|I]]; [discriminate I|discriminate I|exact (Y RChain (or_introl eq_refl) I)]|].
    apply NoDup_cons; [intros [I|I]; [discriminate I|exact (Y RCan (or_intror (or_introl eq_refl)) I)]|].
    apply NoDup_cons; [intros I; exact (Y RSync (or_intror (or_intror eq_refl)) I)|exact X].
  - apply NoDup_cons; [intros [I|I]; [discriminate I|exact (Y RChain (or_introl eq_refl) I)]|].
    apply NoDup_cons; [intros I; exact (Y RCan (or_intror (or_introl eq_refl)) I)|exact X].
Qed.

Section Tree.
Variables (p : chain_params) (device : text) (h : option (frame * Z)) (ns : list snode) (ms : list motor) (b : build).
Hypothesis C : complete p device h ns ms b.
Hypothesis L : List.length ns = List.length ms.
Let n := List.length ms.
Let sync := negb (p_interval p =? 0).
Lemma lengths : List.length (nodes b) = n /\ List.length (motors b) = n /\ List.length (handles b) = n /\ List.length (emcys b) = n.
Proof. destruct C as (_ & -> & -> & -> & -> & _). rewrite !map_length. unfold n. auto. Qed.
Definition tops : list tree :=
  [Leaf (rid RCan)] ++ (if sync then [Leaf (rid RSync)] else []) ++
  [Group KNoDiag (rid RNodes) (members RNode n); Group KNoDiag (rid RMotors) (members RMotor n); Group KNoDiag (rid RRobot) (members RHandle n); Leaf (rid RControllers); Group KNoDiag (rid REmcys) (members REmcy n)].
Lemma tree_shape : chain_tree b = Group KStack (rid RChain) tops.
Proof.
  destruct lengths as (L1 & L2 & L3 & L4). unfold chain_tree, tops. f_equal. destruct C as (-> & _). unfold stack_of, sync.
  destruct (p_interval p =? 0); cbn; rewrite L1, L2, L3, L4; reflexivity.
Qed.
Lemma top_orders o : o <> ODiag -> map (order o) tops = map (map rid) (levels sync n).
Proof.
  intros N. unfold tops, levels. rewrite !map_app. f_equal. f_equal; [destruct sync; reflexivity|]. cbn [map order].
  assert (M : forall l, member_order KNoDiag o l = l) by (intros l; destruct o; try reflexivity; contradiction).
  rewrite !M, !concat_members. reflexivity.
Qed.
Lemma tree_ids : ids (chain_tree b) = map rid (bottom_up sync n).
Proof.
  rewrite tree_shape. unfold bottom_up, tops, levels. cbn [ids map]. f_equal. rewrite concat_map. rewrite !map_app. cbn [map ids]. rewrite !concat_member_ids. destruct sync; reflexivity.
Qed.
Lemma tree_nodup : NoDup (ids (chain_tree b)).
Proof. rewrite tree_ids. apply nodup_rid, bottom_up_nodup. Qed.
Lemma tree_order o : o <> ODiag -> order o (chain_tree b) =
  map rid (match o with OWrite | OShutdown => top_down sync n | _ => bottom_up sync n end).
Proof.
  intros N. rewrite tree_shape. cbn [order]. rewrite (top_orders o N). unfold top_down, bottom_up.
  destruct o; cbn [member_order map]; f_equal; rewrite concat_map, ?map_rev; reflexivity.
Qed.
End Tree.

Lemma top_down_perm sync n : Permutation (bottom_up sync n) (top_down sync n).
Proof. unfold bottom_up, top_down. constructor. induction (levels sync n) as [|x l IH]; [constructor|]. cbn. rewrite concat_app. cbn. rewrite app_nil_r. rewrite <- IH. apply Permutation_app_comm. Qed.
Lemma top_down_nodup sync n : NoDup (top_down sync n).
Proof. exact (Permutation_NoDup (top_down_perm sync n) (bottom_up_nodup sync n)). Qed.

(** Who comes before whom *)
Lemma before_levels {A} (l1 l2 l3 : list (list A)) x y a b c : In a x -> In b y ->
  exists m1 m2 m3, c :: List.concat (l1 ++ x :: l2 ++ y :: l3) = m1 ++ a :: m2 ++ b :: m3.
Proof.
  intros I J. apply in_split in I as (x1 & x2 & ->), J as (y1 & y2 & ->).
  exists (c :: List.concat l1 ++ x1), (x2 ++ List.concat l2 ++ y1), (y2 ++ List.concat l3).
  rewrite concat_app. cbn [List.concat]. rewrite concat_app. cbn [List.concat app]. repeat (rewrite <- !app_assoc; cbn [app]). reflexivity.
Qed.
Lemma before_rid l a b : before l a b -> before (map rid l) (rid a) (rid b).
Proof.
  intros [N (l1 & l2 & l3 & ->)]. split; [apply nodup_rid, N|]. exists (map rid l1), (map rid l2), (map rid l3).
  rewrite !map_app. cbn. rewrite map_app. reflexivity.
Qed.

Lemma in_bottom_up sync n r : In r (bottom_up sync n) <-> present sync n r.
Proof.
  unfold bottom_up, levels, each. cbn [In]. rewrite !concat_app. rewrite !in_app_iff. cbn [List.concat]. rewrite !app_nil_r. repeat (progress (cbn [In]; rewrite ?in_app_iff)).
  assert (E : forall f, In r (map f (seq 0 n)) <-> exists i, r = f i /\ (i < n)%nat).
  { intros f. rewrite in_map_iff. split; intros (i & A & B); exists i; rewrite in_seq in *; split; auto; lia. }
  rewrite !E. assert (SY : In r (List.concat (if sync then [[RSync]] else [])) <-> sync = true /\ r = RSync).
  { destruct sync; cbn; intuition congruence. }
  rewrite SY. clear E SY. split.
  - intros H. repeat match goal with H : _ \/ _ |- _ => destruct H as [H|H] end; try (destruct H as (i & -> & ?)); try (destruct H as (-> & ->)); try subst r; cbn; auto; try contradiction.
  - destruct r; cbn; intros P; try tauto; eauto 20.
Qed.
Lemma split_levels sync n a b h k : present sync n a -> present sync n b -> height a = Some h -> height b = Some k -> (h < k)%nat ->
  exists l1 x l2 y l3, levels sync n = l1 ++ x :: l2 ++ y :: l3 /\ In a x /\ In b y.
Proof.
  intros PA PB HA HB LT.
  set (N := RNodes :: each RNode n). set (M := RMotors :: each RMotor n). set (R := RRobot :: each RHandle n). set (Ct := [RControllers]). set (Em := REmcys :: each REmcy n).
  set (Sy := if sync then [[RSync]] else []).
  assert (LV : levels sync n = [[RCan]] ++ Sy ++ [N; M; R; Ct; Em]) by reflexivity.
  assert (IN : forall f i, (i < n)%nat -> In (f i) (each f n)) by (intros f i I; unfold each; apply in_map, in_seq; lia).
  set (lv := fun q : nat => match q with 1 => [RCan] | 2 => [RSync] | 3 => N | 4 => M | 5 => R | 6 => Ct | 7 => Em | _ => [] end%nat).
  assert (INL : forall r q, present sync n r -> height r = Some q -> In r (lv q) /\ (1 <= q <= 7)%nat /\ (q = 2%nat -> sync = true)).
  { intros r q P Q. destruct r; cbn in P, Q; try discriminate Q; injection Q as <-; cbn; (split; [|split; [lia|intros; try lia; assumption]]);
      try (left; reflexivity); right; apply IN; exact P. }
  destruct (INL a h PA HA) as (A1 & A2 & A3), (INL b k PB HB) as (B1 & B2 & B3).
  assert (H7 : h = 1%nat \/ h = 2%nat \/ h = 3%nat \/ h = 4%nat \/ h = 5%nat \/ h = 6%nat) by lia.
  assert (K7 : k = 2%nat \/ k = 3%nat \/ k = 4%nat \/ k = 5%nat \/ k = 6%nat \/ k = 7%nat) by lia.
  rewrite LV. clear - A1 A3 B1 B3 H7 K7 LT. clearbody N M R Ct Em. subst Sy.
  destruct sync.
  2:{ assert (h <> 2%nat) by (intros X; apply A3 in X; discriminate X). assert (k <> 2%nat) by (intros X; apply B3 in X; discriminate X).
      destruct H7 as [->|[->|[->|[->|[->| ->]]]]], K7 as [->|[->|[->|[->|[->| ->]]]]]; try lia; cbn in A1, B1.
      1: exists [], [RCan], [], N, [M; R; Ct; Em]. 2: exists [], [RCan], [N], M, [R; Ct; Em]. 3: exists [], [RCan], [N; M], R, [Ct; Em].
      4: exists [], [RCan], [N; M; R], Ct, [Em]. 5: exists [], [RCan], [N; M; R; Ct], Em, [].
      6: exists [[RCan]], N, [], M, [R; Ct; Em]. 7: exists [[RCan]], N, [M], R, [Ct; Em]. 8: exists [[RCan]], N, [M; R], Ct, [Em]. 9: exists [[RCan]], N, [M; R; Ct], Em, [].
      10: exists [[RCan]; N], M, [], R, [Ct; Em]. 11: exists [[RCan]; N], M, [R], Ct, [Em]. 12: exists [[RCan]; N], M, [R; Ct], Em, [].
      13: exists [[RCan]; N; M], R, [], Ct, [Em]. 14: exists [[RCan]; N; M], R, [Ct], Em, []. 15: exists [[RCan]; N; M; R], Ct, [], Em, [].
      all: split; [reflexivity|split; [exact A1|exact B1]]. }
  destruct H7 as [->|[->|[->|[->|[->| ->]]]]], K7 as [->|[->|[->|[->|[->| ->]]]]]; try lia; cbn in A1, B1.
  1: exists [], [RCan], [], [RSync], [N; M; R; Ct; Em]. 2: exists [], [RCan], [[RSync]], N, [M; R; Ct; Em]. 3: exists [], [RCan], [[RSync]; N], M, [R; Ct; Em].
  4: exists [], [RCan], [[RSync]; N; M], R, [Ct; Em]. 5: exists [], [RCan], [[RSync]; N; M; R], Ct, [Em]. 6: exists [], [RCan], [[RSync]; N; M; R; Ct], Em, [].
  7: exists [[RCan]], [RSync], [], N, [M; R; Ct; Em]. 8: exists [[RCan]], [RSync], [N], M, [R; Ct; Em]. 9: exists [[RCan]], [RSync], [N; M], R, [Ct; Em].
  10: exists [[RCan]], [RSync], [N; M; R], Ct, [Em]. 11: exists [[RCan]], [RSync], [N; M; R; Ct], Em, [].
  12: exists [[RCan]; [RSync]], N, [], M, [R; Ct; Em]. 13: exists [[RCan]; [RSync]], N, [M], R, [Ct; Em]. 14: exists [[RCan]; [RSync]], N, [M; R], Ct, [Em]. 15: exists [[RCan]; [RSync]], N, [M; R; Ct], Em, [].
  16: exists [[RCan]; [RSync]; N], M, [], R, [Ct; Em]. 17: exists [[RCan]; [RSync]; N], M, [R], Ct, [Em]. 18: exists [[RCan]; [RSync]; N], M, [R; Ct], Em, [].
  19: exists [[RCan]; [RSync]; N; M], R, [], Ct, [Em]. 20: exists [[RCan]; [RSync]; N; M], R, [Ct], Em, []. 21: exists [[RCan]; [RSync]; N; M; R], Ct, [], Em, [].
  all: split; [reflexivity|split; [exact A1|exact B1]].
Qed.
Lemma order_below sync n a b : present sync n a -> present sync n b -> below a b ->
  before (bottom_up sync n) a b /\ before (top_down sync n) b a.
Proof.
  intros PA PB (h & k & HA & HB & LT). destruct (split_levels sync n a b h k PA PB HA HB LT) as (l1 & x & l2 & y & l3 & E & IA & IB). split.
  - split; [apply bottom_up_nodup|]. unfold bottom_up. rewrite E. apply before_levels; assumption.
  - split; [apply top_down_nodup|]. unfold top_down. rewrite E. rewrite rev_app_distr. cbn [rev]. rewrite rev_app_distr. cbn [rev]. rewrite <- !app_assoc. cbn [app].
    apply (before_levels (rev l3) (rev l2) (rev l1)); assumption.
Qed.

Lemma all_made_pairs plain load package join urdf motor_ok handle_ok defaults l ns ms : proper defaults -> Forall (fun e => is_struct (snd e) /\ proper (snd e)) l ->
  all_made plain load package join urdf motor_ok handle_ok defaults l ns ms ->
  exists xs, ns = map fst xs /\ ms = map snd xs /\
    Forall2 (fun e x => describes plain load package join (fun _ _ _ => true) (snd e) defaults (fst e) (fst x) /\
                        drives plain urdf motor_ok handle_ok defaults (fst e) (snd e) (s_dict (fst x)) (snd x)) l xs.
Proof.
  intros PD F A. induction A as [|e l s ns m ms [M1 M2] A IH]; [exists []; repeat split; constructor|].
  inversion F as [|? ? [F1 F2] F3]; subst. destruct (IH F3) as (xs & -> & -> & X). exists ((s, m) :: xs). split; [reflexivity|]. split; [reflexivity|].
  constructor; [|exact X]. cbn [fst snd]. split.
  - apply setup_sound; assumption.
  - apply motor_iff; assumption.
Qed.
Lemma pairs_all_made plain load package join urdf motor_ok handle_ok defaults l xs : proper defaults -> Forall (fun e => is_struct (snd e) /\ proper (snd e)) l ->
  (forall p ov ov', Permutation ov ov' -> load p ov = load p ov') ->
  Forall2 (fun e x => describes plain load package join (fun _ _ _ => true) (snd e) defaults (fst e) (fst x) /\
                      drives plain urdf motor_ok handle_ok defaults (fst e) (snd e) (s_dict (fst x)) (snd x)) l xs ->
  all_made plain load package join urdf motor_ok handle_ok defaults l (map fst xs) (map snd xs).
Proof.
  intros PD F O X. induction X as [|e x l xs [X1 X2] X IH]; [constructor|]. inversion F as [|? ? [F1 F2] F3]; subst. cbn. constructor; [|exact (IH F3)].
  split.
  - apply setup_complete; assumption.
  - apply motor_iff; assumption.
Qed.

(** ** Registration *)
Lemma register_fine urdf l : forall r, (forall j i, In (j, i) l -> urdf j = true) -> register_all urdf l r = (r ++ l, true).
Proof.
  induction l as [|[j i] l IH]; intros r A; cbn; [rewrite app_nil_r; reflexivity|]. rewrite (A j i (or_introl eq_refl)).
  rewrite IH; [rewrite <- app_assoc; reflexivity|]. intros j' i' I. apply (A j' i'). right. exact I.
Qed.
Lemma inits_fine urdf l : (forall j i, In (j, i) l -> urdf j = true) -> forall k, inits urdf l (S k) robot0 = (mkRobot false l, true).
Proof.
  intros A k. cbn [inits]. unfold robot_init at 1. cbn [first robot0]. rewrite (register_fine urdf l _ A). cbn [reg app].
  assert (E : forall k, inits urdf l k (mkRobot false l) = (mkRobot false l, true)).
  { induction k0 as [|k0 IH]; [reflexivity|]. cbn [inits]. unfold robot_init at 1. cbn [first]. rewrite IH. reflexivity. }
  rewrite E. reflexivity.
Qed.
