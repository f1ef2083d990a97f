From Coq Require Import Lia ZArith.
From Verif Require Import Base ChainModel MergeProofs SettingsModel SettingsSpec.
From Verif Require SetupModel SocketCanModel SocketCanSpec SocketCanProofs.

(** * Paths *)
Lemma find_member ms k v : find k ms = Some v <-> has_member ms k v.
Proof.
  split.
  - induction ms as [|[k' v'] ms IH]; cbn; [discriminate|]. destruct (text_eqb k k') eqn:E.
    + intros H. injection H as ->. apply text_eqb_eq in E. subst k'. exists [], ms. split; [reflexivity|intros []].
    + intros H. destruct (IH H) as (a & b & -> & N). exists ((k', v') :: a), b. split; [reflexivity|]. cbn. intros [C|C]; [|exact (N C)]. subst. rewrite (proj2 (text_eqb_eq k k) eq_refl) in E. discriminate.
  - intros (a & b & -> & N). induction a as [|[k' v'] a IH]; cbn in *; [rewrite (proj2 (text_eqb_eq k k) eq_refl); reflexivity|].
    destruct (text_eqb k k') eqn:E; [apply text_eqb_eq in E; subst; exfalso; apply N; left; reflexivity|]. apply IH. intros C. apply N. right. exact C.
Qed.
Lemma slash_none n : ~ In 47 n -> find_slash n = None.
Proof. induction n as [|c n IH]; intros H; [reflexivity|]. cbn. destruct (Z.eqb_spec c 47) as [->|N]; [exfalso; apply H; left; reflexivity|]. rewrite IH; [reflexivity|]. intros C. apply H. right. exact C. Qed.
Lemma slash_some s n : ~ In 47 s -> find_slash (s ++ 47 :: n) = Some (s, n).
Proof. induction s as [|c s IH]; intros H; [reflexivity|]. cbn. destruct (Z.eqb_spec c 47) as [->|N]; [exfalso; apply H; left; reflexivity|]. rewrite IH; [reflexivity|]. intros C. apply H. right. exact C. Qed.
Section Paths.
Variable print : value -> text.
Lemma lookup_path p : forall v f, proper_path p -> (List.length (path_text p) <= f)%nat -> forall t,
  get_repr print f v (path_text p) = Some t <-> exists w, leads v p w /\ t = print w.
Proof.
  induction p as [|s p IH]; intros v f [NE NS] F t; [contradiction|]. apply Forall_cons_iff in NS as [S1 S2].
  destruct p as [|s2 p].
  - cbn [path_text]. assert (G : get_repr print f v s = option_map print (SetupModel.member s v)) by (destruct f, v; cbn [get_repr]; rewrite ?(slash_none s S1); reflexivity).
    rewrite G. destruct v as [z|ms]; cbn [SetupModel.member]; [split; [discriminate|intros (w & L & _); inversion L]|].
    split.
    + destruct (find s ms) as [w|] eqn:E; [|discriminate]. intros H. injection H as <-. exists w. split; [constructor; apply find_member, E|reflexivity].
    + intros (w & L & ->). inversion L as [? ? ? M|? ? ? ? ? ? ? N]; subst; [|contradiction]. apply find_member in M. rewrite M. reflexivity.
  - assert (PP : proper_path (s2 :: p)) by (split; [discriminate|exact S2]).
    change (path_text (s :: s2 :: p)) with (s ++ 47 :: path_text (s2 :: p)) in *. rewrite app_length in F. cbn [List.length] in F.
    destruct f as [|f]; [lia|]. cbn [get_repr]. rewrite (slash_some s _ S1). destruct v as [z|ms].
    + split; [discriminate|]. intros (w & L & _). inversion L.
    + split.
      * destruct (find s ms) as [u|] eqn:E; [|discriminate]. intros H. apply IH in H; [|exact PP|lia]. destruct H as (w & L & ->). exists w. split; [|reflexivity].
        apply leads_deeper with u; [apply find_member, E|exact L|discriminate].
      * intros (w & L & ->). inversion L as [|? ? ? u ? M L' _]; subst. apply find_member in M. rewrite M. apply IH; [exact PP|lia|]. exists w. auto.
Qed.
Lemma xml_path v p t : proper_path p -> xml_settings print v (path_text p) = Some t <-> exists w, leads v p w /\ t = print w.
Proof. intros P. apply lookup_path; [exact P|apply Nat.le_refl]. Qed.
Lemma leads_unique v p w w' : leads v p w -> leads v p w' -> w = w'.
Proof.
  intros L. revert w'. induction L as [ms k w M|ms k p u w M L IH N]; intros w' L'.
  - inversion L' as [? ? ? M'|? ? ? ? ? ? ? N']; subst; [|contradiction]. apply find_member in M, M'. congruence.
  - inversion L' as [? ? ? M'|? ? ? u' ? M' L2 _]; subst; [contradiction|]. apply find_member in M, M'. assert (u' = u) by congruence. subst. apply IH, L2.
Qed.
End Paths.
Lemma paths_all n : exists p, proper_path p /\ path_text p = n.
Proof.
  induction n as [|c n (p & [NE NS] & <-)]; [exists [[]]; split; [split; [discriminate|constructor; [intros []|constructor]]|reflexivity]|].
  destruct (Z.eq_dec c 47) as [->|N].
  - exists ([] :: p). split; [split; [discriminate|constructor; [intros []|exact NS]]|]. destruct p; [contradiction|reflexivity].
  - destruct p as [|s p]; [contradiction|]. apply Forall_cons_iff in NS as [S1 S2]. exists ((c :: s) :: p). split; [split; [discriminate|constructor; [intros [C|C]; [congruence|exact (S1 C)]|exact S2]]|]. destruct p; reflexivity.
Qed.

(** * Texts *)
Lemma cast_digits_ok t : forall acc z, cast_digits t acc = Some z <-> Forall is_digit t /\ z = acc * 10 ^ Z.of_nat (List.length t) + digits_value t.
Proof.
  induction t as [|c t IH]; intros acc z.
  - cbn. split; [intros H; injection H as <-; split; [constructor|lia]|intros [_ ->]; f_equal; lia].
  - cbn [cast_digits]. cbn [digits_value List.length]. rewrite Nat2Z.inj_succ, Z.pow_succ_r by lia.
    destruct ((48 <=? c) && (c <=? 57)) eqn:E.
    + apply andb_prop in E as [E1 E2]. rewrite Z.leb_le in E1, E2. rewrite IH. split; intros [F ->]; (split; [|ring]).
      * constructor; [split; lia|exact F].
      * apply Forall_cons_iff in F as [_ F]. exact F.
    + split; [discriminate|]. intros [F _]. apply Forall_cons_iff in F as [[D1 D2] _]. rewrite (proj2 (Z.leb_le _ _) D1), (proj2 (Z.leb_le _ _) D2) in E. discriminate.
Qed.
Lemma digits_nonneg t : Forall is_digit t -> 0 <= digits_value t.
Proof. induction 1 as [|c t [A B] _ IH]; cbn; [lia|]. assert (0 <= 10 ^ Z.of_nat (List.length t)) by (apply Z.pow_nonneg; lia). nia. Qed.
Lemma wrap v : (- v) mod 2 ^ 32 = (2 ^ 32 - v) mod 2 ^ 32.
Proof. replace (2 ^ 32 - v) with (- v + 1 * 2 ^ 32) by ring. rewrite Z_mod_plus_full. reflexivity. Qed.
Lemma cast_unsigned_ok t z : cast_unsigned t = Some z <-> reads_unsigned t z.
Proof.
  assert (K : forall (neg : bool) d z, (match d with [] => None | _ => match cast_digits d 0 with Some v => if v <? 2 ^ 32 then Some (if neg then (- v) mod 2 ^ 32 else v) else None | None => None end end = Some z)
     <-> d <> [] /\ Forall is_digit d /\ digits_value d < 2 ^ 32 /\ z = if neg then (2 ^ 32 - digits_value d) mod 2 ^ 32 else digits_value d).
  { intros neg d w. destruct d as [|c d]; [split; [discriminate|intros [C _]; contradiction]|]. split.
    - destruct (cast_digits (c :: d) 0) as [v|] eqn:E; [|discriminate]. apply cast_digits_ok in E as [F ->]. rewrite Z.mul_0_l, Z.add_0_l. destruct (Z.ltb_spec (digits_value (c :: d)) (2 ^ 32)) as [L|L]; [|discriminate].
      intros H. injection H as <-. split; [discriminate|]. split; [exact F|]. split; [exact L|]. destruct neg; [|reflexivity]. apply (wrap (digits_value (c :: d))).
    - intros (_ & F & L & ->). assert (E : cast_digits (c :: d) 0 = Some (digits_value (c :: d))) by (apply cast_digits_ok; split; [exact F|lia]). rewrite E, (proj2 (Z.ltb_lt _ _) L). f_equal.
      destruct neg; [|reflexivity]. apply (wrap (digits_value (c :: d))). }
  unfold cast_unsigned. destruct t as [|c r].
  - split; [discriminate|]. intros (s & d & E & N & _). symmetry in E. apply app_eq_nil in E as [_ ->]. contradiction.
  - destruct (Z.eqb_spec c 45) as [->|N1]; [|destruct (Z.eqb_spec c 43) as [->|N2]].
    + rewrite (K true r z). split.
      * intros (A & B & C & D). exists [45], r. split; [reflexivity|]. auto 6.
      * intros (s & d & E & A & B & C & [[[-> | ->] _]|[-> D]]); cbn in E; [|discriminate|injection E as <-; auto].
        subst d. apply Forall_cons_iff in B as [[B _] _]. lia.
    + rewrite (K false r z). split.
      * intros (A & B & C & D). exists [43], r. split; [reflexivity|]. auto 7.
      * intros (s & d & E & A & B & C & [[[-> | ->] D]|[-> D]]); cbn in E; [|injection E as <-; auto|discriminate].
        subst d. apply Forall_cons_iff in B as [[B _] _]. lia.
    + rewrite (K false (c :: r) z). split.
      * intros (A & B & C & D). exists [], (c :: r). split; [reflexivity|]. auto 7.
      * intros (s & d & E & A & B & C & [[[-> | ->] D]|[-> D]]); cbn in E; [subst d; auto|congruence|congruence].
Qed.
Lemma cast_zeros_ok t b : cast_zeros t = Some b <-> exists n, t = repeat 48 n ++ [if b then 49 else 48].
Proof.
  induction t as [|c t IH].
  - split; [discriminate|]. intros (n & E). symmetry in E. apply app_eq_nil in E as [_ E]. discriminate.
  - destruct t as [|c2 t].
    + cbn. split.
      * destruct (Z.eqb_spec c 48) as [->|N]; [intros H; injection H as <-; exists O; reflexivity|]. destruct (Z.eqb_spec c 49) as [->|N2]; [intros H; injection H as <-; exists O; reflexivity|discriminate].
      * intros ([|n] & E); cbn in E; [injection E as ->; destruct b; reflexivity|]. injection E as _ E. symmetry in E. apply app_eq_nil in E as [_ E]. discriminate.
    + change (cast_zeros (c :: c2 :: t)) with (if c =? 48 then cast_zeros (c2 :: t) else None). destruct (Z.eqb_spec c 48) as [->|N].
      * rewrite IH. split; intros (n & E); [exists (S n); cbn; congruence|]. destruct n as [|n]; cbn in E; [discriminate|]. exists n. congruence.
      * split; [discriminate|]. intros ([|n] & E); cbn in E; [discriminate|congruence].
Qed.
Lemma cast_bool_ok t b : cast_bool t = Some b <-> reads_bool t b.
Proof.
  assert (Z0 : forall s n, s ++ repeat 48 n ++ [if b then 49 else 48] <> []) by (intros s n E; apply app_eq_nil in E as [_ E]; apply app_eq_nil in E as [_ E]; discriminate).
  assert (P : forall x, (x = if b then 49 else 48) -> x <> 43 /\ x <> 45) by (intros x ->; destruct b; lia).
  unfold cast_bool. destruct t as [|c r]; [split; [discriminate|intros (s & n & E & _); exfalso; exact (Z0 s n (eq_sym E))]|].
  destruct r as [|c2 r].
  - rewrite cast_zeros_ok. split; [intros (n & E); exists [], n; auto|]. intros (s & n & E & S1). destruct S1 as [->|[->|[-> _]]]; [exists n; exact E| |];
      (exfalso; cbn in E; injection E as _ E; symmetry in E; apply app_eq_nil in E as [_ E]; discriminate).
  - destruct (Z.eqb_spec c 43) as [->|N1]; [|destruct (Z.eqb_spec c 45) as [->|N2]].
    + rewrite cast_zeros_ok. split; [intros (n & E); exists [43], n; split; [cbn; congruence|auto]|]. intros (s & n & E & S1).
      destruct S1 as [->|[->|[-> _]]]; cbn in E; [|exists n; congruence|discriminate]. exfalso. destruct n as [|n]; cbn in E; [injection E as E _; destruct (P _ E); congruence|discriminate].
    + split.
      * destruct (cast_zeros (c2 :: r)) as [[|]|] eqn:E; try discriminate. intros H. injection H as <-. apply cast_zeros_ok in E as (n & E). exists [45], n. split; [cbn; congruence|auto].
      * intros (s & n & E & S1). destruct S1 as [->|[->|[-> ->]]]; cbn in E; [|discriminate|].
        -- exfalso. destruct n as [|n]; cbn in E; [injection E as E _; destruct (P _ E); congruence|discriminate].
        -- assert (X : cast_zeros (c2 :: r) = Some false) by (apply cast_zeros_ok; exists n; congruence). rewrite X. reflexivity.
    + rewrite cast_zeros_ok. split; [intros (n & E); exists [], n; auto|]. intros (s & n & E & S1). destruct S1 as [->|[->|[-> _]]]; cbn in E; [exists n; exact E|congruence|congruence].
Qed.

(** * Choices *)
Section Choice.
Variable A : Type.
Variable cast : text -> option A.
Variable reads : text -> A -> Prop.
Hypothesis ok : forall t a, cast t = Some a <-> reads t a.
Variable print : value -> text.
Lemma optional_ok v p def a : proper_path p -> get_optional cast (xml_settings print v) (path_text p) def = Got a <-> chosen print v p reads def a.
Proof.
  intros P. unfold get_optional. destruct (xml_settings print v (path_text p)) as [t|] eqn:E.
  - apply (xml_path print v p t P) in E as (w & L & ->). split.
    + destruct (cast (print w)) as [b|] eqn:C; [|discriminate]. intros H. injection H as <-. left. exists w. split; [exact L|]. apply ok, C.
    + intros [(w' & L' & R)|[N _]]; [|exfalso; exact (N w L)]. rewrite (leads_unique _ _ _ _ L' L) in R. apply ok in R. rewrite R. reflexivity.
  - assert (N : forall w, ~ leads v p w). { intros w L. assert (X : xml_settings print v (path_text p) = Some (print w)) by (apply (xml_path print v p _ P); exists w; auto). congruence. }
    split; [intros H; injection H as <-; right; auto|]. intros [(w & L & _)|[_ ->]]; [exfalso; exact (N w L)|reflexivity].
Qed.
End Choice.
Lemma one_path s : ~ In 47 s -> proper_path [s].
Proof. intros N. split; [discriminate|]. constructor; [exact N|constructor]. Qed.
Ltac noslash := let H := fresh in intros H; vm_compute in H; repeat (destruct H as [H|H]; [discriminate|]); exact H.
Lemma motor_ok print v m : parse_motor (xml_settings print v) = Got m <->
  chosen print v [str "switching_state"] reads_unsigned 5 (switching_state m) /\ chosen print v [str "monitor_mode"] reads_bool true (monitor_mode m) /\
  chosen print v [str "state_switch_timeout"] reads_unsigned 5 (state_switch_timeout m).
Proof.
  assert (P1 : proper_path [str "switching_state"]) by (apply one_path; noslash). assert (P2 : proper_path [str "monitor_mode"]) by (apply one_path; noslash). assert (P3 : proper_path [str "state_switch_timeout"]) by (apply one_path; noslash).
  rewrite <- (optional_ok _ _ _ cast_unsigned_ok print v _ 5 (switching_state m) P1), <- (optional_ok _ _ _ cast_bool_ok print v _ true (monitor_mode m) P2), <- (optional_ok _ _ _ cast_unsigned_ok print v _ 5 (state_switch_timeout m) P3).
  unfold parse_motor. cbn [path_text]. set (a := get_optional cast_unsigned (xml_settings print v) (str "switching_state") 5). set (b := get_optional cast_bool (xml_settings print v) (str "monitor_mode") true).
  set (c := get_optional cast_unsigned (xml_settings print v) (str "state_switch_timeout") 5). clearbody a b c. destruct m as [x y z]. cbn [switching_state monitor_mode state_switch_timeout].
  destruct a, b, c; split; intros H; try discriminate; try (destruct H as (H1 & H2 & H3); discriminate || congruence). injection H as -> -> ->. auto.
Qed.

(** * Masks *)
Lemma got_inj (A : Type) (a b : A) : Got a = Got b -> a = b.
Proof. intros H. injection H. auto. Qed.
Section Masks.
Variable print : value -> text.
Variable v : value.
Let s := xml_settings print v.
Lemma add_bits_got group def l : forall (cfg : Z -> option bool) m,
  (forall e n, In (e, n) l -> match cfg e with Some b => exists t, s (group ++ str "/" ++ n) = Some t /\ cast_bool t = Some b | None => s (group ++ str "/" ++ n) = None end) ->
  add_bits s group def l m = Got (fold_left (fun m x => SocketCanModel.add_bit cfg def m (fst x)) l m).
Proof.
  induction l as [|[e n] l IH]; intros cfg m C; [reflexivity|]. cbn [add_bits fold_left fst].
  assert (G : get_optional cast_bool s (group ++ str "/" ++ n) (negb (Z.land def e =? 0)) = Got (match cfg e with Some b => b | None => negb (Z.land def e =? 0) end)).
  { pose proof (C e n (or_introl eq_refl)) as D. unfold get_optional. destruct (cfg e) as [b|]; [destruct D as (t & -> & ->)|rewrite D]; reflexivity. }
  rewrite G. rewrite (IH cfg); [|intros e' n' I'; apply C; right; exact I']. f_equal.
Qed.
Definition agrees (group : text) (cfg : Z -> option bool) : Prop :=
  forall e n, In (e, n) condition_names -> match cfg e with Some b => exists t, s (group ++ str "/" ++ n) = Some t /\ cast_bool t = Some b | None => s (group ++ str "/" ++ n) = None end.
Lemma parse_mask_got group def cfg : agrees group cfg -> parse_mask s group def = Got (SocketCanModel.parse_error_mask cfg def).
Proof. intros C. exact (add_bits_got group def condition_names cfg 0 C). Qed.
Lemma parse_masks_got ce cf : agrees (str "error_mask") ce -> agrees (str "fatal_error_mask") cf -> parse_masks s = Got (SocketCanModel.init_masks ce cf).
Proof. intros CE CF. unfold parse_masks. rewrite (parse_mask_got _ _ _ CF). cbn zeta iota beta. rewrite (parse_mask_got _ _ _ CE). reflexivity. Qed.
(** no exception: every setting of the group that is there is readable *)
Lemma add_bits_reads group def l : forall m r, add_bits s group def l m = Got r -> forall e n t, In (e, n) l -> s (group ++ str "/" ++ n) = Some t -> exists b, cast_bool t = Some b.
Proof.
  induction l as [|[e n] l IH]; intros m r H e' n' t [] E; cbn [add_bits] in H.
  - injection H0 as -> ->. unfold get_optional in H. rewrite E in H. destruct (cast_bool t) as [b|]; [exists b; reflexivity|discriminate].
  - destruct (get_optional cast_bool s (group ++ str "/" ++ n) (negb (Z.land def e =? 0))); [|discriminate]. exact (IH _ _ H e' n' t H0 E).
Qed.
Definition cfg_of (group : text) (e : Z) : option bool :=
  match List.find (fun x => fst x =? e) condition_names with
  | Some (_, n) => match s (group ++ str "/" ++ n) with Some t => cast_bool t | None => None end
  | None => None
  end.
Lemma cfg_of_name group e n : In (e, n) condition_names -> cfg_of group e = match s (group ++ str "/" ++ n) with Some t => cast_bool t | None => None end.
Proof. intros H. repeat (destruct H as [H|H]; [injection H as <- <-; reflexivity|]). destruct H. Qed.
Lemma cfg_of_agrees group def r : parse_mask s group def = Got r -> agrees group (cfg_of group).
Proof.
  intros H e n I'. rewrite (cfg_of_name group e n I'). destruct (s (group ++ str "/" ++ n)) as [t|] eqn:E; [|reflexivity].
  destruct (add_bits_reads group def condition_names 0 r H e n t I' E) as (b & R). rewrite R. exists t. auto.
Qed.
Lemma parse_masks_inv e f : parse_masks s = Got (e, f) -> exists ce cf, agrees (str "error_mask") ce /\ agrees (str "fatal_error_mask") cf /\ SocketCanModel.init_masks ce cf = (e, f).
Proof.
  intros H. assert (CF : agrees (str "fatal_error_mask") (cfg_of (str "fatal_error_mask")) /\ agrees (str "error_mask") (cfg_of (str "error_mask"))).
  { unfold parse_masks in H. destruct (parse_mask s (str "fatal_error_mask") SocketCanModel.fatal_errors) as [a|] eqn:E1; [|discriminate]. cbn zeta in H.
    destruct (parse_mask s (str "error_mask") (Z.lor SocketCanModel.report_errors (Z.lor a SocketCanModel.CAN_ERR_BUSOFF))) as [b|] eqn:E2; [|discriminate].
    split; [exact (cfg_of_agrees _ _ _ E1)|exact (cfg_of_agrees _ _ _ E2)]. }
  destruct CF as [CF CE]. exists (cfg_of (str "error_mask")), (cfg_of (str "fatal_error_mask")). split; [exact CE|]. split; [exact CF|]. rewrite (parse_masks_got _ _ CE CF) in H. exact (got_inj _ _ _ H).
Qed.
(** the two descriptions of the conditions *)
Lemma conditions_named e n : In (e, n) condition_names <-> exists i, In (i, n) names_of_conditions /\ e = 2 ^ i.
Proof.
  split.
  - intros H. repeat (destruct H as [H|H]; [injection H as <- <-|]); [exists 1|exists 2|exists 3|exists 4|exists 5|exists 0|exists 6|exists 7|exists 8|destruct H]; (split; [repeat ((left; reflexivity) || right)|reflexivity]).
  - intros (i & H & ->). repeat (destruct H as [H|H]; [injection H as <- <-|]); [..|destruct H]; repeat ((left; reflexivity) || right).
Qed.
Lemma group_path group n e : ~ In 47 group -> In (e, n) condition_names -> proper_path [group; n].
Proof. intros G H. split; [discriminate|]. constructor; [exact G|]. constructor; [|constructor]. repeat (destruct H as [H|H]; [injection H as <- <-; noslash|]). destruct H. Qed.
Lemma agrees_configured group cfg : ~ In 47 group -> agrees group cfg <-> configured print v group cfg.
Proof.
  intros G. assert (K : forall i n, In (i, n) names_of_conditions -> (match cfg (2 ^ i) with Some b => exists t, s (group ++ str "/" ++ n) = Some t /\ cast_bool t = Some b | None => s (group ++ str "/" ++ n) = None end
    <-> match cfg (2 ^ i) with Some b => exists w, leads v [group; n] w /\ reads_bool (print w) b | None => forall w, ~ leads v [group; n] w end)).
  { intros i n I'. assert (C : In (2 ^ i, n) condition_names) by (apply conditions_named; exists i; auto). pose proof (group_path group n _ G C) as P.
    assert (X : forall t, s (group ++ str "/" ++ n) = Some t <-> exists w, leads v [group; n] w /\ t = print w) by (intros t; exact (xml_path print v [group; n] t P)).
    destruct (cfg (2 ^ i)) as [b|].
    - split; [intros (t & E & R); apply X in E as (w & L & ->); exists w; split; [exact L|apply cast_bool_ok, R]|]. intros (w & L & R). exists (print w). split; [apply X; exists w; auto|apply cast_bool_ok, R].
    - split; [intros E w L; assert (Y : s (group ++ str "/" ++ n) = Some (print w)) by (apply X; exists w; auto); congruence|]. intros N. destruct (s (group ++ str "/" ++ n)) as [t|] eqn:E; [|reflexivity]. destruct (proj1 (X t) eq_refl) as (w & L & _). destruct (N w L). }
  split.
  - intros A i n I'. apply K; [exact I'|]. apply A. apply conditions_named. exists i. auto.
  - intros A e n I'. apply conditions_named in I' as (i & I' & ->). apply K; [exact I'|]. apply A, I'.
Qed.
Lemma masks_ok e f : parse_masks s = Got (e, f) <-> exists ce cf, configured print v (str "error_mask") ce /\ configured print v (str "fatal_error_mask") cf /\ SocketCanModel.init_masks ce cf = (e, f).
Proof.
  assert (G1 : ~ In 47 (str "error_mask")) by noslash. assert (G2 : ~ In 47 (str "fatal_error_mask")) by noslash. split.
  - intros H. destruct (parse_masks_inv e f H) as (ce & cf & A & B & C). exists ce, cf. split; [apply agrees_configured; assumption|]. split; [apply agrees_configured; assumption|exact C].
  - intros (ce & cf & A & B & <-). apply parse_masks_got; apply agrees_configured; assumption.
Qed.
End Masks.
(** the masks are given by their bits *)
Lemma masks_bits ce cf e f : 0 <= e -> 0 <= f ->
  SocketCanModel.init_masks ce cf = (e, f) <->
  forall i, 0 <= i -> Z.testbit f i = existsb (Z.eqb i) SocketCanSpec.conditions && SocketCanSpec.fatal_spec cf i /\ Z.testbit e i = existsb (Z.eqb i) SocketCanSpec.conditions && SocketCanSpec.reported_spec ce cf i.
Proof.
  intros E0 F0. assert (M : forall e' f', SocketCanModel.init_masks ce cf = (e', f') -> forall i, 0 <= i -> Z.testbit f' i = existsb (Z.eqb i) SocketCanSpec.conditions && SocketCanSpec.fatal_spec cf i /\ Z.testbit e' i = existsb (Z.eqb i) SocketCanSpec.conditions && SocketCanSpec.reported_spec ce cf i).
  { intros e' f' H i I0. destruct (SocketCanProofs.masks_spec ce cf e' f' H i I0) as [A B]. destruct (existsb (Z.eqb i) SocketCanSpec.conditions) eqn:X.
    - apply existsb_exists in X as (j & J & EQ). apply Z.eqb_eq in EQ. subst j. exact (A J).
    - apply B. intros C. assert (existsb (Z.eqb i) SocketCanSpec.conditions = true) by (apply existsb_exists; exists i; split; [exact C|apply Z.eqb_refl]). congruence. }
  split; [apply M|]. intros H. destruct (SocketCanModel.init_masks ce cf) as [e' f'] eqn:IM. pose proof (M e' f' eq_refl) as M'. f_equal; apply Z.bits_inj'; intros i I0; destruct (M' i I0) as [A B], (H i I0) as [C D]; congruence.
Qed.

(** * Texts of numbers *)
Lemma digits_app a b : digits_value (a ++ b) = digits_value a * 10 ^ Z.of_nat (List.length b) + digits_value b.
Proof. induction a as [|c a IH]; cbn [app digits_value]; [lia|]. rewrite IH, app_length, Nat2Z.inj_add, Z.pow_add_r by lia. ring. Qed.
Lemma show_digits_ok f : forall z t, 0 <= z < 10 ^ Z.of_nat f -> (0 < f)%nat -> exists d, show_digits f z t = d ++ t /\ d <> [] /\ Forall is_digit d /\ digits_value d = z.
Proof.
  induction f as [|f IH]; intros z t R F; [lia|]. cbn [show_digits]. cbn zeta.
  assert (D : is_digit (48 + z mod 10)) by (unfold is_digit; pose proof (Z.mod_pos_bound z 10 ltac:(lia)); lia).
  pose proof (Z.div_mod z 10 ltac:(lia)) as DM. destruct (Z.eqb_spec (z / 10) 0) as [E|E].
  - exists [48 + z mod 10]. split; [reflexivity|]. split; [discriminate|]. split; [constructor; [exact D|constructor]|]. cbn [digits_value List.length]. change (10 ^ Z.of_nat 0) with 1. lia.
  - rewrite Nat2Z.inj_succ, Z.pow_succ_r in R by lia. assert (Q1 : 0 <= z / 10 < 10 ^ Z.of_nat f) by (split; [apply Z.div_pos; lia|apply Z.div_lt_upper_bound; lia]).
    assert (F' : (0 < f)%nat). { destruct f; [|lia]. change (10 ^ Z.of_nat 0) with 1 in Q1. lia. }
    destruct (IH (z / 10) ((48 + z mod 10) :: t) Q1 F') as (d & -> & N & DS & V). exists (d ++ [48 + z mod 10]).
    split; [rewrite <- app_assoc; reflexivity|]. split; [intros C; apply app_eq_nil in C as [C _]; contradiction|]. split; [apply Forall_app; split; [exact DS|constructor; [exact D|constructor]]|].
    rewrite digits_app, V. cbn [digits_value List.length]. change (10 ^ Z.of_nat 0) with 1. change (10 ^ Z.of_nat 1) with 10. lia.
Qed.
Lemma show_unsigned_ok z : 0 <= z < 2 ^ 32 -> reads_unsigned (show_unsigned z) z.
Proof.
  intros R. destruct (show_digits_ok 10 z [] ltac:(cbn; lia) ltac:(lia)) as (d & E & N & D & V). unfold show_unsigned. rewrite E, app_nil_r. exists [], d. split; [reflexivity|]. split; [exact N|]. split; [exact D|]. split; [lia|]. left. split; [left; reflexivity|lia].
Qed.
Lemma show_bool_ok b : reads_bool (show_bool b) b.
Proof. exists [], O. split; [destruct b; reflexivity|left; reflexivity]. Qed.

(** * Maps *)
Lemma map_get_set n k t m : map_get n (map_set k t m) = if text_eqb n k then Some t else map_get n m.
Proof.
  induction m as [|[k' t'] m IH]; cbn [map_set map_get]; [reflexivity|]. destruct (text_eqb k k') eqn:E.
  - apply text_eqb_eq in E. subst k'. cbn [map_get]. destruct (text_eqb n k); reflexivity.
  - cbn [map_get]. destruct (text_eqb n k') eqn:E2; [|exact IH]. apply text_eqb_eq in E2. subst k'. destruct (text_eqb n k) eqn:E3; [|reflexivity]. apply text_eqb_eq in E3. subst k. rewrite (proj2 (text_eqb_eq n n) eq_refl) in E. discriminate.
Qed.
Lemma map_snoc sets k t n : settings_map (sets ++ [(k, t)]) n = if text_eqb n k then Some t else settings_map sets n.
Proof. unfold settings_map. rewrite fold_left_app. cbn [fold_left fst snd]. apply map_get_set. Qed.
Lemma map_last n t : forall sets, settings_map sets n = Some t <-> exists a b, sets = a ++ (n, t) :: b /\ ~ In n (map fst b).
Proof.
  intros sets. induction sets as [|[k u] sets IH] using rev_ind.
  - split; [discriminate|]. intros (a & b & E & _). symmetry in E. apply app_eq_nil in E as [_ E]. discriminate.
  - rewrite map_snoc. destruct (text_eqb n k) eqn:E.
    + apply text_eqb_eq in E. subst k. split.
      * intros H. injection H as ->. exists sets, []. split; [reflexivity|intros []].
      * intros (a & b & E & N). destruct b as [|x b] using rev_ind; [apply app_inj_tail in E as [_ E]; congruence|].
        rewrite app_comm_cons, app_assoc in E. apply app_inj_tail in E as [_ E]. subst x. exfalso. apply N. rewrite map_app. apply in_or_app. right. left. reflexivity.
    + rewrite IH. split.
      * intros (a & b & -> & N). exists a, (b ++ [(k, u)]). split; [rewrite <- app_assoc; reflexivity|]. rewrite map_app. intros C. apply in_app_or in C as [C|[C|[]]]; [exact (N C)|]. cbn in C. subst k. rewrite (proj2 (text_eqb_eq n n) eq_refl) in E. discriminate.
      * intros (a & b & X & N). destruct b as [|x b _] using rev_ind; [apply app_inj_tail in X as [_ X]; injection X as -> _; rewrite (proj2 (text_eqb_eq n n) eq_refl) in E; discriminate|].
        rewrite app_comm_cons, app_assoc in X. apply app_inj_tail in X as [-> _]. exists a, b. split; [reflexivity|]. intros C. apply N. rewrite map_app. apply in_or_app. left. exact C.
Qed.
