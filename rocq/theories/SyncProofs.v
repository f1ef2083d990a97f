From Verif Require Import Base CanModel SyncModel SyncSpec.

(** ** SimpleSyncLayer *)

Definition next (e : event) (y : sync) : sync := fst (fst (step e y)).
Definition state (h : list event) (y : sync) : sync := fst (run h y).

Lemma run_cons : forall e r y, run (e :: r) y = (state r (next e y), (snd (fst (step e y)), snd (step e y)) :: snd (run r (next e y))).
Proof.
  intros e r y. cbn [run]. unfold state, next. destruct (step e y) as [[y1 o] t]. cbn [fst snd].
  destruct (run r y1). reflexivity.
Qed.

Lemma state_cons : forall e r y, state (e :: r) y = state r (next e y).
Proof. intros. unfold state at 1. rewrite run_cons. reflexivity. Qed.

Lemma state_one : forall e y, state [e] y = next e y.
Proof. intros. rewrite state_cons. reflexivity. Qed.

Lemma state_app : forall a b y, state (a ++ b) y = state b (state a y).
Proof.
  induction a as [|e a IH]; intros b y; [reflexivity|].
  cbn [app]. rewrite !state_cons. apply IH.
Qed.

Lemma run_nth : forall es y i, nth_error (snd (run es y)) i =
  option_map (fun e => (snd (fst (step e (state (firstn i es) y))), snd (step e (state (firstn i es) y)))) (nth_error es i).
Proof.
  induction es as [|e es IH]; intros y i; [destruct i; reflexivity|].
  rewrite run_cons. destruct i as [|i]; [reflexivity|].
  cbn [snd nth_error firstn]. rewrite state_cons. apply IH.
Qed.

Lemma in_set_insert : forall p q l, In q (set_insert p l) <-> q = p \/ In q l.
Proof.
  intros p q l. unfold set_insert. destruct (existsb (Z.eqb p) l) eqn:E.
  - split; [tauto|]. intros [->|H]; [|exact H]. apply existsb_exists in E. destruct E as (x & A & B).
    apply Z.eqb_eq in B. subst. exact A.
  - cbn. intuition.
Qed.
Lemma in_set_erase : forall p q l, In q (set_erase p l) <-> q <> p /\ In q l.
Proof. intros p q l. unfold set_erase. rewrite filter_In. split; intros [A B]; (split; [|assumption || lia]); lia || assumption. Qed.

Definition reg (p : Z) (h : list event) : Prop := exists h1 h2, h = h1 ++ AddNode p :: h2 /\ ~ In (RemoveNode p) h2.

Lemma reg_snoc : forall p h e, reg p (h ++ [e]) <-> e = AddNode p \/ (e <> RemoveNode p /\ reg p h).
Proof.
  intros p h e. split.
  - intros (h1 & h2 & E & N). destruct h2 as [|x h2] using rev_ind.
    + apply app_inj_tail in E. left. apply E.
    + clear IHh2. rewrite app_comm_cons, app_assoc in E. apply app_inj_tail in E. destruct E as [-> ->].
      right. split; [intros ->; apply N, in_or_app; right; left; reflexivity|].
      exists h1, h2. split; [reflexivity|]. intro X. apply N, in_or_app. left. exact X.
  - intros [->|[N (h1 & h2 & -> & M)]].
    + exists h, []. split; [reflexivity|intros []].
    + exists h1, (h2 ++ [e]). split; [rewrite <- app_assoc; reflexivity|].
      intro X. apply in_app_or in X. destruct X as [X|[X|[]]]; [exact (M X)|exact (N X)].
Qed.

Lemma nodes_reg : forall y h p, y_nodes y = [] -> (In p (y_nodes (state h y)) <-> reg p h).
Proof.
  intros y h p Y. induction h as [|e h IH] using rev_ind.
  - cbn. rewrite Y. split; [intros []|]. intros (h1 & h2 & E & _). destruct h1; discriminate.
  - rewrite state_app, reg_snoc, <- IH. clear IH. set (s := state h y). clearbody s.
    rewrite state_one.
    destruct e as [q|q|n|a n l|a n l l2]; unfold next; cbn.
    + rewrite in_set_insert. split; [intros [->|H]|intros [H|[_ H]]]; try tauto; [right; split; [discriminate|exact H]|].
      injection H as ->. tauto.
    + rewrite in_set_erase. split; [intros [A B]|intros [H|[A B]]]; [right; split; [congruence|exact B]|discriminate|].
      split; [congruence|exact B].
    + split; [intro H; right; split; [discriminate|exact H]|intros [H|[_ H]]; [discriminate|exact H]].
    + destruct a; cbn; (split; [intro H; right; split; [discriminate|exact H]|intros [H|[_ H]]; [discriminate|exact H]]).
    + destruct a; cbn; (split; [intro H; right; split; [discriminate|exact H]|intros [H|[_ H]]; [discriminate|exact H]]).
Qed.

Lemma nodes_registered : forall y h, y_nodes y = [] -> (y_nodes (state h y) <> [] <-> registered h).
Proof.
  intros y h Y. split.
  - intro N. destruct (y_nodes (state h y)) as [|p l] eqn:E; [congruence|].
    assert (In p (y_nodes (state h y))) by (rewrite E; left; reflexivity).
    apply nodes_reg in H; [|exact Y]. destruct H as (a & b & H). exists p, a, b. exact H.
  - intros (p & a & b & H). assert (R : reg p h) by (exists a, b; exact H).
    apply (nodes_reg y h p Y) in R. intro E. rewrite E in R. destruct R.
Qed.

Lemma const : forall h y, y_step (state h y) = y_step y /\ y_half (state h y) = y_half y /\ y_overflow (state h y) = y_overflow y /\
  f_hdr (y_frame (state h y)) = f_hdr (y_frame y) /\ f_dlc (y_frame (state h y)) = f_dlc (y_frame y).
Proof.
  induction h as [|e h IH]; intro y; [cbn; auto|].
  rewrite state_cons. destruct (IH (next e y)) as (A & B & C & D & E). rewrite A, B, C, D, E.
  destruct e as [q|q|n|a n l|a n l l2]; unfold next; cbn; auto; destruct a; cbn; auto.
  unfold update_counter. destruct (0 <? f_dlc (y_frame y)); auto.
Qed.

Lemma nth_update0 : forall (l : list Z) v d, l <> [] -> nth 0 (update_nth 0 v l) d = v.
Proof. intros [|x l] v d H; [congruence|reflexivity]. Qed.
Lemma update0_nonempty : forall (l : list Z) v, l <> [] -> update_nth 0 v l <> [].
Proof. intros [|x l] v H; [congruence|discriminate]. Qed.

Lemma count_snoc : forall p h e, count p (h ++ [e]) = count p h + b2z (p e).
Proof.
  intros p h e. unfold count. rewrite filter_app, app_length. cbn. destruct (p e); cbn [b2z List.length]; lia.
Qed.
Lemma count_nonneg : forall p h, 0 <= count p h.
Proof. intros. unfold count. lia. Qed.

Lemma counter : forall y n h, y_overflow y = n -> 2 <= n <= 240 -> f_dlc (y_frame y) = 1 ->
  f_data (y_frame y) <> [] -> nth 0 (f_data (y_frame y)) 0 = 1 ->
  f_data (y_frame (state h y)) <> [] /\ nth 0 (f_data (y_frame (state h y))) 0 = count is_write h mod n + 1.
Proof.
  intros y n h N R D L F. induction h as [|e h IH] using rev_ind.
  - split; [exact L|]. change (state [] y) with y. rewrite F. change (count is_write []) with 0. rewrite Z.mod_0_l by lia. reflexivity.
  - rewrite state_app, count_snoc. destruct (const h y) as (_ & _ & O & _ & DD). rewrite N in O. rewrite D in DD.
    set (s := state h y) in *. clearbody s. destruct IH as [L2 C].
    rewrite state_one.
    assert (K : is_write e = false -> f_data (y_frame (next e s)) = f_data (y_frame s)).
    { intro W. destruct e as [q|q|t|a t l|a t l l2]; unfold next; cbn in *; auto; destruct a; cbn; auto. discriminate. }
    destruct (is_write e) eqn:W; [|rewrite K by reflexivity; cbn [b2z]; rewrite Z.add_0_r; auto].
    destruct e as [q|q|t|a t l|a t l l2]; try discriminate. destruct a; [|discriminate].
    unfold next. cbn [step fst y_frame]. unfold update_counter. rewrite DD, O. cbn [Z.ltb Z.compare f_data b2z].
    split; [apply update0_nonempty, L2|]. rewrite nth_update0 by exact L2. rewrite C. unfold u8.
    pose proof (count_nonneg is_write h) as P. rewrite (Zplus_mod (count is_write h) 1 n). rewrite (Z.mod_small 1 n) by lia.
    pose proof (Z.mod_pos_bound (count is_write h) n ltac:(lia)) as Q. set (c := count is_write h mod n) in *. clearbody c.
    destruct (Z.leb_spec n (c + 1)).
    + replace (c + 1) with n by lia. rewrite Z_mod_same_full. lia.
    + rewrite (Z.mod_small (c + 1) n) by lia. rewrite Z.mod_small by lia. lia.
Qed.

Definition payload_of (o : option (Z * frame)) : option bytes := option_map (fun p => payload (snd p)) o.

Lemma new_sync_fields : forall junk h period n y, junk <> [] -> 2 <= n -> new_sync junk h period n = Some y ->
  n <= 240 /\ y_overflow y = n /\ f_dlc (y_frame y) = 1 /\ f_data (y_frame y) <> [] /\ nth 0 (f_data (y_frame y)) 0 = 1 /\ y_nodes y = [] /\
  f_hdr (y_frame y) = h.
Proof.
  intros junk h period n y J N H. unfold new_sync in H. destruct ((n =? 1) || (240 <? n)) eqn:E; [discriminate|].
  injection H as <-. cbn. replace (1 <? n) with true by lia. cbn. repeat split; try lia.
  - apply update0_nonempty, J.
  - apply nth_update0, J.
Qed.

Lemma sent_frame : forall y es i t f, sent_at es y i = Some (t, f) ->
  exists e, nth_error es i = Some e /\ is_write e = true /\ y_nodes (state (firstn i es) y) <> [] /\
   f = y_frame (state (firstn (S i) es) y).
Proof.
  intros y es i t f H. unfold sent_at in H. rewrite run_nth in H.
  destruct (nth_error es i) as [e|] eqn:E; [|discriminate]. cbn [option_map] in H.
  exists e. split; [reflexivity|].
  assert (FS : firstn (S i) es = firstn i es ++ [e]).
  { clear -E. revert es E. induction i as [|i IH]; intros [|x es] E; try discriminate; cbn in *.
    - injection E as ->. reflexivity.
    - f_equal. apply IH, E. }
  rewrite FS, state_app. set (s := state (firstn i es) y) in *. clearbody s.
  destruct e as [q|q|u|a u l|a u l l2]; cbn in H; try discriminate; destruct a; try discriminate.
  cbn in H. split; [reflexivity|]. destruct (y_nodes s) eqn:Y; [discriminate|]. split; [congruence|].
  injection H as <- <-. reflexivity.
Qed.

Lemma sent_iff : forall y es i e, y_nodes y = [] -> nth_error es i = Some e -> is_write e = true ->
  (sent_at es y i <> None <-> registered (firstn i es)).
Proof.
  intros y es i e Y E W. rewrite <- (nodes_registered y) by exact Y. unfold sent_at. rewrite run_nth, E. cbn [option_map].
  destruct e as [q|q|u|a u l|a u l l2]; try discriminate W; destruct a; [|discriminate W]. cbn.
  destruct (y_nodes (state (firstn i es) y)); split; congruence.
Qed.

Lemma not_sent : forall y es i, (forall e, nth_error es i = Some e -> is_write e = false) -> sent_at es y i = None.
Proof.
  intros y es i H. unfold sent_at. rewrite run_nth. destruct (nth_error es i) as [e|]; [|reflexivity].
  specialize (H e eq_refl). cbn [option_map]. destruct e as [q|q|u|a u l|a u l l2]; cbn in *; try reflexivity; destruct a; try reflexivity.
  discriminate.
Qed.

Lemma firstn_snoc_count : forall p es i e, nth_error es i = Some e -> count p (firstn (S i) es) = count p (firstn i es) + b2z (p e).
Proof.
  intros p es i e E. rewrite <- count_snoc. f_equal.
  clear p. revert es E. induction i as [|i IH]; intros [|x es] E; try discriminate; cbn in *.
  - injection E as ->. reflexivity.
  - f_equal. apply IH, E.
Qed.

Lemma counter_sent : forall junk h period n y es i t f, junk <> [] -> 2 <= n -> new_sync junk h period n = Some y ->
  sent_at es y i = Some (t, f) -> f_hdr f = h /\ payload f = [count is_write (firstn (S i) es) mod n + 1].
Proof.
  intros junk h period n y es i t f J N H S. apply new_sync_fields in H; [|exact J|exact N].
  destruct H as (N2 & A & B & C & D & E & F). apply sent_frame in S. destruct S as (e & _ & _ & _ & ->).
  destruct (const (firstn (Datatypes.S i) es) y) as (_ & _ & _ & P & Q). rewrite P, F. split; [reflexivity|].
  destruct (counter y n (firstn (Datatypes.S i) es) A (conj N N2) B C D) as [X1 X2].
  unfold payload. rewrite Q, B. rewrite <- X2. destruct (f_data (y_frame (state (firstn (Datatypes.S i) es) y))) as [|b l]; [congruence|]. reflexivity.
Qed.

Lemma no_counter : forall junk h period y es i t f, new_sync junk h period 0 = Some y ->
  sent_at es y i = Some (t, f) -> f_hdr f = h /\ payload f = [].
Proof.
  intros junk h period y es i t f H S. injection H as <-. apply sent_frame in S. destruct S as (e & _ & _ & _ & ->).
  destruct (const (firstn (Datatypes.S i) es) (mkSync period (period / 2) 0 (Frame junk h 0) [] 0 0)) as (_ & _ & _ & P & Q).
  rewrite P. split; [reflexivity|]. unfold payload. rewrite Q. reflexivity.
Qed.

(** Schedule *)
Lemma schedule : forall h y, existsb is_init h = false -> y_write (state h y) = y_write y + count is_read h * y_step y.
Proof.
  intros h y. induction h as [|e h IH] using rev_ind; intro N.
  - cbn. unfold count. cbn. lia.
  - rewrite existsb_app in N. apply orb_false_iff in N. destruct N as [N1 N2]. specialize (IH N1).
    rewrite state_app, count_snoc. destruct (const h y) as (S & _). set (s := state h y) in *. clearbody s.
    rewrite state_one.
    destruct e as [q|q|u|a u l|a u l l2]; unfold next; cbn in *; try discriminate; try lia; destruct a; cbn [b2z]; cbn; lia.
Qed.

Lemma sent_time : forall h t0 es y i t f, y_step y > 0 -> existsb is_init es = false -> Forall lags_ok es ->
  sent_at (h ++ InitSync t0 :: es) y (List.length h + 1 + i) = Some (t, f) ->
  t0 + (count is_read (firstn i es) + 1) * y_step y <= t.
Proof.
  intros h t0 es y i t f P N L S. unfold sent_at in S. rewrite run_nth in S.
  destruct (nth_error (h ++ InitSync t0 :: es) (List.length h + 1 + i)) as [e|] eqn:E; [|discriminate].
  cbn [option_map] in S.
  assert (F : firstn (List.length h + 1 + i) (h ++ InitSync t0 :: es) = h ++ [InitSync t0] ++ firstn i es).
  { replace (List.length h + 1 + i)%nat with (List.length h + Datatypes.S i)%nat by lia. rewrite firstn_app_2. reflexivity. }
  rewrite F in S. rewrite !state_app in S.
  assert (E2 : nth_error es i = Some e).
  { rewrite nth_error_app2 in E by lia. replace (List.length h + 1 + i - List.length h)%nat with (Datatypes.S i) in E by lia. exact E. }
  assert (N2 : existsb is_init (firstn i es) = false).
  { rewrite <- (firstn_skipn i es), existsb_app in N. apply orb_false_iff in N. apply N. }
  rewrite Forall_forall in L. specialize (L e (nth_error_In _ _ E2)).
  destruct (const h y) as (A1 & _). set (s0 := state h y) in *. clearbody s0.
  rewrite state_one in S. set (s1 := next (InitSync t0) s0) in *.
  assert (W1 : y_write s1 = t0 + y_step y) by (unfold s1, next; cbn; lia).
  assert (W2 : y_step s1 = y_step y) by (unfold s1, next; cbn; lia). clearbody s1.
  pose proof (schedule (firstn i es) s1 N2) as Q. rewrite W1, W2 in Q. set (s2 := state (firstn i es) s1) in *. clearbody s2.
  destruct e as [q|q|u|a u l|a u l l2]; cbn in S; try discriminate; destruct a; try discriminate.
  cbn in S. destruct (y_nodes s2); [discriminate|]. injection S as S _. unfold sleep_until in S. cbn in L. lia.
Qed.

(** read_time_ is not before a write that happened plus half a period. *)
Lemma spacing : forall es y i j k ti fi tj fj a n l, 0 <= y_half y -> Forall lags_ok es -> sequential es y ->
  (i < k < j)%nat -> sent_at es y i = Some (ti, fi) -> nth_error es k = Some (ReadSync a n l) -> a = true ->
  sent_at es y j = Some (tj, fj) -> ti + y_half y <= tj.
Proof.
  intros es y i j k ti fi tj fj a n l HH L SQ (IK & KJ) Si Ek -> Sj.
  pose proof (sent_frame _ _ _ _ _ Si) as (ei & Ei & Wi & _ & _).
  pose proof (sent_frame _ _ _ _ _ Sj) as (ej & Ej & Wj & _ & _).
  destruct ei as [q1|q1|q1|a' q1 q2|a' ni li li2]; try discriminate Wi; try (destruct a'; discriminate Wi). destruct a'; [|discriminate Wi].
  destruct ej as [q1|q1|q1|a' q1 q2|a' nj lj lj2]; try discriminate Wj; try (destruct a'; discriminate Wj). destruct a'; [|discriminate Wj].
  rewrite Forall_forall in L.
  pose proof (L _ (nth_error_In _ _ Ei)) as Li. pose proof (L _ (nth_error_In _ _ Ek)) as Lk. pose proof (L _ (nth_error_In _ _ Ej)) as Lj.
  cbn in Li, Lk, Lj.
  unfold sent_at in Si, Sj.
  destruct (nth_error (snd (run es y)) i) as [[oi ri]|] eqn:Ri; [|discriminate]. subst oi.
  destruct (nth_error (snd (run es y)) j) as [[oj rj]|] eqn:Rj; [|discriminate]. subst oj.
  assert (RI : ti <= ri).
  { rewrite run_nth, Ei in Ri. cbn [option_map step fst snd] in Ri.
    destruct (y_nodes (state (firstn i es) y)); [discriminate|]. injection Ri as R1 _ R2. lia. }
  (* after event i, read_time_ stays at least ti + half *)
  assert (INV : forall m, (i < m)%nat -> (m <= List.length es)%nat -> ti + y_half y <= y_read (state (firstn m es) y)).
  { induction m as [|m IH]; intros M1 M2; [lia|].
    destruct (nth_error es m) as [e|] eqn:E; [|apply nth_error_None in E; lia].
    assert (FS : firstn (S m) es = firstn m es ++ [e]).
    { clear -E. revert es E. induction m as [|m IH]; intros [|x es] E; try discriminate; cbn in *.
      - injection E as ->. reflexivity.
      - f_equal. apply IH, E. }
    rewrite FS, state_app.
    destruct (const (firstn m es) y) as (_ & HF & _).
    destruct (Nat.eq_dec m i) as [->|NE].
    - rewrite Ei in E. injection E as <-. rewrite run_nth, Ei in Ri. cbn [option_map step fst snd] in Ri.
      set (s := state (firstn i es) y) in *. clearbody s. unfold state. cbn.
      destruct (y_nodes s); [discriminate|]. injection Ri as R1 _ R2. rewrite HF. lia.
    - assert (IM : ti + y_half y <= y_read (state (firstn m es) y)) by (apply IH; lia).
      pose proof (L _ (nth_error_In _ _ E)) as Le.
      assert (CALL : forall u, called e = Some u -> ri <= u).
      { intros u Hu. eapply (SQ m i); [lia|exact E|exact Hu|exact Ri|exact Ei|discriminate]. }
      set (s := state (firstn m es) y) in *. clearbody s. rewrite state_one.
      destruct e as [q|q|u|b u v|b u v w]; unfold next; cbn in *; try exact IM.
      + specialize (CALL u eq_refl). lia.
      + destruct b; exact IM.
      + specialize (CALL u eq_refl). destruct b; [|exact IM]. cbn. unfold sleep_until. rewrite HF. lia. }
  assert (KL : (k < List.length es)%nat) by (apply nth_error_Some; congruence).
  assert (IKr : ti + y_half y <= y_read (state (firstn k es) y)) by (apply INV; lia).
  assert (Rk : nth_error (snd (run es y)) k = Some (None, sleep_until (y_read (state (firstn k es) y)) n l)).
  { rewrite run_nth, Ek. reflexivity. }
  assert (NJ : sleep_until (y_read (state (firstn k es) y)) n l <= nj).
  { eapply (SQ j k); [lia|exact Ej|reflexivity|exact Rk|exact Ek|discriminate]. }
  rewrite run_nth, Ej in Rj. cbn [option_map step fst snd] in Rj.
  destruct (y_nodes (state (firstn j es) y)); [discriminate|]. injection Rj as R1 _ _. unfold sleep_until in *. lia.
Qed.
