From Verif Require Import Base CanModel EmcyModel EmcySpec.

Lemma run_app : forall a b s, fst (run (a ++ b) s) = fst (run b (fst (run a s))).
Proof.
  induction a as [|e a IH]; intros b s; [reflexivity|].
  cbn [run app]. destruct (step e s) as [s1 o]. specialize (IH b s1).
  destruct (run (a ++ b) s1), (run a s1). exact IH.
Qed.

Lemma run_cons : forall e t s, fst (run (e :: t) s) = fst (run t (fst (step e s))).
Proof. intros e t s. cbn [run]. destruct (step e s) as [s1 o]. cbn [fst]. destruct (run t s1). reflexivity. Qed.

Lemma kept : forall es s, existsb is_emergency es = false -> existsb clears es = false ->
  has_error (fst (run es s)) = has_error s.
Proof.
  induction es as [|e es IH]; intros s H1 H2; [reflexivity|].
  cbn [existsb] in *. apply orb_false_iff in H1, H2. destruct H1 as [A B], H2 as [C D].
  rewrite run_cons, IH by assumption.
  destruct e as [d|r|ok]; [discriminate A| |destruct ok; [discriminate C|]]; destruct s as [h p]; destruct p; cbn; try reflexivity.
  destruct r as [v|]; [destruct (has v 1)|]; reflexivity.
Qed.

Lemma stays_clear : forall es s, existsb is_emergency es = false -> has_error s = false ->
  has_error (fst (run es s)) = false.
Proof.
  induction es as [|e es IH]; intros s H1 H2; [exact H2|].
  cbn [existsb] in *. apply orb_false_iff in H1. destruct H1 as [A B].
  rewrite run_cons. apply IH; [exact B|].
  destruct e as [d|r|ok]; [discriminate A| |]; destruct s as [h p]; cbn in *; subst; destruct p; try reflexivity.
  - destruct r as [v|]; [destruct (has v 1)|]; reflexivity.
  - destruct ok; reflexivity.
Qed.

Lemma relevant_spec : forall r, 0 <= r < 256 -> (relevant r = true <-> error_bit r).
Proof.
  intros r H.
  assert (X : relevant r = existsb (fun i => negb (i =? 5) && Z.testbit r i) (range 8)).
  { pose proof (forall_range 256 (fun r => Bool.eqb (relevant r) (existsb (fun i => negb (i =? 5) && Z.testbit r i) (range 8))) eq_refl r H) as X.
    apply eqb_prop in X. exact X. }
  rewrite X, existsb_exists. split.
  - intros (i & A & B). apply andb_true_iff in B. destruct B as [B C]. exists i.
    assert (0 <= i < 8) by (unfold range in A; apply in_map_iff in A; destruct A as (k & <- & A); apply in_seq in A; lia). split; [assumption|]. split; [lia|exact C].
  - intros (i & A & B & C). exists i. split; [apply in_range, A|]. rewrite C. lia.
Qed.

Lemma last_message : forall h1 d h2, bytes_ok d -> existsb is_emergency h2 = false -> existsb clears h2 = false ->
  (read_error true (final (h1 ++ Emergency d :: h2)) = true <-> error_bit (nth 2 d 0)).
Proof.
  intros h1 d h2 Hd A B. unfold final, read_error. rewrite run_app, run_cons. cbn [andb].
  rewrite kept by assumption. cbn.
  apply relevant_spec. unfold msg_register.
  destruct (Nat.lt_ge_cases 2 (List.length d)) as [L|L].
  - unfold bytes_ok in Hd. rewrite Forall_forall in Hd. specialize (Hd _ (nth_In d 0 L)). exact Hd.
  - rewrite nth_overflow by exact L. lia.
Qed.

Lemma init_ok_spec : forall e s s1, step e s = (s1, InitOk) -> e = ClearList true /\ in_phase s = Clearing /\ has_error s1 = false.
Proof.
  intros [d|r|ok] [h p] s1 H; cbn in H.
  - destruct (msg_code d =? 0); discriminate.
  - destruct p; [destruct r as [v|]; [destruct (has v 1)|]|]; discriminate.
  - destruct p; [discriminate|]. destruct ok; inversion H; auto.
Qed.

Lemma cleared : forall h1 e s1 h2, step e (final h1) = (s1, InitOk) -> existsb is_emergency h2 = false ->
  read_error true (final (h1 ++ e :: h2)) = false.
Proof.
  intros h1 e s1 h2 H N. apply init_ok_spec in H as K. destruct K as (_ & _ & K).
  unfold final, read_error in *. rewrite run_app, run_cons, H. cbn [andb fst]. apply stays_clear; assumption.
Qed.

(** The handler is clearing only after a register with bit 0 clear. *)
Definition clearing_inv (h : list event) : Prop :=
  in_phase (final h) = Clearing ->
  exists a v b, h = a ++ ReadRegister (Some v) :: b /\ Z.testbit v 0 = false /\ forall e, In e b -> forall ok, e <> ClearList ok.

Lemma clearing_phase : forall h, clearing_inv h.
Proof.
  intro h. induction h as [|e h IH] using rev_ind; unfold clearing_inv in *; intro C; [discriminate|].
  unfold final in *. rewrite run_app in C. rewrite run_cons in C. cbn [run fst] in C.
  destruct (in_phase (fst (run h new_emcy))) eqn:P.
  - destruct (fst (run h new_emcy)) as [he p]. cbn in P. subst p.
    destruct e as [d|r|ok]; cbn in C; try discriminate.
    destruct r as [v|]; [|discriminate]. destruct (has v 1) eqn:Hv; [discriminate|].
    exists h, v, []. split; [reflexivity|]. split; [|intros e []].
    rewrite <- pow2_testbit_has by lia. exact Hv.
  - destruct (IH eq_refl) as (a & v & b & -> & V & Q). exists a, v, (b ++ [e]). split; [rewrite <- app_assoc; reflexivity|].
    split; [exact V|]. intros x Hx. apply in_app_or in Hx. destruct Hx as [Hx|[->|[]]]; [apply Q, Hx|].
    intros ok ->. destruct (fst (run (a ++ ReadRegister (Some v) :: b) new_emcy)) as [he p]. cbn in P. subst p.
    destruct ok; discriminate.
Qed.

Lemma list_spec : forall get n i its, list_errors get i n = Some its ->
  (List.length its <= n)%nat /\
  (forall j, (j < List.length its)%nat ->
    nth_error its j = match get (i + Z.of_nat j + 1) with
                      | EVal v => Some (Field (v mod 2^16) (v / 2^16 mod 2^16))
                      | ENotInDict => Some NotInDict
                      | ETimeout => Some Underflow
                      | EOther => None
                      end) /\
  (forall j, (S j < List.length its)%nat -> get (i + Z.of_nat j + 1) <> ETimeout) /\
  ((List.length its < n)%nat -> exists k, List.length its = S k /\ get (i + Z.of_nat k + 1) = ETimeout).
Proof.
  intros get n. induction n as [|n IH]; intros i its H; cbn in H.
  - injection H as <-. cbn. repeat split; intros; lia.
  - destruct (get (i + 1)) as [v| | |] eqn:G; try discriminate.
    1, 2: destruct (list_errors get (i + 1) n) as [r|] eqn:L; [|discriminate]; cbn in H; injection H as <-;
      destruct (IH _ _ L) as (A & B & C & D); cbn [List.length];
      (split; [lia|]); (split; [|split]);
      [ intros [|j] Hj; [replace (i + Z.of_nat 0 + 1) with (i + 1) by lia; rewrite G; reflexivity
                        |replace (i + Z.of_nat (S j) + 1) with (i + 1 + Z.of_nat j + 1) by lia; cbn [nth_error]; apply B; lia]
      | intros [|j] Hj; [replace (i + Z.of_nat 0 + 1) with (i + 1) by lia; rewrite G; discriminate
                        |replace (i + Z.of_nat (S j) + 1) with (i + 1 + Z.of_nat j + 1) by lia; apply C; lia]
      | intro Hl; destruct D as (k & K1 & K2); [lia|]; exists (S k); split; [lia|];
        replace (i + Z.of_nat (S k) + 1) with (i + 1 + Z.of_nat k + 1) by lia; exact K2 ].
    injection H as <-. cbn [List.length]. split; [lia|]. split; [|split].
    + intros [|j] Hj; [|lia]. replace (i + Z.of_nat 0 + 1) with (i + 1) by lia. rewrite G. reflexivity.
    + intros j Hj. lia.
    + intros _. exists O. split; [reflexivity|]. replace (i + Z.of_nat 0 + 1) with (i + 1) by lia. exact G.
Qed.

Lemma diag_list : forall v n get l r its, v <> 0 -> handle_diag (Some v) (NumVal n) get = Diag l r its ->
  r = Some v /\
  (listed get (Z.to_nat n) its \/
   exists k its0, (k < Z.to_nat n)%nat /\ its = its0 ++ [Underflow] /\ listed get k its0 /\ get (Z.of_nat k + 1) = ETimeout).
Proof.
  intros v n get l r its V H. unfold handle_diag in H. replace (v =? 0) with false in H by lia.
  destruct (list_errors get 0 (Z.to_nat n)) as [i2|] eqn:L; [|discriminate]. injection H as <- <- <-.
  split; [reflexivity|]. destruct (list_spec _ _ _ _ L) as (A & B & C & D).
  assert (NO : forall j, (j < List.length i2)%nat -> get (Z.of_nat j + 1) <> EOther).
  { intros j Hj E. specialize (B j Hj). replace (0 + Z.of_nat j + 1) with (Z.of_nat j + 1) in B by lia.
    rewrite E in B. apply nth_error_None in B. lia. }
  assert (LAST : forall k, List.length i2 = S k -> get (Z.of_nat k + 1) = ETimeout ->
     exists its0, i2 = its0 ++ [Underflow] /\ listed get k its0).
  { intros k K1 K2. destruct (exists_last (l := i2)) as (i0 & x & E); [intro; subst; discriminate|].
    exists i0. subst i2. rewrite app_length in *. cbn [List.length] in *.
    assert (List.length i0 = k) by lia. split.
    - f_equal. assert (Hk : (k < List.length i0 + 1)%nat) by lia. specialize (B k Hk).
      replace (0 + Z.of_nat k + 1) with (Z.of_nat k + 1) in B by lia. rewrite K2 in B.
      rewrite nth_error_app2 in B by lia. replace (k - List.length i0)%nat with O in B by lia. cbn in B. injection B as ->. reflexivity.
    - split; [assumption|]. intros j Hj. assert (Hj2 : (j < List.length i0 + 1)%nat) by lia. specialize (B j Hj2).
      assert (Hj3 : (S j < List.length i0 + 1)%nat) by lia. specialize (C j Hj3). specialize (NO j Hj2).
      replace (0 + Z.of_nat j + 1) with (Z.of_nat j + 1) in B, C by lia.
      rewrite nth_error_app1 in B by lia. rewrite B. destruct (get (Z.of_nat j + 1)); tauto. }
  destruct (Nat.lt_ge_cases (List.length i2) (Z.to_nat n)) as [LE|LE].
  - right. destruct (D LE) as (k & K1 & K2). replace (0 + Z.of_nat k + 1) with (Z.of_nat k + 1) in K2 by lia.
    destruct (LAST k K1 K2) as (i0 & E & Q). exists k, i0. repeat split; try assumption; try apply Q; try lia.
  - assert (E : List.length i2 = Z.to_nat n) by lia.
    destruct (List.length i2) as [|k] eqn:Ek.
    + left. rewrite <- E. split; [exact Ek|]. intros j Hj. lia.
    + destruct (get (Z.of_nat k + 1)) eqn:G.
      3: { right. destruct (LAST k eq_refl G) as (i0 & E2 & Q). exists k, i0. repeat split; try assumption; try apply Q; lia. }
      all: left; rewrite <- E; split; [exact Ek|]; intros j Hj; specialize (B j Hj); specialize (NO j Hj);
        replace (0 + Z.of_nat j + 1) with (Z.of_nat j + 1) in B by lia; rewrite B;
        destruct (Nat.eq_dec j k) as [->|Nj]; [rewrite G in *; split; [reflexivity|]; split; [discriminate|exact NO]|];
        assert (Hj3 : (S j < S k)%nat) by lia; specialize (C j Hj3);
        replace (0 + Z.of_nat j + 1) with (Z.of_nat j + 1) in C by lia; destruct (get (Z.of_nat j + 1)); tauto.
Qed.

Lemma diag_level : forall v n get l r its, 0 <= v < 256 -> handle_diag (Some v) n get = Diag l r its ->
  (l = LError <-> Z.testbit v 0 = true) /\
  (l = LWarn <-> Z.testbit v 0 = false /\ error_bit v) /\
  (l = LOk <-> ~ error_bit v).
Proof.
  intros v n get l r its V H. unfold handle_diag in H. change 1 with (2^0) in H. rewrite pow2_testbit_has in H by lia.
  pose proof (relevant_spec v V) as RS.
  assert (B0 : Z.testbit v 0 = true -> error_bit v) by (intro; exists 0; split; [lia|split; [lia|assumption]]).
  assert (HL : l = (if Z.testbit v 0 then LError else if relevant v then LWarn else LOk)).
  { destruct (Z.eqb_spec v 0) as [->|Z0]; [injection H as <- _ _; reflexivity|].
    destruct n as [|c|]; [| |discriminate]; cbn in H.
    - injection H as <- _ _. reflexivity.
    - destruct (list_errors get 0 (Z.to_nat c)); [|discriminate]. injection H as <- _ _. reflexivity. }
  subst l. clear H. destruct (Z.testbit v 0) eqn:T; [|destruct (relevant v) eqn:R].
  - specialize (B0 eq_refl). split; [tauto|]. split; split; intros K; try discriminate; try tauto. destruct K; discriminate.
  - assert (E : error_bit v) by (apply RS; reflexivity). split; [split; discriminate|]. split; split; intros K; try discriminate; tauto.
  - assert (E : ~ error_bit v) by (intro E; apply RS in E; discriminate). split; [split; discriminate|]. split; split; intros K; try discriminate; tauto.
Qed.
