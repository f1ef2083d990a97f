(** Property C43: emergency messages. *)
From Verif Require Import Base CanModel EmcyModel EmcySpec EmcyProofs.

(** The last message decides, whatever happened before it: an error is reported
    exactly if its error register has a bit other than the profile specific one. *)
Theorem C43_last_message_partial : forall h1 d h2, bytes_ok d ->
  existsb is_emergency h2 = false -> existsb clears h2 = false ->
  (read_error true (final (h1 ++ Emergency d :: h2)) = true <-> error_bit (nth 2 d 0)).
Proof. exact last_message. Qed.
Print Assumptions C43_last_message_partial.

Example C43_ex1 :
  let d := [0x10; 0x81; 0x11; 0; 0; 0; 0; 0] in
  let h1 := [ReadRegister (Some 0); ClearList true] in let h2 := [ReadRegister None; ReadRegister (Some 17)] in
  bytes_ok d /\ existsb is_emergency h2 = false /\ existsb clears h2 = false /\
  read_error true (final (h1 ++ Emergency d :: h2)) = true /\ error_bit 0x11.
Proof.
  cbn. repeat split; auto.
  - repeat (apply Forall_cons; [unfold byte_ok; lia|]). constructor.
  - exists 0. repeat split; lia.
Qed.

(** A message with the profile specific bit only clears the error state. *)
Theorem C43_profile_bit_refuted : forall h1 d, nth 2 d 0 = 32 -> read_error true (final (h1 ++ [Emergency d])) = false.
Proof.
  intros h1 d H. unfold final, read_error. rewrite run_app, run_cons. cbn. unfold msg_register. rewrite H. reflexivity.
Qed.
Print Assumptions C43_profile_bit_refuted.

(** The code of a message is not kept: messages that differ in it only leave the
    same state. *)
Theorem C43_code_refuted : forall h1 d1 d2 h2, nth 2 d1 0 = nth 2 d2 0 ->
  final (h1 ++ Emergency d1 :: h2) = final (h1 ++ Emergency d2 :: h2).
Proof.
  intros h1 d1 d2 h2 H. unfold final. rewrite !run_app, !run_cons. cbn. unfold msg_register. rewrite H. reflexivity.
Qed.
Print Assumptions C43_code_refuted.

(** Before the first initialisation an error is reported. *)
Theorem C43_unknown_is_error : forall h, existsb is_emergency h = false -> existsb clears h = false ->
  read_error true (final h) = true.
Proof. intros h A B. unfold read_error, final. rewrite kept by assumption. reflexivity. Qed.
Print Assumptions C43_unknown_is_error.

(** After an init or recover that succeeded no error is reported until the next message. *)
Theorem C43_cleared : forall h1 e s1 h2, step e (final h1) = (s1, InitOk) -> existsb is_emergency h2 = false ->
  read_error true (final (h1 ++ e :: h2)) = false.
Proof. exact cleared. Qed.
Print Assumptions C43_cleared.

(** It succeeds only after the device answered with a register whose bit 0 is clear. *)
Theorem C43_init_checked : forall h e s1, step e (final h) = (s1, InitOk) ->
  exists a v b, h = a ++ ReadRegister (Some v) :: b /\ Z.testbit v 0 = false /\ forall e', In e' b -> forall ok, e' <> ClearList ok.
Proof. intros h e s1 H. apply init_ok_spec in H. apply clearing_phase, H. Qed.
Print Assumptions C43_init_checked.

Example C43_ex2 : step (ClearList true) (final [Emergency [0;0;1;0;0;0;0;0]; ReadRegister (Some 2)]) = (mkEmcy false Idle, InitOk).
Proof. reflexivity. Qed.

(** A message that arrives while the error list is being cleared is lost: the
    device has an error, nothing is reported. *)
Theorem C43_race_refuted : forall d, Z.testbit (nth 2 d 0) 0 = true ->
  let h := [ReadRegister (Some 0); Emergency d; ClearList true] in
  snd (run h new_emcy) = [Nothing; Logged (if msg_code d =? 0 then LogReset d else LogError d); InitOk] /\
  read_error true (final h) = false.
Proof. intros d H. split; reflexivity. Qed.
Print Assumptions C43_race_refuted.

(** Diagnostics: error, warning and ok partition the registers, every bit but the
    profile specific one is visible at every report until the device resets it. *)
Theorem C43_diag_level : forall v n get l r its, 0 <= v < 256 -> handle_diag (Some v) n get = Diag l r its ->
  (l = LError <-> Z.testbit v 0 = true) /\
  (l = LWarn <-> Z.testbit v 0 = false /\ error_bit v) /\
  (l = LOk <-> ~ error_bit v).
Proof. exact diag_level. Qed.
Print Assumptions C43_diag_level.

(** The stored errors are listed in order, all of them or those before the first
    that cannot be read. *)
Theorem C43_diag_list : forall v n get l r its, v <> 0 -> handle_diag (Some v) (NumVal n) get = Diag l r its ->
  r = Some v /\
  (listed get (Z.to_nat n) its \/
   exists k its0, (k < Z.to_nat n)%nat /\ its = its0 ++ [Underflow] /\ listed get k its0 /\ get (Z.of_nat k + 1) = ETimeout).
Proof. exact diag_list. Qed.
Print Assumptions C43_diag_list.

Example C43_ex3 : handle_diag (Some 4) (NumVal 3) (fun i => if i =? 1 then EVal 0x00028110 else if i =? 2 then ENotInDict else ETimeout)
  = Diag LWarn (Some 4) [Field 0x8110 2; NotInDict; Underflow].
Proof. reflexivity. Qed.

(** The frames listened to are those with the id and format in object 1014. *)
Theorem C43_listener : forall val, 0 <= val < 2^32 ->
  h_id (emcy_header val) = val mod 2^29 /\ h_ext (emcy_header val) = Z.testbit val 29 /\
  h_rtr (emcy_header val) = false /\ h_err (emcy_header val) = false.
Proof. intros val H. unfold emcy_header, Header. cbn [h_id h_ext h_rtr h_err]. rewrite Z.mod_mod by lia. auto. Qed.
Print Assumptions C43_listener.

(** Also if object 1014 says that the device sends none (bit 31). *)
Theorem C43_disabled_refuted : forall val, 0 <= val < 2^31 -> emcy_header (val + 2^31) = emcy_header val.
Proof.
  intros val H. unfold emcy_header. f_equal.
  - replace (2^31) with (4 * 2^29) by lia. rewrite Z_mod_plus_full. reflexivity.
  - rewrite !testbit_div by lia. replace (2^31) with (4 * 2^29) by lia. rewrite Z.div_add by lia.
    replace (val / 2^29 + 4) with (val / 2^29 + 2 * 2) by lia. rewrite Z_mod_plus_full. reflexivity.
Qed.
Print Assumptions C43_disabled_refuted.

(** Every message is logged once: as the end of errors if its code is zero, as an
    error otherwise. *)
Theorem C43_logged : forall h d, bytes_ok d -> (8 <= List.length d)%nat ->
  exists os, snd (run (h ++ [Emergency d]) new_emcy) = os ++ [Logged (LogReset d)] /\ nth 0 d 0 = 0 /\ nth 1 d 0 = 0 \/
             snd (run (h ++ [Emergency d]) new_emcy) = os ++ [Logged (LogError d)] /\ (nth 0 d 0 <> 0 \/ nth 1 d 0 <> 0).
Proof.
  intros h d Hd Hl. assert (A : forall h s, exists os s1, run (h ++ [Emergency d]) s =
    (fst (step (Emergency d) s1), os ++ [Logged (if msg_code d =? 0 then LogReset d else LogError d)])).
  { clear. induction h as [|e h IH]; intros s; [exists [], s; reflexivity|]. cbn [app run]. destruct (step e s) as [s1 o].
    destruct (IH s1) as [os [s2 ->]]. exists (o :: os), s2. reflexivity. }
  destruct (A h new_emcy) as [os [s1 ->]]. exists os. cbn.
  assert (B : forall i, 0 <= nth i d 0 < 256).
  { intros i. destruct (Nat.lt_ge_cases i (List.length d)) as [L|L]; [|rewrite nth_overflow by exact L; lia].
    unfold bytes_ok in Hd. rewrite Forall_forall in Hd. apply Hd, nth_In, L. }
  pose proof (B 0%nat). pose proof (B 1%nat). unfold msg_code. destruct (Z.eqb_spec (nth 0 d 0 + 256 * nth 1 d 0) 0); [left|right]; (split; [reflexivity|lia]).
Qed.
Print Assumptions C43_logged.

Example C43_ex4 : snd (run [Emergency [0; 0; 0; 0; 0; 0; 0; 0]; Emergency [0; 0x81; 0x11; 0; 0; 0; 0; 0]] new_emcy) =
  [Logged (LogReset [0; 0; 0; 0; 0; 0; 0; 0]); Logged (LogError [0; 0x81; 0x11; 0; 0; 0; 0; 0])].
Proof. reflexivity. Qed.
