(** C101: descriptions of bus errors. *)
From Coq Require Import Lia ZArith.
From Verif Require Import Base SocketCanModel SocketCanSpec SocketCanProofs.

(** the conditions that have a description *)
Definition described : list Z := [0; 1; 2; 3; 4; 6; 8].
(** the parts of a description, by the bits of the error *)
Definition parts (b0 b1 b2 b3 b4 b6 b8 : bool) : text :=
  (if b0 then str "TX timeout (by netdevice driver);" else []) ++ (if b1 then str "lost arbitration;" else []) ++ (if b2 then str "controller problems;" else []) ++
  (if b3 then str "protocol violations;" else []) ++ (if b4 then str "transceiver status;" else []) ++ (if b6 then str "bus off;" else []) ++ (if b8 then str "controller restarted;" else []).
Lemma has_pow e i : 0 <= i -> has e (2 ^ i) = Z.testbit e i.
Proof.
  intros I0. destruct (Z.testbit e i) eqn:T.
  - apply has_bits. exists i. split; [exact I0|]. split; [exact T|]. apply Z.pow2_bits_true. exact I0.
  - destruct (has e (2 ^ i)) eqn:H; [|reflexivity]. apply has_bits in H as (j & J & A & B). rewrite Z.pow2_bits_eqb in B by exact I0. apply Z.eqb_eq in B. subst j. congruence.
Qed.
Lemma translate_parts e : e <> 0 ->
  translateError e [] = (existsb (Z.testbit e) described,
    parts (Z.testbit e 0) (Z.testbit e 1) (Z.testbit e 2) (Z.testbit e 3) (Z.testbit e 4) (Z.testbit e 6) (Z.testbit e 8)).
Proof.
  intros N. unfold translateError. rewrite (proj2 (Z.eqb_neq e 0) N). unfold append_if.
  change CAN_ERR_TX_TIMEOUT with (2 ^ 0). change CAN_ERR_LOSTARB with (2 ^ 1). change CAN_ERR_CRTL with (2 ^ 2). change CAN_ERR_PROT with (2 ^ 3).
  change CAN_ERR_TRX with (2 ^ 4). change CAN_ERR_BUSOFF with (2 ^ 6). change CAN_ERR_RESTARTED with (2 ^ 8). rewrite !has_pow by lia. unfold described, existsb.
  destruct (Z.testbit e 0), (Z.testbit e 1), (Z.testbit e 2), (Z.testbit e 3), (Z.testbit e 4), (Z.testbit e 6), (Z.testbit e 8); vm_compute; reflexivity.
Qed.
(** the first part is present if and only if the text begins with it *)
Fixpoint starts (p t : text) : bool :=
  match p, t with
  | [], _ => true
  | a :: p, b :: t => (a =? b) && starts p t
  | _, [] => false
  end.
Definition drop (p t : text) : bool * text := if starts p t then (true, skipn (List.length p) t) else (false, t).
Definition decode (t : text) : bool * bool * bool * bool * bool * bool * bool :=
  let '(b0, t) := drop (str "TX timeout (by netdevice driver);") t in let '(b1, t) := drop (str "lost arbitration;") t in let '(b2, t) := drop (str "controller problems;") t in
  let '(b3, t) := drop (str "protocol violations;") t in let '(b4, t) := drop (str "transceiver status;") t in let '(b6, t) := drop (str "bus off;") t in
  let '(b8, _) := drop (str "controller restarted;") t in (b0, b1, b2, b3, b4, b6, b8).
Lemma decode_parts b0 b1 b2 b3 b4 b6 b8 : decode (parts b0 b1 b2 b3 b4 b6 b8) = (b0, b1, b2, b3, b4, b6, b8).
Proof. destruct b0, b1, b2, b3, b4, b6, b8; vm_compute; reflexivity. Qed.

(** C101. Errors with the same description have the same conditions, as far as these have a description at all. *)
Theorem C101_conditions : forall e e', e <> 0 -> e' <> 0 -> snd (translateError e []) = snd (translateError e' []) ->
  forall i, In i [0; 1; 2; 3; 4; 6; 8] -> Z.testbit e i = Z.testbit e' i.
Proof.
  intros e e' N N' H. rewrite !translate_parts in H by assumption. cbn [snd] in H. apply (f_equal decode) in H. rewrite !decode_parts in H. injection H as H0 H1 H2 H3 H4 H6 H8.
  intros i I'. repeat (destruct I' as [<-|I']; [assumption|]). destruct I'.
Qed.
(** C101. Without error, and only then, the description is "OK". *)
Theorem C101_ok : forall e, snd (translateError e []) = str "OK" <-> e = 0.
Proof.
  intros e. split; [|intros ->; vm_compute; reflexivity]. intros H. destruct (Z.eq_dec e 0) as [E|N]; [exact E|]. exfalso. rewrite translate_parts in H by exact N. cbn [snd] in H.
  revert H. destruct (Z.testbit e 0), (Z.testbit e 1), (Z.testbit e 2), (Z.testbit e 3), (Z.testbit e 4), (Z.testbit e 6), (Z.testbit e 8); vm_compute; discriminate.
Qed.
(** C101. There is a description exactly if one of these conditions holds. *)
Theorem C101_described_partial : forall e, fst (translateError e []) = true <-> e = 0 \/ exists i, In i [0; 1; 2; 3; 4; 6; 8] /\ Z.testbit e i = true.
Proof.
  intros e. destruct (Z.eq_dec e 0) as [->|N]; [split; [left; reflexivity|vm_compute; reflexivity]|]. rewrite translate_parts by exact N. cbn [fst]. rewrite existsb_exists. split.
  - intros (i & A & B). right. exists i. auto.
  - intros [E|(i & A & B)]; [contradiction|exists i; auto].
Qed.
(** C101. Every condition has a description: refuted. A missing acknowledgement and a bus error, which is fatal by default, have none. *)
Theorem C101_refuted : forall i, In i [5; 7] -> In i conditions /\ translateError (2 ^ i) [] = (false, []) /\ (i = 7 -> default_fatal i = true) /\
  forall e, e <> 0 -> e <> 2 ^ i -> snd (translateError (Z.lor e (2 ^ i)) []) = snd (translateError e []).
Proof.
  intros i I'. assert (C : i = 5 \/ i = 7) by (destruct I' as [<-|[<-|[]]]; auto). split; [destruct C; subst; cbn; tauto|].
  split; [destruct C; subst; vm_compute; reflexivity|]. split; [intros ->; reflexivity|]. intros e N N'.
  assert (L : Z.lor e (2 ^ i) <> 0). { intros E. apply Z.lor_eq_0_iff in E as [E _]. contradiction. }
  rewrite !translate_parts by assumption. cbn [snd]. rewrite !Z.lor_spec. destruct C; subst i; rewrite !Z.pow2_bits_eqb by lia; cbn [Z.eqb Pos.eqb]; rewrite !orb_false_r; reflexivity.
Qed.
Example C101_example : translateError 65 [] = (true, str "TX timeout (by netdevice driver);bus off;") /\ translateError 0 [] = (true, str "OK") /\ translateError 160 [] = (false, []) /\
  translateError 0x1A0 [] = (true, str "controller restarted;").
Proof. vm_compute. repeat split. Qed.
Print Assumptions C101_conditions.
Print Assumptions C101_ok.
Print Assumptions C101_described_partial.
Print Assumptions C101_refuted.
