(** Shared vocabulary of the model: bytes, texts, bit fields. *)
From Coq Require Export ZArith List Bool Lia Ascii String.
From Coq Require Export ZifyBool ZifyNat ZifyN.
Export ListNotations.
Open Scope Z_scope.
Ltac Zify.zify_post_hook ::= Z.div_mod_to_equations.

(** A byte / character is a [Z] in [0, 256); C++ [uint8_t], [unsigned char] and
    the characters of a [std::string] are all modelled this way. *)
Definition byte_ok (b : Z) : Prop := 0 <= b < 256.
Definition bytes := list Z.
Definition bytes_ok (l : bytes) : Prop := Forall byte_ok l.

(** Texts are lists of character codes; [str] converts a Coq literal. *)
Definition text := list Z.
Definition str (s : string) : text :=
  map (fun c => Z.of_nat (nat_of_ascii c)) (list_ascii_of_string s).

(** Fixed width unsigned arithmetic. *)
Definition u8  (x : Z) : Z := x mod 2^8.
Definition u16 (x : Z) : Z := x mod 2^16.
Definition u32 (x : Z) : Z := x mod 2^32.
Definition u64 (x : Z) : Z := x mod 2^64.

(** [x & mask] for a test on one flag: true iff some bit of [mask] is set. *)
Definition has (x mask : Z) : bool := negb (Z.land x mask =? 0).

Definition b2z (b : bool) : Z := if b then 1 else 0.

(** Outcome of code that may run into undefined behaviour. *)
Inductive outcome (A : Type) : Type :=
| Ok (a : A)
| Undef.
Arguments Ok {A} _.
Arguments Undef {A}.

(** ** Bit lemmas *)

Lemma lor_disjoint_add : forall n a b,
  0 <= n -> 0 <= a < 2^n -> Z.lor a (b * 2^n) = a + b * 2^n.
Proof.
  intros n a b Hn Ha.
  rewrite <- Z.shiftl_mul_pow2 by lia.
  apply eq_sym. rewrite Z.add_nocarry_lxor.
  - rewrite Z.lxor_lor; [reflexivity|].
    apply Z.bits_inj'. intros k Hk.
    rewrite Z.land_spec, Z.bits_0, Z.shiftl_spec by lia.
    destruct (Z.ltb_spec k n).
    + rewrite (Z.testbit_neg_r b) by lia. apply andb_false_r.
    + rewrite <- (Z.mod_small a (2^n)) by lia.
      rewrite Z.mod_pow2_bits_high by lia. reflexivity.
  - apply Z.bits_inj'. intros k Hk.
    rewrite Z.land_spec, Z.bits_0, Z.shiftl_spec by lia.
    destruct (Z.ltb_spec k n).
    + rewrite (Z.testbit_neg_r b) by lia. apply andb_false_r.
    + rewrite <- (Z.mod_small a (2^n)) by lia.
      rewrite Z.mod_pow2_bits_high by lia. reflexivity.
Qed.

Lemma land_ones_mod : forall a n, 0 <= n -> Z.land a (2^n - 1) = a mod 2^n.
Proof.
  intros a n Hn. rewrite <- Z.land_ones by lia. f_equal.
  rewrite Z.ones_equiv. lia.
Qed.

Lemma pow2_testbit_has : forall x n, 0 <= n -> has x (2^n) = Z.testbit x n.
Proof.
  intros x n Hn. unfold has.
  destruct (Z.testbit x n) eqn:E.
  - apply negb_true_iff, Z.eqb_neq. intro H.
    assert (Z.testbit (Z.land x (2^n)) n = false) by (rewrite H; apply Z.bits_0).
    rewrite Z.land_spec, E, Z.pow2_bits_true in H0 by lia. discriminate.
  - apply negb_false_iff, Z.eqb_eq. apply Z.bits_inj'. intros k Hk.
    rewrite Z.land_spec, Z.bits_0.
    destruct (Z.eq_dec k n).
    + subst. rewrite E. reflexivity.
    + rewrite Z.pow2_bits_false by lia. apply andb_false_r.
Qed.

Lemma testbit_div : forall x n, 0 <= n -> Z.testbit x n = ((x / 2^n) mod 2 =? 1).
Proof.
  intros. rewrite Z.testbit_odd, Z.shiftr_div_pow2 by lia.
  rewrite Zmod_odd. destruct (Z.odd (x / 2^n)); reflexivity.
Qed.

Lemma shiftr_div : forall x n, 0 <= n -> Z.shiftr x n = x / 2^n.
Proof. intros. apply Z.shiftr_div_pow2. lia. Qed.

Lemma shiftl_mul : forall x n, 0 <= n -> Z.shiftl x n = x * 2^n.
Proof. intros. apply Z.shiftl_mul_pow2. lia. Qed.

(** ** Finite ranges: [for all 0 <= x < n] by computation *)

Definition range (n : Z) : list Z := map Z.of_nat (seq 0 (Z.to_nat n)).

Lemma in_range : forall n x, 0 <= x < n -> In x (range n).
Proof.
  intros n x H. unfold range. apply in_map_iff.
  exists (Z.to_nat x). split; [lia|]. apply in_seq. lia.
Qed.

Lemma forall_range : forall n (p : Z -> bool),
  forallb p (range n) = true -> forall x, 0 <= x < n -> p x = true.
Proof.
  intros n p H x Hx. rewrite forallb_forall in H. apply H, in_range, Hx.
Qed.

(** ** Lists *)

Lemma skipn_length_le : forall A (l : list A) n, (List.length (skipn n l) <= List.length l)%nat.
Proof. intros. rewrite skipn_length. lia. Qed.

Fixpoint update_nth {A} (n : nat) (x : A) (l : list A) : list A :=
  match n, l with
  | _, [] => []
  | O, _ :: t => x :: t
  | S n', h :: t => h :: update_nth n' x t
  end.

Lemma update_nth_length : forall A (l : list A) n x,
  List.length (update_nth n x l) = List.length l.
Proof.
  induction l; intros [|n] x; simpl; auto.
Qed.

Lemma nth_error_update_nth_eq : forall A (l : list A) n x,
  (n < List.length l)%nat -> nth_error (update_nth n x l) n = Some x.
Proof.
  induction l; intros [|n] x H; simpl in *; try lia; auto. apply IHl. lia.
Qed.

Lemma nth_error_update_nth_neq : forall A (l : list A) n m x,
  n <> m -> nth_error (update_nth n x l) m = nth_error l m.
Proof.
  induction l; intros [|n] [|m] x H; simpl in *; try lia; auto.
Qed.
