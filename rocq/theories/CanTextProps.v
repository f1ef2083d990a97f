(** C01: what headers and texts of frames look like. *)
From Verif Require Import Base CanModel CanSpec CanProofs KeyModel KeySpec KeyProofs.

(** The headers made by the three kinds of constructors, by their identifier
    as the bus drivers have it: bit 29 marks errors, bit 30 remote requests, bit
    31 extended identifiers. *)
Theorem C01_headers : forall i rtr, 0 <= i < 2^29 ->
  fullid (MsgHeader i rtr) = i + (if rtr then 2^30 else 0) /\
  fullid (ExtendedHeader i rtr) = i + (if rtr then 2^30 else 0) + 2^31 /\
  fullid (ErrorHeader i) = i + 2^29 /\
  (header_isValid (MsgHeader i rtr) = true <-> i < 2^11) /\ header_isValid (ExtendedHeader i rtr) = true.
Proof.
  intros i rtr H. unfold MsgHeader, ExtendedHeader, ErrorHeader, Header. rewrite Z.mod_small by lia.
  rewrite !fullid_sum by (unfold header_ok; cbn [h_id]; lia). cbn [h_id h_ext h_rtr h_err header_isValid].
  unfold header_isValid. cbn [h_id h_ext]. repeat split; intros; destruct rtr; cbn [b2z] in *; lia.
Qed.
Print Assumptions C01_headers.

(** Text of a valid frame: the hexadecimal number made of identifier, error and
    remote request bits, with 8 digits for extended frames and without leading
    zeros otherwise; the character #; two digits for each byte. All letters have
    the requested case. *)
Definition no_letters (lower : bool) (c : Z) : Prop := if lower then ~ (65 <= c <= 90) else ~ (97 <= c <= 122).

Lemma dec2hex_case : forall d lc, 0 <= d < 16 -> no_letters lc (dec2hex d lc).
Proof.
  intros d lc H. unfold no_letters, dec2hex. destruct (Z.ltb_spec d 10), (Z.ltb_spec d 16), lc; cbn [andb negb]; lia.
Qed.
Lemma hex_digits_case : forall fuel n lc acc, 0 <= n -> Forall (no_letters lc) acc -> Forall (no_letters lc) (hex_digits fuel n lc acc).
Proof.
  induction fuel as [|k IH]; intros n lc acc Hn H; cbn [hex_digits]; [exact H|].
  assert (F : Forall (no_letters lc) (dec2hex (n mod 16) lc :: acc)) by (constructor; [apply dec2hex_case; lia|exact H]).
  destruct (n / 16 =? 0); [exact F|]. apply IH; [lia|exact F].
Qed.
Lemma hex_digits_lead : forall fuel n lc acc, 0 < n < 16 ^ Z.of_nat fuel -> (0 < fuel)%nat -> hd 0 (hex_digits fuel n lc acc) <> 48.
Proof.
  induction fuel as [|k IH]; intros n lc acc Hn Hf; [lia|]. cbn [hex_digits].
  destruct (Z.eqb_spec (n / 16) 0) as [E|E].
  - cbn [hd]. unfold dec2hex. destruct (n mod 16 <? 10) eqn:L; [lia|]. destruct ((n mod 16 <? 16) && lc); [lia|]. destruct ((n mod 16 <? 16) && negb lc); lia.
  - rewrite Nat2Z.inj_succ, Z.pow_succ_r in Hn by lia. apply IH; [lia|].
    destruct k; [cbn in Hn; lia|lia].
Qed.
Lemma buffer2hex_case : forall bs lc, bytes_ok bs -> Forall (no_letters lc) (buffer2hex bs lc).
Proof.
  induction bs as [|b bs IH]; intros lc H; [constructor|]. inversion H; subst. cbn [buffer2hex]. rewrite byte2hex_pad by assumption. unfold byte_ok in *.
  cbn [app]. constructor; [apply dec2hex_case; lia|]. constructor; [apply dec2hex_case; lia|apply IH; assumption].
Qed.
Lemma zeros_digits : forall k t x, digits 16 t x -> digits 16 (repeat 48 k ++ t) x.
Proof.
  intros k t x H. induction H as [c d Hc Hd|t x c d H IH Hc Hd].
  - assert (Zs : forall k, digits 16 (repeat 48 (S k)) 0).
    { induction k0 as [|k0 IH]; [apply digits_one; [apply hex2dec_spec; reflexivity|lia]|].
      replace (repeat 48 (S (S k0))) with (repeat 48 (S k0) ++ [48]) by (cbn [repeat app]; f_equal; symmetry; apply repeat_cons). change (digits 16 (repeat 48 (S k0) ++ [48]) (0 * 16 + 0)). apply digits_more; [exact IH|apply hex2dec_spec; reflexivity|lia]. }
    destruct k as [|k]; [apply digits_one; assumption|]. replace d with (0 * 16 + d) by lia. apply digits_more; [apply Zs|assumption|assumption].
  - rewrite app_assoc. apply digits_more; assumption.
Qed.

Theorem C01_text_shape : forall f lc, valid_frame f -> exists pre post,
  tostring_frame f lc = Ok (pre ++ str "#" ++ post) /\ hex_text post (payload f) /\
  digits 16 pre (h_id (f_hdr f) + (if h_err (f_hdr f) then 2^29 else 0) + (if h_rtr (f_hdr f) then 2^30 else 0)) /\
  (if h_ext (f_hdr f) then List.length pre = 8%nat else hd 0 pre <> 48 \/ pre = str "0") /\
  Forall (no_letters lc) (pre ++ post).
Proof.
  intros f lc ((Hh & Hd & Hl & Hb) & Hn & _). exists (tostring_header (f_hdr f) lc), (buffer2hex (payload f) lc).
  assert (BP : bytes_ok (payload f)) by (unfold payload, bytes_ok; apply Forall_forall; intros x Hx; unfold bytes_ok in Hb; rewrite Forall_forall in Hb; apply Hb; rewrite <- (firstn_skipn (Z.to_nat (f_dlc f)) (f_data f)); apply in_or_app; left; exact Hx).
  split; [|split; [|split; [|split]]].
  - unfold tostring_frame. replace (f_dlc f <=? 8) with true by (symmetry; apply Z.leb_le; lia). reflexivity.
  - apply hex2buffer_strict. apply hex2buffer_buffer2hex. exact BP.
  - unfold tostring_header. rewrite fullid_noext by exact Hh.
    replace (_ + (if h_err (f_hdr f) then 2^29 else 0) + _) with (word (f_hdr f)) by (unfold word; destruct (h_err (f_hdr f)), (h_rtr (f_hdr f)); cbn [b2z]; lia).
    pose proof (word_range _ Hh) as W. assert (D : digits 16 (print_hex (word (f_hdr f)) lc) (word (f_hdr f))) by (apply print_hex_digits; lia).
    destruct (h_ext (f_hdr f)); [unfold pad8; apply zeros_digits; exact D|exact D].
  - unfold tostring_header. rewrite fullid_noext by exact Hh. destruct (h_ext (f_hdr f)).
    + unfold pad8. rewrite app_length, repeat_length. pose proof (print_hex_len8 (word (f_hdr f)) lc). lia.
    + pose proof (word_range _ Hh) as W. destruct (Z.eq_dec (word (f_hdr f)) 0) as [E|E]; [right; rewrite E; reflexivity|left].
      unfold print_hex. apply hex_digits_lead; [change (16 ^ Z.of_nat 8) with (2^32); lia|lia].
  - apply Forall_app. split; [|apply buffer2hex_case; exact BP].
    unfold tostring_header. rewrite fullid_noext by exact Hh. pose proof (word_range _ Hh) as W.
    assert (F : Forall (no_letters lc) (print_hex (word (f_hdr f)) lc)) by (apply hex_digits_case; [lia|constructor]).
    destruct (h_ext (f_hdr f)); [|exact F]. unfold pad8. apply Forall_app. split; [|exact F].
    apply Forall_forall. intros x H. apply repeat_spec in H. subst x. unfold no_letters. destruct lc; lia.
Qed.
Print Assumptions C01_text_shape.
Example C01_text_ex :
  valid_frame (mkFrame (mkHeader 171 true true false) 2 [1; 171; 0; 0; 0; 0; 0; 0]) /\
  tostring_frame (mkFrame (mkHeader 171 true true false) 2 [1; 171; 0; 0; 0; 0; 0; 0]) false = Ok (str "400000AB#01AB") /\
  tostring_frame (mkFrame (mkHeader 171 false false false) 2 [1; 171; 0; 0; 0; 0; 0; 0]) true = Ok (str "ab#01ab").
Proof.
  split; [|split; vm_compute; reflexivity]. split; [|split; cbn; [lia|discriminate]].
  split; [unfold header_ok; cbn; lia|]. split; [cbn; lia|]. split; [reflexivity|]. repeat constructor; unfold byte_ok; lia.
Qed.
