(** Theorems about EDS files (C75, C76) and access by text (C77). *)
From Verif Require Import Base CanModel CanSpec CanProofs KeyModel KeySpec StorageModel EdsModel EdsSpec KeyProofs EdsProofs TextModel TextSpec TextProofs.

(** ** C75: the dictionary made from an EDS file *)

(** For files with variables, domains with data type, arrays and records with
    consecutive sub-objects, and values of numeric types. Missing: see the
    refutations below. [real] reads floating point numbers, [raw] is the object
    representation of node id offsets. *)
Theorem C75_dictionary_partial : forall real raw_string raw pt objs, shows_file real pt objs -> NoDup (map fst objs) ->
  exists inf d, from_file real raw_string raw pt [] = Some (inf, d) /\
    forall k, okey_ok k ->
      match wanted objs k with
      | Some (i, s, v) => exists e, lookup d (mk_key k) = Some e /\ describes raw i s v e
      | None => lookup d (mk_key k) = None
      end.
Proof. exact from_file_ok. Qed.
Print Assumptions C75_dictionary_partial.

(** A small file. *)
Definition ex_file : ini := [
  (str "FileInfo", [(str "FileName", str "ex.eds")]);
  (str "DeviceInfo", [(str "VendorName", str "ACME"); (str "BaudRate_500", str "1"); (str "BaudRate_20", str "0")]);
  (str "MandatoryObjects", [(str "SupportedObjects", str "2"); (str "1", str "0x1000"); (str "2", str "0x1018")]);
  (str "ManufacturerObjects", [(str "SupportedObjects", str "1"); (str "1", str "0x2A00")]);
  (str "1000", [(str "ParameterName", str "Device type"); (str "ObjectType", str "0x7"); (str "DataType", str "0x0007");
                (str "AccessType", str "ro"); (str "DefaultValue", str "0x00020192"); (str "PDOMapping", str "0")]);
  (str "1018", [(str "ParameterName", str "Identity"); (str "ObjectType", str "9"); (str "SubNumber", str "2")]);
  (str "1018sub0", [(str "ParameterName", str "entries"); (str "ObjectType", str "7"); (str "DataType", str "5");
                    (str "AccessType", str "const"); (str "DefaultValue", str "1")]);
  (str "1018sub1", [(str "ParameterName", str "cob"); (str "Denotation", str "COB-ID"); (str "DataType", str "0x7");
                    (str "AccessType", str "RW"); (str "DefaultValue", str "$NODEID + 0x600"); (str "PDOMapping", str "1")]);
  (str "2a00", [(str "ParameterName", str "offset"); (str "DataType", str "3"); (str "AccessType", str "rww");
                (str "ParameterValue", str "-5"); (str "PDOMapping", str "true")])].
Definition ex_sub1 : var := mkVar 7 7 RW true (str "COB-ID") (Some (NodeIdPlus 1536)) None.
Definition ex_objs : list (Z * obj) := [
  (4096, OVar (mkVar 7 7 RO false (str "Device type") (Some (Number 131474)) None));
  (4120, OSubs 9 [mkVar 7 5 CONST false (str "entries") (Some (Number 1)) None; ex_sub1]);
  (10752, OVar (mkVar 7 3 RWW true (str "offset") None (Some (Number (-5)))))].

Ltac show_name := vm_compute; reflexivity.
Ltac show_has := apply child_in; reflexivity.
Ltac show_lacks := intros k' a I E; cbn [In ex_file] in I;
  repeat (destruct I as [I|I]; [injection I as <- <-; vm_compute in E; discriminate E|]); destruct I.
Ltac show_unique := unfold unique; cbn [map fst]; repeat constructor; cbn [In]; intros I;
  repeat (destruct I as [I|I]; [vm_compute in I; discriminate I|]); exact I.
Lemma digits_by : forall base t x, 1 < base -> base <= 36 -> t <> [] ->
  forallb (fun c => match hex2dec c with Some d => d <? base | None => false end) t = true ->
  fold_left (fun a c => match hex2dec c with Some d => a * base + d | None => a end) t 0 = x -> digits base t x.
Proof.
  intros base t x HB HM. revert x. induction t as [|c t IH] using rev_ind; intros x N A V; [congruence|].
  rewrite forallb_app in A. apply andb_true_iff in A. destruct A as [A1 A2]. cbn [forallb] in A2.
  rewrite fold_left_app in V. cbn [fold_left] in V. destruct (hex2dec c) as [d|] eqn:E; [|discriminate]. subst x.
  apply hex2dec_spec in E. destruct t as [|c0 t].
  - cbn [fold_left app]. rewrite Z.mul_0_l, Z.add_0_l. apply digits_one; [exact E|lia].
  - apply digits_more; [apply IH; [discriminate|exact A1|reflexivity]|exact E|lia].
Qed.
Ltac show_digits := apply digits_by; [lia|lia|discriminate|vm_compute; reflexivity|vm_compute; reflexivity].
Ltac show_numeral := first [
  exact num_zero |
  apply num_dec; [show_digits|vm_compute; discriminate] |
  match goal with |- unsigned_numeral ?t ?x => change (unsigned_numeral (str "0x" ++ skipn 2 t) x); apply num_hex; show_digits end].
Ltac show_number := eexists; split; [show_has|show_numeral].

Ltac show_truth := match goal with |- truth_text _ ?t => exists [], t, []; split; [constructor|split; [constructor|split; [reflexivity|cbn; auto]]] end.
Ltac show_var := constructor; cbn [v_code v_type v_access v_map v_name v_def v_init ex_sub1];
  [first [left; show_number|right; split; [show_lacks|reflexivity]]
  |lia
  |split; [show_number|lia]
  |eexists; split; [show_has|show_name]
  |first [left; eexists; split; [show_has|show_truth]|right; split; [show_lacks|reflexivity]]
  |eexists; split; [show_has|first [left; show_has|right; split; [show_lacks|reflexivity]]]
  |eexists; split; [reflexivity|split]].
Ltac show_hex := split; [show_digits|first [left; vm_compute; discriminate|right; reflexivity]].
Ltac show_plain := eexists; split; [show_has|];
  match goal with |- shows_value _ _ ?t _ => exists (mkIty false 4), [], t, [] end.

Lemma ex_shows : forall real, shows_file real ex_file ex_objs.
Proof.
  intros real. split; [split|split; [|split]].
  - show_unique.
  - intros k s I. cbn [In ex_file] in I. repeat (destruct I as [I|I]; [injection I as <- <-; show_unique|]). destruct I.
  - eexists. split; [show_has|]. intros k t I r E. cbn [In] in I.
    repeat (destruct I as [I|I]; [injection I as <- <-; try (vm_compute in E; discriminate E); first [solve [exists true; show_truth]|solve [exists false; show_truth]]|]). destruct I.
  - intros s (k & I & E). exfalso. cbn [In ex_file] in I. repeat (destruct I as [I|I]; [injection I as <- <-; vm_compute in E; discriminate E|]). destruct I.
  - exists (firstn 2 ex_objs), [], (skipn 2 ex_objs). split; [reflexivity|]. split; [|split].
    + right. eexists. split; [show_has|]. split; [show_number|]. split; [cbn; lia|].
      intros [|[|i]] x o N; [| |destruct i; discriminate N]; injection N as <- <-.
      * exists (str "1"), (str "1000"). split; [split; [show_digits|vm_compute; discriminate]|]. split; [show_has|]. split; [show_digits|]. split; [lia|].
        split; [left; reflexivity|]. eexists. split; [show_has|]. show_var.
        -- eexists. split; [show_has|]. exists (mkIty false 4), [], (str "0x00020192"), []. split; [reflexivity|].
           split; [cbn; lia|]. split; [apply num_pos; show_numeral|]. repeat split; constructor.
        -- show_lacks.
      * exists (str "2"), (str "1018"). split; [split; [show_digits|vm_compute; discriminate]|]. split; [show_has|]. split; [show_digits|]. split; [lia|].
        split; [right; reflexivity|]. split.
        { eexists _, _. split; [show_has|]. split; [show_number|]. split; [show_has|]. split; [show_lacks|show_number]. }
        split; [cbn; lia|]. intros [|[|i]] v N; [| |destruct i; discriminate N]; injection N as <-.
        -- exists (str "0"). eexists. split; [show_hex|]. split; [show_has|]. show_var.
           ++ eexists. split; [show_has|]. exists (mkIty false 1), [], (str "1"), []. split; [reflexivity|].
              split; [cbn; lia|]. split; [apply num_pos; show_numeral|]. repeat split; constructor.
           ++ show_lacks.
        -- exists (str "1"). eexists. split; [show_hex|]. split; [show_has|]. show_var.
           ++ eexists. split; [show_has|]. exists (mkIty false 4), [], (str "$NODEID"), [32]. split; [reflexivity|].
              split; [cbn; lia|]. split; [constructor|]. split; [repeat constructor; cbn; lia|]. split; [repeat constructor; cbn; auto|].
              right. exists [32], [], (str "0x600"). split; [repeat constructor; cbn; auto|]. split; [constructor|].
              split; [apply num_pos; show_numeral|left; reflexivity].
           ++ show_lacks.
    + left. split; [show_lacks|reflexivity].
    + right. eexists. split; [show_has|]. split; [show_number|]. split; [cbn; lia|].
      intros [|i] x o N; [|destruct i; discriminate N]; injection N as <- <-.
      exists (str "1"), (str "2A00"). split; [split; [show_digits|vm_compute; discriminate]|]. split; [show_has|]. split; [show_digits|]. split; [lia|].
      split; [left; reflexivity|]. eexists. split; [show_has|]. show_var.
      * show_lacks.
      * eexists. split; [show_has|]. exists (mkIty true 2), [], (str "-5"), []. split; [reflexivity|].
        split; [cbn; lia|]. split; [change (-5) with (- (5)); change (str "-5") with (str "-" ++ str "5"); apply num_neg; show_numeral|].
        repeat split; constructor.
Qed.
Example C75_ex : forall real raw_string raw,
  shows_file real ex_file ex_objs /\ NoDup (map fst ex_objs) /\
  wanted ex_objs (KSub 4120 1) = Some (4120, 1, ex_sub1) /\ wanted ex_objs (KSub 4120 2) = None /\
  exists inf d, from_file real raw_string raw ex_file [] = Some (inf, d) /\ List.length d = 4%nat.
Proof.
  intros real raw_string raw. split; [apply ex_shows|]. split; [repeat constructor; cbn; lia|]. split; [reflexivity|]. split; [reflexivity|].
  do 2 eexists. split; [vm_compute; reflexivity|reflexivity].
Qed.

(** Files with one object. *)
Definition one_object (objects : ini) : ini :=
  [(str "DeviceInfo", [(str "VendorNumber", str "0x0000000F"); (str "NrOfRXPDO", str "0x4")]);
   (str "OptionalObjects", [(str "SupportedObjects", str "1"); (str "1", str "0x2000")])] ++ objects.

(** An object given in compact form, of which the elements are all like: it gets sub-object 0 with
    the number of elements, and the elements before the last one.  Entries there before stay.
    Missing: the last element, names and values of single elements (see below). *)
Theorem C75_compact_partial : forall real raw_string raw pt n x s v m d, well_formed pt -> digits 16 n x -> x < 2^16 -> has pt n s ->
  shows_var real s v -> v_code v = 8 \/ v_code v = 9 -> shows_number s (str "CompactSubObj") m -> 0 < m < 256 ->
  exists d', parse_object real raw_string raw pt (str "0x" ++ n) d = Some d' /\ forall k, okey_ok k ->
    match lookup d (mk_key k), k with
    | Some e, _ => lookup d' (mk_key k) = Some e
    | None, KSub i 0 => if i =? x then exists e, lookup d' (mk_key k) = Some e /\ describes_nr x m e else lookup d' (mk_key k) = None
    | None, KSub i j => if (i =? x) && (j <? m) then exists e, lookup d' (mk_key k) = Some e /\ describes_element raw x j v e
                        else lookup d' (mk_key k) = None
    | None, KIndex _ => lookup d' (mk_key k) = None
    end.
Proof. exact parse_compact. Qed.
Print Assumptions C75_compact_partial.
Definition ex_info : ini := [(str "DeviceInfo", [(str "vendornumber", str "4294967295"); (str "NrOfRXPDO", str " 010")])].
Definition ex_compact : ini :=
  [(str "2000", [(str "ParameterName", str "a"); (str "ObjectType", str "8"); (str "DataType", str "6"); (str "AccessType", str "rw");
                 (str "CompactSubObj", str "3")])].
Example C75_compact_ex : forall real, well_formed ex_compact /\ exists s, has ex_compact (str "2000") s /\
  shows_var real s (mkVar 8 6 RW false (str "a") None None) /\ shows_number s (str "CompactSubObj") 3.
Proof.
  intro real. split; [split; [show_unique|intros k s [H|[]]; injection H as <- <-; show_unique]|].
  eexists. split; [show_has|]. split.
  - constructor; cbn [v_code v_type v_access v_map v_name v_def v_init].
    + left. eexists. split; [show_has|show_numeral].
    + lia.
    + split; [|lia]. eexists. split; [show_has|show_numeral].
    + eexists. split; [show_has|reflexivity].
    + right. split; [show_lacks|reflexivity].
    + eexists. split; [show_has|]. right. split; [show_lacks|reflexivity].
    + exists (Unsigned 2). split; [reflexivity|]. split; show_lacks.
  - eexists. split; [show_has|show_numeral].
Qed.

(** A compact array with two elements: the last one is missing, and the value
    given for the first one is ignored. *)
Theorem C75_compact_refuted : forall real raw_string raw, exists inf d e,
  from_file real raw_string raw (one_object
    [(str "2000", [(str "ParameterName", str "a"); (str "ObjectType", str "8"); (str "DataType", str "6"); (str "AccessType", str "rw");
                   (str "CompactSubObj", str "2")]);
     (str "2000Value", [(str "NrOfEntries", str "2"); (str "1", str "7"); (str "2", str "8")])]) [] = Some (inf, d) /\
  lookup d (mk_key (KSub 8192 1)) = Some e /\ d_init e = mkHold (Some (TInt U16)) None /\ lookup d (mk_key (KSub 8192 2)) = None.
Proof. intros. do 3 eexists. split; [vm_compute; reflexivity|]. split; [vm_compute; reflexivity|]. split; reflexivity. Qed.
Print Assumptions C75_compact_refuted.

(** Sub-indexes with a gap: the sub-object after the gap is missing. *)
Theorem C75_gap_refuted : forall real raw_string raw, exists inf d e,
  from_file real raw_string raw (one_object
    [(str "2000", [(str "ParameterName", str "r"); (str "ObjectType", str "9"); (str "SubNumber", str "2")]);
     (str "2000sub0", [(str "ParameterName", str "n"); (str "DataType", str "5"); (str "AccessType", str "ro")]);
     (str "2000sub5", [(str "ParameterName", str "x"); (str "DataType", str "5"); (str "AccessType", str "rw")])]) [] = Some (inf, d) /\
  lookup d (mk_key (KSub 8192 0)) = Some e /\ lookup d (mk_key (KSub 8192 5)) = None.
Proof. intros. do 3 eexists. split; [vm_compute; reflexivity|]. split; vm_compute; reflexivity. Qed.
Print Assumptions C75_gap_refuted.

(** What is read of an object with missing sub-objects: those below the number given in SubNumber, whichever
    of them there are. Missing: those above. *)
Theorem C75_gaps_partial : forall real raw_string raw pt n x s p code m sub d, well_formed pt -> digits 16 n x -> x < 2^16 -> has pt n s ->
  code = 8 \/ code = 9 -> shows_number s (str "ObjectType") code -> has s (str "ParameterName") p -> lacks s (str "CompactSubObj") ->
  shows_number s (str "SubNumber") m -> 0 <= m < 256 -> (forall j, 0 <= j < m -> shown_sub real pt n sub j) ->
  exists d', parse_object real raw_string raw pt (str "0x" ++ n) d = Some d' /\ forall k, okey_ok k ->
    match lookup d (mk_key k), k with
    | Some e, _ => lookup d' (mk_key k) = Some e
    | None, KSub y j => if (y =? x) && (j <? m) then
                          match sub j with
                          | Some v => exists e, lookup d' (mk_key k) = Some e /\ describes raw x j v e
                          | None => lookup d' (mk_key k) = None
                          end
                        else lookup d' (mk_key k) = None
    | None, KIndex _ => lookup d' (mk_key k) = None
    end.
Proof. exact parse_gaps. Qed.
Print Assumptions C75_gaps_partial.
Definition ex_gaps : ini := [
  (str "2000", [(str "ParameterName", str "r"); (str "ObjectType", str "9"); (str "SubNumber", str "3")]);
  (str "2000sub2", [(str "ParameterName", str "x"); (str "DataType", str "5"); (str "AccessType", str "rw")])].
Example C75_gaps_ex : forall real, well_formed ex_gaps /\ exists s p, has ex_gaps (str "2000") s /\ shows_number s (str "ObjectType") 9 /\
  has s (str "ParameterName") p /\ lacks s (str "CompactSubObj") /\ shows_number s (str "SubNumber") 3 /\
  forall j, 0 <= j < 3 -> shown_sub real ex_gaps (str "2000") (fun j => if j =? 2 then Some (mkVar 7 5 RW false (str "x") None None) else None) j.
Proof.
  intro real. split; [split; [show_unique|intros k s [H|[H|[]]]; injection H as <- <-; show_unique]|].
  do 2 eexists. split; [show_has|]. split; [show_number|]. split; [show_has|]. split; [show_lacks|]. split; [show_number|].
  intros j Hj. assert (C : j = 0 \/ j = 1 \/ j = 2) by lia. destruct C as [->|[->| ->]]; cbn [shown_sub Z.eqb Pos.eqb].
  - exists (str "0"). split; [show_hex|]. unfold ex_gaps. show_lacks.
  - exists (str "1"). split; [show_hex|]. unfold ex_gaps. show_lacks.
  - exists (str "2"). eexists. split; [show_hex|]. split; [show_has|]. show_var; show_lacks.
Qed.

(** A domain without data type (it is optional there) makes the whole file unusable. *)
Theorem C75_domain_refuted : forall real raw_string raw,
  from_file real raw_string raw (one_object [(str "2000", [(str "ParameterName", str "d"); (str "ObjectType", str "2"); (str "AccessType", str "rw")])]) [] = None.
Proof. reflexivity. Qed.
Print Assumptions C75_domain_refuted.

(** The value of a string object is the object representation of a C++ vector, and
    not its text. *)
Theorem C75_string_refuted : forall real raw_string raw t, exists inf d e,
  from_file real raw_string raw (one_object
    [(str "2000", [(str "ParameterName", str "s"); (str "DataType", str "9"); (str "AccessType", str "rw"); (str "ParameterValue", t)])]) [] = Some (inf, d) /\
  lookup d (mk_key (KIndex 8192)) = Some e /\ d_init e = mkHold (Some TStr) (Some (raw_string t)).
Proof. intros. do 3 eexists. split; [vm_compute; reflexivity|]. split; [vm_compute; reflexivity|reflexivity]. Qed.
Print Assumptions C75_string_refuted.

(** The value of an octet string or domain is dropped. *)
Theorem C75_octets_refuted : forall real raw_string raw ty t b, ty = str "0xA" \/ ty = str "0xF" -> hex_text t b -> exists inf d e,
  from_file real raw_string raw (one_object
    [(str "2000", [(str "ParameterName", str "s"); (str "DataType", ty); (str "AccessType", str "rw"); (str "ParameterValue", t)])]) [] = Some (inf, d) /\
  lookup d (mk_key (KIndex 8192)) = Some e /\ d_init e = mkHold (Some TStr) None.
Proof.
  intros real raw_string raw ty t b T X.
  assert (L : Z.of_nat (List.length t) mod 2 = 0) by (clear T; induction X; [reflexivity|cbn [List.length]; lia]).
  assert (E : hex2buffer t true = Some b).
  { unfold hex2buffer. rewrite L. cbn [Z.eqb negb]. apply hex2buffer_loop_spec; assumption. }
  destruct T as [-> | ->]; (do 3 eexists; split; [lazy -[hex2buffer]; rewrite E; reflexivity|]; split; [vm_compute; reflexivity|reflexivity]).
Qed.
Print Assumptions C75_octets_refuted.
(** ... and a text that spells no bytes is no error, but gives a value. *)
Theorem C75_no_octets_refuted : forall real raw_string raw ty t, ty = str "0xA" \/ ty = str "0xF" ->
  (forall b, ~ hex_text t b /\ ~ hex_text (48 :: t) b) -> exists inf d e,
  from_file real raw_string raw (one_object
    [(str "2000", [(str "ParameterName", str "s"); (str "DataType", ty); (str "AccessType", str "rw"); (str "ParameterValue", t)])]) [] = Some (inf, d) /\
  lookup d (mk_key (KIndex 8192)) = Some e /\ d_init e = mkHold (Some TStr) (Some (raw_string t)).
Proof.
  intros real raw_string raw ty t T X.
  assert (E : hex2buffer t true = None).
  { unfold hex2buffer. destruct (negb (Z.of_nat (List.length t) mod 2 =? 0)) eqn:L.
    - destruct (hex2buffer_loop (48 :: t)) as [b|] eqn:E; [|reflexivity]. apply hex2buffer_loop_spec in E; [destruct (X b); contradiction|cbn [List.length]; lia].
    - destruct (hex2buffer_loop t) as [b|] eqn:E; [|reflexivity]. apply hex2buffer_loop_spec in E; [destruct (X b); contradiction|lia]. }
  destruct T as [-> | ->]; (do 3 eexists; split; [lazy -[hex2buffer]; rewrite E; reflexivity|]; split; [vm_compute; reflexivity|reflexivity]).
Qed.
Print Assumptions C75_no_octets_refuted.
Example C75_no_octets_ex : forall b, ~ hex_text (str "0g") b /\ ~ hex_text (48 :: str "0g") b.
Proof.
  intros b. split; intros H.
  - apply hex2buffer_loop_spec in H; [discriminate|reflexivity].
  - inversion H as [|c1 c2 hi lo t' bs H1 H2 H3]; subst. inversion H3.
Qed.

(** A value out of the range of its type is accepted and another one is used. *)
Theorem C75_range_refuted : forall real raw_string raw, exists inf d e,
  from_file real raw_string raw (one_object
    [(str "2000", [(str "ParameterName", str "u"); (str "DataType", str "5"); (str "AccessType", str "rw"); (str "ParameterValue", str "300")])]) [] = Some (inf, d) /\
  lookup d (mk_key (KIndex 8192)) = Some e /\ d_init e = mkHold (Some (TInt U8)) (Some [44]).
Proof. intros. do 3 eexists. split; [vm_compute; reflexivity|]. split; [vm_compute; reflexivity|reflexivity]. Qed.
Print Assumptions C75_range_refuted.

Lemma match_lit_self : forall lit r, match_lit lit (lit ++ r) = Some r.
Proof. induction lit as [|c lit IH]; intros r; [destruct r; reflexivity|]. cbn [app match_lit]. rewrite Z.eqb_refl. apply IH. Qed.
Lemma flag_number : forall w0 n x w1 (minus : bool), spaces w0 -> spaces w1 -> digits 10 n x -> 2 <= x \/ (minus = true /\ x <> 0) ->
  get_bool (w0 ++ (if minus then str "-" else []) ++ n ++ w1) = None.
Proof.
  intros w0 n x w1 minus S0 S1 D X. unfold get_bool. rewrite skip_spaces by exact S0.
  assert (E : skip_space w1 = []) by (rewrite <- (app_nil_r w1), skip_spaces by exact S1; reflexivity).
  assert (St : stops w1).
  { destruct w1 as [|c w1]; [exact Logic.I|]. inversion S1 as [|? ? H _]; subst. cbn in H.
    unfold stops. repeat (destruct H as [<-|H]; [reflexivity|]). destruct H. }
  assert (N : scan_digits 10 (n ++ w1) 0 false = (x, true, w1)) by (apply digits_scan_stop; [lia|exact D|exact St]).
  assert (B : bool_word (skip_space w1) = None) by (rewrite E; reflexivity).
  assert (L : scan_sign (skip_space ((if minus then str "-" else []) ++ n ++ w1)) = (minus, n ++ w1)).
  { destruct minus.
    - reflexivity.
    - cbn [app]. pose proof (digits_all_hex _ _ _ D) as H. pose proof (digits_nonempty _ _ _ D) as H1.
      rewrite skip_space_hex by assumption. apply scan_sign_hex; assumption. }
  rewrite L, N. cbn [andb].
  replace ((x =? 0) || (x =? 1) && negb minus) with false; [rewrite B; reflexivity|].
  assert (0 <= x) by (apply (digits_nonneg 10 n x); [lia|exact D]).
  destruct minus; cbn [negb]; lia.
Qed.
(** Flags are 0, 1, true or false: a file with a flag that is another number, or -1, is refused. *)
Theorem C75_flag_refused : forall real raw_string raw pt ov di k t r w0 n x w1 (minus : bool), unique pt ->
  has pt (str "DeviceInfo") di -> In (k, t) di -> k = str "BaudRate_" ++ r ->
  spaces w0 -> spaces w1 -> digits 10 n x -> 2 <= x \/ (minus = true /\ x <> 0) ->
  t = w0 ++ (if minus then str "-" else []) ++ n ++ w1 ->
  from_file real raw_string raw pt ov = None.
Proof.
  intros real raw_string raw pt ov di k t r w0 n x w1 minus U D I K S0 S1 Dn X ->.
  assert (G : get_bool (w0 ++ (if minus then str "-" else []) ++ n ++ w1) = None) by exact (flag_number w0 n x w1 minus S0 S1 Dn X).
  unfold from_file. rewrite (child_has section pt (str "DeviceInfo") di U D).
  assert (F : flags_ok (str "BaudRate_") di = false).
  { unfold flags_ok. apply not_true_is_false. intro A. rewrite forallb_forall in A. specialize (A _ I). cbn [fst snd] in A.
    rewrite K in A. rewrite match_lit_self in A. rewrite G in A. discriminate. }
  rewrite F. reflexivity.
Qed.
Print Assumptions C75_flag_refused.

Lemma parse_names_none : forall real raw_string raw pt s n i k d, 0 <= i < k -> k <= i + Z.of_nat n ->
  match child (print_dec k) s with Some name => forall d, parse_object real raw_string raw pt name d = None | None => True end ->
  parse_names real raw_string raw pt s i n d = None.
Proof.
  intros real raw_string raw pt s. induction n as [|n IH]; intros i k d L1 L2 H; [lia|]. cbn [parse_names].
  destruct (Z.eq_dec (i + 1) k) as [->|N].
  - destruct (child (print_dec k) s) as [name|]; [|reflexivity]. rewrite H. reflexivity.
  - destruct (child (print_dec (i + 1)) s) as [name|]; [|reflexivity]. destruct (parse_object real raw_string raw pt name d) as [d'|]; [|reflexivity].
    apply (IH (i + 1) k); [lia|lia|exact H].
Qed.
(** A file that lists an object without name, or one of a type that is not supported, or fewer objects than it
    announces, is refused as a whole. *)
Theorem C75_object_refused : forall real raw_string raw pt g l c k t, well_formed pt ->
  In g [str "MandatoryObjects"; str "OptionalObjects"; str "ManufacturerObjects"] -> has pt g l ->
  shows_number l (str "SupportedObjects") c -> c < 2^16 -> decimal t k -> 1 <= k <= c ->
  lacks l t \/
  (exists n s, has l t (str "0x" ++ n) /\ has pt n s /\
     (lacks s (str "ParameterName") \/ exists code, shows_number s (str "ObjectType") code /\ code < 2^16 /\ ~ In code [2; 7; 8; 9])) ->
  from_file real raw_string raw pt [] = None.
Proof.
  intros real raw_string raw pt g l c k t W G HL SN C T K Bad.
  assert (P : forall d, parse_objects real raw_string raw pt g d = None).
  { intros d. unfold parse_objects. destruct (wf_section _ _ _ W HL) as [-> U].
    destruct (number_child l _ _ U16 U SN u16_type eq_refl) as (tc & -> & ->); [exact C|].
    apply (parse_names_none real raw_string raw pt l _ 0 k d); [lia|lia|].
    rewrite (child_equal text l (print_dec k) t).
    2:{ unfold names_equal. symmetry. apply dec_name; [exact T|]. change (2^16) with 65536 in C. lia. }
    destruct Bad as [Bad|(n & s & HN & HS & Bad)]; [rewrite (child_lacks _ _ _ Bad); exact Logic.I|].
    rewrite (child_has _ _ _ _ U HN). intros d1. unfold parse_object. rewrite section_of'. destruct (wf_section _ _ _ W HS) as [-> US].
    unfold start_entry. destruct Bad as [Bad|(code & SC & LC & NC)]; [rewrite (child_lacks _ _ _ Bad); reflexivity|].
    destruct (child (str "ParameterName") s); [|reflexivity].
    destruct (number_child s _ _ U16 US SC u16_type eq_refl) as (tx & -> & ->); [exact LC|]. cbn [d_code].
    cbn [In] in NC. replace ((code =? 7) || (code =? 2)) with false by lia. replace ((code =? 8) || (code =? 9)) with false by lia. reflexivity. }
  unfold from_file. destruct (child (str "DeviceInfo") pt); [|reflexivity]. destruct (_ && _); [|reflexivity]. cbn [apply_overlay].
  destruct G as [<-|[<-|[<-|[]]]].
  - rewrite P. reflexivity.
  - destruct (parse_objects real raw_string raw pt (str "MandatoryObjects") []); [rewrite P|]; reflexivity.
  - destruct (parse_objects real raw_string raw pt (str "MandatoryObjects") []); [|reflexivity].
    destruct (parse_objects real raw_string raw pt (str "OptionalObjects") _); [rewrite P|]; reflexivity.
Qed.
Print Assumptions C75_object_refused.
Example C75_object_refused_ex : let pt := [(str "DeviceInfo", []); (str "OptionalObjects", [(str "SupportedObjects", str "2"); (str "1", str "0x2000"); (str "2", str "0x2001")]);
    (str "2000", [(str "ParameterName", str "a"); (str "DataType", str "5"); (str "AccessType", str "rw")]); (str "2001", [(str "DataType", str "5"); (str "AccessType", str "rw")])] in
  well_formed pt /\ (exists l, has pt (str "OptionalObjects") l /\ shows_number l (str "SupportedObjects") 2 /\ has l (str "2") (str "0x2001")) /\ decimal (str "2") 2 /\
  (exists s, has pt (str "2001") s /\ lacks s (str "ParameterName")) /\
  from_file (fun _ _ => None) (fun t => t) (fun _ _ => []) pt [] = None.
Proof.
  cbv zeta. split; [split; [show_unique|intros k s I; cbn [In] in I; repeat (destruct I as [I|I]; [injection I as <- <-; show_unique|]); destruct I]|].
  split; [eexists; split; [show_has|split; [show_number|show_has]]|]. split; [split; [show_digits|vm_compute; discriminate]|].
  split; [eexists; split; [show_has|show_lacks]|reflexivity].
Qed.
Example C75_flag_ex : forall real raw_string raw,
  from_file real raw_string raw [(str "DeviceInfo", [(str "BaudRate_10", str " 2")])] [] = None /\
  from_file real raw_string raw [(str "DeviceInfo", [(str "BaudRate_10", str " 1")])] [] <> None.
Proof. intros. split; [reflexivity|]. vm_compute. discriminate. Qed.
(** A text for PDOMapping that is no flag counts as 0. *)
Theorem C75_mapping_flag : forall real raw_string raw e s t w0 n x w1 e', unique s ->
  has s (str "PDOMapping") t -> spaces w0 -> spaces w1 -> digits 10 n x -> 2 <= x -> t = w0 ++ n ++ w1 ->
  read_var real raw_string raw e s = Some e' -> d_mappable e' = false.
Proof.
  intros real raw_string raw e s t w0 n x w1 e' U H S0 S1 D X -> R. unfold read_var in R.
  pose proof (flag_number w0 n x w1 false S0 S1 D (or_introl X)) as F. cbn [app] in F.
  rewrite (child_has text s (str "PDOMapping") _ U H), F in R.
  cbv zeta in R.
  repeat match type of R with
  | match ?x with _ => _ end = _ => destruct x; try discriminate R
  end.
  injection R as <-. reflexivity.
Qed.
Print Assumptions C75_mapping_flag.
Example C75_mapping_ex : forall real raw_string raw e, exists e',
  read_var real raw_string raw e [(str "DataType", str "5"); (str "AccessType", str "rw"); (str "PDOMapping", str "7")] = Some e' /\ d_readable e' = true.
Proof. intros. eexists. split; reflexivity. Qed.

(** Numbers of the device information that are given in hexadecimal are read as 0,
    so are the numbers of PDOs. *)
Theorem C75_info_refuted : forall real raw_string raw, exists inf d,
  from_file real raw_string raw (one_object
    [(str "2000", [(str "ParameterName", str "u"); (str "DataType", str "5"); (str "AccessType", str "rw")])]) [] = Some (inf, d) /\
  vendor inf = 0 /\ nr_rx inf = 0.
Proof. intros. do 2 eexists. split; [vm_compute; reflexivity|]. split; reflexivity. Qed.
Print Assumptions C75_info_refuted.

(** Decimal numbers are read. *)
Theorem C75_info_partial : forall real raw_string raw pt ov inf d di v p r rx tx,
  from_file real raw_string raw pt ov = Some (inf, d) -> well_formed pt -> has pt (str "DeviceInfo") di ->
  info_number di (str "VendorNumber") 32 v -> info_number di (str "ProductNumber") 32 p ->
  info_number di (str "RevisionNumber") 32 r -> info_number di (str "NrOfRXPDO") 16 rx -> info_number di (str "NrOfTXPDO") 16 tx ->
  inf = mkInfo v p r rx tx.
Proof.
  intros real raw_string raw pt ov inf d di v p r rx tx H [U W] D V P R RX TX. unfold from_file in H. rewrite (child_has _ _ _ _ U D) in H.
  assert (UD : unique di) by (destruct D as (k & I & _); eapply W; exact I).
  destruct (_ && _); [|discriminate]. destruct (apply_overlay ov pt); [|discriminate].
  destruct (parse_objects _ _ _ _ _ _); [|discriminate]. destruct (parse_objects _ _ _ _ _ _); [|discriminate].
  destruct (parse_objects _ _ _ _ _ _); [|discriminate]. injection H as <- _. unfold read_info.
  rewrite (info_read _ _ _ _ UD V), (info_read _ _ _ _ UD P), (info_read _ _ _ _ UD R), (info_read _ _ _ _ UD RX), (info_read _ _ _ _ UD TX). reflexivity.
Qed.
Print Assumptions C75_info_partial.
Example C75_info_ex : exists di, has ex_info (str "DeviceInfo") di /\ info_number di (str "VendorNumber") 32 4294967295 /\
  info_number di (str "ProductNumber") 32 0 /\ info_number di (str "NrOfRXPDO") 16 10.
Proof.
  eexists. split; [show_has|]. split; [|split].
  - left. exists (str "4294967295"), [], (str "4294967295"), []. split; [show_has|]. split; [constructor|]. split; [constructor|]. split; [reflexivity|]. split; [show_digits|lia].
  - right. split; [show_lacks|reflexivity].
  - left. exists (str " 010"), [32], (str "010"), []. split; [show_has|]. split; [repeat constructor; cbn; auto|]. split; [constructor|]. split; [reflexivity|]. split; [show_digits|lia].
Qed.

(** ** C76: overlays *)

(** Every item of the overlay becomes the configured value of the object it names; nothing else changes. For
    the files of C75. *)
Theorem C76_overlay_partial : forall real raw_string raw pt objs ov objs',
  shows_file real pt objs -> NoDup (map fst objs) -> no_leading_zero pt -> overlays real objs ov objs' ->
  exists inf d, from_file real raw_string raw pt ov = Some (inf, d) /\
    forall k, okey_ok k ->
      match wanted objs' k with
      | Some (i, s, v) => exists e, lookup d (mk_key k) = Some e /\ describes raw i s v e
      | None => lookup d (mk_key k) = None
      end.
Proof. exact from_file_overlay. Qed.
Print Assumptions C76_overlay_partial.

(** An item that names no section of the file is an error. *)
Theorem C76_unknown : forall real raw_string raw pt ov name t, In (name, t) ov -> lacks pt name ->
  from_file real raw_string raw pt ov = None.
Proof. exact from_file_missing. Qed.
Print Assumptions C76_unknown.

(** ... but an item that names a section which is no object is accepted without effect. *)
Theorem C76_unused_refuted : forall real raw_string raw x, exists inf d,
  from_file real raw_string raw ex_file [] = Some (inf, d) /\
  from_file real raw_string raw ex_file [(str "FileInfo", x)] = Some (inf, d).
Proof. intros. do 2 eexists. split; vm_compute; reflexivity. Qed.
Print Assumptions C76_unused_refuted.

Example C76_ex : forall real, exists objs',
  overlays real ex_objs [(str "1018SUB1", str "0x123"); (str "1018sub1", str "7")] objs' /\
  no_leading_zero ex_file /\ wanted objs' (KSub 4120 1) = Some (4120, 1, with_init ex_sub1 (Number 7)) /\
  wanted objs' (KSub 4120 0) = wanted ex_objs (KSub 4120 0).
Proof.
  intros real. exists (map (configure (KSub 4120 1) (Number 7)) (map (configure (KSub 4120 1) (Number 291)) ex_objs)).
  split; [|split; [|split; reflexivity]].
  - eapply (ov_cons _ _ _ _ _ _ (KSub 4120 1) (Number 291)); [cbn; lia| |reflexivity|reflexivity| |].
    + exists (str "1018"), (str "1"). split; [show_hex|]. split; [show_hex|reflexivity].
    + exists (mkIty false 4), [], (str "0x123"), []. split; [reflexivity|]. split; [cbn; lia|]. split; [apply num_pos; show_numeral|]. repeat split; constructor.
    + eapply (ov_cons _ _ _ _ _ _ (KSub 4120 1) (Number 7)); [cbn; lia| |reflexivity|reflexivity| |apply ov_nil].
      * exists (str "1018"), (str "1"). split; [show_hex|]. split; [show_hex|reflexivity].
      * exists (mkIty false 4), [], (str "7"), []. split; [reflexivity|]. split; [cbn; lia|]. split; [apply num_pos; show_numeral|]. repeat split; constructor.
  - intros k s I. cbn [In ex_file] in I. repeat (destruct I as [I|I]; [injection I as <- <-; vm_compute; discriminate|]). destruct I.
Qed.

(** ** C77: access by text *)
Definition ex_dev (b : bytes) : reader := fun _ => (b, true).
Definition ex_rw : entry := mkEntry true true false no_value no_value.

(** Writing a number as text writes its bytes, as writing the number does. *)
Theorem C77_write_partial : forall real raw_string raw dt kd T t x e c cached wr,
  kind_of dt = Some kd -> integers kd = Some T -> c_type c = TInt T -> shows_value real kd t (Number x) ->
  exists b, holds T b x /\
    text_write real raw_string raw dt e c cached t wr = done (step e (if cached then OSetCached b wr else OSet b wr) c).
Proof. exact write_ok. Qed.
Print Assumptions C77_write_partial.

(** Reading a number of more than 8 bits gives its usual decimal text; failures are reported. *)
Theorem C77_read_partial : forall show_real dt kd T e c cached rd c1 ev b,
  kind_of dt = Some kd -> integers kd = Some T -> i_size T <> 1 -> c_type c = TInt T ->
  step e (OGet cached rd) c = Ok (c1, ev, RVal b) -> Z.of_nat (List.length b) = i_size T -> Forall byte_ok b ->
  exists x t, holds T b x /\ usual_text t x /\ text_read show_real dt e c cached rd = Ok (c1, ev, TText t).
Proof. exact (read_ok (fun _ _ => None) (fun _ => []) (fun _ _ => [])). Qed.
Print Assumptions C77_read_partial.

Theorem C77_read_failed_partial : forall show_real dt kd T e c cached rd c1 ev x,
  kind_of dt = Some kd -> integers kd = Some T -> c_type c = TInt T ->
  step e (OGet cached rd) c = Ok (c1, ev, RThrow x) -> text_read show_real dt e c cached rd = Ok (c1, ev, TFail).
Proof. exact read_failed. Qed.
Print Assumptions C77_read_failed_partial.

(** Strings are shown up to their terminator, if they have one (see below). *)
Theorem C77_read_string_partial : forall show_real dt e c cached rd c1 ev s rest,
  kind_of dt = Some Octets -> c_type c = TStr -> ~ In 0 s ->
  step e (OGet cached rd) c = Ok (c1, ev, RVal (s ++ [0] ++ rest)) ->
  text_read show_real dt e c cached rd = Ok (c1, ev, TText s).
Proof.
  intros show_real dt e c cached rd c1 ev s rest K T N E. unfold text_read.
  assert (D : type_of dt = Some TStr).
  { unfold kind_of in K. destruct dt as [|p|p]; try discriminate. do 5 (destruct p as [p|p|]; try discriminate; try reflexivity). }
  rewrite D, T. cbn [ty_eqb]. rewrite E.
  assert (C : c_string (s ++ [0] ++ rest) = Some s).
  { clear - N. induction s as [|x s IH]; [reflexivity|]. cbn [app c_string]. destruct (Z.eqb_spec x 0) as [->|]; [exfalso; apply N; left; reflexivity|].
    cbn [app] in IH. rewrite IH; [reflexivity|]. intros I. apply N. right. exact I. }
  unfold format_value. rewrite C. destruct s; reflexivity.
Qed.
Print Assumptions C77_read_string_partial.
Example C77_read_string_ex : forall show_real, exists c1,
  text_read show_real 9 ex_rw (data_typed TStr) false (ex_dev (str "abc" ++ [0; 55])) = Ok (c1, [EvRead 0 (str "abc" ++ [0; 55]) true], TText (str "abc")).
Proof. intros. eexists. vm_compute. reflexivity. Qed.

(** What was read may be written back: the same bytes are written. *)
Theorem C77_write_back_partial : forall real raw_string raw show_real dt kd T e c cached rd c1 ev b t e2 c2 cached2 wr,
  kind_of dt = Some kd -> integers kd = Some T -> i_size T <> 1 ->
  c_type c = TInt T -> step e (OGet cached rd) c = Ok (c1, ev, RVal b) -> Z.of_nat (List.length b) = i_size T -> Forall byte_ok b ->
  text_read show_real dt e c cached rd = Ok (c1, ev, TText t) -> c_type c2 = TInt T ->
  text_write real raw_string raw dt e2 c2 cached2 t wr = done (step e2 (if cached2 then OSetCached b wr else OSet b wr) c2).
Proof. exact write_back. Qed.
Print Assumptions C77_write_back_partial.

(** Texts relative to the node id are refused though they are valid in EDS files. *)
Theorem C77_nodeid_partial : forall real raw_string raw dt kd T t x e c cached wr,
  kind_of dt = Some kd -> integers kd = Some T -> c_type c = TInt T -> shows_value real kd t (NodeIdPlus x) ->
  text_write real raw_string raw dt e c cached t wr = Ok (c, [], TFail).
Proof. exact nodeid_refused. Qed.
Print Assumptions C77_nodeid_partial.

Example C77_ex : forall real raw_string raw show_real,
  (exists c1, step ex_rw (OGet false (ex_dev [251; 255])) (data_typed (TInt (mkIty true 2))) = Ok (c1, [EvRead 0 [251; 255] true], RVal [251; 255]) /\
     text_read show_real 3 ex_rw (data_typed (TInt (mkIty true 2))) false (ex_dev [251; 255]) = Ok (c1, [EvRead 0 [251; 255] true], TText (str "-5"))) /\
  exists c1, text_write real raw_string raw 3 ex_rw (data_typed (TInt (mkIty true 2))) false (str " -0x5 ") true = Ok (c1, [EvWrite 0 [251; 255] true], TDone).
Proof.
  intros. split.
  - eexists. split; vm_compute; reflexivity.
  - eexists. vm_compute. reflexivity.
Qed.

(** Numbers of 8 bits are shown as characters: 49 is shown as "1", and writing this back writes 1. *)
Theorem C77_byte_refuted : forall real raw_string raw show_real dt T, dt = 2 /\ T = mkIty true 1 \/ dt = 5 /\ T = mkIty false 1 ->
  exists c1 c2,
  text_read show_real dt ex_rw (data_typed (TInt T)) false (ex_dev [49]) = Ok (c1, [EvRead 0 [49] true], TText (str "1")) /\
  text_write real raw_string raw dt ex_rw c1 false (str "1") true = Ok (c2, [EvWrite 0 [1] true], TDone).
Proof. intros real raw_string raw show_real dt T [[-> ->]|[-> ->]]; do 2 eexists; split; vm_compute; reflexivity. Qed.
Print Assumptions C77_byte_refuted.

(** Numbers out of range are accepted and changed. *)
Theorem C77_range_refuted : forall real raw_string raw, exists c2,
  text_write real raw_string raw 6 ex_rw (data_typed (TInt U16)) false (str "65541") true = Ok (c2, [EvWrite 0 [5; 0] true], TDone).
Proof. intros. eexists. vm_compute. reflexivity. Qed.
Print Assumptions C77_range_refuted.

Lemma istarts_dollar : forall pre s, istarts_with s pre = true -> In 36 pre -> In 36 s.
Proof.
  induction pre as [|p pre IH]; intros s H I; [contradiction|]. destruct s as [|c s]; [discriminate|]. cbn in H.
  apply Bool.andb_true_iff in H as [H1 H2]. destruct I as [->|I]; [|right; exact (IH s H2 I)].
  left. change (lower 36) with 36 in H1. apply Z.eqb_eq in H1. unfold lower in H1. destruct ((65 <=? c) && (c <=? 90)) eqn:E; lia.
Qed.
Lemma drop_space_in : forall t x, In x (drop_space_end t) -> In x t.
Proof.
  induction t as [|c t IH]; intros x H; [exact H|]. cbn in H. destruct (drop_space_end t) as [|a l] eqn:E.
  - destruct (is_space c); [contradiction|]. destruct H as [->|[]]. left. reflexivity.
  - destruct H as [->|H]; [left; reflexivity|right; apply IH; exact H].
Qed.
Lemma word_is_zero : forall T c t, int_type T -> 97 <= c <= 122 -> ~ In 36 t -> parse_int T (c :: t) = Plain 0.
Proof.
  intros T c t HT Hc Ht.
  assert (Hs : is_space c = false) by (unfold is_space; lia).
  assert (E : exists u, trim (c :: t) = c :: u /\ ~ In 36 u).
  { unfold trim. cbn [skip_space]. rewrite Hs. cbn [drop_space_end]. destruct (drop_space_end t) as [|a l] eqn:E.
    - rewrite Hs. exists []. auto.
    - exists (a :: l). split; [reflexivity|]. rewrite <- E. intros X. apply Ht, drop_space_in, X. }
  destruct E as [u [E Hu]]. unfold parse_int. rewrite E.
  assert (N : ~ In 36 (c :: u)) by (intros [X|X]; [lia|exact (Hu X)]).
  destruct (istarts_with (c :: u) (str "$NODEID")) eqn:E1; [exfalso; apply N; refine (istarts_dollar _ _ E1 _); left; reflexivity|].
  destruct (iends_with (c :: u) (str "$NODEID")) eqn:E2.
  { exfalso. apply N. apply in_rev. refine (istarts_dollar _ _ E2 _). apply -> in_rev. left. reflexivity. }
  f_equal.
  assert (X : exists r, scan_int 0 (c :: u) = (false, 0, false, r)).
  { exists (c :: u). unfold scan_int. cbn [skip_space]. rewrite Hs.
    assert (S0 : scan_sign (c :: u) = (false, c :: u)).
    { unfold scan_sign. destruct c as [|q|q]; try lia. do 7 (destruct q as [q|q|]; try reflexivity; try lia). }
    rewrite S0. change (0 =? 10) with false. change (0 =? 16) with false. cbv iota.
    assert (S1 : scan_0x (c :: u) = None).
    { unfold scan_0x. destruct c as [|q|q]; try lia. do 7 (destruct q as [q|q|]; try reflexivity; try lia). }
    rewrite S1.
    assert (S2 : forall A (a b : A), match c :: u with 48 :: _ => a | _ => b end = b).
    { intros A a b. destruct c as [|q|q]; try lia. do 7 (destruct q as [q|q|]; try reflexivity; try lia). }
    rewrite S2. cbn [scan_digits]. unfold hex2dec.
    replace ((48 <=? c) && (c <=? 57)) with false by lia.
    destruct ((97 <=? c) && (c <=? 102)) eqn:E3; [replace (c - 97 + 10 <? 10) with false by lia; reflexivity|].
    replace ((65 <=? c) && (c <=? 70)) with false by lia. reflexivity. }
  destruct X as [r X]. unfold int_from_string, strtol, strtoul. rewrite X.
  assert (W : wrap T 0 = 0).
  { apply wrap_in; [exact HT|]. unfold int_type in HT. unfold in_type, i_bits. destruct HT as [X0|[X0|[X0|[X0|[]]]]]; rewrite <- X0; destruct (i_signed T); lia. }
  destruct (i_signed T); exact W.
Qed.

(** A word is accepted as value of any integer object, and 0 is written. *)
Theorem C77_word_refuted : forall real raw_string raw dt kd T letter t e c cached wr,
  kind_of dt = Some kd -> integers kd = Some T -> c_type c = TInt T -> 97 <= letter <= 122 -> ~ In 36 t ->
  exists b, holds T b 0 /\
    text_write real raw_string raw dt e c cached (letter :: t) wr = done (step e (if cached then OSetCached b wr else OSet b wr) c).
Proof.
  intros real raw_string raw dt kd T l t e c cached wr K I C Hl Ht. destruct (kind_type dt kd K) as [E F]. destruct (F T I) as [HT KT].
  exists (le_bytes (ty_size (TInt T)) 0). split.
  - destruct (of_le_bytes real raw (ty_size (TInt T)) 0) as [L1 [L2 L3]]. unfold holds.
    assert (P : in_type T 0 /\ Z.of_nat (ty_size (TInt T)) = i_size T).
    { unfold int_type in HT. unfold in_type. cbn [ty_size]. destruct HT as [X0|[X0|[X0|[X0|[]]]]]; rewrite <- X0; split; try reflexivity; destruct (i_signed T); lia. }
    destruct P as [P1 P2]. rewrite L1, L3, P2. auto.
  - unfold text_write, read_value. rewrite E, KT, C. cbn [ty_eqb]. rewrite ity_eqb_refl, word_is_zero by assumption. cbn [hold_get h_type h_data ty_eqb].
    rewrite ity_eqb_refl. unfold done. destruct (step e _ c) as [[[c1 ev] [v| |x0]]|]; reflexivity.
Qed.
Print Assumptions C77_word_refuted.
Example C77_word_ex : exists c2,
  text_write (fun _ _ => None) (fun _ => []) (fun _ _ => []) 6 ex_rw (data_typed (TInt U16)) false (str "fast") true = Ok (c2, [EvWrite 0 [0; 0] true], TDone).
Proof. eexists. vm_compute. reflexivity. Qed.

(** Texts of string objects: the object representation of a vector is written, octets in hexadecimal become the empty
    string, and reading a string without terminator runs over its end. *)
Theorem C77_string_refuted : forall real raw_string raw show_real t,
  (exists c2, text_write real raw_string raw 9 ex_rw (data_typed TStr) false t true = Ok (c2, [EvWrite 0 (raw_string t) true], TDone)) /\
  (exists c2, text_write real raw_string raw 10 ex_rw (data_typed TStr) false (str "0102") true = Ok (c2, [EvWrite 0 [] true], TDone)) /\
  text_read show_real 9 ex_rw (data_typed TStr) false (ex_dev (str "abc")) = Undef.
Proof.
  intros. split; [eexists; vm_compute; reflexivity|]. split; [eexists; vm_compute; reflexivity|vm_compute; reflexivity].
Qed.
Print Assumptions C77_string_refuted.
