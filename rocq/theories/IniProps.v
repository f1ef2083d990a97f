(** C111: the text of an EDS file. *)
From Coq Require Import String.
From Verif Require Import Base CanModel CanSpec KeyModel KeySpec StorageModel EdsModel EdsSpec EdsProofs EdsProps IniModel IniSpec IniProofs.
Local Open Scope Z_scope. Local Open Scope list_scope.

(** What is read is what the lines tell, and no name occurs twice in it. *)
Theorem C111_sound : forall t pt, read_ini t = Some pt ->
  exists ls xs, lines t ls /\ Forall2 says ls xs /\ tells xs pt /\ well_formed pt.
Proof. exact read_sound. Qed.
Print Assumptions C111_sound.

(** There is one way to read a line, and one tree that the lines tell. *)
Theorem C111_only : forall t ls xs pt, lines t ls -> Forall2 says ls xs -> tells xs pt ->
  (forall ls', lines t ls' -> ls' = ls) /\ (forall xs', Forall2 says ls xs' -> xs' = xs) /\
  (forall pt', read_ini t = Some pt' -> pt' = pt).
Proof.
  intros t ls xs pt L F T. split; [intros ls' L'; apply lines_get in L; apply lines_get in L'; congruence|].
  split; [exact (says_fun ls xs F)|]. intros pt'. exact (read_fun t ls xs pt pt' L F T).
Qed.
Print Assumptions C111_only.

(** Every text of valid lines is read, unless a name occurs twice. *)
Theorem C111_read : forall t ls xs pt, lines t ls -> Forall2 says ls xs -> tells xs pt ->
  different (root_names xs) -> (forall k l, In (k, l) pt -> unique l) -> read_ini t = Some pt.
Proof. exact read_complete. Qed.
Print Assumptions C111_read.

(** A line that is no blank, comment, section or item, and a name that occurs twice make the text unusable. *)
Theorem C111_refused : forall t ls real raw_string raw ov, lines t ls ->
  (exists l, In l ls /\ forall x, ~ says l x) \/ (exists xs pt, Forall2 says ls xs /\ tells xs pt /\ ~ well_formed pt) ->
  from_text real raw_string raw t ov = None.
Proof.
  intros t ls real raw_string raw ov L B. unfold from_text. destruct (read_ini t) as [pt|] eqn:R; [|reflexivity]. exfalso.
  destruct (read_sound t pt R) as (ls' & xs & L' & F & T & W). assert (ls' = ls) by (apply lines_get in L; apply lines_get in L'; congruence). subst ls'.
  destruct B as [(l & I & N)|(xs' & pt' & F' & T' & N)].
  - clear - F I N. induction F as [|l' x ls xs H F IH]; [exact I|]. destruct I as [->|I]; [exact (N x H)|exact (IH I)].
  - rewrite (read_fun t ls xs' pt' pt L F' T' R) in W. exact (N W).
Qed.
Print Assumptions C111_refused.

(** Lines of white space and comments count nowhere; nor does the kind of line ends. *)
Theorem C111_layout : forall t ls real raw_string raw ov, lines t ls ->
  from_text real raw_string raw (dos t) ov = from_text real raw_string raw t ov /\
  (forall a b l t', ls = a ++ b -> says l Nothing -> lines t' (a ++ l :: b) ->
     from_text real raw_string raw t' ov = from_text real raw_string raw t ov).
Proof.
  intros t ls real raw_string raw ov L. unfold from_text. rewrite read_dos. split; [reflexivity|]. intros a b l t' -> N L'.
  assert (E : read_ini t' = read_ini t); [|rewrite E; reflexivity]. unfold read_ini. apply lines_get in L. apply lines_get in L'. rewrite L, L', add_nothing by exact N. reflexivity.
Qed.
Print Assumptions C111_layout.

(** C75 from the text of a file on *)
Theorem C111_dictionary : forall real raw_string raw t ls xs pt objs, lines t ls -> Forall2 says ls xs -> tells xs pt ->
  different (root_names xs) -> shows_file real pt objs -> NoDup (map fst objs) ->
  exists inf d, from_text real raw_string raw t [] = Some (inf, d) /\
    forall k, okey_ok k ->
      match wanted objs k with
      | Some (i, s, v) => exists e, lookup d (mk_key k) = Some e /\ describes raw i s v e
      | None => lookup d (mk_key k) = None
      end.
Proof.
  intros real raw_string raw t ls xs pt objs L F T D SF ND. destruct (from_file_ok real raw_string raw pt objs SF ND) as (inf & d & E & H).
  exists inf, d. split; [|exact H]. unfold from_text. rewrite (read_complete t ls xs pt L F T D); [exact E|]. apply SF.
Qed.
Print Assumptions C111_dictionary.

(** ** Examples *)
Definition text_of (ls : list string) : text := List.concat (map (fun l => str l ++ [10]) ls).
Definition ex_text : text := text_of [
  "; an example"; "[FileInfo]"; "FileName=ex.eds"; ""; "[ DeviceInfo ] ignored"; "VendorName = ACME"; "BaudRate_500=1"; "BaudRate_20=0";
  "[MandatoryObjects]"; "SupportedObjects=2"; "1=0x1000"; "2=0x1018"; "[OptionalObjects]"; "[ManufacturerObjects]"; "SupportedObjects=1"; "1=0x2A00";
  "[1000]"; "ParameterName=Device type"; "ObjectType=0x7"; "DataType=0x0007"; "AccessType=ro"; "DefaultValue=0x00020192"; "PDOMapping=0";
  "[1018]"; "# two"; "ParameterName=Identity"; "ObjectType=9"; "SubNumber=2";
  "[1018sub0]"; "ParameterName=entries"; "ObjectType=7"; "DataType=5"; "AccessType=const"; "DefaultValue=1";
  "[1018sub1]"; "ParameterName=cob"; "Denotation=COB-ID"; "DataType=0x7"; "AccessType=RW"; "DefaultValue= $NODEID + 0x600 "; "PDOMapping=1";
  "[2a00]"; "ParameterName=offset"; "DataType=3"; "AccessType=rww"; "ParameterValue=-5"; "PDOMapping=true"]%string.
Definition ex_said : list said := flat_map (fun l => match read_line l with Some x => [x] | None => [] end) (get_lines ex_text).
Lemma ex_lines : lines ex_text (get_lines ex_text) /\ Forall2 says (get_lines ex_text) ex_said.
Proof.
  split; [apply lines_get; reflexivity|]. unfold ex_said.
  assert (A : forallb (fun l => match read_line l with Some _ => true | None => false end) (get_lines ex_text) = true) by (vm_compute; reflexivity).
  revert A. generalize (get_lines ex_text) as ls. induction ls as [|l ls IH]; intros A; [constructor|]. cbn [forallb] in A. apply andb_true_iff in A as [A1 A2].
  cbn [flat_map]. destruct (read_line l) as [x|] eqn:R; [|discriminate]. cbn [app]. constructor; [apply read_says, R|apply IH, A2].
Qed.
Example C111_sound_ex : read_ini ex_text = Some ex_file.
Proof. vm_compute. reflexivity. Qed.
Example C111_read_ex : lines ex_text (get_lines ex_text) /\ Forall2 says (get_lines ex_text) ex_said /\ tells ex_said ex_file /\ different (root_names ex_said).
Proof.
  destruct ex_lines as [L F]. split; [exact L|]. split; [exact F|]. split.
  - destruct (read_sound _ _ C111_sound_ex) as (ls & xs & L' & F' & T & _). assert (ls = get_lines ex_text) by (apply lines_get in L'; congruence). subst ls.
    rewrite (says_fun _ _ F _ F') in T. exact T.
  - unfold different. assert (N : nodup (list_eq_dec Z.eq_dec) (map (map lower) (root_names ex_said)) = map (map lower) (root_names ex_said)) by (vm_compute; reflexivity).
    rewrite <- N. apply NoDup_nodup.
Qed.
Example C111_dictionary_ex : forall real raw_string raw, exists inf d e, from_text real raw_string raw ex_text [] = Some (inf, d) /\
  lookup d (mk_key (KSub 4120 1)) = Some e /\ describes raw 4120 1 ex_sub1 e.
Proof.
  intros real raw_string raw. destruct C111_read_ex as (L & F & T & D).
  destruct (C111_dictionary real raw_string raw ex_text _ _ _ _ L F T D (ex_shows real) ltac:(repeat constructor; cbn; lia)) as (inf & d & E & H).
  destruct (H (KSub 4120 1) ltac:(cbn; lia)) as (e & X & Y). exists inf, d, e. auto.
Qed.
(** A file that says twice what an item is, with other letters; a key without value; a bracket that is not closed. *)
Example C111_refused_ex : forall real raw_string raw ov,
  from_text real raw_string raw (text_of ["[DeviceInfo]"; "VendorName=a"; "[1000]"; "DataType=7"; "datatype=7"]%string) ov = None /\
  from_text real raw_string raw (text_of ["[DeviceInfo]"; "VendorName"]%string) ov = None /\
  from_text real raw_string raw (text_of ["[DeviceInfo"; "VendorName=a"]%string) ov = None /\
  (forall x, ~ says (str "VendorName") x) /\
  exists xs pt, Forall2 says (get_lines (text_of ["[DeviceInfo]"; "VendorName=a"; "[1000]"; "DataType=7"; "datatype=7"]%string)) xs /\ tells xs pt /\ ~ well_formed pt.
Proof.
  intros real raw_string raw ov. split; [reflexivity|]. split; [reflexivity|]. split; [reflexivity|]. split; [intros x H; apply says_read in H; discriminate H|].
  exists [Begin (str "DeviceInfo"); Item (str "VendorName") (str "a"); Begin (str "1000"); Item (str "DataType") (str "7"); Item (str "datatype") (str "7"); Nothing].
  exists [(str "DeviceInfo", [(str "VendorName", str "a")]); (str "1000", [(str "DataType", str "7"); (str "datatype", str "7")])].
  split; [|split].
  - repeat (constructor; [apply read_says; reflexivity|]). constructor.
  - apply (tells_all [] _ _ ltac:(constructor)). apply (sections_cons _ [Item (str "VendorName") (str "a")] [Begin (str "1000"); Item (str "DataType") (str "7"); Item (str "datatype") (str "7"); Nothing] [(str "1000", [(str "DataType", str "7"); (str "datatype", str "7")])]); [repeat constructor|].
    apply (sections_cons _ [Item (str "DataType") (str "7"); Item (str "datatype") (str "7"); Nothing] [] []); [repeat constructor|constructor].
  - intros [_ W]. specialize (W (str "1000") _ ltac:(right; left; reflexivity)). inversion W as [|? ? N _]; subst. apply N. left. reflexivity.
Qed.
(** Comments count as such only in lines of their own; a section without items is as good as absent. *)
Example C111_layout_ex : says (str "DataType = 7 ; four bytes") (Item (str "DataType") (str "7 ; four bytes")) /\
  says (str "  ; DataType = 8") Nothing /\
  forall real raw_string raw ov, from_text real raw_string raw (text_of ["[DeviceInfo]"; "[1000]"; "DataType=7"]%string) ov = None /\
    exists x, from_text real raw_string raw (text_of ["[DeviceInfo]"; "x=1"]%string) [] = Some x.
Proof.
  split; [apply read_says; reflexivity|]. split; [apply read_says; reflexivity|]. intros real raw_string raw ov. split; [|eexists; reflexivity].
  unfold from_text. replace (read_ini _) with (Some [(str "1000", [(str "DataType", str "7")])]) by reflexivity. reflexivity.
Qed.

(** C76 from the text of a file on *)
Theorem C111_overlay : forall real raw_string raw t ls xs pt objs ov objs', lines t ls -> Forall2 says ls xs -> tells xs pt ->
  different (root_names xs) -> shows_file real pt objs -> NoDup (map fst objs) -> no_leading_zero pt -> overlays real objs ov objs' ->
  exists inf d, from_text real raw_string raw t ov = Some (inf, d) /\
    forall k, okey_ok k ->
      match wanted objs' k with
      | Some (i, s, v) => exists e, lookup d (mk_key k) = Some e /\ describes raw i s v e
      | None => lookup d (mk_key k) = None
      end.
Proof.
  intros real raw_string raw t ls xs pt objs ov objs' L F T D SF ND NZ OV. destruct (from_file_overlay real raw_string raw pt objs ov objs' SF ND NZ OV) as (inf & d & E & H).
  exists inf, d. split; [|exact H]. unfold from_text. rewrite (read_complete t ls xs pt L F T D); [exact E|]. apply SF.
Qed.
Print Assumptions C111_overlay.
