(** Theorems about objects of a device, end to end (C80). *)
From Verif Require Import Base CanModel KeyModel KeySpec StorageModel StorageSpec StorageProofs SdoModel SdoSpec SdoTalkProofs
  EdsModel EdsSpec TextModel TextSpec TextProofs EdsProps RemoteModel RemoteSpec RemoteProofs.

(** In all theorems the object was accessed in any way before ([l]): values read
    and written, requests refused or unanswered, values changed by the device. *)

(** An uncached read returns what the device holds, or throws; it does not throw
    if the server answers and does not refuse. *)
Theorem C80_get : forall t e index sub l c0 k0 obj0 c obj rs v n,
  object_ok index sub -> fresh t c0 k0 -> fits t obj0 -> Forall (act_ok t) l ->
  act_run e index sub l c0 obj0 = Ok (c, obj, rs) ->
  e_readable e = true -> e_constant e = false -> server_ok t v ->
  exists c1 ev r, act_step e index sub (AGet false v n) c obj = Ok (c1, obj, ev, r) /\
    (r = RVal obj \/ (r = RThrow DeviceError /\ ~ (v_veto v = no_veto /\ answering n))).
Proof.
  intros t e index sub l c0 k0 obj0 c obj rs v n O FR F A H R K S.
  pose proof (run_sound t e index sub O l c0 obj0 c obj rs (conj (fresh_sound t c0 k0 FR) F) A H) as SO.
  destruct (get_step t e index sub O false v n c obj SO S R) as (c1 & ev & r & E & _ & D).
  exists c1, ev, r. split; [exact E|].
  destruct D as [(_ & _ & _ & D & _)|(b & ok & _ & _ & _ & [(_ & _ & _ & D)|(_ & D & N)])].
  - rewrite K in D. discriminate.
  - left. exact D.
  - right. split; assumption.
Qed.
Print Assumptions C80_get.

(** A write to a device that answers either succeeds, and the device holds the
    value, or throws, and the device holds what it held before. Missing: devices
    that do not answer, see below. *)
Theorem C80_set_partial : forall t e index sub l c0 k0 obj0 c obj rs b v n,
  object_ok index sub -> fresh t c0 k0 -> fits t obj0 -> Forall (act_ok t) l ->
  act_run e index sub l c0 obj0 = Ok (c, obj, rs) ->
  e_writable e = true -> fits t b -> answering n ->
  exists c1 ev r obj1, act_step e index sub (ASet b v n) c obj = Ok (c1, obj1, ev, r) /\
    ((r = RDone /\ obj1 = b) \/ (r = RThrow DeviceError /\ obj1 = obj /\ v_veto v <> no_veto)).
Proof.
  intros t e index sub l c0 k0 obj0 c obj rs b v n O FR F A H W FB N.
  pose proof (run_sound t e index sub O l c0 obj0 c obj rs (conj (fresh_sound t c0 k0 FR) F) A H) as SO.
  destruct (set_step t e index sub O b v n c obj SO FB N W) as (c1 & ok & r & o1 & E & _ & _ & _ & D).
  do 4 eexists. split; [exact E|]. exact D.
Qed.
Print Assumptions C80_set_partial.

(** What was written is read back, by cached reads without asking the device. *)
Theorem C80_round_trip_partial : forall t e index sub l c0 k0 obj0 c obj rs b v n c1 obj1 ev v2 n2,
  object_ok index sub -> fresh t c0 k0 -> fits t obj0 -> Forall (act_ok t) l ->
  act_run e index sub l c0 obj0 = Ok (c, obj, rs) ->
  e_writable e = true -> e_readable e = true -> fits t b -> answering n ->
  act_step e index sub (ASet b v n) c obj = Ok (c1, obj1, ev, RDone) ->
  server_ok t v2 -> v_veto v2 = no_veto -> answering n2 ->
  (exists c2 ev2, act_step e index sub (AGet false v2 n2) c1 obj1 = Ok (c2, b, ev2, RVal b)) /\
  (forall v3 n3, server_ok t v3 -> act_step e index sub (AGet true v3 n3) c1 obj1 = Ok (c1, b, [], RVal b)).
Proof.
  intros t e index sub l c0 k0 obj0 c obj rs b v n c1 obj1 ev v2 n2 O FR F A H W R FB N E S2 V2 N2.
  pose proof (run_sound t e index sub O l c0 obj0 c obj rs (conj (fresh_sound t c0 k0 FR) F) A H) as SO.
  destruct (set_step t e index sub O b v n c obj SO FB N W) as (c1' & ok & r & o1 & E' & CO & CV & CB & D).
  rewrite E in E'. injection E' as <- <- -> <-.
  destruct D as [[_ ->]|[D _]]; [|discriminate].
  split.
  - destruct (get_step t e index sub O false v2 n2 c1 b (conj CO FB) S2 R) as (c2 & ev2 & r2 & E2 & _ & D2).
    exists c2, ev2. rewrite E2. do 2 f_equal.
    destruct D2 as [(_ & _ & _ & _ & ->)|(b2 & ok2 & _ & _ & _ & [(_ & _ & _ & ->)|(_ & _ & X)])].
    + rewrite CB. reflexivity.
    + reflexivity.
    + exfalso. apply X. split; assumption.
  - intros v3 n3 S3.
    destruct (get_step t e index sub O true v3 n3 c1 b (conj CO FB) S3 R) as (c2 & ev2 & r2 & E2 & _ & D2).
    rewrite E2. destruct D2 as [(-> & -> & _ & _ & ->)|(b2 & ok2 & _ & _ & X & _)].
    + rewrite CB. reflexivity.
    + rewrite CV in X. discriminate.
Qed.
Print Assumptions C80_round_trip_partial.

(** As long as nothing fails and only the master changes the object, cached reads
    return what the device holds, and they ask the device at most once. *)
Theorem C80_cached_partial : forall t e index sub l c0 k0 obj0 c obj rs v n,
  object_ok index sub -> fresh t c0 k0 -> k0 = None \/ k0 = Some obj0 -> fits t obj0 -> Forall (act_ok t) l ->
  Forall act_answered l -> Forall passive l -> e_readable e = true -> e_writable e = true ->
  act_run e index sub l c0 obj0 = Ok (c, obj, rs) -> Forall not_failed rs -> server_ok t v ->
  exists c1 ev r, act_step e index sub (AGet true v n) c obj = Ok (c1, obj, ev, r) /\
    (r = RVal obj \/ (r = RThrow DeviceError /\ ~ (v_veto v = no_veto /\ answering n))) /\
    (l <> [] -> ev = [] /\ r = RVal obj).
Proof.
  intros t e index sub l c0 k0 obj0 c obj rs v n O FR K0 F A AN P R W H NF S.
  pose proof (fresh_sound t c0 k0 FR) as FS.
  pose proof (run_sound t e index sub O l c0 obj0 c obj rs (conj FS F) A H) as SO.
  assert (CH : coherent c0 obj0).
  { intros V. destruct FR as [|x X]; [discriminate|]. destruct K0 as [K0|K0]; [discriminate|]. injection K0 as ->. reflexivity. }
  destruct (run_coherent t e index sub O l c0 obj0 c obj rs (conj FS F) CH A AN P R W H NF) as [C V].
  destruct (get_step t e index sub O true v n c obj SO S R) as (c1 & ev & r & E & _ & D).
  exists c1, ev, r. split; [exact E|].
  destruct D as [(-> & _ & D & _ & ->)|(b & ok & _ & _ & X & D)].
  - rewrite (C D). split; [left; reflexivity|]. intros _. split; reflexivity.
  - split.
    + destruct D as [(_ & _ & _ & ->)|(_ & -> & N)]; [left; reflexivity|right; split; [reflexivity|exact N]].
    + intros NE. rewrite (V NE) in X. discriminate.
Qed.
Print Assumptions C80_cached_partial.

Theorem C80_defined : forall t e index sub l c0 k0 obj0,
  object_ok index sub -> fresh t c0 k0 -> fits t obj0 -> Forall (act_ok t) l ->
  act_run e index sub l c0 obj0 <> Undef.
Proof.
  intros t e index sub l c0 k0 obj0 O FR F A.
  apply (run_defined t e index sub O); [split; [eapply fresh_sound; exact FR|exact F]|exact A].
Qed.
Print Assumptions C80_defined.

(** Uses no undefined behaviour inside a read either (what [remote_read] does not
    tell apart). *)
Theorem C80_read_defined : forall t index sub c v obj n,
  object_ok index sub -> cell_ok t c -> fits t obj -> server_ok t v ->
  let buf := c_buf (allocate c) in
  sdo_read index sub buf (fst (talked v index sub (sdo_read index sub buf) obj n)) <> Undef.
Proof. intros t index sub c v obj n O C F S. apply (remote_read_spec t index sub O c v obj n C F S). Qed.
Print Assumptions C80_read_defined.

(** A device that does not answer: the write of a short value succeeds, the device
    still holds the old one, and cached reads return the new one. *)
Theorem C80_silent_refuted : forall T e index sub obj b v v2 n2,
  object_ok index sub -> (1 <= i_size T <= 4) -> fits (TInt T) b -> fits (TInt T) obj ->
  e_writable e = true -> e_readable e = true ->
  exists c1 ev, act_step e index sub (ASet b v 0) (data_typed (TInt T)) obj = Ok (c1, obj, ev, RDone) /\
    act_step e index sub (AGet true v2 n2) c1 obj = Ok (c1, obj, [], RVal b).
Proof.
  intros T e index sub obj b v v2 n2 O SZ FB F W R.
  assert (C : cell_ok (TInt T) (data_typed (TInt T))) by (eapply fresh_sound; constructor).
  unfold act_step at 1. rewrite (handed_eq (TInt T)) by (try exact C; apply FB).
  unfold step, data_set. rewrite W. cbn [negb]. unfold data_write.
  destruct (assign_ok _ _ b C (proj2 (proj2 FB))) as (c1 & -> & CO & CV & CB & _).
  assert (X : remote_write v index sub obj 0 b = (obj, true)).
  { unfold remote_write, talked. cbn [talk app snd].
    destruct FB as (B & L & V). cbn [value_ok ty_size] in V.
    unfold sdo_write, transmit, start_write, download_initiate.
    destruct (4 <? List.length b)%nat eqn:E; [lia|].
    cbn [transfer_loop s_done s_last].
    rewrite SdoReadProofs.finish_return; [reflexivity| |]; cbn [set_last s_off s_total]; lia. }
  rewrite X. unfold ret. cbn [fst snd]. do 2 eexists. split; [reflexivity|].
  unfold act_step, step, data_get. rewrite R, CV. cbn [negb orb].
  rewrite (access_ok _ _ CO), CB. reflexivity.
Qed.
Print Assumptions C80_silent_refuted.

Lemma holds_unique : forall T b x y, 0 < i_size T -> holds T b x -> holds T b y -> x = y.
Proof.
  intros T b x y P (I1 & _ & _ & H1) (I2 & _ & _ & H2). rewrite H1 in H2. unfold in_type in *.
  assert (2 ^ (8 * i_size T) = 2 * 2 ^ (8 * i_size T - 1)) as Q.
  { rewrite <- (Z.pow_succ_r 2) by lia. f_equal. lia. }
  assert (0 < 2 ^ (8 * i_size T - 1)) by (apply Z.pow_pos_nonneg; lia).
  set (h := 2 ^ (8 * i_size T - 1)) in *. rewrite Q in *.
  destruct (i_signed T).
  - assert (E : (x + h) mod (2 * h) = (y + h) mod (2 * h)) by (rewrite (Z.add_mod x), (Z.add_mod y), H2 by lia; reflexivity).
    rewrite !Z.mod_small in E by lia. lia.
  - rewrite !Z.mod_small in H2 by lia. exact H2.
Qed.

(** Numbers by text, as the services set_object and get_object do it: the device
    holds the number afterwards, and reading it yields its usual text. *)
Theorem C80_text_partial : forall real raw_string raw show_real dt kd T txt x e c obj index sub v n v2 n2,
  object_ok index sub -> kind_of dt = Some kd -> integers kd = Some T -> i_size T <> 1 ->
  shows_value real kd txt (Number x) -> cell_ok (TInt T) c -> fits (TInt T) obj ->
  e_writable e = true -> e_readable e = true -> e_constant e = false ->
  v_veto v = no_veto -> answering n -> v_veto v2 = no_veto -> answering n2 ->
  exists b c1 ev1 c2 ev2 txt2, holds T b x /\
    let w := remote_write v index sub obj n (handed c b) in
    text_write real raw_string raw dt e c false txt (snd w) = Ok (c1, ev1, TDone) /\ fst w = b /\
    usual_text txt2 x /\
    text_read show_real dt e c1 false (remote_read v2 index sub b n2) = Ok (c2, ev2, TText txt2).
Proof.
  intros real raw_string raw show_real dt kd T txt x e c obj index sub v n v2 n2 O KD IT S1 SH C F W R K V N V2 N2.
  destruct (write_ok real raw_string raw dt kd T txt x e c false (snd (remote_write v index sub obj n (handed c []))) KD IT (proj1 C) SH)
    as (b & HB & _).
  assert (SZ : i_size T = 2 \/ i_size T = 4 \/ i_size T = 8).
  { clear - KD IT S1. unfold kind_of in KD.
    repeat match type of KD with context [match ?x with _ => _ end] => destruct x end; try discriminate;
    injection KD as <-; cbn in IT; try discriminate; injection IT as <-; cbn in *; lia. }
  assert (FB : fits (TInt T) b).
  { destruct HB as (_ & L & B & _). split; [exact B|]. cbn [value_ok ty_size]. split; lia. }
  destruct (write_ok real raw_string raw dt kd T txt x e c false (snd (remote_write v index sub obj n (handed c b))) KD IT (proj1 C) SH)
    as (b' & HB' & TW).
  assert (b' = b) as ->.
  { destruct HB as (_ & L & B & E), HB' as (_ & L' & B' & E').
    apply of_le_inj; try assumption; [apply Nat2Z.inj; congruence|congruence]. }
  destruct (set_step (TInt T) e index sub O b v n c obj (conj C F) FB N W) as (c1 & ok & r & o1 & E & CO & CV & CB & D).
  destruct D as [[-> D]|(_ & _ & X)]; [|contradiction].
  unfold act_step in E. destruct (step e (OSet b (snd (remote_write v index sub obj n (handed c b)))) c) as [[[c1' ev1] r1]|] eqn:ST; [|discriminate].
  injection E as -> X -> ->.
  destruct (get_step (TInt T) e index sub O false v2 n2 c1 b (conj CO FB) ltac:(intros X0; discriminate) R) as (c2 & ev2 & r2 & E2 & CO2 & D2).
  unfold act_step in E2. destruct (step e (OGet false (remote_read v2 index sub b n2)) c1) as [[[c2' ev2'] r2']|] eqn:ST2; [|discriminate].
  injection E2 as -> _ -> ->.
  assert (r2 = RVal b) as ->.
  { destruct D2 as [(_ & _ & _ & Y & _)|(b2 & ok2 & _ & _ & _ & [(_ & _ & _ & ->)|(_ & _ & Y)])].
    - rewrite K in Y. discriminate.
    - reflexivity.
    - exfalso. apply Y. split; assumption. }
  destruct (read_ok (fun _ _ => None) (fun _ => []) (fun _ _ => []) show_real dt kd T e c1 false _ c2 ev2 b KD IT S1 (proj1 CO) ST2)
    as (y & txt2 & HY & UT & TR).
  { apply HB. } { apply HB. }
  assert (y = x) as -> by (apply (holds_unique T b); [lia|exact HY|exact HB]).
  exists b, c1. eexists. exists c2, ev2, txt2. split; [exact HB|]. cbv zeta.
  split; [rewrite TW; reflexivity|]. split; [congruence|]. split; [exact UT|exact TR].
Qed.
Print Assumptions C80_text_partial.

(** An object of 16 bits and a string; one request is refused, the device changes
    the value once. *)
Definition ex_object : entry := mkEntry true true false no_value no_value.
Definition good : server := mkServer true true true no_veto.
Definition stubborn : server := mkServer true true true (fun _ _ => true).
Example C80_ex : exists c,
  let l := [AGet true good 40; ASet [7; 1] good 40; ASet [9; 9] stubborn 40; ADevice [3; 4]; AGet false good 40] in
  Forall (act_ok (TInt U16)) l /\ Forall act_answered l /\
  act_run ex_object 0x2000 1 l (data_typed (TInt U16)) [1; 2] =
    Ok (c, [3; 4], [RVal [1; 2]; RDone; RThrow DeviceError; RDone; RVal [3; 4]]).
Proof.
  eexists. split; [|split].
  - repeat constructor; unfold server_ok, fits, byte_ok; cbn; try discriminate; try lia.
  - repeat constructor.
  - vm_compute. reflexivity.
Qed.
Example C80_string_ex : exists c,
  let l := [ASet (str "hello world") good 40; AGet false good 40; ASetCached (str "hello world") stubborn 40] in
  Forall (act_ok TStr) l /\ Forall passive l /\
  act_run ex_object 0x1008 0 l (data_typed TStr) (str "x") =
    Ok (c, str "hello world", [RDone; RVal (str "hello world"); RDone]).
Proof.
  eexists. split; [|split].
  - unfold act_ok, server_ok, fits. repeat constructor; unfold byte_ok; cbn; try lia.
  - repeat constructor.
  - vm_compute. reflexivity.
Qed.
Example C80_text_ex : kind_of 3 = Some (Signed 2) /\ integers (Signed 2) = Some (mkIty true 2) /\
  shows_value (fun _ _ => None) (Signed 2) (str " 5") (Number 5) /\
  snd (remote_write good 0x2000 1 [1; 2] 40 (handed (data_typed (TInt (mkIty true 2))) [5; 0])) = true.
Proof.
  split; [reflexivity|]. split; [reflexivity|]. split; [|vm_compute; reflexivity].
  exists (mkIty true 2), (str " "), (str "5"), []. split; [reflexivity|]. split; [unfold in_type; cbn; lia|].
  split; [|split; [repeat constructor|split; [constructor|reflexivity]]].
  apply num_pos. show_numeral.
Qed.
