(** C19 - C22, C25: cached access to objects and storage initialisation. *)
From Coq Require Import SpecFloat.
From Verif Require Import RealProofs Base CanModel KeyModel StorageModel StorageSpec StorageProofs.

(** Concrete objects for the examples. *)
Definition T16 : ty := TInt (mkIty false 2).
Definition ex_rw : entry :=
  mkEntry true true false (mkHold (Some T16) (Some [100; 0])) (mkHold (Some T16) (Some [200; 0])).
Definition ex_dev (b : bytes) : reader := fun _ => (b, true).
Definition ex_fail : reader := fun b => (b, false).

(** No access history runs into undefined behaviour. *)
Theorem C19_defined : forall t e ops c0 k0,
  entry_plain t e -> Forall (op_ok t) ops -> fresh t c0 k0 -> run e ops c0 <> Undef.
Proof. exact never_undefined. Qed.
Print Assumptions C19_defined.

Theorem C19_cached_read : forall t e ops c0 k0 c h rd,
  entry_plain t e -> Forall (op_ok t) ops -> fresh t c0 k0 -> run e ops c0 = Ok (c, h) ->
  no_failure h -> e_readable e = true -> reader_ok t rd ->
  match known e k0 h with
  | Some v => step e (OGet true rd) c = Ok (c, [], RVal v)
  | None => exists c' b ok, step e (OGet true rd) c =
              Ok (c', [EvRead (c_rd c) b ok], if ok then RVal b else RThrow DeviceError)
  end.
Proof. exact cached_read. Qed.
Print Assumptions C19_cached_read.

Theorem C19_uncached_read : forall t e ops c0 k0 c h rd,
  entry_plain t e -> Forall (op_ok t) ops -> fresh t c0 k0 -> run e ops c0 = Ok (c, h) ->
  e_readable e = true -> e_constant e = false -> reader_ok t rd ->
  exists c' b ok, step e (OGet false rd) c =
    Ok (c', [EvRead (c_rd c) b ok], if ok then RVal b else RThrow DeviceError) /\
    exists b0, rd b0 = (b, ok).
Proof. exact uncached_read. Qed.
Print Assumptions C19_uncached_read.

Theorem C19_constant_read_once : forall e ops c c' h, e_constant e = true -> ~ In OReset ops ->
  run e ops c = Ok (c', h) ->
  (count read_ok (events h) <= (if c_valid c then 0 else 1))%nat.
Proof. exact constant_once. Qed.
Print Assumptions C19_constant_read_once.

Example C19_ex : exists c h,
  entry_plain T16 ex_rw /\
  run ex_rw [OGet true (ex_dev [1; 2]); OGet false (ex_dev [3; 4]); OGet true (ex_dev [5; 6])] (data_valued T16 [100; 0])
  = Ok (c, h) /\ map snd h = [RVal [100; 0]; RVal [3; 4]; RVal [3; 4]] /\ known ex_rw (Some [100; 0]) h = Some [3; 4].
Proof. do 2 eexists. split; [repeat split|]. split; [reflexivity|]. split; reflexivity. Qed.
Example C19_ex_const : exists c h,
  run (mkEntry true false true no_value no_value)
      [OGet false (ex_dev [1; 2]); OGet false (ex_dev [3; 4])] (data_typed T16) = Ok (c, h) /\
  map snd h = [RVal [1; 2]; RVal [1; 2]] /\ count read_ok (events h) = 1%nat.
Proof. do 2 eexists. split; [reflexivity|]. split; reflexivity. Qed.

Theorem C20_cached_write : forall t e ops c0 k0 c h v wr,
  entry_plain t e -> Forall (op_ok t) ops -> fresh t c0 k0 -> run e ops c0 = Ok (c, h) ->
  no_failure h -> e_writable e = true -> value_ok t v ->
  (forall b, known e k0 h = Some b -> val_eqb t v b = true ->
     step e (OSetCached v wr) c = Ok (c, [], RDone)) /\
  ((forall b, known e k0 h = Some b -> val_eqb t v b = false) ->
     exists c', step e (OSetCached v wr) c =
       Ok (c', [EvWrite (c_wr c) v wr], if wr then RDone else RThrow DeviceError)).
Proof. exact cached_write. Qed.
Print Assumptions C20_cached_write.

Theorem C20_plain_write : forall t e ops c0 k0 c h v wr,
  entry_plain t e -> Forall (op_ok t) ops -> fresh t c0 k0 -> run e ops c0 = Ok (c, h) ->
  e_writable e = true -> value_ok t v ->
  exists c', step e (OSet v wr) c =
    Ok (c', [EvWrite (c_wr c) v wr], if wr then RDone else RThrow DeviceError).
Proof. exact plain_write. Qed.
Print Assumptions C20_plain_write.

Theorem C20_held_after_transfer : forall t e ops c0 k0 c h o c1 ev r v,
  entry_plain t e -> Forall (op_ok t) ops -> fresh t c0 k0 -> run e ops c0 = Ok (c, h) ->
  op_ok t o -> (forall w, o <> OInit w) -> o <> OReset ->
  step e o c = Ok (c1, ev, r) -> r <> RThrow DeviceError -> transferred ev = Some v ->
  (e_readable e = true -> forall rd, reader_ok t rd -> step e (OGet true rd) c1 = Ok (c1, [], RVal v)) /\
  (forall x wr, value_ok t x -> val_eqb t x v = true -> step e (OSetCached x wr) c1 = Ok (c1, [], RDone)).
Proof. exact held_after_transfer. Qed.
Print Assumptions C20_held_after_transfer.

(** Equality of values: numbers and strings by content, floats as IEEE does. *)
Theorem C20_equality : forall t a b, (forall n, t <> TReal n) -> (val_eqb t a b = true <-> a = b).
Proof.
  intros t a b H. destruct t; try apply bytes_eqb_spec. exfalso. eapply H. reflexivity.
Qed.
Print Assumptions C20_equality.

Theorem C20_real_equality : forall n a b, n = 4%nat \/ n = 8%nat -> List.length a = n -> List.length b = n ->
  Forall (fun x => 0 <= x < 256) a -> Forall (fun x => 0 <= x < 256) b ->
  val_eqb (TReal n) a b = SFeqb (real_of n a) (real_of n b).
Proof. exact real_equality. Qed.
Print Assumptions C20_real_equality.
Example C20_real_ex : real_of 4 [0; 0; 192; 63] = S754_finite false 12582912 (-23) (* 1.5 *)
  /\ real_of 8 [0; 0; 0; 0; 0; 0; 240; 191] = S754_finite true 4503599627370496 (-52) (* -1 *)
  /\ real_of 4 [1; 0; 0; 128] = S754_finite true 1 (-149) /\ real_of 8 [0; 0; 0; 0; 0; 0; 248; 127] = S754_nan
  /\ real_of 4 [0; 0; 128; 255] = S754_infinity true.
Proof. repeat split; vm_compute; reflexivity. Qed.

(** A default value of another type (a NODEID expression) is none: after a reset
    a cached read asks the device. *)
Theorem C20_reset_other : forall e c rd, h_type (e_def e) <> Some (c_type c) -> e_readable e = true ->
  exists c1, step e OReset c = Ok (c1, [], RDone) /\
    match step e (OGet true rd) c1 with
    | Ok (_, ev, _) => exists b ok, ev = [EvRead (c_rd c) b ok]
    | Undef => True
    end.
Proof.
  intros e c rd H R. exists (data_reset e c). split; [reflexivity|]. cbn [step].
  assert (V : c_valid (data_reset e c) = false /\ c_rd (data_reset e c) = c_rd c).
  { unfold data_reset. destruct (h_data (e_def e)); [|split; reflexivity]. destruct (h_type (e_def e)) as [t|] eqn:T; [|split; reflexivity].
    destruct (ty_eqb t (c_type c)) eqn:E; [|split; reflexivity]. exfalso. apply H. f_equal.
    assert (X : forall i j, ity_eqb i j = true -> i = j).
    { intros [? ?] [? ?]. unfold ity_eqb. cbn. intros K. apply andb_true_iff in K as [K1 K2]. apply eqb_prop in K1. apply Z.eqb_eq in K2. congruence. }
    destruct t, (c_type c); try discriminate; cbn in E; [apply X in E; congruence|apply Nat.eqb_eq in E; congruence|reflexivity|apply X in E; congruence]. }
  destruct V as [V1 V2]. unfold data_get. rewrite V1, R, V2. cbn.
  destruct (rd (c_buf (allocate (data_reset e c)))) as [b ok]. unfold ret. destruct ok; [|eauto]. destruct (access _); eauto.
Qed.
Print Assumptions C20_reset_other.

Example C20_ex : exists c h,
  run ex_rw [OSetCached [100; 0] true; OSetCached [7; 0] true; OSetCached [7; 0] true; OSet [7; 0] true] (data_valued T16 [100; 0])
  = Ok (c, h) /\ events h = [EvWrite 0 [7; 0] true; EvWrite 0 [7; 0] true] /\ no_failure h.
Proof.
  do 2 eexists. split; [reflexivity|]. split; [reflexivity|].
  repeat constructor; discriminate.
Qed.
Example C20_ex_float : val_eqb (TReal 4) [0; 0; 0; 128] [0; 0; 0; 0] = true
  /\ val_eqb (TReal 4) [0; 0; 192; 127] [0; 0; 192; 127] = false.
Proof. split; vm_compute; reflexivity. Qed.

(** C21: a failed write is believed ... *)
Theorem C21_failed_write_refuted : forall t e ops c0 k0 c h v,
  entry_plain t e -> Forall (op_ok t) ops -> fresh t c0 k0 -> run e ops c0 = Ok (c, h) ->
  e_writable e = true -> e_readable e = true -> value_ok t v ->
  exists c1, step e (OSet v false) c = Ok (c1, [EvWrite (c_wr c) v false], RThrow DeviceError) /\
    (forall rd, reader_ok t rd -> step e (OGet true rd) c1 = Ok (c1, [], RVal v)) /\
    (forall wr, val_eqb t v v = true -> step e (OSetCached v wr) c1 = Ok (c1, [], RDone)).
Proof. exact failed_write_believed. Qed.
Print Assumptions C21_failed_write_refuted.

(** ... and after a failed first read, cached reads report zero. *)
Theorem C21_failed_read_refuted : exists e c1 h,
  entry_plain T16 e /\ run e [OGet true ex_fail; OGet true (ex_dev [1; 2])] (data_typed T16) = Ok (c1, h) /\
  map snd h = [RThrow DeviceError; RVal [0; 0]] /\ count read_ok (events h) = 0%nat.
Proof.
  exists (mkEntry true true false no_value no_value). do 2 eexists.
  split; [repeat split|]. split; [reflexivity|]. split; reflexivity.
Qed.
Print Assumptions C21_failed_read_refuted.

(** What is missing for C21 is exactly the above. True is that every failure is
    reported by an exception, and that one successful transfer repairs the
    cache, whatever failed before ([h] may contain failures). *)
Theorem C21_failures_reported_partial : forall e o c c' ev r, step e o c = Ok (c', ev, r) ->
  (r = RThrow DeviceError <->
   existsb (fun x => match x with EvRead _ _ ok | EvWrite _ _ ok => negb ok end) ev = true).
Proof. exact failures_reported. Qed.
Print Assumptions C21_failures_reported_partial.

Theorem C21_repaired_partial : forall t e ops c0 k0 c h o c1 ev r v rd,
  entry_plain t e -> Forall (op_ok t) ops -> fresh t c0 k0 -> run e ops c0 = Ok (c, h) ->
  op_ok t o -> (forall w, o <> OInit w) -> o <> OReset ->
  step e o c = Ok (c1, ev, r) -> r <> RThrow DeviceError -> transferred ev = Some v ->
  e_readable e = true -> reader_ok t rd -> step e (OGet true rd) c1 = Ok (c1, [], RVal v).
Proof.
  intros. eapply held_after_transfer; eassumption.
Qed.
Print Assumptions C21_repaired_partial.

Example C21_ex : exists c h,
  run ex_rw [OSet [9; 9] false; OGet false (ex_dev [3; 4]); OGet true ex_fail] (data_valued T16 [100; 0]) = Ok (c, h) /\
  map snd h = [RThrow DeviceError; RVal [3; 4]; RVal [3; 4]].
Proof. do 2 eexists. split; reflexivity. Qed.

Theorem C22_not_writable_never_written : forall e ops c c' h, e_writable e = false -> Forall pdo_op ops ->
  run e ops c = Ok (c', h) -> count device_write (events h) = 0%nat.
Proof. exact never_written. Qed.
Print Assumptions C22_not_writable_never_written.

Theorem C22_not_readable_never_read : forall e ops c c' h, e_readable e = false -> run e ops c = Ok (c', h) ->
  count is_read (events h) = 0%nat.
Proof. exact never_read. Qed.
Print Assumptions C22_not_readable_never_read.

Theorem C22_write_refused : forall t e ops c0 k0 c h v wr,
  entry_plain t e -> Forall (op_ok t) ops -> fresh t c0 k0 -> run e ops c0 = Ok (c, h) ->
  no_failure h -> e_writable e = false ->
  (forall b, known e k0 h = Some b -> val_eqb t b v = false) ->
  (exists x, step e (OSet v wr) c = Ok (c, [], RThrow x)) /\
  ((forall b, known e k0 h = Some b -> val_eqb t v b = false) ->
   exists x, step e (OSetCached v wr) c = Ok (c, [], RThrow x)).
Proof. exact write_refused. Qed.
Print Assumptions C22_write_refused.

(** Access types of the EDS, in any capitalisation. *)
Theorem C22_access_types : forall a r w k, set_access a = Some (r, w, k) ->
  (k = true -> w = false /\ r = true) /\
  (map lower a = str "ro" -> w = false) /\ (map lower a = str "wo" -> r = false) /\
  (map lower a = str "const" -> k = true).
Proof. exact const_access. Qed.
Print Assumptions C22_access_types.

Example C22_ex : set_access (str "Const") = Some (true, false, true) /\
  exists c h, run (mkEntry true false true (mkHold (Some T16) (Some [5; 0])) no_value)
    [OSet [5; 0] true; OSet [6; 0] true; OSetCached [6; 0] true; OInit true; OMap None (Some 3%nat) ex_fail true]
    (data_valued T16 [5; 0]) = Ok (c, h) /\
  map snd h = [RDone; RThrow NoWriteAccess; RThrow NoWriteAccess; RDone; RDone] /\
  events h = [EvWrite 3 [5; 0] true].
Proof. split; [reflexivity|]. do 2 eexists. split; [reflexivity|]. split; reflexivity. Qed.

(** C25 for every dictionary and storage content, as long as no write fails.
    The value [held] is the one the storage believes; see the refutations for
    the cases where this belief or the value is wrong. *)
Theorem C25_init_writes_partial : forall d s, NoDup (map fst d) ->
  exists s1 ev, init_all d (fun _ => true) s = Ok (s1, ev, true) /\
  writes ev = flat_map (fun ke => map (fun b => (fst ke, b)) (must_write (snd ke) (held s (fst ke)))) d.
Proof. exact init_all_writes. Qed.
Print Assumptions C25_init_writes_partial.

(** With failing writes: the initialisation stops with an exception at the first
    failure, and never writes anything but configured values. *)
Theorem C25_failures_and_sources : forall d wr s s1 ev ok, init_all d wr s = Ok (s1, ev, ok) ->
  (ok = false <-> exists k b n, In (k, EvWrite n b false) ev) /\
  (forall k x, In (k, x) ev -> exists e n iv, In (k, e) d /\ h_data (e_init e) = Some iv /\ x = EvWrite n iv (wr k)).
Proof. exact init_all_stops. Qed.
Print Assumptions C25_failures_and_sources.

(** A configured value '$NODEID+0x200' is written as 16 bytes of a C++ struct. *)
Theorem C25_nodeid_value_refuted : forall ptr, exists d,
  d = [(1, mkEntry true true false no_value (hold_ival (mkIty false 4) ptr (parse_int (mkIty false 4) (str "$NODEID+0x200"))))] /\
  exists s1 ev, init_all d (fun _ => true) [] = Ok (s1, ev, true) /\
    writes ev = [(1, [0; 2; 0; 0; 0; 0; 0; 0] ++ ptr)].
Proof.
  intros ptr. eexists. split; [reflexivity|]. do 2 eexists. split; reflexivity.
Qed.
Print Assumptions C25_nodeid_value_refuted.

(** With a default value '$NODEID+0x80' a configured value is not written once
    the object has been accessed (its 4 byte value is compared with the struct). *)
Theorem C25_nodeid_default_refuted : forall ptr, exists e c,
  e = mkEntry true true false
        (hold_ival (mkIty false 4) ptr (parse_int (mkIty false 4) (str "$NODEID+0x80")))
        (hold_int (mkIty false 4) 0x123) /\
  entry_cell (TInt (mkIty false 4)) e [0x85; 0; 0; 0] = Some c /\
  exists s1, init_all [(1, e)] (fun _ => true) [(1, c)] = Ok (s1, [], true).
Proof.
  intros ptr. do 2 eexists. split; [reflexivity|]. split; [reflexivity|]. eexists. reflexivity.
Qed.
Print Assumptions C25_nodeid_default_refuted.

(** A value whose write failed is not written by a second initialisation. *)
Theorem C25_retry_refuted : exists d s1 ev1 s2,
  init_all d (fun _ => false) [] = Ok (s1, ev1, false) /\ writes ev1 = [(1, [200; 0])] /\
  init_all d (fun _ => true) s1 = Ok (s2, [], true).
Proof.
  exists [(1, ex_rw)]. do 3 eexists. split; [reflexivity|]. split; reflexivity.
Qed.
Print Assumptions C25_retry_refuted.

Example C25_ex : exists s1 ev,
  init_all [(1, ex_rw); (2, mkEntry true true false no_value no_value); (3, ex_rw)] (fun _ => true)
           [(3, data_valued T16 [7; 7])] = Ok (s1, ev, true) /\ writes ev = [(1, [200; 0])].
Proof. do 2 eexists. split; reflexivity. Qed.
