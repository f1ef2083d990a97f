(** Properties C14 to C18. *)
From Verif Require Import Base LayerModel LayerSpec LayerProofs LayerGroupProofs LayerOrderProofs.

(** C14. A status after any list of reports. *)
Theorem C14_status_accumulates : forall rs s,
  let s' := fold_left (fun s r => set s (fst r) (snd r)) rs s in
  level s' = worst_of (level s) rs /\
  reason s' = join (List.filter nonempty [reason s] ++ reasons rs).
Proof. exact set_all_spec. Qed.
Print Assumptions C14_status_accumulates.

(** The same for a whole call of any layer tree. *)
Theorem C14_status_of_a_call : forall b t o w,
  exists rs, reports (log (exec b t o w)) = reports (log w) ++ rs /\
    level (stat (exec b t o w)) = worst_of (level (stat w)) rs /\
    reason (stat (exec b t o w)) = join (List.filter nonempty [reason (stat w)] ++ reasons rs).
Proof. exact status_spec. Qed.
Print Assumptions C14_status_of_a_call.

Example C14_example :
  let rs := [(WARN, str "a"); (STALE, []); (ERROR, str "bc")] in
  fold_left (fun s r => set s (fst r) (snd r)) rs status0 = mkStatus STALE (str "a; bc") /\
  worst_of OK rs = STALE /\ reasons rs = [str "a"; str "bc"].
Proof. repeat split. Qed.

(** C15. In every history of calls on a tree of layers the handlers of each
    layer obey the lifecycle protocol, and between calls a layer is off, ready
    or in error. *)
Theorem C15_lifecycle : forall b t calls, NoDup (ids t) ->
  let w := exec_all b t calls world0 in
  forall i, In i (ids t) ->
    (lst w i = Off /\ phase_of i (log w) = Some PhOff) \/
    (lst w i = Ready /\ phase_of i (log w) = Some PhReady) \/
    (lst w i = Error /\ phase_of i (log w) = Some PhError).
Proof. exact lifecycle. Qed.
Print Assumptions C15_lifecycle.

(** Init and recover handlers never start after a handler failed. *)
Theorem C15_nothing_starts_after_failure : forall b t o w, exists new,
  log (exec b t o w) = log w ++ new /\
  forall pre i o' post, new = pre ++ End i o' false :: post ->
    no_start OInit post /\ no_start ORecover post.
Proof. exact nothing_after_failure. Qed.
Print Assumptions C15_nothing_starts_after_failure.

(** Which states the entry points lead to. *)
Theorem C15_shutdown : forall b t w, NoDup (ids t) -> uin [Off; Ready; Error] t w ->
  all_in Off t (exec b t OShutdown w).
Proof. exact (fun b t w ND => tg_shutdown b t (all_together b t ND) w). Qed.
Print Assumptions C15_shutdown.

Theorem C15_halt : forall b t w, NoDup (ids t) -> uin [Ready; Error] t w ->
  all_in Error t (exec b t OHalt w).
Proof. exact (fun b t w ND => tg_halt b t (all_together b t ND) w). Qed.
Print Assumptions C15_halt.

Theorem C15_recover : forall b t w, NoDup (ids t) -> all_in Error t w ->
  let w' := exec b t ORecover w in
  exists new, log w' = log w ++ new /\
  ((okw w' = true /\ all_in Ready t w' /\ started ORecover new = order ORecover t) \/
   (okw w' = false /\ all_in Error t w' /\ prefix (started ORecover new) (order ORecover t))).
Proof. exact recover_summary. Qed.
Print Assumptions C15_recover.

(** Entry points that do not apply to the current state do nothing. *)
Theorem C15_otherwise_nothing : forall b t o w s, all_in s t w ->
  (match o with
   | OInit => s <> Off | ORecover => s <> Error | OHalt => s = Off \/ s = Error
   | OShutdown => s = Off | ORead | OWrite | ODiag => s = Off end) ->
  exec b t o w = w.
Proof. exact exec_unchanged. Qed.
Print Assumptions C15_otherwise_nothing.

(** C16. *)
Theorem C16_init_all_or_nothing : forall b t w, NoDup (ids t) -> all_in Off t w ->
  let w' := exec b t OInit w in
  exists new, log w' = log w ++ new /\
  ((okw w' = true /\ all_in Ready t w' /\ started OInit new = order OInit t) \/
   (okw w' = false /\ all_in Off t w' /\ prefix (started OInit new) (order OInit t))).
Proof. exact init_summary. Qed.
Print Assumptions C16_init_all_or_nothing.

(** Between calls all layers of a tree are in the same state. *)
Theorem C16_layers_move_together : forall b t calls, NoDup (ids t) ->
  let w := exec_all b t calls world0 in
  all_in Off t w \/ all_in Ready t w \/ all_in Error t w.
Proof. exact history_together. Qed.
Print Assumptions C16_layers_move_together.

(** C17. Every handler of the tree is started once, in the documented order. *)
Theorem C17_order : forall b t o s w, NoDup (ids t) -> all_in s t w ->
  (match o with
   | ORead | OWrite | ODiag | OShutdown => s = Ready \/ s = Error
   | OHalt => s = Ready
   | OInit | ORecover => False end) ->
  exists new, log (exec b t o w) = log w ++ new /\ started o new = order o t.
Proof. exact order_summary. Qed.
Print Assumptions C17_order.

(** C18. *)
Theorem C18_cyclic_failure_halts : forall b t o w, NoDup (ids t) -> is_group t ->
  (o = ORead \/ o = OWrite) -> all_in Ready t w ->
  exists new, log (exec b t o w) = log w ++ new /\ started o new = order o t /\
  ((okw (exec b t o w) = true /\ all_in Ready t (exec b t o w) /\ started OHalt new = []) \/
   (okw (exec b t o w) = false /\ all_in Error t (exec b t o w))).
Proof. exact cyclic_summary. Qed.
Print Assumptions C18_cyclic_failure_halts.

(** A stack of a layer, a group of two layers and another layer; layer 3
    fails to initialise in the first attempt. *)
Definition ex_tree : tree := Group KStack 0 [Leaf 1; Group KGroup 2 [Leaf 3; Leaf 4]; Leaf 5].
Definition ex_beh (fail_op : op) : behaviour := fun l id o =>
  if Nat.eqb id 3 && op_eqb o fail_op then [(ERROR, str "x")] else [].

Example C16_example :
  NoDup (ids ex_tree) /\ all_in Off ex_tree world0 /\
  started OInit (log (exec (ex_beh OInit) ex_tree OInit world0)) = [0; 1; 2; 3]%nat /\
  started OShutdown (log (exec (ex_beh OInit) ex_tree OInit world0)) = [3; 2; 0; 1]%nat /\
  okw (exec (ex_beh OInit) ex_tree OInit world0) = false.
Proof.
  split; [repeat constructor; cbn; intuition congruence|].
  split; [intros i _; reflexivity|]. repeat split.
Qed.

Example C17_example :
  let w := exec (ex_beh OHalt) ex_tree OInit world0 in
  all_in Ready ex_tree w /\
  started OWrite (log (exec (ex_beh OHalt) ex_tree OWrite w)) = [0; 5; 2; 3; 4; 1]%nat /\
  started ORead (log (exec (ex_beh OHalt) ex_tree ORead w)) = [0; 1; 2; 3; 4; 5]%nat.
Proof.
  split; [intros i Hi; cbn in Hi; intuition (subst; reflexivity)|]. repeat split.
Qed.

Example C18_example :
  let w := exec (ex_beh ORead) ex_tree OInit world0 in
  let w' := exec (ex_beh ORead) ex_tree ORead w in
  all_in Ready ex_tree w /\ all_in Error ex_tree w' /\
  started ORead (log w') = [0; 1; 2; 3; 4; 5]%nat /\
  started OHalt (log w') = [3; 4; 2; 1; 5; 0]%nat /\
  all_in Ready ex_tree (exec (ex_beh ORead) ex_tree ORecover (with_status status0 w')).
Proof.
  repeat split; intros i Hi; cbn in Hi; intuition (subst; reflexivity).
Qed.
