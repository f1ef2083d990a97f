(** What users of the driver rely on. *)
From Verif Require Import Base CanModel CanSpec SocketCanModel.

(** The nine conditions a user can configure, as bit numbers of the mask. *)
Definition conditions : list Z := [0; 1; 2; 3; 4; 5; 6; 7; 8].
Definition busoff : Z := 6.
Definition default_fatal (i : Z) : bool := existsb (Z.eqb i) [0; 6; 7; 8].
Definition default_reported (i : Z) : bool := existsb (Z.eqb i) [1; 2; 3; 4; 5].

(** Fatal conditions: configured, default, and always bus-off. *)
Definition fatal_spec (cfg : settings) (i : Z) : bool :=
  (i =? busoff) || match cfg (2^i) with Some b => b | None => default_fatal i end.
(** Reported conditions: everything fatal, and what is configured or default. *)
Definition reported_spec (cfg_error cfg_fatal : settings) (i : Z) : bool :=
  fatal_spec cfg_fatal i ||
  match cfg_error (2^i) with Some b => b | None => default_reported i end.

(** A data or remote frame. *)
Definition is_message (f : frame) : Prop := h_err (f_hdr f) = false.

(** The state a listener knows after hearing [outs], starting from [s]. *)
Fixpoint known (s : state) (outs : list output) : state :=
  match outs with
  | Announce s' :: t => known s' t
  | _ :: t => known s t
  | [] => s
  end.

(** No announcement repeats what the listener already knows. *)
Fixpoint no_repeat (s : state) (outs : list output) : Prop :=
  match outs with
  | Announce s' :: t => s' <> s /\ no_repeat s' t
  | _ :: t => no_repeat s t
  | [] => True
  end.

Definition is_run_end (e : event) : bool := match e with ERunEnd _ => true | _ => false end.

(** Is this received frame an error frame with a fatal condition? *)
Definition fatal_frame (fatal : Z) (k : kframe) : Prop :=
  Z.testbit (k_id k) 29 = true /\
  exists i, 0 <= i /\ Z.testbit (k_id k) i = true /\ Z.testbit fatal i = true.

(** Whether frames were written by the sends in a list of outputs. *)
Definition writes_only_when_ready (d : driver) (outs : list output) : Prop :=
  forall ok k, In (Sent ok k) outs -> (ok = true \/ k <> None) -> driver_state (st d) = Ready.
