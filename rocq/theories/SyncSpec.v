(** What users of the sync layers know. *)
From Verif Require Import Base CanModel SyncModel.

(** ** SimpleSyncLayer *)
Definition registered (h : list event) : Prop :=
  exists p h1 h2, h = h1 ++ AddNode p :: h2 /\ ~ In (RemoveNode p) h2.
Definition is_write (e : event) : bool := match e with WriteSync true _ _ _ => true | _ => false end.
Definition is_read (e : event) : bool := match e with ReadSync true _ _ => true | _ => false end.
Definition is_init (e : event) : bool := match e with InitSync _ => true | _ => false end.
Definition count (p : event -> bool) (h : list event) : Z := Z.of_nat (List.length (filter p h)).

(** Output of event number [i] of a run *)
Definition sent_at (es : list event) (y : sync) (i : nat) : option (Z * frame) :=
  match nth_error (snd (run es y)) i with Some (o, _) => o | None => None end.

(** Event [i] is called not before event [j] < [i] has returned *)
Definition called (e : event) : option Z :=
  match e with InitSync n | ReadSync _ n _ | WriteSync _ n _ _ => Some n | _ => None end.
Definition lags_ok (e : event) : Prop :=
  match e with ReadSync _ _ l => 0 <= l | WriteSync _ _ l l2 => 0 <= l /\ 0 <= l2 | _ => True end.
Definition sequential (es : list event) (y : sync) : Prop :=
  forall i j e t n o r, (j < i)%nat -> nth_error es i = Some e -> called e = Some n ->
    nth_error (snd (run es y)) j = Some (o, r) ->
    nth_error es j = Some t -> called t <> None -> r <= n.

(** ** BCMsync *)
(** Frames: an NMT command for a node or (0) all nodes, a message of a node *)
Definition nmt (f : frame) (c p : Z) : Prop :=
  h_id (f_hdr f) = 0 /\ 1 < f_dlc f /\ nth 0 (f_data f) 0 = c /\ nth 1 (f_data f) 0 = p.
Definition heartbeat (f : frame) (p : Z) : Prop := h_id (f_hdr f) = 0x700 + p /\ 0 <= p < 128.
Definition says_stopped (f : frame) : Prop := 0 < f_dlc f /\ nth 0 (f_data f) 0 = 4.

(** Node ids that are not ignored by configuration *)
Definition heard (ign mon : list Z) (p : Z) : Prop := ~ In p ign /\ (mon = [] \/ In p mon).
Definition mentions (f : frame) (p : Z) : Prop := (exists c, nmt f c p) \/ heartbeat f p.

Definition starts (ign mon : list Z) (before : list frame) (f : frame) (p : Z) : Prop :=
  heard ign mon p /\
  ((p <> 0 /\ nmt f 1 p) \/
   (nmt f 1 0 /\ heard ign mon 0 /\ (p = 0 \/ exists g, In g before /\ mentions g p))).
Definition stops (ign mon : list Z) (f : frame) (p : Z) : Prop :=
  (exists c, c <> 1 /\ nmt f c p) \/
  (heard ign mon 0 /\ exists c, c <> 1 /\ nmt f c 0) \/
  (heartbeat f p /\ says_stopped f).

(** [p] was started and not stopped since *)
Definition is_started (ign mon : list Z) (h : list frame) (p : Z) : Prop :=
  exists h1 f h2, h = h1 ++ f :: h2 /\ starts ign mon h1 f p /\ forall g, In g h2 -> ~ stops ign mon g p.

Definition ok_frames (h : list frame) : list bevent := map (fun f => BFrame f true) h.
