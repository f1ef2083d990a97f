(** C19, C20, C22 for histories in which transfers fail: the value an object
    holds is then the one of the last transfer that was tried, confirmed or not
    (see C21 for what is wrong about that). *)
From Verif Require Import Base CanModel KeyModel StorageModel StorageSpec StorageProofs StorageProps.

(** The bytes of the last transfer, whether or not it succeeded. *)
Fixpoint tried (ev : list event) : option bytes :=
  match ev with
  | [] => None
  | EvRead _ b _ :: t | EvWrite _ b _ :: t =>
    match tried t with Some x => Some x | None => Some b end
  end.

(** The value held: as [known], but failed transfers count; only a failed read
    while a PDO is mapped leaves an object without value as it was. *)
Definition held_step (e : entry) (k : option bytes) (i : item) : option bytes :=
  match i with
  | (OReset, _, _) | (OInit _, _, _) => known_step e k i
  | (OMap _ _ _ _, [EvRead _ _ false], _) => k
  | (_, ev, _) => match tried ev with Some b => Some b | None => k end
  end.
Definition held_value (e : entry) (k : option bytes) (h : list item) : option bytes :=
  fold_left (held_step e) h k.

Lemma write_held : forall c v wr c' ev r, data_write c v wr = Ok (c', ev, r) ->
  exists b, tried ev = Some b /\ view c' = Some b.
Proof.
  intros c v wr c' ev r H. unfold data_write in H.
  destruct (assign c v) as [c1|] eqn:A; [|discriminate].
  assert (V1 : c_valid c1 = true) by exact (assign_valid c v c1 A).
  injection H as <- <- <-. cbn [tried]. eexists. split; [reflexivity|].
  unfold view. rewrite V1. reflexivity.
Qed.

Lemma force_held : forall e c rd wr c' ev r, data_force e c rd wr = Ok (c', ev, r) ->
  view c' = match ev with
            | [EvRead _ _ false] => view c
            | _ => match tried ev with Some b => Some b | None => view c end end.
Proof.
  intros e c rd wr c' ev r H. unfold data_force in H.
  destruct (c_valid c) eqn:V; cbn [negb andb] in H.
  - injection H as <- <- <-. cbn [tried]. unfold view. rewrite V. reflexivity.
  - destruct (e_readable e).
    + destruct (rd (c_buf c)) as [b ok]. destruct ok; injection H as <- <- <-; cbn [tried app].
      * reflexivity.
      * unfold view. cbn [c_valid]. rewrite V. reflexivity.
    + injection H as <- <- <-. reflexivity.
Qed.

Lemma step_held : forall t e o c c' ev r, entry_plain t e -> op_ok t o -> cell_ok t c ->
  step e o c = Ok (c', ev, r) -> view c' = held_step e (view c) (o, ev, r).
Proof.
  intros t e o c c' ev r P Ho C H.
  destruct (step_good t e o c P Ho C) as (c2 & ev2 & r2 & E & _ & G). rewrite H in E.
  injection E as <- <- <-. destruct o as [cached rd|v wr|v wr|wr| |ro wo rd wr].
  - clear G. cbn [step held_step] in *. unfold data_get in H.
    destruct (negb (e_readable e)). { injection H as <- <- <-. reflexivity. }
    destruct (negb (c_valid c) || negb (cached || e_constant e)).
    + destruct (rd (c_buf (allocate c))) as [b ok].
      destruct ok.
      * destruct (access _); [|discriminate]. injection H as <- <- <-. reflexivity.
      * injection H as <- <- <-. reflexivity.
    + destruct (access c); [|discriminate]. injection H as <- <- <-. reflexivity.
  - clear G. cbn [step held_step] in *. unfold data_set in H. destruct (negb (e_writable e)).
    + destruct (negb (c_valid c)). { injection H as <- <- <-. reflexivity. }
      destruct (access c); [|discriminate]. injection H as <- <- <-. reflexivity.
    + destruct (write_held c v wr c' ev r H) as (b & -> & ->). reflexivity.
  - clear G. cbn [step held_step] in *. unfold data_set_cached in H.
    assert (W : (if negb (e_writable e) then ret c [] (RThrow NoWriteAccess) else data_write c v wr) = Ok (c', ev, r) ->
                view c' = match tried ev with Some b => Some b | None => view c end).
    { intros X. destruct (negb (e_writable e)). { injection X as <- <- <-. reflexivity. }
      destruct (write_held c v wr c' ev r X) as (b & -> & ->). reflexivity. }
    destruct (negb (c_valid c)); [exact (W H)|].
    destruct (access c) as [x|]; [|discriminate]. destruct (val_eqb (c_type c) v x); [|exact (W H)].
    injection H as <- <- <-. reflexivity.
  - (* init: a failing write changes the answer only *)
    cbn [held_step].
    assert (A : exists ev2 r2, step e (OInit true) c = Ok (c', ev2, r2) /\ r2 <> RThrow DeviceError).
    { cbn [step] in *. unfold data_init in *. destruct (h_data (e_init e)) as [iv|].
      2:{ injection H as <- <- <-. do 2 eexists. split; [reflexivity|discriminate]. }
      destruct (match h_data (e_def e) with Some dv => c_valid c && negb (bytes_eqb (c_buf c) dv) | None => false end).
      { injection H as <- <- <-. do 2 eexists. split; [reflexivity|discriminate]. }
      destruct (negb (c_valid c) || negb (bytes_eqb (c_buf c) iv)).
      2:{ injection H as <- <- <-. do 2 eexists. split; [reflexivity|discriminate]. }
      destruct (e_writable e && match h_data (e_def e) with Some dv => negb (bytes_eqb iv dv) | None => true end);
        injection H as <- <- <-; do 2 eexists; (split; [reflexivity|discriminate]). }
    destruct A as (ev2 & r2 & A & N). clear G H.
    destruct (step_good t e (OInit true) c P Logic.I C) as (c3 & ev3 & r3 & E & _ & G). rewrite A in E.
    injection E as <- <- <-. rewrite (G N). reflexivity.
  - cbn [held_step]. apply G. cbn [step] in H. injection H as <- <- <-. discriminate.
  - clear G. cbn [step] in H. unfold data_map in H.
    assert (F : forall c0 c1 ev1 r1, view c0 = view c -> data_force e c0 rd wr = Ok (c1, ev1, r1) ->
              view c1 = held_step e (view c) (OMap ro wo rd wr, ev1, r1)).
    { intros c0 c1 ev1 r1 V0 F. apply force_held in F. rewrite F, V0. reflexivity. }
    destruct ro as [ro|], wo as [wo|].
    + destruct (data_force e (set_delegates c 0 wo) rd wr) as [[[c1 ev1] r1]|] eqn:E; [|discriminate].
      pose proof (F (set_delegates c 0 wo) c1 ev1 r1 eq_refl E) as V1.
      destruct r1; injection H as <- <- <-; exact V1.
    + injection H as <- <- <-. reflexivity.
    + exact (F (set_delegates c 0 wo) c' ev r eq_refl H).
    + injection H as <- <- <-. reflexivity.
Qed.

Lemma run_held : forall t e ops c c' h, entry_plain t e -> Forall (op_ok t) ops -> cell_ok t c ->
  run e ops c = Ok (c', h) -> cell_ok t c' /\ view c' = held_value e (view c) h.
Proof.
  intros t e ops. induction ops as [|o ops IH]; intros c c' h P Ho C H; cbn [run] in H.
  - injection H as <- <-. split; [exact C|reflexivity].
  - inversion Ho; subst. destruct (step_good t e o c P H2 C) as (c1 & ev & r & E & C1 & _).
    rewrite E in H. destruct (run e ops c1) as [[c2 h2]|] eqn:E2; [|discriminate].
    injection H as <- <-. destruct (IH c1 c2 h2 P H3 C1 E2) as [C2 V2]. split; [exact C2|].
    rewrite V2. unfold held_value. cbn [fold_left]. rewrite (step_held t e o c c1 ev r P H2 C E). reflexivity.
Qed.

Lemma fresh_held : forall t e ops c0 k0 c h,
  entry_plain t e -> Forall (op_ok t) ops -> fresh t c0 k0 -> run e ops c0 = Ok (c, h) ->
  cell_ok t c /\ view c = held_value e k0 h.
Proof.
  intros t e ops c0 k0 c h P Ho F E. destruct (fresh_ok t c0 k0 F) as [C0 V0].
  rewrite <- V0. exact (run_held t e ops c0 c h P Ho C0 E).
Qed.

(** Every history, failures included: a cached read causes device traffic
    exactly if no value is held. *)
Theorem C19_cached_read_any : forall t e ops c0 k0 c h rd,
  entry_plain t e -> Forall (op_ok t) ops -> fresh t c0 k0 -> run e ops c0 = Ok (c, h) ->
  e_readable e = true -> reader_ok t rd ->
  match held_value e k0 h with
  | Some v => step e (OGet true rd) c = Ok (c, [], RVal v)
  | None => exists c' b ok, step e (OGet true rd) c =
              Ok (c', [EvRead (c_rd c) b ok], if ok then RVal b else RThrow DeviceError)
  end.
Proof.
  intros t e ops c0 k0 c h rd P Ho F E R Hr.
  destruct (fresh_held t e ops c0 k0 c h P Ho F E) as [C V].
  destruct (data_get_ok t e c true rd C Hr R) as [G1 G2].
  rewrite <- V. cbn [step]. destruct (view c) as [v|] eqn:W.
  - apply view_some in W. destruct W as [W1 W2]. rewrite <- W2. apply G1; [assumption|reflexivity].
  - apply view_none in W. destruct G2 as (c1 & b & ok & E1 & _); [left; assumption|].
    exists c1, b, ok. exact E1.
Qed.
Print Assumptions C19_cached_read_any.

(** Every history, failures included: a cached write sends nothing exactly if
    the value is the one held. *)
Theorem C20_cached_write_any : forall t e ops c0 k0 c h v wr,
  entry_plain t e -> Forall (op_ok t) ops -> fresh t c0 k0 -> run e ops c0 = Ok (c, h) ->
  e_writable e = true -> value_ok t v ->
  (forall b, held_value e k0 h = Some b -> val_eqb t v b = true ->
     step e (OSetCached v wr) c = Ok (c, [], RDone)) /\
  ((forall b, held_value e k0 h = Some b -> val_eqb t v b = false) ->
     exists c', step e (OSetCached v wr) c =
       Ok (c', [EvWrite (c_wr c) v wr], if wr then RDone else RThrow DeviceError)).
Proof.
  intros t e ops c0 k0 c h v wr P Ho F E W Hv.
  destruct (fresh_held t e ops c0 k0 c h P Ho F E) as [C V].
  rewrite <- V. cbn [step]. unfold data_set_cached. rewrite W. cbn [negb].
  destruct (data_write_ok t c v wr C Hv) as (c1 & E1 & _).
  pose proof (access_ok t c C) as A. destruct C as [CT _].
  split.
  - intros b Hb Q. apply view_some in Hb. destruct Hb as [V1 V2]. rewrite V1. cbn [negb].
    rewrite A, CT, V2, Q. reflexivity.
  - intros Q. exists c1. destruct (c_valid c) eqn:V1; cbn [negb]; [|exact E1].
    rewrite A, CT. rewrite (Q (c_buf c)); [exact E1|]. unfold view. rewrite V1. reflexivity.
Qed.
Print Assumptions C20_cached_write_any.

(** Every history, failures included: writing another value to an object that
    is not writable throws and sends nothing. *)
Theorem C22_write_refused_any : forall t e ops c0 k0 c h v wr,
  entry_plain t e -> Forall (op_ok t) ops -> fresh t c0 k0 -> run e ops c0 = Ok (c, h) ->
  e_writable e = false ->
  (forall b, held_value e k0 h = Some b -> val_eqb t b v = false /\ val_eqb t v b = false) ->
  (exists x, step e (OSet v wr) c = Ok (c, [], RThrow x)) /\
  (exists x, step e (OSetCached v wr) c = Ok (c, [], RThrow x)).
Proof.
  intros t e ops c0 k0 c h v wr P Ho F E W Q.
  destruct (fresh_held t e ops c0 k0 c h P Ho F E) as [C V].
  rewrite <- V in Q. cbn [step]. unfold data_set, data_set_cached. rewrite W. cbn [negb].
  pose proof (access_ok t c C) as A. destruct C as [CT _]. unfold view in Q.
  destruct (c_valid c); cbn [negb].
  - destruct (Q _ eq_refl) as [Q1 Q2]. rewrite A, CT, Q1, Q2. split; eexists; reflexivity.
  - split; eexists; reflexivity.
Qed.
Print Assumptions C22_write_refused_any.

(** Without failures the value held is the one known to be on the device. *)
Theorem C20_held_is_known : forall t e ops c0 k0 c h,
  entry_plain t e -> Forall (op_ok t) ops -> fresh t c0 k0 -> run e ops c0 = Ok (c, h) ->
  no_failure h -> held_value e k0 h = known e k0 h.
Proof.
  intros t e ops c0 k0 c h P Ho F E N.
  destruct (fresh_held t e ops c0 k0 c h P Ho F E) as [_ <-].
  destruct (run_from_fresh t e ops c0 k0 c h P Ho F E) as [_ V]. exact (V N).
Qed.
Print Assumptions C20_held_is_known.

(** A write of 7 fails, a read fails after overwriting one byte. *)
Example C19_ex_any : exists c h,
  entry_plain T16 ex_rw /\
  run ex_rw [OSet [7; 0] false; OGet true (ex_dev [5; 6]); OGet false (fun _ => ([7; 9], false));
             OGet true (ex_dev [5; 6]); OSetCached [7; 9] true; OSetCached [7; 0] true]
      (data_valued T16 [100; 0]) = Ok (c, h) /\
  map snd h = [RThrow DeviceError; RVal [7; 0]; RThrow DeviceError; RVal [7; 9]; RDone; RDone] /\
  events h = [EvWrite 0 [7; 0] false; EvRead 0 [7; 9] false; EvWrite 0 [7; 0] true] /\
  ~ no_failure h /\ held_value ex_rw (Some [100; 0]) (firstn 3 h) = Some [7; 9].
Proof.
  do 2 eexists. split; [repeat split|]. split; [reflexivity|]. split; [reflexivity|].
  split; [reflexivity|]. split; [|reflexivity].
  intro N. inversion N; subst. apply H1. reflexivity.
Qed.
