(** C108, C109: the command line tools and the SYNC node. *)
From Verif Require Import Base CanModel CanSpec SyncModel SyncSpec ToolModel ToolSpec ToolProofs.

(** ** C108 *)

(** Arguments as the usage message describes them: the program watches for
    exactly the nodes wanted, with the period, header and overflow given.
    Missing for C108: the period is not checked, see below. *)
Theorem C108_tool_partial : forall dev per p hdr ov o ids zs rest,
  number per p -> p < 2^16 -> header_isValid (toheader hdr) = true -> overflow_arg ov o ->
  Forall2 id_arg ids zs -> end_args rest ->
  exists w, bcm_sync_main ([dev; per; hdr] ++ ov ++ ids ++ rest) = Ok (Some w) /\
    w_device w = dev /\ w_period w = p /\ w_header w = toheader hdr /\ w_overflow w = o /\
    forall q, 0 <= q -> heard (w_ignored w) (w_monitored w) q <-> wanted zs q.
Proof. exact tool_accepts. Qed.
Print Assumptions C108_tool_partial.

(** Whatever the arguments: a program that starts has a valid header, a legal
    overflow and only node ids of CANopen. *)
Theorem C108_checked : forall args w, bcm_sync_main args = Ok (Some w) ->
  header_isValid (w_header w) = true /\ (w_overflow w = 0 \/ 2 <= w_overflow w <= 240) /\
  0 <= w_period w < 2^16 /\
  Forall (fun q => 1 <= q <= 127) (w_monitored w) /\ Forall (fun q => 1 <= q <= 127) (w_ignored w).
Proof. exact tool_sound. Qed.
Print Assumptions C108_checked.

(** An argument that is no node id ends the program. *)
Theorem C108_bad_id : forall dev per p hdr ov o ids zs s d n rest,
  number per p -> p < 2^31 -> header_isValid (toheader hdr) = true -> overflow_arg ov o ->
  Forall2 id_arg ids zs -> (s = 43 \/ s = 45) -> number d n -> n = 0 \/ 128 <= n < 2^31 ->
  bcm_sync_main ([dev; per; hdr] ++ ov ++ ids ++ (s :: d) :: rest) = Ok None.
Proof.
  intros dev per p hdr ov o ids zs s d n rest Hp Lp Hh Ho Hi Hs Hd Hn. cbn [app]. unfold bcm_sync_main.
  rewrite (atoi_number _ _ Hp Lp), Hh. cbn [negb].
  assert (Ov : read_overflow (ov ++ ids ++ (s :: d) :: rest) = Ok (Some (o, ids ++ (s :: d) :: rest))).
  { destruct Ho as [[-> ->]|(t & -> & Ht & Ho)]; cbn [app].
    - unfold read_overflow. inversion Hi as [|t z ids' zs' Hz Hi']; subst; cbn [app].
      + destruct Hs as [-> | ->]; reflexivity.
      + destruct (id_arg_head _ _ Hz) as [-> | ->]; reflexivity.
    - unfold read_overflow. rewrite (atoi_number _ _ Ht) by lia.
      assert (Hc : (hd 0 t =? 45) || (hd 0 t =? 43) = false).
      { destruct Ht as (N & F & _). destruct t as [|c t]; [congruence|]. inversion F; subst. cbn [hd]. lia. }
      rewrite Hc. replace ((o =? 1) || (o <? 0) || (240 <? o)) with false by lia. reflexivity. }
  rewrite Ov.
  assert (R : forall mon ign, read_ids (ids ++ (s :: d) :: rest) mon ign = Ok None).
  { clear Ov. induction Hi as [|t z ids zs Hz Hi IH]; intros mon ign; cbn [app].
    - rewrite read_ids_step.
      + destruct Hs as [-> | ->].
        * rewrite (atoi_plus _ _ Hd) by lia. replace ((0 <? n) && (n <? 128)) with false by lia.
          replace ((n <? 0) && (-128 <? n)) with false by lia. reflexivity.
        * rewrite (atoi_minus _ _ Hd) by lia. replace ((0 <? - n) && (- n <? 128)) with false by lia.
          replace ((- n <? 0) && (-128 <? - n)) with false by lia. reflexivity.
      + intros x E. destruct Hd as (_ & F & _). injection E as -> ->. inversion F; subst. lia.
    - rewrite read_ids_step by exact (no_dashes _ _ Hz).
      destruct Hz as [e [(-> & He & Hz)|(-> & He & Hz)]].
      + rewrite (atoi_plus _ _ He) by lia. replace ((0 <? z) && (z <? 128)) with true by lia. apply IH.
      + rewrite (atoi_minus _ _ He) by lia. rewrite Z.opp_involutive.
        replace ((0 <? z) && (z <? 128)) with false by lia. replace ((z <? 0) && (-128 <? z)) with true by lia. apply IH. }
  rewrite R. reflexivity.
Qed.
Print Assumptions C108_bad_id.

(** A period that is no number is taken for zero, and one of 65536 ms or more
    becomes another one. *)
Theorem C108_period_refuted : forall dev hdr, header_isValid (toheader hdr) = true ->
  (exists w, bcm_sync_main [dev; str "1s"; hdr] = Ok (Some w) /\ w_period w = 1) /\
  (exists w, bcm_sync_main [dev; str "fast"; hdr] = Ok (Some w) /\ w_period w = 0) /\
  (forall per p, number per p -> 2^16 <= p < 2^31 ->
     exists w, bcm_sync_main [dev; per; hdr] = Ok (Some w) /\ w_period w < p).
Proof.
  intros dev hdr Hh. unfold bcm_sync_main. rewrite Hh.
  split; [|split].
  - change (atoi (str "1s")) with (Ok 1). eexists. split; reflexivity.
  - change (atoi (str "fast")) with (Ok 0). eexists. split; reflexivity.
  - intros per p Hp Lp. rewrite (atoi_number _ _ Hp) by lia. cbn [negb read_overflow read_ids].
    eexists. split; [reflexivity|]. cbn [w_period]. pose proof (Z.mod_pos_bound p (2^16)). lia.
Qed.
Print Assumptions C108_period_refuted.

(** The SYNC node: a list of monitored nodes settles it; without one, the nodes
    listed as ignored; without either, its own heartbeat. *)
Theorem C108_node : forall junk monitored t ignored q, 0 <= q < 128 ->
  let '(ign, mon) := sync_node_nodes junk monitored (Some t) ignored in
  heard ign mon q <->
  match monitored, ignored with
  | Some ns, _ => ns = [] \/ In q ns
  | None, Some ns => ~ In q ns
  | None, None => ~ (frame_isValid (toframe junk t) = true /\ h_id (f_hdr (toframe junk t)) = 0x700 + q)
  end.
Proof.
  intros junk monitored t ignored q Hq. pose proof (node_watches junk monitored (Some t) ignored q) as H.
  destruct (sync_node_nodes junk monitored (Some t) ignored) as [ign mon].
  destruct monitored, ignored; try exact H. rewrite H. pose proof (own_spec junk t q Hq). tauto.
Qed.
Print Assumptions C108_node.

(** A list of ignored nodes makes the SYNC node listen to itself: its own
    heartbeat is then that of a node on the bus. *)
Theorem C108_own_refuted : forall junk own ignored, 1 <= own < 128 -> ~ In own ignored ->
  forall t, frame_isValid (toframe junk t) = true -> h_id (f_hdr (toframe junk t)) = 0x700 + own ->
  (let '(ign, mon) := sync_node_nodes junk None (Some t) None in ~ heard ign mon own) /\
  (let '(ign, mon) := sync_node_nodes junk None (Some t) (Some ignored) in heard ign mon own).
Proof.
  intros junk own ignored Ho Hi t Hv Hid.
  pose proof (C108_node junk None t None own ltac:(lia)) as H1.
  pose proof (C108_node junk None t (Some ignored) own ltac:(lia)) as H2.
  destruct (sync_node_nodes junk None (Some t) None) as [i1 m1], (sync_node_nodes junk None (Some t) (Some ignored)) as [i2 m2].
  split; [rewrite H1; tauto|rewrite H2; exact Hi].
Qed.
Print Assumptions C108_own_refuted.

Example C108_example :
  let args := map str ["can0"; "10"; "80"; "4"; "+3"; "+5"; "-5"; "--"; "x"]%string in
  exists w, bcm_sync_main args = Ok (Some w) /\ w_period w = 10 /\ w_overflow w = 4 /\ w_header w = MsgHeader 0x80 false /\
    heard (w_ignored w) (w_monitored w) 3 /\ ~ heard (w_ignored w) (w_monitored w) 5 /\ ~ heard (w_ignored w) (w_monitored w) 4.
Proof.
  eexists. split; [vm_compute; reflexivity|]. cbn [w_period w_overflow w_header w_ignored w_monitored].
  repeat match goal with |- _ /\ _ => split end; try reflexivity; unfold heard; cbn [In]; intuition (try lia; try discriminate).
Qed.
Example C108_hypotheses : number (str "10") 10 /\ header_isValid (toheader (str "80")) = true /\
  overflow_arg [str "4"] 4 /\ Forall2 id_arg [str "+3"; str "-5"] [3; -5] /\ end_args [str "--"; str "x"].
Proof.
  assert (N : forall t n, t <> [] -> forallb (fun c => (48 <=? c) && (c <=? 57)) t = true ->
    fold_left (fun a c => 10 * a + (c - 48)) t 0 = n -> number t n).
  { intros t n H1 H2 H3. split; [exact H1|]. split; [|exact H3]. apply Forall_forall. intros c Hc.
    rewrite forallb_forall in H2. specialize (H2 c Hc). lia. }
  split; [apply N; [discriminate|reflexivity|reflexivity]|]. split; [reflexivity|]. split; [|split].
  - right. exists (str "4"). split; [reflexivity|]. split; [apply N; [discriminate|reflexivity|reflexivity]|lia].
  - constructor; [|constructor; [|constructor]].
    + exists (str "3"). left. split; [reflexivity|]. split; [apply N; [discriminate|reflexivity|reflexivity]|lia].
    + exists (str "5"). right. split; [reflexivity|]. split; [apply N; [discriminate|reflexivity|reflexivity]|lia].
  - right. exists [], [str "x"]. reflexivity.
Qed.
Example C108_node_example : forall junk,
  frame_isValid (toframe junk (str "77f#05")) = true /\ h_id (f_hdr (toframe junk (str "77f#05"))) = 0x700 + 127.
Proof. intro junk. split; reflexivity. Qed.

(** ** C109 *)

(** canbcm: well formed arguments are sent as typed, all under the identifier of
    the first. Missing for C109: remote frames and malformed arguments, below. *)
Theorem C109_sent_partial : forall junk usec pre t bs more bss,
  ~ In 35 pre -> header_isValid (toheader pre) = true ->
  Forall2 hex_text (t :: more) (bs :: bss) -> Forall (fun b => (List.length b <= 8)%nat) (bs :: bss) ->
  let m := canbcm junk usec (pre ++ [35] ++ t) more in
  m_id m = h_id (toheader pre) + (if h_ext (toheader pre) then 2^31 else 0) /\
  m_frames m = map (fun b => (m_id m, Z.of_nat (List.length b), b)) (bs :: bss) /\
  m_sec m * 1000000 + m_usec m = usec /\ 0 <= m_usec m < 1000000.
Proof. exact canbcm_sends. Qed.
Print Assumptions C109_sent_partial.

(** A remote frame is sent as a data frame. *)
Theorem C109_remote_refuted : forall junk usec id, 0 <= id < 2^11 ->
  let h := mkHeader id false true false in
  let m := canbcm junk usec (tostring_header h true ++ [35]) [] in
  toheader (tostring_header h true) = h /\ m_frames m = [(id, 0, [])].
Proof.
  intros junk usec id Hid. cbv zeta.
  assert (Hok : header_ok (mkHeader id false true false)) by (unfold header_ok; cbn; lia).
  assert (Ht : toheader (tostring_header (mkHeader id false true false) true) = mkHeader id false true false).
  { rewrite (CanProofs.toheader_tostring _ true Hok); [reflexivity|]. cbn. lia. }
  split; [exact Ht|].
  assert (Hx : hex_text [] []) by (apply CanProofs.hex2buffer_strict; reflexivity).
  destruct (canbcm_sends junk usec (tostring_header (mkHeader id false true false) true) [] [] [] []) as (Ei & Ef & _).
  - apply tostring_no_hash. exact Hok.
  - rewrite Ht. unfold header_isValid. cbn [h_id h_ext]. lia.
  - constructor; [exact Hx|constructor].
  - constructor; [cbn; lia|constructor].
  - cbn [app] in Ef, Ei. rewrite Ef, Ei, Ht. cbn [h_id h_ext map List.length]. rewrite Z.add_0_r. reflexivity.
Qed.
Print Assumptions C109_remote_refuted.

(** Nothing is checked: an argument that is no frame is sent all the same, as an
    empty one with the identifier 4095, which CAN does not have; data that are no
    bytes are sent as no data. *)
Theorem C109_unchecked_refuted : forall junk usec,
  (forall t, ~ In 35 t -> m_frames (canbcm junk usec t []) = [(4095, 0, [])]) /\
  m_frames (canbcm junk usec (str "123#01") [str "02"; str "3"; str "xy"]) =
    [(0x123, 1, [1]); (0x123, 1, [2]); (0x123, 0, []); (0x123, 0, [])].
Proof.
  intros junk usec. split.
  - intros t Ht. unfold canbcm, cyclic_message, toframe. pose proof (CanProofs.split_at_spec 35 t) as E.
    destruct (split_at 35 t) as [[a b]|].
    + destruct E as [-> _]. exfalso. apply Ht. apply in_or_app. right. left. reflexivity.
    + reflexivity.
  - reflexivity.
Qed.
Print Assumptions C109_unchecked_refuted.

(** candump: from a line the reader knows the frame, but for what [looks_like]
    leaves open. *)
Theorem C109_dump : forall f g, valid_frame f -> valid_frame g -> print_frame f = print_frame g -> looks_like f g.
Proof. exact dump_inj. Qed.
Print Assumptions C109_dump.

(** What it leaves open: the length a remote frame asks for. *)
Theorem C109_length_refuted : forall id junk n k, print_frame (mkFrame (mkHeader id false true false) n junk) = print_frame (mkFrame (mkHeader id false true false) k junk).
Proof. reflexivity. Qed.
Print Assumptions C109_length_refuted.

Example C109_example : forall junk,
  m_frames (canbcm junk 1500000 (str "18ABCDEF#0102") [str "03"]) =
    [(2^31 + 0x18ABCDEF, 2, [1; 2]); (2^31 + 0x18ABCDEF, 1, [3])] /\
  print_frame (mkFrame (mkHeader 0x701 false false false) 2 [5; 0xab; 0; 0; 0; 0; 0; 0]) = str "s 701" ++ [9] ++ str "2 5 ab" ++ [10].
Proof. intro junk. split; reflexivity. Qed.
