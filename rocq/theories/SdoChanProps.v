(** C85: the SDO client on the bus. *)
From Verif Require Import Base CanModel KeyModel StorageModel PdoModel ReaderModel ReaderSpec SdoModel SdoSpec
  SdoProofs SdoChanModel SdoChanSpec SdoChanProofs.

(** ** Identifiers *)

(** The objects 1200sub1 and 1200sub2, if they hold a number. *)
Theorem C85_configured_ids : forall d nid e v,
  (lookup (key_sub 0x1200 1) d = Some e -> configured nid e v -> sdo_client_id d nid = cob_id v) /\
  (lookup (key_sub 0x1200 2) d = Some e -> configured nid e v -> sdo_server_id d nid = cob_id v).
Proof.
  intros d nid e v. unfold sdo_client_id, sdo_server_id, sdo_id.
  split; intros L C; rewrite L; apply apply_configured in C; rewrite C; apply sdo_header_eq.
Qed.
Print Assumptions C85_configured_ids.

(** Otherwise the predefined identifiers. *)
Theorem C85_default_ids : forall d nid, 0 <= nid < 256 ->
  ((forall e v, lookup (key_sub 0x1200 1) d = Some e -> ~ configured nid e v) ->
   sdo_client_id d nid = standard_id (0x600 + nid)) /\
  ((forall e v, lookup (key_sub 0x1200 2) d = Some e -> ~ configured nid e v) ->
   sdo_server_id d nid = standard_id (0x580 + nid)).
Proof.
  intros d nid N. unfold sdo_client_id, sdo_server_id, sdo_id, MsgHeader, Header, standard_id.
  split; intros H.
  - assert (G : mkHeader ((0x600 + nid) mod 2^29) false false false = mkHeader (0x600 + nid) false false false)
      by (f_equal; lia).
    destruct (lookup (key_sub 0x1200 1) d) as [e|]; [|exact G].
    destruct (apply_u32 nid (e_value e)) as [v|] eqn:A; [|exact G]. apply apply_configured in A. exfalso.
    eapply H; [reflexivity|exact A].
  - assert (G : mkHeader ((0x580 + nid) mod 2^29) false false false = mkHeader (0x580 + nid) false false false)
      by (f_equal; lia).
    destruct (lookup (key_sub 0x1200 2) d) as [e|]; [|exact G].
    destruct (apply_u32 nid (e_value e)) as [v|] eqn:A; [|exact G]. apply apply_configured in A. exfalso.
    eapply H; [reflexivity|exact A].
Qed.
Print Assumptions C85_default_ids.

(** With the predefined identifiers no node gets the responses of another one,
    nor any request. *)
Theorem C85_nodes_apart : forall a b f, 0 <= a < 128 -> 0 <= b < 128 ->
  addressed f (standard_id (0x580 + a)) ->
  (addressed f (standard_id (0x580 + b)) -> a = b) /\ ~ addressed f (standard_id (0x600 + b)).
Proof.
  intros a b f A B H. unfold addressed in *. rewrite H. unfold key, fullid, standard_id.
  cbn [h_id h_err h_rtr h_ext]. rewrite !Z.lor_0_r. split; lia.
Qed.
Print Assumptions C85_nodes_apart.

Definition ex_d : dict :=
  [(key_sub 0x1200 1, mkEntry true false false (mkHold (Some (TOff (mkIty false 4))) (Some [0; 6; 0; 0])) no_value);
   (key_sub 0x1200 2, mkEntry true false false (mkHold (Some (TInt (mkIty false 4))) (Some [3; 0; 0; 32])) no_value)].
Example C85_ids_ex : sdo_client_id ex_d 5 = mkHeader 0x605 false false false /\
  sdo_server_id ex_d 5 = mkHeader 3 true false false /\ sdo_server_id [] 5 = mkHeader 0x585 false false false.
Proof. repeat split. Qed.

(** ** Calls *)

(** Every call that returns is one of the transfers of C26 to C32, for the frames
    taken from the reader meanwhile, and everything it sends has the client's
    identifier and eight bytes. *)
Theorem C85_calls : forall d nid es c tr k, crun (client_init d nid) es = Ok (c, tr) ->
  In k (calls tr) ->
  transfer (n_call k) (n_inputs k) = Ok (map f_data (n_sent k), n_result k) /\
  Forall (fun f => f_hdr f = sdo_client_id d nid /\ f_dlc f = 8) (n_sent k).
Proof.
  intros d nid es c tr k H I.
  pose proof (crun_inv call_inv _ (init_inv d nid) call_inv_step _ _ _ H) as [F _].
  rewrite Forall_forall in F. destruct (crun_ids _ _ _ _ H) as [E _]. rewrite E in F. apply (F k I).
Qed.
Print Assumptions C85_calls.

Theorem C85_sent : forall d nid es c tr f, crun (client_init d nid) es = Ok (c, tr) ->
  In f (sent tr) -> f_hdr f = sdo_client_id d nid /\ f_dlc f = 8.
Proof.
  intros d nid es c tr f H I. pose proof (sent_own _ _ _ _ H) as F. rewrite Forall_forall in F. apply (F f I).
Qed.
Print Assumptions C85_sent.

(** The frames processed are among those received with the identifier of the
    server, in the same order, each one once. *)
Theorem C85_taken : forall d nid es c tr, crun (client_init d nid) es = Ok (c, tr) ->
  sub (taken tr) (List.filter (fun f => key (f_hdr f) =? key (sdo_server_id d nid)) (SdoChanSpec.received tr)).
Proof.
  intros d nid es c tr H. pose proof (taken_sub d nid es c tr H) as S.
  eapply ReaderProofs.sub_trans; [exact S|]. rewrite <- (app_nil_r (taken tr)) at 1.
  apply ReaderProofs.sub_app; [apply ReaderProofs.sub_refl|apply sub_nil].
Qed.
Print Assumptions C85_taken.

(** Frames with other identifiers have no effect at all. *)
Theorem C85_others : forall d nid es c tr, crun (client_init d nid) es = Ok (c, tr) ->
  exists tr2, crun (client_init d nid) (without_others (sdo_server_id d nid) es) = Ok (c, tr2) /\ own tr2 = own tr.
Proof.
  intros d nid es c tr H. pose proof (others_ignored es (client_init d nid)) as G. rewrite H in G.
  cbn [client_init c_server] in G.
  destruct (crun _ (without_others (sdo_server_id d nid) es)) as [[c2 tr2]|] eqn:E; [|contradiction].
  destruct G as [<- G]. exists tr2. split; [reflexivity|symmetry; exact G].
Qed.
Print Assumptions C85_others.

(** ** Responses belong to requests *)

(** With a device that answers every request once at most, and always in time,
    every response processed came after the request it is taken for. *)
Theorem C85_fresh_partial : forall d nid es c tr, crun (client_init d nid) es = Ok (c, tr) ->
  no_timeouts es -> polite (sdo_server_id d nid) tr -> fresh tr.
Proof. intros d nid es c tr H NT P. apply (polite_fresh d nid es c tr H NT P). Qed.
Print Assumptions C85_fresh_partial.

(** The device answers a request for a number of four bytes. *)
Definition answer (h : header) (index sub : Z) (v : bytes) : frame :=
  mkFrame h 8 ([67; index mod 256; index / 256; sub] ++ v).
Definition number (v : bytes) : Prop := List.length v = 4%nat.
(** One answer comes too late, just before the reader is switched off. *)
Definition hiccup (k : call) (f : frame) : list event := [ECall k; EStep; ETimeout; EFrame f; EStep].
(** Then every request is answered at once. *)
Definition round (k : call) (f : frame) : list event := [ECall k; EStep; EStep; EFrame f; EStep; EStep].

Definition stale (d : dict) (nid : Z) (f : frame) : client :=
  mkClient (sdo_client_id d nid) (sdo_server_id d nid) (mkReader [f] false 1) PIdle.

Lemma take_answer : forall index sub v w, object_ok index sub -> number v -> number w ->
  exists s, process_frame index sub 8 ([67; index mod 256; index / 256; sub] ++ v) (start_read index sub w) = Ok (s, [], true) /\
  s_done s = true /\ finish s true = SReturn v.
Proof.
  intros index sub v w [I J] V W. unfold process_frame. change (negb (8 =? 8)) with false. cbv iota.
  change (m_command ([67; index mod 256; index / 256; sub] ++ v)) with 2.
  change (2 =? 3) with false. change (2 =? 1) with false. change (2 =? 2) with true. cbv iota.
  unfold start_read. cbn [s_last s_total].
  unfold test_upload_initiate. change (m_command (upload_initiate index sub)) with 2. change (2 =? 2) with true.
  unfold m_index, m_sub, byte_at, upload_initiate. cbn [app nth]. rewrite !Z.eqb_refl. cbn [andb].
  change (init_data_size (67 :: index mod 256 :: index / 256 :: sub :: v)) with 4%nat.
  change (m_expedited (67 :: index mod 256 :: index / 256 :: sub :: v)) with true.
  unfold number in *. rewrite W. cbn [Nat.eqb Nat.leb orb negb andb].
  unfold read_initiate. change (m_sized (67 :: index mod 256 :: index / 256 :: sub :: v)) with true.
  cbn [s_total s_buf s_done s_last andb]. cbn [Nat.eqb].
  change (m_expedited (67 :: index mod 256 :: index / 256 :: sub :: v)) with true. cbv iota. rewrite W. cbn [Nat.eqb].
  unfold copy_in. change (m_payload4 (67 :: index mod 256 :: index / 256 :: sub :: v)) with v. rewrite W, V.
  cbn [Nat.add Nat.leb andb]. eexists. split; [reflexivity|]. split; [reflexivity|].
  unfold finish, set_done. cbn [s_off s_total s_buf].
  assert (L : firstn 0 w ++ firstn 4 v ++ skipn 4 w = v).
  { rewrite (firstn_all2 v) by lia. rewrite (skipn_all2 w) by lia. apply app_nil_r. }
  rewrite L, V. reflexivity.
Qed.

Definition asked (d : dict) (nid : Z) (k : call) : frame := mkFrame (sdo_client_id d nid) 8 (upload_initiate (k_index k) (k_sub k)).

Lemma hiccup_run : forall d nid index sub w f, number w -> key (f_hdr f) = key (sdo_server_id d nid) ->
  let k := mkCall index sub false w in
  crun (client_init d nid) (hiccup k f) = Ok (stale d nid f,
    [OStart k; OSent (asked d nid k); OTimedOut;
     OSent (mkFrame (sdo_client_id d nid) 8 (abort_request index sub 0x05040000)); ORecv f; OReturn SThrow]).
Proof.
  intros d nid index sub w f W K k. unfold hiccup.
  cbn [crun cstep client_init c_phase c_reader c_server c_client with_phase with_reader rstep rinit fst buffer_ enabled_ max_len_].
  change (s_done (start k)) with false. cbv iota beta zeta. cbn [with_phase with_reader c_server c_reader c_client c_phase rstep enabled_ buffer_ max_len_].
  rewrite K, Z.eqb_refl. cbn [with_phase with_reader c_server c_reader c_client c_phase rstep enabled_ buffer_ max_len_ app fst].
  reflexivity.
Qed.

Lemma round_run : forall d nid index sub w v f, object_ok index sub -> number w -> number v ->
  key (f_hdr f) = key (sdo_server_id d nid) ->
  let k := mkCall index sub false w in
  let old := answer (sdo_server_id d nid) index sub v in
  crun (stale d nid old) (round k f) = Ok (stale d nid f,
    [OStart k; OSent (asked d nid k); OTaken old; ORecv f; OReturn (SReturn v)]).
Proof.
  intros d nid index sub w v f O W V K k old. unfold round.
  destruct (take_answer index sub v w O V W) as (s & PF & D & F).
  cbn [crun cstep stale c_phase c_reader c_server c_client with_phase with_reader rstep fst buffer_ enabled_ max_len_].
  change (s_done (start k)) with false. cbv iota.
  change (process_frame (k_index k) (k_sub k) (f_dlc old) (f_data old) (start k)) with
    (process_frame index sub 8 ([67; index mod 256; index / 256; sub] ++ v) (start_read index sub w)). rewrite PF.
  cbn [with_phase with_reader c_server c_reader c_client c_phase rstep enabled_ buffer_ max_len_ app fst map].
  rewrite K, Z.eqb_refl. cbn [with_phase with_reader c_server c_reader c_client c_phase rstep enabled_ buffer_ max_len_ app fst].
  rewrite D, F. cbn [with_phase with_reader c_server c_reader c_client c_phase rstep enabled_ buffer_ max_len_ app fst].
  reflexivity.
Qed.

Lemma polite_cat : forall h a b, polite h a -> nrecv h a = nreq a -> polite h b -> polite h (a ++ b).
Proof.
  intros h a b A E B x y H.
  assert (C : (exists z, a = x ++ z) \/ (exists z, x = a ++ z /\ b = z ++ y)).
  { clear A E B. revert x H. induction a as [|o a IH]; intros x H.
    - right. exists x. split; [reflexivity|exact H].
    - destruct x as [|o' x]; [left; eexists; reflexivity|]. cbn [app] in H. injection H as <- H.
      destruct (IH x H) as [[z ->]|[z [-> ->]]]; [left; exists z; reflexivity|right; exists z; split; reflexivity]. }
  destruct C as [[z ->]|[z [-> ->]]].
  - apply (A x z eq_refl).
  - pose proof (B z y eq_refl) as L. change (nrecv h z <= nreq z)%nat in L.
    change (nrecv h (a ++ z) <= nreq (a ++ z))%nat. rewrite nrecv_app, nreq_app. lia.
Qed.

Ltac prefixes H := repeat match type of H with
  | _ :: _ = ?x ++ _ => is_var x; destruct x as [|? x]; cbn [app] in H; [|injection H as <- H]
  | [] = ?x ++ _ => is_var x; destruct x; [|discriminate H]
  end.

Lemma round_polite : forall d nid index sub w old f r, key (f_hdr f) = key (sdo_server_id d nid) ->
  let k := mkCall index sub false w in
  let tr := [OStart k; OSent (asked d nid k); OTaken old; ORecv f; OReturn r] in
  polite (sdo_server_id d nid) tr /\ nrecv (sdo_server_id d nid) tr = nreq tr.
Proof.
  intros d nid index sub w old f r K k tr. apply Z.eqb_eq in K. split.
  - intros a b H. unfold tr in H. prefixes H; cbn [SdoChanSpec.received sent flat_map app List.filter];
      rewrite ?K; cbn; lia.
  - unfold nrecv, nreq, for_us, tr. cbn [SdoChanSpec.received sent flat_map app List.filter]. rewrite K. reflexivity.
Qed.

Lemma hiccup_polite : forall d nid index sub w f r, key (f_hdr f) = key (sdo_server_id d nid) ->
  let k := mkCall index sub false w in
  let tr := [OStart k; OSent (asked d nid k); OTimedOut;
     OSent (mkFrame (sdo_client_id d nid) 8 (abort_request index sub 0x05040000)); ORecv f; OReturn r] in
  polite (sdo_server_id d nid) tr /\ nrecv (sdo_server_id d nid) tr = nreq tr.
Proof.
  intros d nid index sub w f r K k tr. apply Z.eqb_eq in K. split.
  - intros a b H. unfold tr in H. prefixes H; cbn [SdoChanSpec.received sent flat_map app List.filter];
      rewrite ?K; cbn; lia.
  - unfold nrecv, nreq, for_us, tr. cbn [SdoChanSpec.received sent flat_map app List.filter]. rewrite K. reflexivity.
Qed.

Lemma crun_app : forall a b c, crun c (a ++ b) =
  match crun c a with
  | Undef => Undef
  | Ok (c1, o1) => match crun c1 b with Undef => Undef | Ok (c2, o2) => Ok (c2, o1 ++ o2) end
  end.
Proof.
  induction a as [|e a IH]; intros b c; cbn [app crun].
  - destruct (crun c b) as [[c2 o2]|]; reflexivity.
  - destruct (cstep c e) as [[c1 o1]|]; [|reflexivity]. rewrite IH. destruct (crun c1 a) as [[c2 o2]|]; [|reflexivity].
    destruct (crun c2 b) as [[c3 o3]|]; [|reflexivity]. rewrite app_assoc. reflexivity.
Qed.

Lemma rounds_run : forall d nid index sub w, object_ok index sub -> number w -> forall vs v, number v -> Forall number vs ->
  let k := mkCall index sub false w in
  let ans := answer (sdo_server_id d nid) index sub in
  exists c tr, crun (stale d nid (ans v)) (flat_map (fun u => round k (ans u)) vs) = Ok (c, tr) /\
  results tr = map SReturn (removelast (v :: vs)) /\ SdoChanSpec.received tr = map ans vs /\
  polite (sdo_server_id d nid) tr.
Proof.
  intros d nid index sub w O W. induction vs as [|u vs IH]; intros v V F k ans.
  - exists (stale d nid (ans v)), []. repeat split. intros [|] ? E; [cbn; lia|discriminate].
  - inversion F as [|u' vs' U FV]; subst. destruct (IH u U FV) as (c & tr & R & RS & RC & P).
    cbn [flat_map]. rewrite crun_app.
    pose proof (round_run d nid index sub w v (ans u) O W V eq_refl) as RR. cbv zeta in RR. fold k in RR. fold ans in RR.
    rewrite RR. fold k in R. fold ans in R. rewrite R. eexists. eexists. split; [reflexivity|].
    destruct (round_polite d nid index sub w (ans v) (ans u) (SReturn v) eq_refl) as [P1 E1].
    split; [|split].
    + unfold results. rewrite flat_map_app. fold (results tr). rewrite RS. reflexivity.
    + rewrite received_app, RC. reflexivity.
    + apply polite_cat; assumption.
Qed.

(** One answer that comes too late makes every later read of the object return
    the answer to the read before, however often it is repeated and although all
    other answers come at once. *)
Theorem C85_stale_refuted : forall d nid index sub w v vs,
  object_ok index sub -> number w -> number v -> Forall number vs ->
  exists es c tr, crun (client_init d nid) es = Ok (c, tr) /\ polite (sdo_server_id d nid) tr /\
  SdoChanSpec.received tr = map (answer (sdo_server_id d nid) index sub) (v :: vs) /\
  results tr = SThrow :: map SReturn (removelast (v :: vs)).
Proof.
  intros d nid index sub w v vs O W V F. set (k := mkCall index sub false w). set (ans := answer (sdo_server_id d nid) index sub).
  destruct (rounds_run d nid index sub w O W vs v V F) as (c & tr & R & RS & RC & P). fold k in R. fold ans in R, RC.
  exists (hiccup k (ans v) ++ flat_map (fun u => round k (ans u)) vs). eexists. eexists.
  rewrite crun_app. pose proof (hiccup_run d nid index sub w (ans v) W eq_refl) as HR. cbv zeta in HR. fold k in HR.
  rewrite HR, R.
  split; [reflexivity|]. destruct (hiccup_polite d nid index sub w (ans v) SThrow eq_refl) as [P1 E1].
  split; [apply polite_cat; assumption|]. split.
  - rewrite received_app, RC. reflexivity.
  - unfold results. rewrite flat_map_app. fold (results tr). rewrite RS. reflexivity.
Qed.
Print Assumptions C85_stale_refuted.

Theorem C85_fresh_refuted : exists es c tr, crun (client_init [] 5) es = Ok (c, tr) /\
  polite (sdo_server_id [] 5) tr /\ ~ fresh tr.
Proof.
  set (k := mkCall 0x2000 0 false [0; 0; 0; 0]). set (ans := answer (sdo_server_id [] 5) 0x2000 0).
  exists (hiccup k (ans [1; 0; 0; 0]) ++ round k (ans [2; 0; 0; 0])). eexists. eexists.
  split; [vm_compute; reflexivity|].
  destruct (hiccup_polite [] 5 0x2000 0 [0; 0; 0; 0] (ans [1; 0; 0; 0]) SThrow eq_refl) as [P1 E1].
  destruct (round_polite [] 5 0x2000 0 [0; 0; 0; 0] (ans [1; 0; 0; 0]) (ans [2; 0; 0; 0]) (SReturn [1; 0; 0; 0]) eq_refl) as [P2 _].
  pose proof (polite_cat _ _ _ P1 E1 P2) as P. vm_compute in P. split; [vm_compute; exact P|].
  intros F. match type of F with fresh ?t => pose proof (F (firstn 8 t) (ans [1; 0; 0; 0]) (skipn 9 t) eq_refl) as G end.
  destruct G as (x & r & y & E & I & Y). cbn [firstn] in E.
  assert (L : List.length y = 0%nat).
  { assert (R : rev (x ++ OSent r :: y) = rev y ++ OSent r :: rev x) by (rewrite rev_app_distr; cbn [rev]; rewrite <- app_assoc; reflexivity).
    rewrite <- E in R. cbn [rev app] in R. destruct (rev y) as [|o q] eqn:RY.
    - rewrite <- rev_length, RY. reflexivity.
    - exfalso. cbn [app] in R. injection R as <- _.
      assert (Z : y = rev (OSent (mkFrame (mkHeader 1541 false false false) 8 [64; 0; 32; 0; 0; 0; 0; 0]) :: q)).
      { rewrite <- RY. symmetry. apply rev_involutive. }
      rewrite Z in Y. cbn [rev] in Y. rewrite sent_app in Y. apply app_eq_nil in Y. destruct Y as [_ Y]. discriminate Y. }
  destruct y; [destruct I|discriminate L].
Qed.
Print Assumptions C85_fresh_refuted.

(** ** Examples *)

Example C85_ex : exists c tr,
  let k := mkCall 0x6041 0 false [0; 0] in
  let w := mkCall 0x6040 0 true [15; 0] in
  let f d := mkFrame (mkHeader 0x585 false false false) 8 d in
  let x d := mkFrame (mkHeader 0x586 false false false) 8 d in
  crun (client_init [] 5) [ECall k; EStep; EFrame (x [75; 65; 96; 0; 9; 9; 0; 0]); EFrame (f [75; 65; 96; 0; 7; 2; 0; 0]);
    EStep; EStep; EStep; EFrame (f [1; 2; 3; 4; 5; 6; 7; 8]); ECall w; EStep; EStep; EFrame (f [96; 64; 96; 0; 0; 0; 0; 0]); EStep; EStep; EStep]
  = Ok (c, tr) /\ results tr = [SReturn [7; 2]; SReturn [15; 0]] /\ List.length (calls tr) = 2%nat /\ fresh tr.
Proof.
  eexists. eexists. cbv zeta. split; [vm_compute; reflexivity|]. split; [reflexivity|]. split; [reflexivity|].
  intros a f b H. prefixes H; try discriminate H.
  - injection H as <- _. eexists [_]. eexists. eexists [_; _]. split; [reflexivity|]. split; [right; left; reflexivity|reflexivity].
  - injection H as <- _. eexists [_; _; _; _; _; _; _; _]. eexists. eexists [_]. split; [reflexivity|]. split; [left; reflexivity|reflexivity].
Qed.
