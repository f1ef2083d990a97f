From Verif Require Import Base CanModel CanSpec CanProofs SyncModel SyncSpec SyncProofs ToolModel ToolSpec.
Ltac Zify.zify_post_hook ::= Z.to_euclidean_division_equations.

(** ** Numbers *)
Lemma take_dec_fold : forall t acc, Forall (fun c => 48 <= c <= 57) t ->
  take_dec t acc = fold_left (fun a c => 10 * a + (c - 48)) t acc.
Proof.
  induction t as [|c t IH]; intros acc H; [reflexivity|]. inversion H; subst. cbn [take_dec fold_left].
  replace ((48 <=? c) && (c <=? 57)) with true by (symmetry; apply andb_true_iff; lia).
  rewrite IH by assumption. f_equal. lia.
Qed.
Lemma fold_nonneg : forall t acc, 0 <= acc -> Forall (fun c => 48 <= c <= 57) t ->
  0 <= fold_left (fun a c => 10 * a + (c - 48)) t acc.
Proof. induction t as [|c t IH]; intros acc Ha H; [exact Ha|]. inversion H; subst. apply IH; [lia|assumption]. Qed.
Lemma number_take : forall t n, number t n -> take_dec t 0 = n /\ 0 <= n.
Proof.
  intros t n (_ & H & E). rewrite take_dec_fold by assumption. split; [exact E|]. rewrite <- E. apply fold_nonneg; [lia|exact H].
Qed.

Lemma digit_cases : forall c, 48 <= c <= 57 ->
  c = 48 \/ c = 49 \/ c = 50 \/ c = 51 \/ c = 52 \/ c = 53 \/ c = 54 \/ c = 55 \/ c = 56 \/ c = 57.
Proof. lia. Qed.

Lemma atoi_number : forall t n, number t n -> n < 2^31 -> atoi t = Ok n.
Proof.
  intros t n H L. destruct (number_take _ _ H) as [E P]. destruct H as (Hn & Hf & _).
  destruct t as [|c t]; [congruence|]. inversion Hf as [|? ? Hc Hf']; subst.
  assert (S1 : atoi (c :: t) = if (- 2^31 <=? take_dec (c :: t) 0) && (take_dec (c :: t) 0 <? 2^31) then Ok (take_dec (c :: t) 0) else Undef).
  { destruct (digit_cases c Hc) as [->|[->|[->|[->|[->|[->|[->|[->|[->| ->]]]]]]]]]; reflexivity. }
  rewrite S1. replace ((- 2^31 <=? take_dec (c :: t) 0) && (take_dec (c :: t) 0 <? 2^31)) with true; [reflexivity|].
  symmetry. apply andb_true_iff. lia.
Qed.
Lemma atoi_plus : forall t n, number t n -> n < 2^31 -> atoi (43 :: t) = Ok n.
Proof.
  intros t n H L. destruct (number_take _ _ H) as [E P].
  assert (S1 : atoi (43 :: t) = if (- 2^31 <=? take_dec t 0) && (take_dec t 0 <? 2^31) then Ok (take_dec t 0) else Undef) by reflexivity.
  rewrite S1, E. replace ((- 2^31 <=? n) && (n <? 2^31)) with true; [reflexivity|].
  symmetry. apply andb_true_iff. lia.
Qed.
Lemma atoi_minus : forall t n, number t n -> n < 2^31 -> atoi (45 :: t) = Ok (- n).
Proof.
  intros t n H L. destruct (number_take _ _ H) as [E P].
  assert (S1 : atoi (45 :: t) = if (- 2^31 <=? - take_dec t 0) && (- take_dec t 0 <? 2^31) then Ok (- take_dec t 0) else Undef) by reflexivity.
  rewrite S1, E. replace ((- 2^31 <=? - n) && (- n <? 2^31)) with true; [reflexivity|].
  symmetry. apply andb_true_iff. lia.
Qed.

(** ** bcm_sync *)
Lemma no_dashes : forall t z, id_arg t z -> forall x, t <> 45 :: 45 :: x.
Proof.
  intros t z [d H] x E. destruct H as [[-> _]|[-> [(_ & Hf & _) _]]]; [discriminate|].
  injection E as ->. inversion Hf; subst. lia.
Qed.

Lemma read_ids_end : forall rest mon ign, end_args rest -> read_ids rest mon ign = Ok (Some (mon, ign)).
Proof. intros rest mon ign [->|(x & r & ->)]; reflexivity. Qed.

Lemma read_ids_step : forall a t mon ign, (forall x, a <> 45 :: 45 :: x) ->
  read_ids (a :: t) mon ign =
      match atoi a with
      | Undef => Undef
      | Ok id =>
        if (0 <? id) && (id <? 128) then read_ids t (set_insert id mon) ign
        else if (id <? 0) && (-128 <? id) then read_ids t mon (set_insert (- id) ign)
        else Ok None
      end.
Proof.
  intros a t mon ign H. cbn [read_ids].
  destruct a as [|c a]; [reflexivity|].
  destruct (Z.eq_dec c 45) as [->|Hc].
  - destruct a as [|e a]; [reflexivity|]. destruct (Z.eq_dec e 45) as [->|He]; [exfalso; exact (H a eq_refl)|].
    destruct e as [|p|p]; try reflexivity. do 6 (destruct p; try reflexivity). congruence.
  - destruct c as [|p|p]; try reflexivity. do 6 (destruct p; try reflexivity). congruence.
Qed.

Lemma read_ids_all : forall ids zs rest, Forall2 id_arg ids zs -> end_args rest -> forall mon ign,
  exists mon' ign', read_ids (ids ++ rest) mon ign = Ok (Some (mon', ign')) /\
    (forall q, In q mon' <-> In q mon \/ (0 < q /\ In q zs)) /\
    (forall q, In q ign' <-> In q ign \/ (0 < q /\ In (- q) zs)).
Proof.
  intros ids zs rest H Hr. induction H as [|t z ids zs Hz H IH]; intros mon ign.
  - exists mon, ign. split; [exact (read_ids_end _ _ _ Hr)|]. split; intro q; cbn [In]; tauto.
  - cbn [app]. rewrite read_ids_step by (exact (no_dashes _ _ Hz)).
    destruct Hz as [d [(-> & Hd & Hz)|(-> & Hd & Hz)]].
    + rewrite (atoi_plus _ _ Hd) by lia.
      replace ((0 <? z) && (z <? 128)) with true by (symmetry; apply andb_true_iff; lia).
      destruct (IH (set_insert z mon) ign) as (m & g & E & Hm & Hg). exists m, g. split; [exact E|].
      split; intro q; [rewrite Hm, in_set_insert|rewrite Hg]; cbn [In].
      * split; intros K; [destruct K as [[->|K]|K]; [right; split; [lia|tauto]|tauto|tauto]|].
        destruct K as [K|[K1 [->|K]]]; tauto.
      * split; intros K; [tauto|]. destruct K as [K|[K1 [K|K]]]; [tauto|lia|tauto].
    + rewrite (atoi_minus _ _ Hd) by lia. rewrite Z.opp_involutive.
      replace ((0 <? z) && (z <? 128)) with false by (symmetry; apply andb_false_iff; lia).
      replace ((z <? 0) && (-128 <? z)) with true by (symmetry; apply andb_true_iff; lia).
      destruct (IH mon (set_insert (- z) ign)) as (m & g & E & Hm & Hg). exists m, g. split; [exact E|].
      split; intro q; [rewrite Hm|rewrite Hg, in_set_insert]; cbn [In].
      * split; intros K; [tauto|]. destruct K as [K|[K1 [K|K]]]; [tauto|lia|tauto].
      * split; intros K; [destruct K as [[->|K]|K]; [right; split; [lia|left; lia]|tauto|tauto]|].
        destruct K as [K|[K1 [K|K]]]; [tauto|left; left; lia|tauto].
Qed.

Lemma id_arg_range : forall ids zs, Forall2 id_arg ids zs -> Forall (fun z => z <> 0) zs.
Proof. induction 1 as [|t z ids zs [d [(_ & _ & Hz)|(_ & _ & Hz)]] H IH]; constructor; auto; lia. Qed.

Lemma id_arg_head : forall t z, id_arg t z -> hd 0 t = 45 \/ hd 0 t = 43.
Proof. intros t z [d [(-> & _)|(-> & _)]]; cbn; auto. Qed.

Lemma read_overflow_ok : forall ov o ids zs rest, overflow_arg ov o -> Forall2 id_arg ids zs -> end_args rest ->
  read_overflow (ov ++ ids ++ rest) = Ok (Some (o, ids ++ rest)).
Proof.
  intros ov o ids zs rest [[-> ->]|(t & -> & Hn & Ho)] Hi Hr; cbn [app].
  - unfold read_overflow. inversion Hi as [|t z ids' zs' Hz Hi']; subst; cbn [app].
    + destruct Hr as [->|(x & r & ->)]; reflexivity.
    + destruct (id_arg_head _ _ Hz) as [-> | ->]; reflexivity.
  - unfold read_overflow. rewrite (atoi_number _ _ Hn) by lia.
    assert (Hd : (hd 0 t =? 45) || (hd 0 t =? 43) = false).
    { destruct Hn as (N & F & _). destruct t as [|c t]; [congruence|]. inversion F; subst. cbn [hd]. lia. }
    rewrite Hd. replace ((o =? 1) || (o <? 0) || (240 <? o)) with false by lia. reflexivity.
Qed.

Lemma no_members : forall (l : list Z), (forall q, ~ In q l) -> l = [].
Proof. destruct l as [|x l]; intro H; [reflexivity|]. exfalso. exact (H x (or_introl eq_refl)). Qed.

Lemma tool_accepts : forall dev per p hdr ov o ids zs rest,
  number per p -> p < 2^16 -> header_isValid (toheader hdr) = true -> overflow_arg ov o ->
  Forall2 id_arg ids zs -> end_args rest ->
  exists w, bcm_sync_main ([dev; per; hdr] ++ ov ++ ids ++ rest) = Ok (Some w) /\
    w_device w = dev /\ w_period w = p /\ w_header w = toheader hdr /\ w_overflow w = o /\
    forall q, 0 <= q -> heard (w_ignored w) (w_monitored w) q <-> wanted zs q.
Proof.
  intros dev per p hdr ov o ids zs rest Hp Lp Hh Ho Hi Hr. cbn [app]. unfold bcm_sync_main.
  rewrite (atoi_number _ _ Hp) by lia. rewrite Hh. cbn [negb].
  rewrite (read_overflow_ok _ _ _ _ _ Ho Hi Hr).
  destruct (read_ids_all _ _ _ Hi Hr [] []) as (m & g & E & Hm & Hg). rewrite E.
  eexists. split; [reflexivity|]. cbn [w_device w_period w_header w_overflow w_ignored w_monitored].
  destruct (number_take _ _ Hp) as [_ Pp].
  split; [reflexivity|]. split; [apply Z.mod_small; lia|]. split; [reflexivity|]. split.
  - unfold u8. apply Z.mod_small. destruct Ho as [[_ ->]|(t & _ & _ & H)]; lia.
  - intros q Hq. unfold heard, wanted. rewrite Hg. cbn [In].
    pose proof (id_arg_range _ _ Hi) as Hz. rewrite Forall_forall in Hz.
    assert (Hmon : (m = [] \/ In q m) <-> ((forall z, In z zs -> z < 0) \/ In q zs)).
    { rewrite Hm. cbn [In]. split.
      - intros [-> |[[]|[_ K]]]; [left|right; exact K]. intros z Kz. pose proof (Hz z Kz).
        destruct (Z_lt_le_dec z 0) as [L|L]; [exact L|]. exfalso. apply (proj2 (Hm z)). right. split; [lia|exact Kz].
      - intros [K|K].
        + left. apply no_members. intros x Hx. apply Hm in Hx. destruct Hx as [[]|[P Q1]]. specialize (K _ Q1). lia.
        + right. right. split; [|exact K]. pose proof (Hz q K). lia. }
    rewrite Hmon. split; intros [K1 K2]; split; try exact K2; intro K.
    + apply K1. right. split; [|exact K]. pose proof (Hz _ K). lia.
    + destruct K as [[]|[_ K]]. exact (K1 K).
Qed.

Lemma read_ids_sound : forall args mon ign m g, read_ids args mon ign = Ok (Some (m, g)) ->
  Forall (fun q => 1 <= q <= 127) mon -> Forall (fun q => 1 <= q <= 127) ign ->
  Forall (fun q => 1 <= q <= 127) m /\ Forall (fun q => 1 <= q <= 127) g.
Proof.
  induction args as [|a args IH]; intros mon ign m g E Hm Hg.
  - injection E as <- <-. auto.
  - assert (D : (exists x, a = 45 :: 45 :: x) \/ forall x, a <> 45 :: 45 :: x).
    { destruct a as [|c [|e a]]; [right; discriminate|right; discriminate|].
      destruct (Z.eq_dec c 45) as [->|]; [destruct (Z.eq_dec e 45) as [->|]|].
      - left. exists a. reflexivity.
      - right. intros x K. congruence.
      - right. intros x K. congruence. }
    destruct D as [[x ->]|D]; [injection E as <- <-; auto|].
    rewrite read_ids_step in E by exact D.
    destruct (atoi a) as [z|]; [|discriminate].
    destruct ((0 <? z) && (z <? 128)) eqn:E1.
    + eapply IH; [exact E| |exact Hg]. apply Forall_forall. intros x Hx. apply in_set_insert in Hx.
      destruct Hx as [->|Hx]; [lia|]. rewrite Forall_forall in Hm. auto.
    + destruct ((z <? 0) && (-128 <? z)) eqn:E2; [|discriminate].
      eapply IH; [exact E|exact Hm|]. apply Forall_forall. intros x Hx. apply in_set_insert in Hx.
      destruct Hx as [->|Hx]; [lia|]. rewrite Forall_forall in Hg. auto.
Qed.

Lemma tool_sound : forall args w, bcm_sync_main args = Ok (Some w) ->
  header_isValid (w_header w) = true /\ (w_overflow w = 0 \/ 2 <= w_overflow w <= 240) /\
  0 <= w_period w < 2^16 /\
  Forall (fun q => 1 <= q <= 127) (w_monitored w) /\ Forall (fun q => 1 <= q <= 127) (w_ignored w).
Proof.
  intros args w E. unfold bcm_sync_main in E.
  destruct args as [|dev [|per [|hdr rest]]]; try discriminate.
  destruct (atoi per) as [ms|]; [|discriminate].
  destruct (header_isValid (toheader hdr)) eqn:Hv; [|discriminate]. cbn [negb] in E.
  destruct (read_overflow rest) as [[[o ids]|]|] eqn:Eo; try discriminate.
  destruct (read_ids ids [] []) as [[[m g]|]|] eqn:Ei; try discriminate.
  assert (Hw : w = mkWatch dev (ms mod 2^16) (toheader hdr) (u8 o) m g) by congruence.
  rewrite Hw. cbn [w_header w_overflow w_period w_monitored w_ignored].
  split; [exact Hv|]. split; [|split; [apply Z.mod_pos_bound; lia|]].
  - unfold read_overflow in Eo. destruct rest as [|a t].
    + assert (o = 0) by congruence. subst o. left. reflexivity.
    + destruct ((hd 0 a =? 45) || (hd 0 a =? 43)).
      * assert (o = 0) by congruence. subst o. left. reflexivity.
      * destruct (atoi a) as [o'|]; [|discriminate].
        destruct ((o' =? 1) || (o' <? 0) || (240 <? o')) eqn:Eb; [discriminate|].
        assert (o = o') by congruence. subst o'. unfold u8. rewrite Z.mod_small by lia. lia.
  - exact (read_ids_sound _ _ _ _ _ Ei (Forall_nil _) (Forall_nil _)).
Qed.

(** ** The SYNC node *)
Lemma node_watches : forall junk monitored msg ignored q,
  let '(ign, mon) := sync_node_nodes junk monitored msg ignored in
  heard ign mon q <->
  match monitored, ignored with
  | Some ns, _ => ns = [] \/ In q ns
  | None, Some ns => ~ In q ns
  | None, None => ~ In q (own_heartbeat junk msg)
  end.
Proof.
  intros junk [ns|] msg [is|] q; cbn; unfold heard; cbn [In]; tauto.
Qed.

Lemma own_spec : forall junk t q, 0 <= q < 128 ->
  In q (own_heartbeat junk (Some t)) <-> frame_isValid (toframe junk t) = true /\ h_id (f_hdr (toframe junk t)) = 0x700 + q.
Proof.
  intros junk t q Hq. unfold own_heartbeat.
  destruct (frame_isValid (toframe junk t)); cbn [andb]; [|cbn [In]; split; [tauto|intros [K _]; discriminate]].
  destruct (Z.eqb_spec (h_id (f_hdr (toframe junk t)) / 128) 14) as [E|E]; cbn [In].
  - split; [intros [K|[]]; split; [reflexivity|lia]|intros [_ K]; left; lia].
  - split; [tauto|]. intros [_ K]. apply E. lia.
Qed.

(** ** canbcm *)
Lemma tostring_no_hash : forall h, header_ok h -> ~ In 35 (tostring_header h true).
Proof.
  intros h H. apply all_hex_no_hash. pose proof (word_range h H) as W. unfold tostring_header.
  rewrite fullid_noext by assumption.
  destruct (h_ext h); [apply pad8_hex|]; apply print_hex_hex; lia.
Qed.

Lemma toheader_ok : forall s, header_ok (toheader s).
Proof.
  intros s. unfold toheader, header_ok, Header. cbn [h_id]. lia.
Qed.

(** ** candump *)
Lemma hex_not : forall n c t, 0 <= n -> all_hex t -> In c t -> c <> 9 /\ c <> 32 /\ c <> 10.
Proof.
  intros n c t _ H Hc. unfold all_hex in H. rewrite Forall_forall in H. specialize (H _ Hc).
  apply hex_cases in H. lia.
Qed.

Lemma hex_split : forall a b x y c d,
  all_hex a -> all_hex b -> (c = 9 \/ c = 32 \/ c = 10) -> (d = 9 \/ d = 32 \/ d = 10) ->
  a ++ c :: x = b ++ d :: y -> a = b /\ c :: x = d :: y.
Proof.
  induction a as [|u a IH]; intros [|v b] x y c d Ha Hb Hc Hd E; cbn [app] in E.
  - auto.
  - exfalso. assert (c = v) by congruence. subst v.
    pose proof (hex_not 0 c (c :: b) ltac:(lia) Hb (or_introl eq_refl)). lia.
  - exfalso. assert (u = d) by congruence. subst u.
    pose proof (hex_not 0 d (d :: a) ltac:(lia) Ha (or_introl eq_refl)). lia.
  - assert (u = v) by congruence. subst v. inversion Ha; inversion Hb; subst.
    destruct (IH b x y c d) as [-> E']; auto; congruence.
Qed.

Lemma print_hex_inj : forall a b, 0 <= a < 2^32 -> 0 <= b < 2^32 -> print_hex a true = print_hex b true -> a = b.
Proof. intros a b Ha Hb E. rewrite <- (tohex_print a true Ha), <- (tohex_print b true Hb), E. reflexivity. Qed.

Lemma bytes_inj : forall a b, bytes_ok a -> bytes_ok b ->
  flat_map (fun b => 32 :: print_hex b true) a ++ [10] = flat_map (fun b => 32 :: print_hex b true) b ++ [10] -> a = b.
Proof.
  assert (Hend : forall l, exists c r, flat_map (fun b => 32 :: print_hex b true) l ++ [10] = c :: r /\ (c = 9 \/ c = 32 \/ c = 10)).
  { intros [|x l]; cbn [flat_map app]; eauto 8. }
  induction a as [|x a IH]; intros [|y b] Ha Hb E; cbn [flat_map app] in E.
  - reflexivity.
  - discriminate.
  - discriminate.
  - inversion Ha as [|? ? Hx Ha']; inversion Hb as [|? ? Hy Hb']; subst. injection E as E.
    unfold byte_ok in *.
    rewrite <- !app_assoc in E.
    destruct (Hend a) as (c & r & Ec & Hc). destruct (Hend b) as (d & s & Ed & Hd).
    rewrite Ec, Ed in E. apply hex_split in E; try assumption; try (apply print_hex_hex; lia).
    destruct E as [E1 E2]. apply print_hex_inj in E1; [|lia|lia]. subst y. f_equal.
    apply IH; auto. congruence.
Qed.

Lemma dump_inj : forall f g, valid_frame f -> valid_frame g -> print_frame f = print_frame g -> looks_like f g.
Proof.
  intros f g (Hf & Lf & _) (Hg & Lg & _) E. unfold print_frame in E.
  destruct Hf as (Hh & Hd & Hl & Hb). destruct Hg as (Hh' & Hd' & Hl' & Hb').
  unfold header_ok in Hh, Hh'.
  set (k := fun f : frame => if h_err (f_hdr f) then [69] else if h_ext (f_hdr f) then [101] else [115]) in *.
  assert (Ek : k f = k g).
  { unfold k. destruct (h_err (f_hdr f)), (h_err (f_hdr g)), (h_ext (f_hdr f)), (h_ext (f_hdr g)); try reflexivity; cbn in E; discriminate. }
  fold (k f) (k g) in E. rewrite Ek in E. apply app_inv_head in E. cbn [app] in E.
  assert (E1 : print_hex (h_id (f_hdr f)) true ++ 9 :: ((if h_rtr (f_hdr f) then [114] else (48 + f_dlc f) :: flat_map (fun b => 32 :: print_hex b true) (payload f)) ++ [10])
             = print_hex (h_id (f_hdr g)) true ++ 9 :: ((if h_rtr (f_hdr g) then [114] else (48 + f_dlc g) :: flat_map (fun b => 32 :: print_hex b true) (payload g)) ++ [10])) by congruence.
  apply hex_split in E1; auto; try (apply print_hex_hex; lia).
  destruct E1 as [E1 E2]. apply print_hex_inj in E1; [|lia|lia].
  unfold looks_like, k in *.
  assert (Er : h_rtr (f_hdr f) = h_rtr (f_hdr g)).
  { destruct (h_rtr (f_hdr f)), (h_rtr (f_hdr g)); try reflexivity; exfalso; cbn [app] in E2.
    - assert (114 = 48 + f_dlc g) by congruence. lia.
    - assert (48 + f_dlc f = 114) by congruence. lia. }
  split; [|split; [|split; [exact E1|split; [exact Er|]]]].
  - destruct (h_err (f_hdr f)), (h_err (f_hdr g)), (h_ext (f_hdr f)), (h_ext (f_hdr g)); try reflexivity; discriminate.
  - intro He. rewrite He in Ek. destruct (h_err (f_hdr g)), (h_ext (f_hdr f)), (h_ext (f_hdr g)); try reflexivity; discriminate.
  - intro Hr. rewrite <- Er, Hr in E2. cbn [app] in E2. split.
    + assert (48 + f_dlc f = 48 + f_dlc g) by congruence. lia.
    + apply bytes_inj; [apply bytes_ok_firstn; exact Hb|apply bytes_ok_firstn; exact Hb'|]. congruence.
Qed.

Lemma canbcm_sends : forall junk usec pre t bs more bss,
  ~ In 35 pre -> header_isValid (toheader pre) = true ->
  Forall2 hex_text (t :: more) (bs :: bss) -> Forall (fun b => (List.length b <= 8)%nat) (bs :: bss) ->
  let m := canbcm junk usec (pre ++ [35] ++ t) more in
  m_id m = h_id (toheader pre) + (if h_ext (toheader pre) then 2^31 else 0) /\
  m_frames m = map (fun b => (m_id m, Z.of_nat (List.length b), b)) (bs :: bss) /\
  m_sec m * 1000000 + m_usec m = usec /\ 0 <= m_usec m < 1000000.
Proof.
  intros junk usec pre t bs more bss Hp Hv Ht Hl. cbv zeta.
  inversion Ht as [|? ? ? ? Ht1 Htm]; subst. inversion Hl as [|? ? Hl1 Hlm]; subst.
  assert (P : forall pre' t' b', ~ In 35 pre' -> header_isValid (toheader pre') = true -> hex_text t' b' -> (List.length b' <= 8)%nat ->
    f_dlc (toframe junk (pre' ++ [35] ++ t')) = Z.of_nat (List.length b') /\ payload (toframe junk (pre' ++ [35] ++ t')) = b' /\ f_hdr (toframe junk (pre' ++ [35] ++ t')) = toheader pre').
  { intros pre' t' b' H1 H2 H3 H4.
    pose proof H3 as H3'. apply hex2buffer_strict in H3'.
    destruct (toframe_accepts junk pre' t' b' H1 H2 H3 H4) as (V & Eh & Ep). split; [|auto].
    unfold toframe. cbn [app]. rewrite split_at_app by exact H1. rewrite H3', H2.
    replace (Z.of_nat (List.length b') >? 8) with false by lia. reflexivity. }
  destruct (P pre t bs Hp Hv Ht1 Hl1) as (D1 & P1 & H1).
  set (h := toheader pre) in *. assert (Hok : header_ok h) by apply toheader_ok.
  assert (Hid : Z.lor (h_id h) (if h_ext h then 2 ^ 31 else 0) = h_id h + (if h_ext h then 2^31 else 0)).
  { unfold header_ok in Hok. destruct (h_ext h); [|rewrite Z.lor_0_r; lia].
    rewrite <- Z.lxor_lor, <- Z.add_nocarry_lxor; [reflexivity| |]; apply Z.bits_inj'; intros n Hn;
      rewrite Z.land_spec, Z.bits_0, Z.pow2_bits_eqb by lia; destruct (Z.eqb_spec 31 n) as [<-|]; [|apply andb_false_r| |apply andb_false_r];
      rewrite andb_true_r; apply Z.testbit_false; try lia; rewrite Z.div_small; try reflexivity; lia. }
  unfold canbcm, cyclic_message. rewrite H1. cbn [m_id m_frames m_sec m_usec map]. rewrite Hid.
  split; [reflexivity|]. split; [|lia].
  f_equal; [rewrite D1; change (firstn (Z.to_nat (f_dlc (toframe junk (pre ++ [35] ++ t)))) (f_data (toframe junk (pre ++ [35] ++ t)))) with (payload (toframe junk (pre ++ [35] ++ t))) || idtac|].
  - unfold payload in P1. rewrite D1 in P1. rewrite P1. reflexivity.
  - clear Ht Hl Ht1 Hl1 D1 P1. revert Hlm. induction Htm as [|x b more bss Hx Htm IH]; intros Hlm; [reflexivity|].
    inversion Hlm as [|? ? Hb Hlm']; subst. cbn [map]. f_equal; [|exact (IH Hlm')].
    destruct (P (tostring_header h true) x b) as (D & Q1 & _); auto.
    + apply tostring_no_hash. exact Hok.
    + rewrite toheader_tostring; auto.
      * unfold header_isValid in Hv |- *. cbn [h_id h_ext]. destruct (h_ext h); cbn [andb]; [|exact Hv].
        destruct (Z.leb_spec (2^11) (h_id h)); unfold header_ok in Hok; lia.
      * intro He. unfold header_isValid in Hv. rewrite He in Hv. lia.
    + unfold payload in Q1. rewrite D in *. rewrite Q1. reflexivity.
Qed.
