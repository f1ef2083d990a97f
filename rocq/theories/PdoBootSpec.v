(** Booting a node again and again, and what may happen in between. *)
From Verif Require Import Base CanModel KeyModel KeySpec StorageModel StorageSpec PdoModel PdoSpec PdoSetupSpec.


(** node.cpp:44-54, 176-191: the communication reset of Node::handleInit resets
    the storage (objdict.cpp:421-426) before the PDOs are set up. *)
Definition reset_world (d : dict) (w : pw) : pw := mkPW (storage_reset d (w_store w)) (w_log w) (w_bufs w) (w_next w).

(** What the storage of a running node is like: delegates that are in use,
    parameters of PDOs accessed through SDO, cells of mapping entries and mapped
    objects with the types of the dictionary. Nothing is said about the values. *)
Record node_running (T : Z -> ty) (d : dict) (ks : list Z) (w : pw) : Prop := {
  ru_next : (0 < w_next w)%nat;
  ru_used : forall k c, lookup k (w_store w) = Some c -> (c_rd c < w_next w /\ c_wr c < w_next w)%nat;
  ru_plain : forall k, pdo_parameter k -> plain_access w k;
  ru_entry : forall index s c e, 0x1400 <= index < 0x1C00 -> 1 <= s <= 64 ->
    lookup (key_sub index s) (w_store w) = Some c -> lookup (key_sub index s) d = Some e ->
    h_type (e_def e) = Some (TInt (mkIty false 4)) -> h_data (e_init e) = None -> c_type c = TInt (mkIty false 4);
  ru_object : forall k c, In k ks -> lookup k (w_store w) = Some c -> c_type c = T k /\ List.length (c_buf c) = ty_size (T k)
}.

(** A cell that is as the dictionary says: entries of 32 bits that are not
    configured, and mapped objects. *)
Definition cell_typed (T : Z -> ty) (d : dict) (ks : list Z) (k : Z) (c : cell) : Prop :=
  (forall e, lookup k d = Some e -> h_type (e_def e) = Some (TInt (mkIty false 4)) -> h_data (e_init e) = None -> c_type c = TInt (mkIty false 4)) /\
  (In k ks -> c_type c = T k /\ List.length (c_buf c) = ty_size (T k)).

(** What accesses to objects, received frames and cycles do to a node: any values
    may change, objects may be accessed for the first time, but nothing is
    connected or created. *)
Definition only_values (T : Z -> ty) (d : dict) (ks : list Z) (w w2 : pw) : Prop :=
  w_next w2 = w_next w /\ (forall i, w_bufs w2 i = None <-> w_bufs w i = None) /\
  forall k c2, lookup k (w_store w2) = Some c2 -> cell_typed T d ks k c2 /\
    match lookup k (w_store w) with
    | Some c => c_rd c2 = c_rd c /\ c_wr c2 = c_wr c
    | None => c_rd c2 = 0%nat /\ c_wr c2 = 0%nat
    end.

(** The same PDOs, except for what they have to send and when they expect frames. *)
Definition same_pdos (m m2 : mapper) : Prop :=
  List.map p_bufs (rpdos m2) = List.map p_bufs (rpdos m) /\ List.map p_bufs (tpdos m2) = List.map p_bufs (tpdos m).

(** Dictionary that describes the PDOs [rxs] the device sends and the PDOs [txs]
    it receives; all of it is fixed before the node is started. *)
Record node_described (T : Z -> ty) (d : dict) (nid : Z) (rxs txs : list pdo_desc) : Prop := {
  nd_counts : sub_counts d;
  nd_rx : described d nid 0x1800 0x1A00 (range 512) rxs;
  nd_tx : described d nid 0x1400 0x1600 (range 512) txs;
  nd_keys : NoDup (all_keys rxs ++ all_keys txs);
  nd_apart : forall k, In k (all_keys rxs ++ all_keys txs) -> ~ pdo_parameter k;
  nd_sent : forall q, In q rxs -> mappable T d sendable (q_layout q);
  nd_received : forall q, In q txs -> mappable T d receivable (q_layout q)
}.

(** node.cpp:44-54: the communication reset with the heartbeat interval that is
    written in between (node.cpp:52, canopen.h:255-257, object 0x1017), which must
    not be mapped; the device of that write may be any. *)
Definition heartbeat : Z := key_index 0x1017.
Inductive com_reset (d : dict) (ks : list Z) (w : pw) : pw -> Prop :=
| Rquiet : com_reset d ks w (reset_world d w)
| Rheart : forall dv v w1 r, ~ In heartbeat ks -> obj dv d heartbeat (SSet v) (reset_world d w) = Ok (w1, inl r) -> com_reset d ks w w1.

(** Histories of a node: new, then used and booted any number of times, with
    devices that may behave differently each time. *)
Inductive lives (T : Z -> ty) (d : dict) (nid : Z) (nr_tx nr_rx : nat) (ks : list Z) : pw -> mapper -> Prop :=
| Lnew : forall w, (0 < w_next w)%nat ->
    (forall k c, lookup k (w_store w) = Some c -> cell_typed T d ks k c /\ c_rd c = 0%nat /\ c_wr c = 0%nat) ->
    lives T d nid nr_tx nr_rx ks w (mkMapper [] [])
| Lused : forall w w2 m m2, lives T d nid nr_tx nr_rx ks w m -> only_values T d ks w w2 -> same_pdos m m2 -> lives T d nid nr_tx nr_rx ks w2 m2
| Lboot : forall dv junk w w0 w1 m m1, lives T d nid nr_tx nr_rx ks w m -> List.length junk = 8%nat ->
    (forall log k b, In k ks -> List.length (fst (dv_read dv log k b)) = List.length b) ->
    com_reset d ks w w0 -> mapper_init dv d nid junk nr_tx nr_rx m w0 = Ok (w1, m1, None) ->
    lives T d nid nr_tx nr_rx ks w1 m1.

(** The same with boots that fail, which leaves objects connected to destroyed
    buffers (C68). *)
Inductive endures (T : Z -> ty) (d : dict) (nid : Z) (nr_tx nr_rx : nat) (ks : list Z) : pw -> mapper -> Prop :=
| Enew : forall w, (0 < w_next w)%nat ->
    (forall k c, lookup k (w_store w) = Some c -> cell_typed T d ks k c /\ c_rd c = 0%nat /\ c_wr c = 0%nat) ->
    endures T d nid nr_tx nr_rx ks w (mkMapper [] [])
| Eused : forall w w2 m m2, endures T d nid nr_tx nr_rx ks w m -> only_values T d ks w w2 -> same_pdos m m2 -> endures T d nid nr_tx nr_rx ks w2 m2
| Eboot : forall dv junk w w0 w1 m m1 x, endures T d nid nr_tx nr_rx ks w m -> List.length junk = 8%nat ->
    (forall log k b, In k ks -> List.length (fst (dv_read dv log k b)) = List.length b) ->
    com_reset d ks w w0 -> mapper_init dv d nid junk nr_tx nr_rx m w0 = Ok (w1, m1, x) ->
    endures T d nid nr_tx nr_rx ks w1 m1.
