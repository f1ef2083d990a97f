(** What the dictionary of a device says about its PDOs, and when the master can
    set them up. *)
From Verif Require Import Base CanModel KeyModel StorageModel StorageSpec PdoModel PdoSpec SdoChanSpec.

(** The value of an object of type [t]: configured, or else by default. *)
Definition given (e : entry) (t : ty) (b : bytes) : Prop :=
  (h_data (e_init e) = Some b /\ h_type (e_init e) = Some t) \/
  (h_data (e_init e) = None /\ h_data (e_def e) = Some b /\ h_type (e_def e) = Some t).

(** Mapped object: sub index 0 may be the object itself. *)
Definition object_key (d : dict) (index sub k : Z) : Prop :=
  (k = key_sub index sub /\ lookup k d <> None) \/
  (lookup (key_sub index sub) d = None /\ sub = 0 /\ k = key_index index /\ lookup k d <> None).

(** Entry [i] of the mapping, CiA 301: length in bits, sub index, index. Indices
    below 1000h are data types and leave a gap. *)
Definition slot_of (d : dict) (map i : Z) (x : option Z * nat) : Prop :=
  exists e len sub lo hi, lookup (key_sub map i) d = Some e /\
    given e (TInt (mkIty false 4)) [len; sub; lo; hi] /\ Forall byte_ok [len; sub; lo; hi] /\
    Z.of_nat (snd x) = len / 8 /\
    match fst x with
    | None => lo + 256 * hi < 0x1000
    | Some k => 0x1000 <= lo + 256 * hi /\ object_key d (lo + 256 * hi) sub k
    end.
Definition pdo_mapping (d : dict) (map : Z) (l : layout) : Prop :=
  1 <= Z.of_nat (List.length l) <= 64 /\
  (exists e, lookup (key_sub map 0) d = Some e /\ given e (TInt (mkIty false 1)) [Z.of_nat (List.length l)]) /\
  forall i x, nth_error l i = Some x -> slot_of d map (Z.of_nat i + 1) x.

(** Communication parameters: COB-ID and transmission type. *)
Definition pdo_id (d : dict) (nid com : Z) (invalid no_rtr extended : bool) (id : Z) : Prop :=
  can_id_ok extended id /\
  exists e, lookup (key_sub com 1) d = Some e /\ configured nid e (cob_layout invalid no_rtr extended id).
Definition pdo_transmission (d : dict) (com tt : Z) : Prop :=
  exists e, lookup (key_sub com 2) d = Some e /\ given e (TInt (mkIty false 1)) [tt].

(** The objects of a mapping. [T] gives the types; the device can send
    (receive) them. *)
Definition mappable (T : Z -> ty) (d : dict) (use : entry -> Prop) (l : layout) : Prop :=
  NoDup (keys l) /\
  forall k, In k (keys l) -> numeric (T k) /\
    exists e, lookup k d = Some e /\ h_type (e_def e) = Some (T k) /\ entry_plain (T k) e /\ use e.
Definition sendable (e : entry) : Prop := e_readable e = true /\ e_constant e = false.
Definition receivable (e : entry) : Prop := e_writable e = true.

(** The parameters of a PDO *)
Definition parameter (com map k : Z) : Prop :=
  exists s, 0 <= s <= 255 /\ (k = key_sub com s \/ k = key_sub map s).

(** The state before the set-up. Delegates that are in use; parameters are
    accessed through SDO, and mapping entries accessed before have the value the
    dictionary says, unless one is configured. Objects may have been used before; the ones with a default
    value have a value. Reading numbers keeps their size. *)
Record ready (T : Z -> ty) (dv : device) (d : dict) (com map : Z) (l : layout) (w : pw) : Prop := {
  rd_next : (0 < w_next w)%nat;
  rd_used : forall k c, lookup k (w_store w) = Some c -> (c_rd c < w_next w /\ c_wr c < w_next w)%nat;
  rd_plain : forall k, parameter com map k -> plain_access w k;
  rd_entry : forall s c e b, 1 <= s <= Z.of_nat (List.length l) -> lookup (key_sub map s) (w_store w) = Some c ->
    lookup (key_sub map s) d = Some e -> given e (TInt (mkIty false 4)) b -> h_data (e_init e) = None ->
    c_valid c = true /\ c_buf c = b;
  rd_apart : forall k, In k (keys l) -> ~ parameter com map k;
  rd_object : forall k c, In k (keys l) -> lookup k (w_store w) = Some c ->
    c_type c = T k /\ List.length (c_buf c) = ty_size (T k) /\
    forall e, lookup k d = Some e -> h_data (e_def e) <> None -> c_valid c = true;
  rd_size : forall log k b, In k (keys l) -> List.length (fst (dv_read dv log k b)) = List.length b
}.

(** Effect on the rest of the node: buffers in use, and objects that are neither
    mapped nor parameters, stay as they are. *)
Definition untouched (com map : Z) (l : layout) (w w1 : pw) : Prop :=
  (w_next w <= w_next w1)%nat /\
  (forall i, (i < w_next w)%nat -> w_bufs w1 i = w_bufs w i) /\
  (forall k, ~ In k (keys l) -> ~ parameter com map k -> lookup k (w_store w1) = lookup k (w_store w)).

(** ** All PDOs of a node *)

Record pdo_desc := mkDesc {
  q_index : Z;        (* number of the PDO, from 0 *)
  q_no_rtr : bool; q_ext : bool; q_id : Z;
  q_type : Z;
  q_layout : layout
}.

(** The PDOs with the numbers [is] that the dictionary describes, in order:
    valid ones with mapped objects. Numbers without parameters or without mapped
    objects are skipped. *)
Inductive described (d : dict) (nid com_base map_base : Z) : list Z -> list pdo_desc -> Prop :=
| Dend : described d nid com_base map_base [] []
| Dabsent : forall i is ps,
    lookup (key_sub (com_base + i) 0) d = None -> lookup (key_sub (map_base + i) 0) d = None ->
    described d nid com_base map_base is ps -> described d nid com_base map_base (i :: is) ps
| Dunused : forall i is ps e n,
    lookup (key_sub (map_base + i) 0) d = Some e -> given e (TInt (mkIty false 1)) [n] -> n = 0 \/ 64 < n ->
    described d nid com_base map_base is ps -> described d nid com_base map_base (i :: is) ps
| Dused : forall i is ps q,
    q_index q = i -> pdo_mapping d (map_base + i) (q_layout q) ->
    pdo_id d nid (com_base + i) false (q_no_rtr q) (q_ext q) (q_id q) ->
    pdo_transmission d (com_base + i) (q_type q) ->
    described d nid com_base map_base is ps -> described d nid com_base map_base (i :: is) (q :: ps).

Definition all_keys (ps : list pdo_desc) : list Z := flat_map (fun q => keys (q_layout q)) ps.
(** The parameters of all PDOs, 1400h to 1BFFh *)
Definition pdo_parameter (k : Z) : Prop :=
  exists index s, 0x1400 <= index < 0x1C00 /\ 0 <= s <= 255 /\ k = key_sub index s.
Definition sub_counts (d : dict) : Prop :=
  forall index e b, 0x1400 <= index < 0x1C00 -> lookup (key_sub index 0) d = Some e ->
    given e (TInt (mkIty false 1)) b -> bytes_ok b.

(** A node before the set-up of its PDOs: no object is mapped twice. *)
Record node_ready (T : Z -> ty) (dv : device) (d : dict) (rx tx : list pdo_desc) (w : pw) : Prop := {
  nr_next : (0 < w_next w)%nat;
  nr_used : forall k c, lookup k (w_store w) = Some c -> (c_rd c < w_next w /\ c_wr c < w_next w)%nat;
  nr_plain : forall k, pdo_parameter k -> plain_access w k;
  nr_entry : forall index s c e b, 0x1400 <= index < 0x1C00 -> 1 <= s <= 64 ->
    lookup (key_sub index s) (w_store w) = Some c -> lookup (key_sub index s) d = Some e ->
    given e (TInt (mkIty false 4)) b -> h_data (e_init e) = None -> c_valid c = true /\ c_buf c = b;
  nr_keys : NoDup (all_keys rx ++ all_keys tx);
  nr_apart : forall k, In k (all_keys rx ++ all_keys tx) -> ~ pdo_parameter k;
  nr_object : forall k c, In k (all_keys rx ++ all_keys tx) -> lookup k (w_store w) = Some c ->
    c_type c = T k /\ List.length (c_buf c) = ty_size (T k) /\
    forall e, lookup k d = Some e -> h_data (e_def e) <> None -> c_valid c = true;
  nr_size : forall log k b, In k (all_keys rx ++ all_keys tx) -> List.length (fst (dv_read dv log k b)) = List.length b;
  nr_rx : forall q, In q rx -> mappable T d sendable (q_layout q);
  nr_tx : forall q, In q tx -> mappable T d receivable (q_layout q)
}.

(** The PDO of the master for a description: what the device sends the master
    receives, and the other way round. *)
Definition receives (T : Z -> ty) (d : dict) (w : pw) (q : pdo_desc) (p : pdo) : Prop :=
  rx_mapped T d (q_layout q) (held_of w) p w /\ (total (q_layout q) <= 8)%nat /\
  p_listen p = Some (mkHeader (q_id q) (q_ext q) false false) /\
  f_hdr (p_frame p) = mkHeader (q_id q) (q_ext q) (negb (q_no_rtr q)) false /\ f_dlc (p_frame p) = 0 /\
  p_type p = q_type q /\ p_timeout p = -1.
Definition transmits (T : Z -> ty) (d : dict) (w : pw) (q : pdo_desc) (p : pdo) : Prop :=
  tx_mapped T d (q_layout q) p w /\ f_hdr (p_frame p) = mkHeader (q_id q) (q_ext q) false false /\
  p_listen p = None /\ p_type p = q_type q.
