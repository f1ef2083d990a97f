(** What users of PDOs rely on. *)
From Verif Require Import Base CanModel KeyModel StorageModel StorageSpec PdoModel.

(** ** CiA 301 layout of the 32 bit parameters *)

(** COB-ID: bits 0-28 identifier, 29 extended frame, 30 no RTR, 31 invalid. *)
Definition cob_layout (invalid no_rtr extended : bool) (id : Z) : Z :=
  id + b2z extended * 2^29 + b2z no_rtr * 2^30 + b2z invalid * 2^31.
Definition can_id_ok (extended : bool) (id : Z) : Prop := 0 <= id < (if extended then 2^29 else 2^11).
(** Mapping entry: bits 0-7 length in bits, 8-15 sub index, 16-31 index. *)
Definition map_layout (index sub len : Z) : Z := len + sub * 2^8 + index * 2^16.

(** ** Supervision of a receive PDO *)

Inductive rhist := Received | Cycle.
(** Number of cycles since the last reception, if there was one. *)
Fixpoint since (h : list rhist) : option nat :=   (* most recent event first *)
  match h with
  | [] => None
  | Received :: _ => Some 0%nat
  | Cycle :: t => match since t with Some n => Some (S n) | None => None end
  end.
(** Receive PDOs expected in a fixed number of cycles: synchronous ones every
    [n] cycles, and those requested by remote frames in every cycle. *)
Definition period (tt : Z) (rtr : bool) : option Z :=
  if (1 <=? tt) && (tt <=? 240) then Some tt
  else if (tt =? 0xFC) && rtr then Some 1
  else None.

(** The events applied to a PDO; the flags reported by the cycles. *)
Definition rx_event (p : pdo) (e : rhist) : pdo * list bool :=
  match e with
  | Received => (rpdo_rearm p, [])
  | Cycle => let '(p', r, _) := rpdo_sync p in (p', [r])
  end.
Fixpoint rx_run (p : pdo) (h : list rhist) : pdo * list bool :=   (* in order *)
  match h with
  | [] => (p, [])
  | e :: t => let '(p1, o1) := rx_event p e in
              let '(p2, o2) := rx_run p1 t in (p2, o1 ++ o2)
  end.

(** ** One buffer *)

Inductive bop := BWrite (data : bytes) | BCycle.
Definition buf_step (b : pbuf) (o : bop) : pbuf * list bool :=
  match o with
  | BWrite data => (match buf_set b data with Some b' => b' | None => b end, [])
  | BCycle => let '(b', _, r) := buf_fetch b in (b', [r])
  end.
Fixpoint buf_run (b : pbuf) (ops : list bop) : pbuf * list bool :=
  match ops with
  | [] => (b, [])
  | o :: t => let '(b1, r1) := buf_step b o in
              let '(b2, r2) := buf_run b1 t in (b2, r1 ++ r2)
  end.
(** Was there a write of the right size since the last cycle? (newest first) *)
Fixpoint written (n : nat) (ops : list bop) : bool :=
  match ops with
  | [] => false
  | BCycle :: _ => false
  | BWrite data :: t => (List.length data =? n)%nat || written n t
  end.

(** ** Layout of a PDO: for every entry the object (None for a gap) and its
    size in bytes. *)
Definition layout := list (option Z * nat).
Definition total (l : layout) : nat := fold_right (fun x n => (snd x + n)%nat) 0%nat l.
Definition keys (l : layout) : list Z :=
  flat_map (fun x => match fst x with Some k => [k] | None => [] end) l.

(** [data] shows, at the place of every object, the value it has. *)
Fixpoint shows (l : layout) (cur : Z -> option bytes) (data : bytes) : Prop :=
  match l with
  | [] => True
  | (ko, n) :: t =>
    (forall k v, ko = Some k -> cur k = Some v -> firstn n data = v) /\
    shows t cur (skipn n data)
  end.

(** The bytes found at the place of an object. *)
Fixpoint slice (l : layout) (k : Z) (data : bytes) : option bytes :=
  match l with
  | [] => None
  | (ko, n) :: t =>
    match ko with
    | Some k' => if k' =? k then Some (firstn n data) else slice t k (skipn n data)
    | None => slice t k (skipn n data)
    end
  end.

(** ** Transmit PDO: what the application did *)

Inductive wop :=
| WObj (k : Z) (o : sop)
| WCycle.

(** A transmit PDO and the objects: results of the accesses, frames sent. *)
Inductive wres := WRes (r : result + pexc) | WSent (f : option frame).
Definition tx_step (dv : device) (d : dict) (o : wop) (s : pdo * pw) : outcome ((pdo * pw) * wres) :=
  match o with
  | WObj k o =>
    match obj dv d k o (snd s) with
    | Undef => Undef
    | Ok (w, r) => Ok ((fst s, w), WRes r)
    end
  | WCycle =>
    match tpdo_sync (fst s) (snd s) with
    | Undef => Undef
    | Ok (p, w, f) => Ok ((p, w), WSent f)
    end
  end.
Fixpoint tx_run (dv : device) (d : dict) (ops : list wop) (s : pdo * pw) : outcome ((pdo * pw) * list wres) :=
  match ops with
  | [] => Ok (s, [])
  | o :: t =>
    match tx_step dv d o s with
    | Undef => Undef
    | Ok (s1, r) =>
      match tx_run dv d t s1 with
      | Undef => Undef
      | Ok (s2, rs) => Ok (s2, r :: rs)
      end
    end
  end.

(** Newest value of every object, and whether one was written since the last
    cycle. [T] gives the types. A cached write of the value the object already
    has is no write. The configured value is written by the initialisation
    unless the object was changed from its default before. *)
Record txspec := mkTx { tx_cur : Z -> option bytes; tx_changed : bool }.
Definition tx_write (s : txspec) (k : Z) (v : bytes) : txspec :=
  mkTx (fun x => if x =? k then Some v else tx_cur s x) true.
Definition same (t : ty) (v : bytes) (c : option bytes) : bool :=
  match c with Some b => val_eqb t v b | None => false end.
Definition tx_spec_step (T : Z -> ty) (d : dict) (l : layout) (s : txspec) (o : wop) : txspec :=
  match o with
  | WCycle => mkTx (tx_cur s) false
  | WObj k o =>
    if existsb (Z.eqb k) (keys l) then
      match o with
      | SSet v => tx_write s k v
      | SSetCached v => if same (T k) v (tx_cur s k) then s else tx_write s k v
      | SInit =>
        match lookup k d with
        | Some e =>
          match h_data (e_init e) with
          | None => s
          | Some iv =>
            if user_changed (tx_cur s k) (h_data (e_def e)) || negb (differs iv (tx_cur s k)) then s
            else tx_write s k iv
          end
        | None => s
        end
      | _ => s
      end
    else s
  end.

(** Accesses covered: for the mapped objects writes of values of the right
    size, cached reads and initialisation; anything for other objects. *)
Definition tx_allowed (T : Z -> ty) (l : layout) (o : wop) : Prop :=
  match o with
  | WCycle => True
  | WObj k o =>
    match o with
    | SMap _ _ => False
    | SSet v | SSetCached v => In k (keys l) -> List.length v = ty_size (T k)
    | SGet cached => In k (keys l) -> cached = true
    | SInit => True
    | SReset => ~ In k (keys l)
    end
  end.

(** What a cycle may send: nothing if nothing was written, otherwise one frame
    with the PDO's header and size showing the newest values. *)
Definition tx_result_ok (h : header) (l : layout) (s : txspec) (o : wop) (r : wres) : Prop :=
  match o, r with
  | WCycle, WSent None => tx_changed s = false
  | WCycle, WSent (Some f) =>
    tx_changed s = true /\ f_hdr f = h /\ f_dlc f = Z.of_nat (total l) /\
    List.length (f_data f) = 8%nat /\ shows l (tx_cur s) (f_data f)
  | WObj _ _, WRes _ => True
  | _, _ => False
  end.
Fixpoint tx_conforms (T : Z -> ty) (d : dict) (h : header) (l : layout) (s : txspec) (ops : list wop) (rs : list wres) : Prop :=
  match ops, rs with
  | [], [] => True
  | o :: t, r :: rt => tx_result_ok h l s o r /\ tx_conforms T d h l (tx_spec_step T d l s o) t rt
  | _, _ => False
  end.

(** Numeric types *)
Definition numeric (t : ty) : Prop := match t with TInt i => 0 < i_size i | TReal n => (0 < n)%nat | _ => False end.

(** Entry of a configured transmit PDO: buffer [i] has the size of the entry;
    the object writes to it, and it holds the object's value. *)
Definition tx_slot (T : Z -> ty) (d : dict) (w : pw) (x : option Z * nat) (i : nat) : Prop :=
  exists b, w_bufs w i = Some b /\ b_size b = snd x /\ List.length (b_data b) = snd x /\
    match fst x with
    | None => b_empty b = true
    | Some k =>
      exists c e, lookup k (w_store w) = Some c /\ lookup k d = Some e /\
        c_type c = T k /\ numeric (T k) /\ ty_size (T k) = snd x /\ c_wr c = i /\
        e_writable e = true /\ entry_plain (T k) e /\ List.length (c_buf c) = snd x /\
        c_valid c = negb (b_empty b) /\ (c_valid c = true -> b_data b = c_buf c) /\
        (e_readable e = true \/ h_data (e_def e) <> None -> c_valid c = true)
    end.

(** A configured transmit PDO: the buffers belong to the entries of the layout
    in order, and no other object uses them. *)
Record tx_mapped (T : Z -> ty) (d : dict) (l : layout) (p : pdo) (w : pw) : Prop := {
  txm_len : List.length l = List.length (p_bufs p);
  txm_pos : ~ In 0%nat (p_bufs p);
  txm_nodup : NoDup (p_bufs p);
  txm_keys : NoDup (keys l);
  txm_total : (total l <= 8)%nat;
  txm_dlc : f_dlc (p_frame p) = Z.of_nat (total l);
  txm_data : List.length (f_data (p_frame p)) = 8%nat;
  txm_slots : forall x i, In (x, i) (combine l (p_bufs p)) -> tx_slot T d w x i;
  txm_owner : forall k c, lookup k (w_store w) = Some c ->
    ~ In (c_rd c) (p_bufs p) /\ (In (c_wr c) (p_bufs p) -> In k (keys l))
}.

(** The values the objects have when the PDO was configured. *)
Definition held_of (w : pw) (k : Z) : option bytes := held (w_store w) k.
Definition some_dirty (p : pdo) (w : pw) : bool :=
  existsb (fun i => match w_bufs w i with Some b => b_dirty b && negb (b_empty b) | None => false end) (p_bufs p).

(** ** Receive PDO *)

Inductive xop :=
| XFrame (f : frame)
| XCycle
| XObj (k : Z) (o : sop).
Inductive xres := XRes (r : result + pexc) | XNone.
Definition rx_step (dv : device) (d : dict) (o : xop) (s : pdo * pw) : outcome ((pdo * pw) * xres) :=
  match o with
  | XFrame f =>
    match rpdo_handle (fst s) f (snd s) with
    | Undef => Undef
    | Ok s' => Ok (s', XNone)
    end
  | XCycle => let '(p, _, _) := rpdo_sync (fst s) in Ok ((p, snd s), XNone)
  | XObj k o =>
    match obj dv d k o (snd s) with
    | Undef => Undef
    | Ok (w, r) => Ok ((fst s, w), XRes r)
    end
  end.
Fixpoint rx_runs (dv : device) (d : dict) (ops : list xop) (s : pdo * pw) : outcome ((pdo * pw) * list xres) :=
  match ops with
  | [] => Ok (s, [])
  | o :: t =>
    match rx_step dv d o s with
    | Undef => Undef
    | Ok (s1, r) =>
      match rx_runs dv d t s1 with
      | Undef => Undef
      | Ok (s2, rs) => Ok (s2, r :: rs)
      end
    end
  end.

(** Accesses covered: reads of the mapped objects, anything for the others;
    frames long enough for the mapping. *)
Definition rx_allowed (l : layout) (o : xop) : Prop :=
  match o with
  | XFrame f => Z.of_nat (total l) <= f_dlc f <= 8 /\ List.length (f_data f) = 8%nat
  | XCycle => True
  | XObj k o =>
    match o with
    | SMap _ _ => False
    | SGet _ => True
    | _ => ~ In k (keys l)
    end
  end.

(** The value of a mapped object after some frames: its bytes of the last
    frame, or the value it had before. *)
Definition rx_last (l : layout) (last : Z -> option bytes) (o : xop) : Z -> option bytes :=
  match o with
  | XFrame f => fun k => match slice l k (f_data f) with Some v => Some v | None => last k end
  | _ => last
  end.
Definition rx_result_ok (l : layout) (last : Z -> option bytes) (o : xop) (r : xres) : Prop :=
  match o with
  | XObj k (SGet false) =>
    In k (keys l) ->
    match last k with
    | Some v => r = XRes (inl (RVal v))
    | None => r = XRes (inr (PStorage DeviceError))
    end
  | _ => True
  end.
Fixpoint rx_conforms (l : layout) (last : Z -> option bytes) (ops : list xop) (rs : list xres) : Prop :=
  match ops, rs with
  | [], [] => True
  | o :: t, r :: rt => rx_result_ok l last o r /\ rx_conforms l (rx_last l last o) t rt
  | _, _ => False
  end.

(** Entry of a configured receive PDO; [last] is the value received or preset. *)
Definition rx_slot (T : Z -> ty) (d : dict) (last : Z -> option bytes) (w : pw)
    (x : option Z * nat) (i : nat) : Prop :=
  exists b, w_bufs w i = Some b /\ b_size b = snd x /\ List.length (b_data b) = snd x /\
    match fst x with
    | None => True
    | Some k =>
      exists c e, lookup k (w_store w) = Some c /\ lookup k d = Some e /\
        c_type c = T k /\ numeric (T k) /\ ty_size (T k) = snd x /\ c_rd c = i /\
        e_readable e = true /\ e_constant e = false /\ List.length (c_buf c) = snd x /\
        match last k with
        | None => b_empty b = true
        | Some v => b_empty b = false /\
                    if b_dirty b then b_data b = v else c_valid c = true /\ c_buf c = v
        end
    end.

(** A configured receive PDO *)
Record rx_mapped (T : Z -> ty) (d : dict) (l : layout) (last : Z -> option bytes) (p : pdo) (w : pw) : Prop := {
  rxm_len : List.length l = List.length (p_bufs p);
  rxm_pos : ~ In 0%nat (p_bufs p);
  rxm_nodup : NoDup (p_bufs p);
  rxm_keys : NoDup (keys l);
  rxm_slots : forall x i, In (x, i) (combine l (p_bufs p)) -> rx_slot T d last w x i;
  rxm_owner : forall k c, lookup k (w_store w) = Some c ->
    ~ In (c_wr c) (p_bufs p) /\ (In (c_rd c) (p_bufs p) -> In k (keys l))
}.

(** ** Reconfiguration as a strict device sees it *)

(** State of the PDO on the device: enabled, number of mapped objects. A write
    of its parameters is legal only while it is disabled, one of a mapping
    entry only if the number is zero as well. Bit 31 of the COB-ID is bit 7 of
    the last byte. *)
Record dpdo := mkDpdo { dp_enabled : bool; dp_count : Z }.
Definition reconf_step (com map : Z) (s : dpdo) (x : Z * event) : dpdo :=
  match snd x with
  | EvWrite O b true =>
    if fst x =? key_sub com 1 then mkDpdo (negb (Z.testbit (nth 3 b 0) 7)) (dp_count s)
    else if fst x =? key_sub map 0 then mkDpdo (dp_enabled s) (nth 0 b 0)
    else s
  | _ => s
  end.
Definition reconf_legal (com map : Z) (s : dpdo) (x : Z * event) : Prop :=
  match snd x with
  | EvWrite O _ _ =>
    (fst x = key_sub map 0 -> dp_enabled s = false) /\
    (forall i, 1 <= i <= 64 -> fst x = key_sub map i -> dp_enabled s = false /\ dp_count s = 0) /\
    (forall i, 2 <= i <= 255 -> fst x = key_sub com i -> dp_enabled s = false)
  | _ => True
  end.
Fixpoint reconf_ok (com map : Z) (s : dpdo) (log : list (Z * event)) : Prop :=
  match log with
  | [] => True
  | x :: t => reconf_legal com map s x /\ reconf_ok com map (reconf_step com map s x) t
  end.
Definition reconf_end (com map : Z) (s : dpdo) (log : list (Z * event)) : dpdo :=
  fold_left (reconf_step com map) log s.

(** The objects of a PDO are accessed through SDO. *)
Definition plain_access (w : pw) (k : Z) : Prop :=
  forall c, lookup k (w_store w) = Some c -> c_wr c = 0%nat /\ c_rd c = 0%nat.

(** ** Buffers that are still in use *)
Definition no_dangling (w : pw) : Prop :=
  forall k c, lookup k (w_store w) = Some c -> live w (c_rd c) = true /\ live w (c_wr c) = true.

(** What the dictionary says about a PDO: the number of mapped objects and
    whether it is in use. *)
Definition pdo_count (d : dict) (map : Z) : Z :=
  match lookup (key_sub map 0) d with
  | Some e => match hold_get U8 (e_value e) with Some n => n | None => 0 end
  | None => 0
  end.
(** The number an object of type UNSIGNED32 is configured with, by its value or
    relative to the node id. *)
Definition given_u32 (node_id : Z) (e : entry) (v : Z) : Prop :=
  exists h b, (h = e_init e \/ (h_data (e_init e) = None /\ h = e_def e)) /\ h_data h = Some b /\
  let x := nth 0 b 0 + 2^8 * nth 1 b 0 + 2^16 * nth 2 b 0 + 2^24 * nth 3 b 0 in
  ((h_type h = Some (TInt (mkIty false 4)) /\ v = x) \/
   (h_type h = Some (TOff (mkIty false 4)) /\ v = (node_id + x) mod 2^32)).
Definition pdo_enabled (d : dict) (node_id com : Z) : Prop :=
  exists e v, lookup (key_sub com 1) d = Some e /\ given_u32 node_id e v /\ Z.testbit v 31 = false.
(** Every PDO of the dictionary with mapped objects is in use. *)
Definition pdos_enabled (d : dict) (node_id com_base map_base : Z) : Prop :=
  forall i, 0 <= i < 512 -> 1 <= pdo_count d (map_base + i) <= 64 -> pdo_enabled d node_id (com_base + i).
