(** Process data objects: buffers, packing, supervision and configuration.
    Source: /repo/canopen_master/src/pdo.cpp
            /repo/canopen_master/include/canopen_master/canopen.h
            /repo/canopen_master/src/objdict.cpp (ObjectStorage::map) *)
From Verif Require Import Base CanModel KeyModel StorageModel.

(** ** Communication parameters *)

(** pdo.cpp:8-23, PDOid *)
Definition pdoid_header (value : Z) (fill_rtr : bool) : header :=
  Header (Z.land value (2^29 - 1)) (has value (2^29)) (fill_rtr && negb (has value (2^30))) false.
Definition pdoid_invalid (value : Z) : bool := has value (2^31).

(** pdo.cpp:25-34, PDOmap *)
Definition map_length (v : Z) : Z := u8 (Z.land v 255).
Definition map_sub (v : Z) : Z := u8 (Z.land (Z.shiftr v 8) 255).
Definition map_idx (v : Z) : Z := u16 (Z.shiftr v 16).

(** ** Buffers *)

(** canopen.h:72-88, PDOMapper::Buffer. Every operation holds its mutex. *)
Record pbuf := mkBuf { b_size : nat; b_dirty : bool; b_empty : bool; b_data : bytes }.
Definition buf_new (n : nat) : pbuf := mkBuf n false true (repeat 0 n).
(** canopen.h:79 *)
Definition buf_clean (b : pbuf) : pbuf := mkBuf (b_size b) false (b_empty b) (b_data b).

(** pdo.cpp:340-351, read(uint8_t*, len) for size <= len: what is copied to the
    destination, if anything, and the return value. The comparison with [len]
    is made by the only caller before (pdo.cpp:263). *)
Definition buf_fetch (b : pbuf) : pbuf * option bytes * bool :=
  if b_empty b then (b, None, false)
  else (buf_clean b, Some (firstn (b_size b) (b_data b)), b_dirty b).

(** pdo.cpp:352-360, write(const uint8_t*, len) for size <= len *)
Definition buf_put (b : pbuf) (src : bytes) : pbuf :=
  mkBuf (b_size b) true false (firstn (b_size b) src ++ skipn (b_size b) (b_data b)).

(** pdo.cpp:361-374, read(entry, data): new buffer, data, success *)
Definition buf_get (b : pbuf) (data : bytes) : pbuf * bytes * bool :=
  if negb (b_size b =? List.length data)%nat then (b, data, false)
  else if b_empty b then (b, data, false)
  else if b_dirty b then (buf_clean b, b_data b, true)
  else (b, data, true).

(** pdo.cpp:375-383, write(entry, data): None is the exception *)
Definition buf_set (b : pbuf) (data : bytes) : option pbuf :=
  if negb (b_size b =? List.length data)%nat then None
  else Some (mkBuf (b_size b) true false data).

(** ** The world of a node's PDOs: the storage, the log of all delegate calls,
    and the buffers that exist ([None]: not allocated or destroyed). Delegate 0
    of a cell is the SDO client, delegate n > 0 is buffer n. *)
Record pw := mkPW {
  w_store : storage;
  w_log : list (Z * event);
  w_bufs : nat -> option pbuf;
  w_next : nat
}.

Definition upd {A} (f : nat -> A) (n : nat) (a : A) : nat -> A :=
  fun i => if Nat.eqb i n then a else f i.

(** The device seen through SDO: what a read puts into the buffer, whether an
    access succeeds. Depends on everything that happened. *)
Record device := mkDevice {
  dv_read : list (Z * event) -> Z -> bytes -> bytes * bool;
  dv_write : list (Z * event) -> Z -> bytes -> bool
}.

(** Access through a delegate. A destroyed buffer is caught by [live_events]. *)
Definition delegate_read (dv : device) (w : pw) (k : Z) (d : nat) : reader :=
  match d with
  | O => dv_read dv (w_log w) k
  | _ => fun data => match w_bufs w d with
                     | Some b => let '(_, x, ok) := buf_get b data in (x, ok)
                     | None => (data, true)
                     end
  end.
Definition delegate_write (dv : device) (w : pw) (k : Z) (d : nat) (data : bytes) : bool :=
  match d with
  | O => dv_write dv (w_log w) k data
  | _ => match w_bufs w d with
         | Some b => match buf_set b data with Some _ => true | None => false end
         | None => true
         end
  end.

Definition event_delegate (e : event) : nat :=
  match e with EvRead d _ _ => d | EvWrite d _ _ => d end.
Definition live (w : pw) (d : nat) : bool :=
  match d with O => true | _ => match w_bufs w d with Some _ => true | None => false end end.
Definition live_events (w : pw) (ev : list event) : bool :=
  forallb (fun e => live w (event_delegate e)) ev.

(** Effect of a delegate call on the buffers *)
Definition apply_event (bufs : nat -> option pbuf) (e : event) : nat -> option pbuf :=
  match e with
  | EvRead (S n) _ true =>
    match bufs (S n) with Some b => upd bufs (S n) (Some (buf_clean b)) | None => bufs end
  | EvWrite (S n) data true =>
    match bufs (S n) with
    | Some b => match buf_set b data with Some b' => upd bufs (S n) (Some b') | None => bufs end
    | None => bufs
    end
  | _ => bufs
  end.

Definition writes_ok (dv : device) (w : pw) (k : Z) (ev : list event) : bool :=
  forallb (fun e => match e with
                    | EvWrite d data _ => delegate_write dv w k d data
                    | _ => true end) ev.

(** Operations on an object, without the behaviour of the delegates. *)
Inductive sop :=
| SGet (cached : bool)
| SSet (v : bytes)
| SSetCached (v : bytes)
| SInit
| SReset
| SMap (r w : option nat).
Definition to_op (o : sop) (rd : reader) (wr : bool) : op :=
  match o with
  | SGet c => OGet c rd
  | SSet v => OSet v wr
  | SSetCached v => OSetCached v wr
  | SInit => OInit wr
  | SReset => OReset
  | SMap r w => OMap r w rd wr
  end.

(** An operation on a cell: no operation makes more than one delegate write,
    and nothing before it depends on its success, so the first evaluation tells
    the data to be written. Mapping reads through the SDO client. Calling a
    destroyed buffer is undefined. *)
Definition cell_op (dv : device) (e : entry) (k : Z) (c : cell) (o : sop) (w : pw)
  : outcome (pw * result) :=
  let rd := delegate_read dv w k (match o with SMap _ _ => 0%nat | _ => c_rd c end) in
  match step e (to_op o rd true) c with
  | Undef => Undef
  | Ok (_, ev, _) =>
    match step e (to_op o rd (writes_ok dv w k ev)) c with
    | Undef => Undef
    | Ok (c1, ev1, r) =>
      if live_events w ev1 then
        Ok (mkPW (store k c1 (w_store w)) (w_log w ++ keyed k ev1)
                 (fold_left apply_event ev1 (w_bufs w)) (w_next w), r)
      else Undef
    end
  end.

(** ** Computations that may throw *)

Inductive pexc := PStorage (x : exc) | PRange | PCast.
Definition M (A : Type) := pw -> outcome (pw * (A + pexc)).
Definition retm {A} (a : A) : M A := fun w => Ok (w, inl a).
Definition throw {A} (x : pexc) : M A := fun w => Ok (w, inr x).
Definition bind {A B} (m : M A) (f : A -> M B) : M B := fun w =>
  match m w with
  | Undef => Undef
  | Ok (w1, inr x) => Ok (w1, inr x)
  | Ok (w1, inl a) => f a w1
  end.
Declare Scope pdo_scope.
Notation "x <- m ;; f" := (bind m (fun x => f)) (at level 61, m at next level, right associativity) : pdo_scope.
Notation "m ;;; f" := (bind m (fun _ => f)) (at level 61, right associativity) : pdo_scope.
Open Scope pdo_scope.

Section Mapping.
Variable dv : device.
Variable d : dict.
Variable node_id : Z.

Definition U8 : ty := TInt (mkIty false 1).
Definition U32 : ty := TInt (mkIty false 4).

(** objdict.h:186, Entry::value *)
Definition e_value (e : entry) : hold :=
  match h_data (e_init e) with Some _ => e_init e | None => e_def e end.

(** objdict.h:82-89, HoldAny::get<T> for an unsigned type: None if it throws *)
Definition hold_get (t : ty) (h : hold) : option Z :=
  match h_type h, h_data h with
  | Some t', Some b => if ty_eqb t' t then Some (of_le (firstn (ty_size t) b)) else None
  | _, _ => None
  end.

(** objdict.h:251-263, NodeIdOffset<uint32_t>::apply *)
Definition apply_u32 (h : hold) : option Z :=
  match hold_get U32 h with
  | Some v => Some v
  | None =>
    match h_type h, h_data h with
    | Some (TOff i), Some b =>
      if ity_eqb i (mkIty false 4) then Some (u32 (node_id + of_le (firstn 4 b))) else None
    | _, _ => None
    end
  end.

(** objdict.h:189-193, dict(index, sub) *)
Definition desc (k : Z) : M entry := fun w =>
  match lookup k d with Some e => Ok (w, inl e) | None => Ok (w, inr PRange) end.

(** objdict.h:472-503, ObjectStorage::entry<T>(key) for an unsigned type of
    [n] bytes *)
Definition entry_of (n : Z) (k : Z) : M unit := fun w =>
  let T := mkIty false n in
  match lookup k (w_store w) with
  | Some c => if ty_eqb (c_type c) (TInt T) then Ok (w, inl tt) else Ok (w, inr PCast)
  | None =>
    match lookup k d with
    | None => Ok (w, inr PRange)
    | Some e =>
      let nv := match h_data (e_def e) with
                | Some b => le_bytes (Z.to_nat n)
                              ((node_id + of_le (firstn (Z.to_nat n) b)) mod 2^(8 * n))
                | None => []
                end in
      match entry_cell (TInt T) e nv with
      | None => Ok (w, inr PCast)
      | Some c => Ok (mkPW (store k c (w_store w)) (w_log w) (w_bufs w) (w_next w), inl tt)
      end
    end
  end.

(** An operation on the object of a key *)
Definition obj (k : Z) (o : sop) : M result := fun w =>
  match lookup k (w_store w), lookup k d with
  | Some c, Some e =>
    match cell_op dv e k c o w with
    | Undef => Undef
    | Ok (w1, RThrow x) => Ok (w1, inr (PStorage x))
    | Ok (w1, r) => Ok (w1, inl r)
    end
  | _, _ => Ok (w, inr PRange)
  end.

Definition get_val (k : Z) (cached : bool) : M Z :=
  r <- obj k (SGet cached) ;;
  match r with RVal b => retm (of_le b) | _ => retm 0 end.
Definition set_val (n : nat) (k : Z) (v : Z) : M unit :=
  obj k (SSet (le_bytes n v)) ;;; retm tt.

(** objdict.cpp:408-411 and 392-407, ObjectStorage::init(key) *)
Definition init_key (k : Z) : M unit := fun w =>
  match lookup k d with
  | None => Ok (w, inr PRange)
  | Some e =>
    match h_data (e_init e) with
    | None => Ok (w, inl tt)
    | Some _ =>
      let s := match lookup k (w_store w) with
               | Some _ => w_store w
               | None => store k (data_typed (match h_type (e_init e) with Some t => t | None => TStr end)) (w_store w)
               end in
      (obj k SInit ;;; retm tt) (mkPW s (w_log w) (w_bufs w) (w_next w))
    end
  end.

(** objdict.cpp:335-365, map(entry, key, ...): the size of the cell *)
Definition map_key (k : Z) (e : entry) (r wd : option nat) : M nat := fun w =>
  match (match lookup k (w_store w) with
         | Some _ => Some (w_store w)
         | None => match h_type (e_def e) with
                   | None => None
                   | Some t => Some (store k (data_reset e (data_typed t)) (w_store w))
                   end
         end) with
  | None => Ok (w, inr PCast)
  | Some s =>
    (obj k (SMap r wd) ;;;
     (fun w => match lookup k (w_store w) with
               | Some c => Ok (w, inl (List.length (c_buf c)))
               | None => Ok (w, inl 0%nat) end))
      (mkPW s (w_log w) (w_bufs w) (w_next w))
  end.

(** objdict.cpp:367-382, map(index, sub_index, ...) *)
Definition map_object (index sub : Z) (r wd : option nat) : M nat := fun w =>
  match lookup (key_sub index sub) d with
  | Some e => map_key (key_sub index sub) e r wd w
  | None =>
    if negb (sub =? 0) then Ok (w, inr PRange)
    else match lookup (key_index index) d with
         | Some e => map_key (key_index index) e r wd w
         | None => Ok (w, inr PRange)
         end
  end.

(** pdo.cpp:51-65, check_com_changed *)
Definition has_init (k : Z) : bool :=
  match lookup k d with
  | Some e => match h_data (e_init e) with Some _ => true | None => false end
  | None => false
  end.
Definition check_com_changed (com_id : Z) : bool :=
  existsb (fun sub => has_init (key_sub com_id sub)) (range 7).

(** pdo.cpp:67-85, check_map_changed. The entry of sub index 0 exists: it was
    obtained before the only call. *)
Definition check_map_changed (num map_index : Z) : bool :=
  if num <=? 64 then existsb (fun sub => has_init (key_sub map_index (sub + 1))) (range num)
  else negb (has_init (key_sub map_index 0)).

(** Creation of a buffer, pdo.cpp:125 *)
Definition new_buffer (n : nat) : M nat := fun w =>
  Ok (mkPW (w_store w) (w_log w) (upd (w_bufs w) (w_next w) (Some (buf_new n))) (S (w_next w)), inl (w_next w)).
Definition clean_buffer (id : nat) : M unit := fun w =>
  Ok (mkPW (w_store w) (w_log w)
           (match w_bufs w id with Some b => upd (w_bufs w) id (Some (buf_clean b)) | None => w_bufs w end)
           (w_next w), inl tt).
(** A failed assertion; without assertions the frame would overflow. *)
Definition assert_m (b : bool) : M unit := fun w => if b then Ok (w, inl tt) else Undef.

(** pdo.cpp:118-150, one turn of the loop: the buffer, and the new dlc *)
Definition map_sub_entry (map_index sub : Z) (read write : bool) (dlc : Z) : M (nat * Z) :=
  let k := key_sub map_index sub in
  entry_of 4 k ;;;
  e <- desc k ;;
  match h_data (e_init e) with
  | None => retm tt
  | Some _ => match hold_get U32 (e_init e) with
              | Some v => set_val 4 k v
              | None => throw PCast
              end
  end ;;;
  p <- get_val k true ;;
  let n := Z.to_nat (map_length p / 8) in
  b <- new_buffer n ;;
  (if (map_idx p <? 0x1000) || negb (read || write) then retm tt
   else l <- map_object (map_idx p) (map_sub p) (if read then Some b else None) (Some b) ;;
        assert_m (l =? n)%nat) ;;;
  let dlc := u8 (dlc + Z.of_nat n) in
  assert_m (dlc <=? 8) ;;;
  clean_buffer b ;;;
  retm (b, dlc).

(** pdo.cpp:117-151, the loop *)
Fixpoint map_loop (map_index : Z) (subs : list Z) (read write : bool) (dlc : Z) (bufs : list nat)
  : M (list nat * Z) :=
  match subs with
  | [] => retm (bufs, dlc)
  | s :: t =>
    x <- map_sub_entry map_index s read write dlc ;;
    map_loop map_index t read write (snd x) (bufs ++ [fst x])
  end.

(** pdo.cpp:153-163. With 255 sub indices the loop never ends, which is treated
    like undefined behaviour by the caller. *)
Fixpoint init_com (com_index : Z) (subs : list Z) : M unit :=
  match subs with
  | [] => retm tt
  | i :: t =>
    (if (i =? 1) || (i =? 4) then retm tt
     else fun w => match init_key (key_sub com_index i) w with
                   | Ok (w1, inr PRange) => Ok (w1, inl tt)
                   | x => x
                   end) ;;;
    init_com com_index t
  end.

Definition when (b : bool) (m : M unit) : M unit := if b then m else retm tt.

(** pdo.cpp:86-170, parse_and_set_mapping: the buffers and the frame's dlc
    (unchanged if there is no mapping). *)
Definition parse_and_set_mapping (com_index map_index : Z) (read write : bool) (dlc : Z)
  : M (list nat * Z) :=
  let num_key := key_sub map_index 0 in
  let cob_key := key_sub com_index 1 in
  entry_of 1 num_key ;;;
  e <- desc num_key ;;
  let map_num := match hold_get U8 (e_value e) with Some v => v | None => 0 end in
  let map_changed := check_map_changed map_num map_index in
  entry_of 4 cob_key ;;;
  let com_changed := check_com_changed map_index in
  ce <- desc cob_key ;;
  let disable := (map_changed || com_changed) && e_writable ce in
  when disable (v <- get_val cob_key false ;; set_val 4 cob_key (Z.lor v (2^31))) ;;;
  res <- (if (0 <? map_num) && (map_num <=? 64) then
            when map_changed (set_val 1 num_key 0) ;;;
            map_loop map_index (map (fun i => i + 1) (range map_num)) read write 0 []
          else retm ([], dlc)) ;;
  when com_changed
    (n <- desc (key_sub com_index 0) ;;
     match hold_get U8 (e_value n) with
     | None => throw PCast
     | Some subs => assert_m (negb (subs =? 255)) ;;;
                    init_com com_index (map (fun i => i + 1) (range subs))
     end) ;;;
  when map_changed (set_val 1 num_key map_num) ;;;
  when disable
    (init_key cob_key ;;;
     match apply_u32 (e_value ce) with
     | Some v => set_val 4 cob_key v
     | None => throw PCast
     end) ;;;
  retm res.

(** canopen.h:91-142, the PDO objects of the master *)
Record pdo := mkPdo {
  p_frame : frame;
  p_type : Z;
  p_bufs : list nat;
  p_timeout : Z;
  p_listen : option header
}.

(** The value of an entry as a number, thrown exception otherwise *)
Definition value_of (k : Z) (get : hold -> option Z) : M Z :=
  e <- desc k ;;
  match get (e_value e) with Some v => retm v | None => throw PCast end.

(** pdo.cpp:212-231, RPDO::init; None if it returns false. [junk] is the
    uninitialised frame data. *)
Definition rpdo_init (junk : bytes) (com_index map_index : Z) : M (option pdo) :=
  r <- parse_and_set_mapping com_index map_index true false 0 ;;
  id <- value_of (key_sub com_index 1) apply_u32 ;;
  if match fst r with [] => true | _ => false end || pdoid_invalid id then retm None
  else
    tt <- value_of (key_sub com_index 2) (hold_get U8) ;;
    retm (Some (mkPdo (Frame junk (pdoid_header id true) 0) tt (fst r) (-1)
                      (Some (pdoid_header id false)))).

(** pdo.cpp:233-253, TPDO::init *)
Definition tpdo_init (junk : bytes) (com_index map_index : Z) : M (option pdo) :=
  id <- value_of (key_sub com_index 1) apply_u32 ;;
  r <- parse_and_set_mapping com_index map_index false true 0 ;;
  if match fst r with [] => true | _ => false end || pdoid_invalid id then retm None
  else
    let k := key_sub com_index 2 in
    entry_of 1 k ;;;
    tt <- value_of k (hold_get U8) ;;
    when (negb (tt =? 1) && (tt <=? 240)) (set_val 1 k 1) ;;;
    retm (Some (mkPdo (Frame junk (pdoid_header id false) (snd r)) tt (fst r) (-1) None)).

(** canopen.h:103-108 and 122-127, create: a PDO that is not kept is destroyed
    together with its buffers, also when an exception passes. *)
Definition free_range (bufs : nat -> option pbuf) (a b : nat) : nat -> option pbuf :=
  fun i => if (a <=? i)%nat && (i <? b)%nat then None else bufs i.
Definition create (m : M (option pdo)) : M (option pdo) := fun w =>
  match m w with
  | Undef => Undef
  | Ok (w1, inl (Some p)) => Ok (w1, inl (Some p))
  | Ok (w1, r) => Ok (mkPW (w_store w1) (w_log w1)
                           (free_range (w_bufs w1) (w_next w) (w_next w1)) (w_next w1), r)
  end.

Definition has_key (k : Z) : bool := match lookup k d with Some _ => true | None => false end.

(** pdo.cpp:182-190 and 194-202, the loops over the possible PDOs: the PDOs
    inserted, and the exception that ended the loop, if any. *)
Fixpoint create_all (init : Z -> Z -> M (option pdo)) (com_base map_base : Z) (is : list Z)
    (limit : nat) (acc : list pdo) (w : pw) : outcome (pw * list pdo * option pexc) :=
  match is with
  | [] => Ok (w, acc, None)
  | i :: t =>
    if negb (List.length acc <? limit)%nat then Ok (w, acc, None)
    else if negb (has_key (key_sub (com_base + i) 0)) && negb (has_key (key_sub (map_base + i) 0))
    then create_all init com_base map_base t limit acc w
    else
      match create (init (com_base + i) (map_base + i)) w with
      | Undef => Undef
      | Ok (w1, inr x) => Ok (w1, acc, Some x)
      | Ok (w1, inl p) =>
        create_all init com_base map_base t limit (match p with Some p => acc ++ [p] | None => acc end) w1
      end
  end.

End Mapping.

(** ** Cycles *)

(** pdo.cpp:255-280, TPDO::sync: reads the buffers in order; [len] is what is
    left of the frame. *)
Fixpoint tpdo_fill (bufs : nat -> option pbuf) (ids : list nat) (len : nat) (data : bytes) (updated : bool)
  : outcome ((nat -> option pbuf) * bytes * bool) :=
  match ids with
  | [] => Ok (bufs, [], updated)
  | i :: t =>
    match bufs i with
    | None => Undef
    | Some b =>
      if (b_size b <=? len)%nat then
        let '(b', x, u) := buf_fetch b in
        let here := match x with Some x => x | None => firstn (b_size b) data end in
        match tpdo_fill (upd bufs i (Some b')) t (len - b_size b) (skipn (b_size b) data) (u || updated) with
        | Undef => Undef
        | Ok (bufs', rest, u') => Ok (bufs', here ++ rest, u')
        end
      else tpdo_fill bufs t len data updated
    end
  end.
Definition tpdo_sync (p : pdo) (w : pw) : outcome (pdo * pw * option frame) :=
  match tpdo_fill (w_bufs w) (p_bufs p) (Z.to_nat (f_dlc (p_frame p))) (f_data (p_frame p)) false with
  | Undef => Undef
  | Ok (bufs', data, updated) =>
    let f := mkFrame (f_hdr (p_frame p)) (f_dlc (p_frame p)) (overwrite data (f_data (p_frame p))) in
    Ok (mkPdo f (p_type p) (p_bufs p) (p_timeout p) (p_listen p),
        mkPW (w_store w) (w_log w) bufs' (w_next w),
        if updated then Some f else None)
  end.

(** pdo.cpp:298-313, RPDO::handleFrame: distribution of the data. [src] are the
    bytes from [offset] on. *)
Fixpoint rpdo_spread (bufs : nat -> option pbuf) (ids : list nat) (left : nat) (src : bytes)
  : outcome (nat -> option pbuf) :=
  match ids with
  | [] => Ok bufs
  | i :: t =>
    match bufs i with
    | None => Undef
    | Some b =>
      if (b_size b <=? left)%nat
      then rpdo_spread (upd bufs i (Some (buf_put b src))) t (left - b_size b) (skipn (b_size b) src)
      else rpdo_spread bufs t left src
    end
  end.

(** pdo.cpp:314-323, the supervision part of handleFrame *)
Definition rpdo_rearm (p : pdo) : pdo :=
  let t := if (1 <=? p_type p) && (p_type p <=? 240) then p_type p + 2
           else if ((p_type p =? 0xFC) || (p_type p =? 0xFD)) && h_rtr (f_hdr (p_frame p)) then 1 + 2
           else p_timeout p in
  mkPdo (p_frame p) (p_type p) (p_bufs p) t (p_listen p).
Definition rpdo_handle (p : pdo) (msg : frame) (w : pw) : outcome (pdo * pw) :=
  match rpdo_spread (w_bufs w) (p_bufs p) (Z.to_nat (f_dlc msg)) (f_data msg) with
  | Undef => Undef
  | Ok bufs' => Ok (rpdo_rearm p, mkPW (w_store w) (w_log w) bufs' (w_next w))
  end.

(** pdo.cpp:282-296, RPDO::sync: whether a timeout is reported, the frame sent *)
Definition rpdo_sync (p : pdo) : pdo * bool * option frame :=
  let cyclic := ((1 <=? p_type p) && (p_type p <=? 240)) || (p_type p =? 0xFC) in
  (mkPdo (p_frame p) (p_type p) (p_bufs p)
         (if cyclic && (0 <? p_timeout p) then p_timeout p - 1 else p_timeout p) (p_listen p),
   cyclic && (p_timeout p =? 0),
   if ((p_type p =? 0xFC) || (p_type p =? 0xFD)) && h_rtr (f_hdr (p_frame p))
   then Some (p_frame p) else None).

(** pdo.cpp:175-209, PDOMapper::init: the receive and transmit PDOs kept and
    the exception, if any. The old PDOs and their buffers are destroyed before.
    (std::out_of_range is turned into an error report, others pass.) *)
Record mapper := mkMapper { rpdos : list pdo; tpdos : list pdo }.
Definition free_pdos (ps : list pdo) (w : pw) : pw :=
  mkPW (w_store w) (w_log w)
       (fun i => if existsb (fun p => existsb (Nat.eqb i) (p_bufs p)) ps then None else w_bufs w i)
       (w_next w).
Definition mapper_init (dv : device) (d : dict) (node_id : Z) (junk : bytes) (nr_tx nr_rx : nat)
    (m : mapper) (w : pw) : outcome (pw * mapper * option pexc) :=
  match create_all d (rpdo_init dv d node_id junk) 0x1800 0x1A00 (range 512) nr_tx []
                   (free_pdos (rpdos m) w) with
  | Undef => Undef
  | Ok (w1, rs, Some x) => Ok (w1, mkMapper rs (tpdos m), Some x)
  | Ok (w1, rs, None) =>
    match create_all d (tpdo_init dv d node_id junk) 0x1400 0x1600 (range 512) nr_rx []
                     (free_pdos (tpdos m) w1) with
    | Undef => Undef
    | Ok (w2, ts, x) => Ok (w2, mkMapper rs ts, x)
    end
  end.
