(** The command line tools and the set-up of the SYNC node.
    Source: /repo/canopen_master/src/bcm_sync.cpp
            /repo/canopen_chain_node/src/sync_node.cpp
            /repo/socketcan_interface/src/canbcm.cpp
            /repo/socketcan_interface/src/candump.cpp
            /repo/socketcan_interface/include/socketcan_interface/bcm.h *)
From Verif Require Import Base CanModel SyncModel.

(** ** bcm_sync *)

Fixpoint take_dec (s : text) (acc : Z) : Z :=
  match s with
  | c :: t => if (48 <=? c) && (c <=? 57) then take_dec t (acc * 10 + (c - 48)) else acc
  | [] => acc
  end.
(** atoi of the C library: white space, a sign, digits; whatever follows is
    ignored. Undefined if the number is no int. *)
Definition atoi (s : text) : outcome Z :=
  let s1 := skip_space s in
  let '(neg, s2) := match s1 with
                    | 45 :: t => (true, t)
                    | 43 :: t => (false, t)
                    | _ => (false, s1)
                    end in
  let v := take_dec s2 0 in
  let w := if neg : bool then - v else v in
  if (- 2^31 <=? w) && (w <? 2^31) then Ok w else Undef.

(** What BCMsync is constructed with (bcm_sync.cpp:52-56, canopen.h:170-174: the
    period becomes 16 bits wide, the overflow 8). *)
Record watch := mkWatch {
  w_device : text;
  w_period : Z;
  w_header : header;
  w_overflow : Z;
  w_monitored : list Z;
  w_ignored : list Z
}.

(** bcm_sync.cpp:35-46 *)
Fixpoint read_ids (args : list text) (mon ign : list Z) : outcome (option (list Z * list Z)) :=
  match args with
  | [] => Ok (Some (mon, ign))
  | a :: t =>
    match a with
    | 45 :: 45 :: _ => Ok (Some (mon, ign))
    | _ =>
      match atoi a with
      | Undef => Undef
      | Ok id =>
        if (0 <? id) && (id <? 128) then read_ids t (set_insert id mon) ign
        else if (id <? 0) && (-128 <? id) then read_ids t mon (set_insert (- id) ign)
        else Ok None
      end
    end
  end.

(** bcm_sync.cpp:24-31: the argument behind the header is the overflow unless it
    begins with a sign *)
Definition read_overflow (args : list text) : outcome (option (Z * list text)) :=
  match args with
  | a :: t =>
    if (hd 0 a =? 45) || (hd 0 a =? 43) then Ok (Some (0, args))
    else match atoi a with
         | Undef => Undef
         | Ok o => if (o =? 1) || (o <? 0) || (240 <? o) then Ok None else Ok (Some (o, t))
         end
  | [] => Ok (Some (0, []))
  end.

(** bcm_sync.cpp:5-56; [None]: a message is shown and the program ends. *)
Definition bcm_sync_main (args : list text) : outcome (option watch) :=
  match args with
  | dev :: per :: hdr :: rest =>
    match atoi per with
    | Undef => Undef
    | Ok ms =>
      if negb (header_isValid (toheader hdr)) then Ok None
      else
        match read_overflow rest with
        | Undef => Undef
        | Ok None => Ok None
        | Ok (Some (o, ids)) =>
          match read_ids ids [] [] with
          | Undef => Undef
          | Ok None => Ok None
          | Ok (Some (mon, ign)) => Ok (Some (mkWatch dev (ms mod 2^16) (toheader hdr) (u8 o) mon ign))
          end
        end
    end
  | _ => Ok None
  end.

(** ** The SYNC node *)

(** sync_node.cpp:76-89: ignored and monitored nodes from the parameters
    monitored_nodes, heartbeat/msg and ignored_nodes. getParam leaves the vector
    alone if the parameter is not set, and replaces it otherwise. *)
Definition own_heartbeat (junk : bytes) (msg : option text) : list Z :=
  match msg with
  | Some t =>
    let f := toframe junk t in
    if frame_isValid f && (h_id (f_hdr f) / 128 =? 14) then [h_id (f_hdr f) mod 128] else []
  | None => []
  end.
Definition sync_node_nodes (junk : bytes) (monitored : option (list Z)) (msg : option text) (ignored : option (list Z))
  : list Z * list Z :=
  match monitored with
  | Some ns => ([], ns)
  | None => (match ignored with Some ns => ns | None => own_heartbeat junk msg end, [])
  end.

(** ** canbcm *)

(** bcm.h:22-43, 81-99 as in [start_tx] of SyncModel, for a period in microseconds *)
Definition cyclic_message (usec : Z) (h : header) (fs : list frame) : bcm_msg :=
  let id := Z.lor (h_id h) (if h_ext h then 2^31 else 0) in
  mkMsg id (usec / 1000000) (usec mod 1000000)
    (map (fun f => (id, f_dlc f, firstn (Z.to_nat (f_dlc f)) (f_data f))) fs).
(** canbcm.cpp:21-38: the arguments behind device and period; [usec] is the
    period given (atof and the conversion are not modelled). *)
Definition canbcm (junk : bytes) (usec : Z) (first : text) (more : list text) : bcm_msg :=
  let f := toframe junk first in
  let h := f_hdr f in
  cyclic_message usec h (f :: map (fun t => toframe junk (tostring_header h true ++ [35] ++ t)) more).

(** ** candump *)

(** candump.cpp:13-37, print_frame (tab is 9); the length is a number below ten *)
Definition print_frame (f : frame) : text :=
  (if h_err (f_hdr f) then [69] else if h_ext (f_hdr f) then [101] else [115])
    ++ [32] ++ print_hex (h_id (f_hdr f)) true ++ [9]
    ++ (if h_rtr (f_hdr f) then [114]
        else (48 + f_dlc f) :: flat_map (fun b => 32 :: print_hex b true) (payload f))
    ++ [10].
