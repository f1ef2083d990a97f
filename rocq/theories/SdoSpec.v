(** SDO as defined by CiA 301, and a conforming server. *)
From Verif Require Import Base CanModel KeyModel StorageModel SdoModel.

(** ** Message layout (CiA 301) *)

Definition b0 (m : msg) : Z := nth 0 m 0.
(** command specifier: bits 5-7 of the first byte *)
Definition code (m : msg) : Z := b0 m / 32.
Definition tog (m : msg) : Z := (b0 m / 16) mod 2.
Definition same_object (a b : msg) : Prop := firstn 3 (skipn 1 a) = firstn 3 (skipn 1 b).
Definition names_object (index sub : Z) (m : msg) : Prop :=
  firstn 3 (skipn 1 m) = [index mod 256; index / 256; sub].
Definition le32 (b : bytes) : Z :=
  nth 0 b 0 + 256 * nth 1 b 0 + 65536 * nth 2 b 0 + 16777216 * nth 3 b 0.
Definition le32_bytes (x : Z) : bytes :=
  [x mod 256; (x / 256) mod 256; (x / 65536) mod 256; (x / 16777216) mod 256].
(** initiate messages: size indicated, expedited, unused bytes, data *)
Definition i_sized (m : msg) : bool := b0 m mod 2 =? 1.
Definition i_exp (m : msg) : bool := (b0 m / 2) mod 2 =? 1.
Definition i_data (m : msg) : bytes :=
  firstn (if i_sized m then Z.to_nat (4 - (b0 m / 4) mod 4) else 4) (skipn 4 m).
Definition i_announced (m : msg) : Z := le32 (skipn 4 m).
(** segments: no more segments, data *)
Definition g_last (m : msg) : bool := b0 m mod 2 =? 1.
Definition g_data (m : msg) : bytes := firstn (Z.to_nat (7 - (b0 m / 2) mod 8)) (skipn 1 m).

Definition msg_ok (m : msg) : Prop := List.length m = 8%nat /\ bytes_ok m.
Definition input_ok (i : input) : Prop := match i with IFrame _ m => msg_ok m | ITimeout => True end.

(** The object named in the transfer. *)
Definition object_ok (index sub : Z) : Prop := 0 <= index < 65536 /\ 0 <= sub < 256.

(** [m] answers request [r]. *)
Definition answers (r m : msg) : Prop :=
  (code r = 1 /\ code m = 3 /\ same_object r m) \/
  (code r = 0 /\ code m = 1 /\ tog r = tog m) \/
  (code r = 2 /\ code m = 2 /\ same_object r m) \/
  (code r = 3 /\ code m = 0 /\ tog r = tog m).
(** A response that does not belong to the request. *)
Definition protocol_error (r m : msg) : Prop := code m <= 3 /\ ~ answers r m.
(** Frames with the unassigned specifiers 5 to 7 are no responses. *)
Definition no_response (m : msg) : Prop := 5 <= code m.

(** The requests have been answered one by one. *)
Inductive answered : list msg -> list input -> Prop :=
| answered_nil : answered [] []
| answered_skip : forall rs is m, answered rs is -> no_response m -> answered rs (is ++ [IFrame 8 m])
| answered_one : forall rs is r m, answered rs is -> answers r m -> answered (rs ++ [r]) (is ++ [IFrame 8 m]).

(** ** Requests of a download, by CiA 301 *)

Definition chunk (data : bytes) (k : nat) : bytes := firstn 7 (skipn (7 * k) data).
Definition zeros (n : nat) (b : bytes) : bytes := b ++ repeat 0 (n - List.length b).
Definition segment_request (data : bytes) (k : nat) : msg :=
  (b2z (List.length data <=? 7 * k + 7)%nat + 2 * (7 - Z.of_nat (List.length (chunk data k)))
   + 16 * (Z.of_nat k mod 2)) :: zeros 7 (chunk data k).
Definition segment_count (data : bytes) : nat := ((List.length data + 6) / 7)%nat.
(** All requests after the first one. *)
Definition segment_requests (data : bytes) : list msg :=
  if (List.length data <=? 4)%nat then [] else map (segment_request data) (seq 0 (segment_count data)).
Definition expedited_request (index sub : Z) (data : bytes) : msg :=
  [32 + 2 + 1 + 4 * (4 - Z.of_nat (List.length data)); index mod 256; index / 256; sub] ++ zeros 4 data.
Definition announce_request (index sub : Z) (data : bytes) : msg :=
  [32 + 1; index mod 256; index / 256; sub] ++ le32_bytes (Z.of_nat (List.length data)).
Definition first_request (index sub : Z) (data : bytes) : msg :=
  if (List.length data <=? 4)%nat then expedited_request index sub data
  else announce_request index sub data.

(** ** Requests of an upload *)

Definition upload_first (index sub : Z) : msg := [64; index mod 256; index / 256; sub; 0; 0; 0; 0].
Definition upload_next (k : nat) : msg := [96 + 16 * (Z.of_nat k mod 2); 0; 0; 0; 0; 0; 0; 0].
(** Abort messages; the reasons a client may give. *)
Definition abort_message (index sub reason : Z) : msg :=
  [128; index mod 256; index / 256; sub] ++ le32_bytes reason.
Definition toggle_not_alternated : Z := 0x05030000.
Definition protocol_timed_out : Z := 0x05040000.
Definition length_mismatch : Z := 0x06070010.
Definition general_error : Z := 0x08000000.
Definition is_abort (index sub : Z) (m : msg) : Prop :=
  exists reason, m = abort_message index sub reason /\
  In reason [toggle_not_alternated; protocol_timed_out; length_mismatch; general_error].
(** The reason for refusing response [m] to request [r]: the right kind of
    segment with the wrong toggle, or anything else. *)
Definition error_reason (r m : msg) : Z :=
  if ((code r =? 0) && (code m =? 1)) || ((code r =? 3) && (code m =? 0))
  then toggle_not_alternated else general_error.

(** The responses among the inputs. *)
Definition responses (is : list input) : list msg :=
  flat_map (fun i => match i with
                     | IFrame _ m => if code m <=? 4 then [m] else []
                     | ITimeout => []
                     end) is.
Fixpoint alternating (t : Z) (segs : list msg) : Prop :=
  match segs with
  | [] => True
  | m :: r => tog m = t /\ alternating (1 - t) r
  end.

(** The responses of a complete upload of an object into a buffer of [size]
    bytes (0: size taken from the device) and the data they carry. [expected]
    is the announced size. *)
Definition complete_upload (index sub : Z) (size : nat) (rs : list msg) (expected : msg -> nat) (b : bytes) : Prop :=
  exists init segs, rs = init :: segs /\ code init = 2 /\ names_object index sub init /\
  ((i_exp init = true /\ segs = [] /\
    (List.length (i_data init) >= size)%nat /\
    b = (if (size =? 0)%nat then i_data init else firstn size (i_data init)))
   \/
   (i_exp init = false /\ Forall (fun m => code m = 0) segs /\ alternating 0 segs /\
    b = List.concat (map g_data segs) /\
    (size = 0%nat -> i_sized init = true /\ List.length b = expected init) /\
    (size <> 0%nat -> List.length b = size /\
       (i_sized init = true -> (size <= expected init \/ expected init = 0)%nat)))).

(** The announced size, and the one the client computes from it. *)
Definition announced (m : msg) : nat := Z.to_nat (i_announced m).
Definition decoded (m : msg) : nat := Z.to_nat (nth 4 m 0 + 256 * nth 7 m 0).

(** ** A conforming server *)

Inductive srv_state :=
| SrvIdle
| SrvDown (announced : option Z) (got : bytes) (t : Z)
| SrvUp (rest : bytes) (t : Z).

Record server := mkServer {
  v_expedited : bool;              (** answers short uploads expedited *)
  v_sized : bool;                  (** indicates the size of uploads *)
  v_strict : bool;                 (** compares announced and received size *)
  v_veto : srv_state -> msg -> bool (** refuses requests for other reasons *)
}.

Definition object_bytes (index sub : Z) : bytes := [index mod 256; index / 256; sub].

(** One request: new state, content of the object and the response. *)
Definition serve (v : server) (index sub : Z) (st : srv_state * bytes) (r : msg)
  : (srv_state * bytes) * msg :=
  let '(s, obj) := st in
  let refuse reason := ((SrvIdle, obj), [128] ++ object_bytes index sub ++ le32_bytes reason) in
  let same := if list_eq_dec Z.eq_dec (firstn 3 (skipn 1 r)) (object_bytes index sub) then true else false in
  if v_veto v s r then refuse 0x08000000
  else if code r =? 1 then
    if negb same then refuse 0x06020000
    else
      let ack := [96] ++ object_bytes index sub ++ [0; 0; 0; 0] in
      if i_exp r then ((SrvIdle, i_data r), ack)
      else ((SrvDown (if i_sized r then Some (i_announced r) else None) [] 0, obj), ack)
  else if code r =? 0 then
    match s with
    | SrvDown ann got t =>
      if negb (tog r =? t) then refuse 0x05030000
      else
        let got' := got ++ g_data r in
        let ack := [32 + 16 * t; 0; 0; 0; 0; 0; 0; 0] in
        if g_last r then
          let wrong := match ann with
                       | Some a => v_strict v && negb (a =? Z.of_nat (List.length got'))
                       | None => false
                       end in
          if wrong then refuse 0x06070010 else ((SrvIdle, got'), ack)
        else ((SrvDown ann got' (1 - t), obj), ack)
    | _ => refuse 0x05040001
    end
  else if code r =? 2 then
    if negb same then refuse 0x06020000
    else
      let len := Z.of_nat (List.length obj) in
      if v_expedited v && (0 <? len) && (len <=? 4) then
        ((SrvIdle, obj),
         (if v_sized v then [64 + 2 + 1 + 4 * (4 - len)] else [64 + 2])
           ++ object_bytes index sub ++ zeros 4 obj)
      else
        ((SrvUp obj 0, obj),
         if v_sized v then [64 + 1] ++ object_bytes index sub ++ le32_bytes len
         else [64] ++ object_bytes index sub ++ [0; 0; 0; 0])
  else if code r =? 3 then
    match s with
    | SrvUp rest t =>
      if negb (tog r =? t) then refuse 0x05030000
      else
        let d := firstn 7 rest in
        let last := (List.length rest <=? 7)%nat in
        ((if last then SrvIdle else SrvUp (skipn 7 rest) (1 - t), obj),
         (b2z last + 2 * (7 - Z.of_nat (List.length d)) + 16 * t) :: zeros 7 d)
    | _ => refuse 0x05040001
    end
  else ((SrvIdle, obj), [128] ++ object_bytes index sub ++ le32_bytes 0x05040001).

(** [n] rounds of client and server: the responses the client gets and the state
    of the server. *)
Fixpoint talk (v : server) (index sub : Z) (client : list input -> outcome (list msg * sdo_result))
  (obj : bytes) (n : nat) : list input * (srv_state * bytes) :=
  match n with
  | O => ([], (SrvIdle, obj))
  | S k =>
    let '(ins, st) := talk v index sub client obj k in
    match client ins with
    | Ok (sent, SWaiting) =>
      let '(st', m) := serve v index sub st (last sent []) in (ins ++ [IFrame 8 m], st')
    | _ => (ins, st)
    end
  end.

Definition no_veto (s : srv_state) (m : msg) : bool := false.

(** The requests among the messages sent, without aborts. *)
Definition requests (sent : list msg) : list msg := List.filter (fun m => negb (code m =? 4)) sent.
Definition full_frame (i : input) : Prop := match i with IFrame dlc _ => dlc = 8 | ITimeout => False end.
