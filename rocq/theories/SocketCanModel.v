(** The SocketCAN driver. Source:
    /repo/socketcan_interface/include/socketcan_interface/socketcan.h
    /repo/socketcan_interface/include/socketcan_interface/asio_base.h
    Flags and masks from linux/can.h and linux/can/error.h. *)
From Verif Require Import Base CanModel.

Definition CAN_EFF_FLAG : Z := 2^31.
Definition CAN_RTR_FLAG : Z := 2^30.
Definition CAN_ERR_FLAG : Z := 2^29.
Definition CAN_SFF_MASK : Z := 2^11 - 1.
Definition CAN_EFF_MASK : Z := 2^29 - 1.

Definition CAN_ERR_TX_TIMEOUT : Z := 1.
Definition CAN_ERR_LOSTARB : Z := 2.
Definition CAN_ERR_CRTL : Z := 4.
Definition CAN_ERR_PROT : Z := 8.
Definition CAN_ERR_TRX : Z := 16.
Definition CAN_ERR_ACK : Z := 32.
Definition CAN_ERR_BUSOFF : Z := 64.
Definition CAN_ERR_BUSERROR : Z := 128.
Definition CAN_ERR_RESTARTED : Z := 256.

(** ** Error masks *)

(** Settings of one group ("error_mask" or "fatal_error_mask"): the value given
    for a condition, if any. Settings::get_optional (settings.h:14-20) returns
    the value or the default; texts that do not parse as bool are not modelled. *)
Definition settings := Z -> option bool.
Definition get_optional (s : settings) (e : Z) (d : bool) : bool :=
  match s e with Some b => b | None => d end.

(** socketcan.h:31, the add_bit macro *)
Definition add_bit (s : settings) (defaults mask e : Z) : Z :=
  Z.lor mask (if get_optional s e (has defaults e) then e else 0).

(** socketcan.h:28-44, parse_error_mask *)
Definition parse_error_mask (s : settings) (defaults : Z) : Z :=
  let m := add_bit s defaults 0 CAN_ERR_LOSTARB in
  let m := add_bit s defaults m CAN_ERR_CRTL in
  let m := add_bit s defaults m CAN_ERR_PROT in
  let m := add_bit s defaults m CAN_ERR_TRX in
  let m := add_bit s defaults m CAN_ERR_ACK in
  let m := add_bit s defaults m CAN_ERR_TX_TIMEOUT in
  let m := add_bit s defaults m CAN_ERR_BUSOFF in
  let m := add_bit s defaults m CAN_ERR_BUSERROR in
  add_bit s defaults m CAN_ERR_RESTARTED.

(** socketcan.h:69-79 *)
Definition fatal_errors : Z :=
  Z.lor (Z.lor (Z.lor CAN_ERR_TX_TIMEOUT CAN_ERR_BUSOFF) CAN_ERR_BUSERROR) CAN_ERR_RESTARTED.
Definition report_errors : Z :=
  Z.lor (Z.lor (Z.lor (Z.lor CAN_ERR_LOSTARB CAN_ERR_CRTL) CAN_ERR_PROT) CAN_ERR_TRX) CAN_ERR_ACK.

(** socketcan.h:80-81: (error_mask, fatal_error_mask) *)
Definition init_masks (s_error s_fatal : settings) : Z * Z :=
  let fatal := Z.lor (parse_error_mask s_fatal fatal_errors) CAN_ERR_BUSOFF in
  let error := Z.lor (parse_error_mask s_error (Z.lor report_errors fatal)) fatal in
  (error, fatal).

(** ** Kernel frames *)

(** struct can_frame: identifier with flags, length, 8 data bytes. *)
Record kframe := mkK { k_id : Z; k_dlc : Z; k_data : bytes }.

(** socketcan.h:213-223, enqueue up to the write. Bytes not copied are zero.
    The loop writes data[i] for all i < dlc: out of bounds if dlc > 8. *)
Definition enqueue_frame (msg : frame) : outcome kframe :=
  if f_dlc msg <=? 8 then
    Ok (mkK (Z.lor (Z.lor (h_id (f_hdr msg))
                          (if h_ext (f_hdr msg) then CAN_EFF_FLAG else 0))
                   (if h_rtr (f_hdr msg) then CAN_RTR_FLAG else 0))
            (f_dlc msg)
            (overwrite (payload msg) (repeat 0 8)))
  else Undef.

(** socketcan.h:238-257, readFrame: decode [frame_] into the member [input_],
    which keeps its old content where it is not assigned. *)
Definition read_frame (input : frame) (k : kframe) : frame :=
  let n := Nat.min (Z.to_nat (k_dlc k)) 8 in
  let data := overwrite (firstn n (k_data k)) (f_data input) in
  let hdr := f_hdr input in
  let hdr' :=
    if has (k_id k) CAN_ERR_FLAG then
      mkHeader (Z.land (k_id k) CAN_EFF_MASK) (h_ext hdr) (h_rtr hdr) true
    else
      let ext := has (k_id k) CAN_EFF_FLAG in
      mkHeader (Z.land (k_id k) (if ext then CAN_EFF_MASK else CAN_SFF_MASK))
               ext (has (k_id k) CAN_RTR_FLAG) false in
  mkFrame hdr' (k_dlc k) data.

(** ** Driver state *)

Inductive drv := Closed | Open | Ready.
Definition drv_eqb (a b : drv) : bool :=
  match a, b with Closed, Closed | Open, Open | Ready, Ready => true | _, _ => false end.

(** interface.h:86-108, State; error codes are numbers, 0 is success. *)
Record state := mkState { driver_state : drv; error_code : Z; internal_error : Z }.
Definition state0 : state := mkState Closed 0 0.

Record driver := mkDriver {
  st : state;
  socket_open : bool;
  error_mask_ : Z;
  fatal_error_mask_ : Z;
  input_ : frame
}.

Inductive output :=
| Announce (s : state)          (* state_dispatcher_.dispatch *)
| Deliver (f : frame)           (* frame_dispatcher_.dispatch *)
| Sent (ok : bool) (k : option kframe)   (* result of send, frame written *)
| InitResult (ok : bool).

Definition set_st (d : driver) (s : state) : driver :=
  mkDriver s (socket_open d) (error_mask_ d) (fatal_error_mask_ d) (input_ d).

(** asio_base.h:48-54 *)
Definition setErrorCode (d : driver) (e : Z) : driver * list output :=
  if error_code (st d) =? e then (d, [])
  else let s := mkState (driver_state (st d)) e (internal_error (st d)) in
       (set_st d s, [Announce s]).
(** asio_base.h:55-61 *)
Definition setInternalError (d : driver) (e : Z) : driver * list output :=
  if internal_error (st d) =? e then (d, [])
  else let s := mkState (driver_state (st d)) (error_code (st d)) e in
       (set_st d s, [Announce s]).
(** asio_base.h:63-69 *)
Definition setDriverState (d : driver) (x : drv) : driver * list output :=
  if drv_eqb (driver_state (st d)) x then (d, [])
  else let s := mkState x (error_code (st d)) (internal_error (st d)) in
       (set_st d s, [Announce s]).
(** asio_base.h:70-72 *)
Definition setNotReady (d : driver) : driver * list output :=
  setDriverState d (if socket_open d then Open else Closed).

Definition seq (a : driver * list output) (f : driver -> driver * list output) : driver * list output :=
  let '(d1, o1) := a in let '(d2, o2) := f d1 in (d2, o1 ++ o2).

(** What can happen to a driver. Results of system calls are parameters. *)
Inductive event :=
| EInit (masks : Z * Z) (setup_ok : bool) (ec : Z)  (* socket set up; if not ok [ec] is the error code *)
| ERunBegin                       (* run() up to the first triggerReadSome *)
| ERunEnd (ec : Z)                (* the rest of run() *)
| EReceive (k : kframe)           (* readFrame without error *)
| EReadError (ec : Z)             (* readFrame with error *)
| ESend (msg : frame) (write_ec : Z)
| EShutdown.                      (* shutdown(): closes the socket *)

(** socketcan.h:136-206 init, 236-261 readFrame; asio_base.h:74-82
    frameReceived, 95-114 run, 115-117 send, 24-30 shutdown_internal *)
Definition step (d : driver) (e : event) : outcome (driver * list output) :=
  match e with
  | EInit (em, fm) setup_ok ec =>
    match driver_state (st d) with
    | Closed =>
      let d1 := mkDriver (st d) (socket_open d) em fm (input_ d) in
      if setup_ok then
        Ok (seq (seq (seq (setErrorCode (mkDriver (st d1) true em fm (input_ d)) 0)
                          (fun d => setInternalError d 0))
                     (fun d => setDriverState d Open))
                (fun d => (d, [InitResult true])))
      else Ok (seq (setErrorCode d1 ec) (fun d => (d, [InitResult false])))
    | x => Ok (d, [InitResult (drv_eqb x Ready)])
    end
  | ERunBegin =>
    Ok (seq (setNotReady d)
            (fun d => match driver_state (st d) with
                      | Open => setDriverState d Ready
                      | _ => (d, [])
                      end))
  | ERunEnd ec =>
    Ok (seq (seq (setErrorCode d ec) setNotReady) (fun d => (d, [Announce (st d)])))
  | EReceive k =>
    let inp := read_frame (input_ d) k in
    let d1 := mkDriver (st d) (socket_open d) (error_mask_ d) (fatal_error_mask_ d) inp in
    Ok (seq (if has (k_id k) CAN_ERR_FLAG && has (k_id k) (fatal_error_mask_ d)
             then seq (setInternalError d1 (h_id (f_hdr inp))) setNotReady
             else (d1, []))
            (fun d => (d, [Deliver inp])))
  | EReadError ec =>
    Ok (seq (setErrorCode d ec) setNotReady)
  | ESend msg wec =>
    match driver_state (st d) with
    | Ready =>
      match enqueue_frame msg with
      | Undef => Undef
      | Ok k =>
        if wec =? 0 then Ok (d, [Sent true (Some k)])
        else Ok (seq (seq (setErrorCode d wec) setNotReady) (fun d => (d, [Sent false None])))
      end
    | _ => Ok (d, [Sent false None])
    end
  | EShutdown => Ok (mkDriver (st d) false (error_mask_ d) (fatal_error_mask_ d) (input_ d), [])
  end.

Fixpoint run (d : driver) (es : list event) : outcome (driver * list output) :=
  match es with
  | [] => Ok (d, [])
  | e :: t =>
    match step d e with
    | Undef => Undef
    | Ok (d1, o1) =>
      match run d1 t with
      | Undef => Undef
      | Ok (d2, o2) => Ok (d2, o1 ++ o2)
      end
    end
  end.

Definition driver0 (junk : bytes) : driver :=
  mkDriver state0 false 0 0 (mkFrame (mkHeader 0 false false false) 0 junk).

(** socketcan.h:92-128, translateError: whether there is a description, and the text appended to [t] *)
Definition append_if (e mask : Z) (d : text) (r : bool * text) : bool * text :=
  if has e mask then (true, snd r ++ d) else r.
Definition translateError (e : Z) (t : text) : bool * text :=
  let r := if e =? 0 then (true, str "OK") else (false, t) in
  let r := append_if e CAN_ERR_TX_TIMEOUT (str "TX timeout (by netdevice driver);") r in
  let r := append_if e CAN_ERR_LOSTARB (str "lost arbitration;") r in
  let r := append_if e CAN_ERR_CRTL (str "controller problems;") r in
  let r := append_if e CAN_ERR_PROT (str "protocol violations;") r in
  let r := append_if e CAN_ERR_TRX (str "transceiver status;") r in
  let r := append_if e CAN_ERR_BUSOFF (str "bus off;") r in
  append_if e CAN_ERR_RESTARTED (str "controller restarted;") r.
