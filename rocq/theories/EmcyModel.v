(** Emergency handler. Source: /repo/canopen_master/src/emcy.cpp *)
From Verif Require Import Base CanModel.

(** emcy.cpp:9-21, EMCYid: bits 0-28 id, bit 29 extended, bit 30 unused, bit 31
    invalid. header() does not look at [invalid]. *)
Definition emcy_header (val : Z) : header :=
  Header (val mod 2^29) (Z.testbit val 29) false false.

(** emcy.cpp:31-39, EMCYmsg: little endian error code, error register, five
    manufacturer specific bytes. FrameOverlay copies all eight data bytes,
    whatever the length of the frame. *)
Definition msg_code (data : bytes) : Z := nth 0 data 0 + 256 * nth 1 data 0.
Definition msg_register (data : bytes) : Z := nth 2 data 0.

(** emcy.cpp:50: [error_register & ~32] is not zero (the complement is taken in
    int). *)
Definition relevant (reg : Z) : bool := has reg (Z.lnot 32).

(** Log messages, emcy.cpp:45-49. *)
Inductive log := LogReset (data : bytes) | LogError (data : bytes).

(** The handler. handleInit (emcy.cpp:123-135) runs in another thread than
    handleEMCY, which runs in the receiving one. It is split where it
    communicates: [Clearing] is the time between the answer with the error
    register and has_error_ = false. *)
Inductive phase := Idle | Clearing.
Record emcy := mkEmcy { has_error : bool; in_phase : phase }.

(** emcy.cpp:53, has_error_(true) *)
Definition new_emcy : emcy := mkEmcy true Idle.

Inductive event :=
| Emergency (data : bytes)         (* a frame with the header of object 1014 *)
| ReadRegister (r : option Z)      (* handleInit / handleRecover: result of error_register_.get *)
| ClearList (ok : bool).           (* num_errors_.set(0), if valid; false: it throws *)

Inductive outcome1 := Nothing | Logged (l : log) | InitError | InitOk | InitThrows.

Definition step (e : event) (s : emcy) : emcy * outcome1 :=
  match e with
  | Emergency d =>
    (* 43-51, handleEMCY *)
    (mkEmcy (relevant (msg_register d)) (in_phase s),
     Logged (if msg_code d =? 0 then LogReset d else LogError d))
  | ReadRegister r =>
    match in_phase s, r with
    | Idle, None => (s, InitError)                                  (* 125-128 *)
    | Idle, Some v => if has v 1 then (s, InitError)                (* 128-132 *)
                      else (mkEmcy (has_error s) Clearing, Nothing)
    | Clearing, _ => (s, Nothing)                                   (* not possible *)
    end
  | ClearList ok =>
    (* 136-139, resetErrors *)
    match in_phase s with
    | Clearing => if ok then (mkEmcy false Idle, InitOk) else (mkEmcy (has_error s) Idle, InitThrows)
    | Idle => (s, Nothing)                                          (* not possible *)
    end
  end.

Fixpoint run (es : list event) (s : emcy) : emcy * list outcome1 :=
  match es with
  | [] => (s, [])
  | e :: t => let '(s1, o) := step e s in let '(s2, os) := run t s1 in (s2, o :: os)
  end.

(** emcy.cpp:72-78, handleRead: an error is reported *)
Definition read_error (ready : bool) (s : emcy) : bool := ready && has_error s.

(** handleDiag, emcy.cpp:83-122. The reads of the device are parameters: the
    error register, the number of errors (object 1003sub0 is absent, has a
    value, or reading it throws), and the entries. *)
Inductive num := NumAbsent | NumVal (n : Z) | NumThrows.
Inductive entry := EVal (v : Z) | ENotInDict | ETimeout | EOther.
(** What is written to the text: error code and additional information
    (emcy.cpp:23-29, EMCYfield), or one of two marks. The separators and the
    hexadecimal form are left out. *)
Inductive item := Field (code info : Z) | NotInDict | Underflow.
Inductive level := LOk | LWarn | LError.
Inductive diag := Diag (l : level) (reg : option Z) (items : list item) | DiagThrows.

(** emcy.cpp:100-116, the loop *)
Fixpoint list_errors (get : Z -> entry) (i : Z) (n : nat) : option (list item) :=
  match n with
  | O => Some []
  | S m =>
    match get (i + 1) with
    | EVal v => option_map (cons (Field (v mod 2^16) (v / 2^16 mod 2^16))) (list_errors get (i + 1) m)
    | ENotInDict => option_map (cons NotInDict) (list_errors get (i + 1) m)
    | ETimeout => Some [Underflow]
    | EOther => None
    end
  end.

Definition handle_diag (r : option Z) (n : num) (get : Z -> entry) : diag :=
  match r with
  | None => Diag LError None []
  | Some v =>
    if v =? 0 then Diag LOk None []
    else
      let l := if has v 1 then LError else if relevant v then LWarn else LOk in
      match n with
      | NumThrows => DiagThrows
      | _ =>
        let cnt := match n with NumVal c => c | _ => 0 end in
        match list_errors get 0 (Z.to_nat cnt) with
        | None => DiagThrows
        | Some its => Diag l (Some v) its
        end
      end
  end.
