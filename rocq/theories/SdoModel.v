(** SDO client: requests, responses and the transfer loop.
    Source: /repo/canopen_master/src/sdo.cpp
            /repo/canopen_master/include/canopen_master/canopen.h *)
From Verif Require Import Base CanModel KeyModel StorageModel.

(** Messages are the 8 data bytes of a frame; all requests are sent with the
    client's identifier and dlc 8 (canopen.h, FrameOverlay: the data is zeroed
    first). Bit fields are allocated from the least significant bit. *)
Definition msg := bytes.
Definition byte_at (i : nat) (m : msg) : Z := nth i m 0.

(** sdo.cpp:33-39, 41-50, 74-86, 234-239: the top three bits of byte 0 *)
Definition m_command (m : msg) : Z := byte_at 0 m / 32.
(** index (little endian) and sub_index *)
Definition m_index (m : msg) : Z := byte_at 1 m + 256 * byte_at 2 m.
Definition m_sub (m : msg) : Z := byte_at 3 m.
(** SegmentShort/SegmentLong: toggle is bit 4 *)
Definition m_toggle (m : msg) : bool := Z.testbit (byte_at 0 m) 4.
(** InitiateLong: size_indicated bit 0, expedited bit 1, num bits 2-3 *)
Definition m_sized (m : msg) : bool := Z.testbit (byte_at 0 m) 0.
Definition m_expedited (m : msg) : bool := Z.testbit (byte_at 0 m) 1.
Definition m_num2 (m : msg) : Z := (byte_at 0 m / 4) mod 4.
Definition m_payload4 (m : msg) : bytes := skipn 4 m.
(** SegmentLong: done bit 0, num bits 1-3 *)
Definition m_done (m : msg) : bool := Z.testbit (byte_at 0 m) 0.
Definition m_num3 (m : msg) : Z := (byte_at 0 m / 2) mod 8.
Definition m_payload7 (m : msg) : bytes := skipn 1 m.

(** sdo.cpp:51-55, InitiateLong::data_size *)
Definition init_data_size (m : msg) : nat :=
  if m_expedited m && m_sized m then Z.to_nat (4 - m_num2 m)
  else if negb (m_expedited m) && m_sized m
       then Z.to_nat (Z.lor (byte_at 4 m) (Z.shiftl (byte_at 7 m) 8))
       else 0%nat.

(** sdo.cpp:87-89, SegmentLong::data_size *)
Definition seg_data_size (m : msg) : nat := Z.to_nat (7 - m_num3 m).

Definition pad_to (n : nat) (b : bytes) : bytes := b ++ repeat 0 (n - List.length b).

(** sdo.cpp:100-110 with 56-71, DownloadInitiateRequest: message and new offset.
    [num] has two bits: 4 - 0 is stored as 0. *)
Definition download_initiate (index sub : Z) (buffer : bytes) : msg * nat :=
  let size := List.length buffer in
  let head b0 := [b0; index mod 256; index / 256; sub] in
  if (4 <? size)%nat
  then (head (1 + 1 * 32) ++
          [Z.land (Z.of_nat size) 255; 0; 0; Z.land (Z.shiftr (Z.of_nat size) 8) 255], 0%nat)
  else (head (1 + 2 + 4 * ((4 - Z.of_nat size) mod 4) + 1 * 32) ++ pad_to 4 buffer, size).

(** sdo.cpp:127-137 with 90-97, DownloadSegmentRequest: message and new offset *)
Definition download_segment (toggle : bool) (buffer : bytes) (offset : nat) : msg * nat :=
  let rest := (List.length buffer - offset)%nat in
  let size := if (7 <? rest)%nat then 7%nat else rest in
  let done := if (7 <? rest)%nat then 0 else 1 in
  ((done + 2 * (7 - Z.of_nat size) + 16 * b2z toggle + 0 * 32)
     :: pad_to 7 (firstn size (skipn offset buffer)),
   (offset + size)%nat).

(** sdo.cpp:156-164, UploadInitiateRequest *)
Definition upload_initiate (index sub : Z) : msg :=
  [2 * 32; index mod 256; index / 256; sub; 0; 0; 0; 0].
(** sdo.cpp:196-203, UploadSegmentRequest *)
Definition upload_segment (toggle : bool) : msg :=
  [16 * b2z toggle + 3 * 32; 0; 0; 0; 0; 0; 0; 0].
(** sdo.cpp:279-288, AbortTranserRequest *)
Definition abort_request (index sub reason : Z) : msg :=
  [4 * 32; index mod 256; index / 256; sub] ++ le_bytes 4 reason.

(** canopen.h:41-46: the state of the client during a transfer *)
Record sdo := mkSdo {
  s_buf : bytes;
  s_off : nat;
  s_total : nat;
  s_done : bool;
  s_last : msg
}.

(** memcpy of n bytes into the buffer at an offset. Reading past the source or
    writing past the buffer is undefined. *)
Definition copy_in (buf : bytes) (off : nat) (src : bytes) (n : nat) : outcome bytes :=
  if (off + n <=? List.length buf)%nat && (n <=? List.length src)%nat
  then Ok (firstn off buf ++ firstn n src ++ skipn (off + n) buf)
  else Undef.

(** sdo.cpp:117-124, DownloadInitiateResponse::test: None is success, Some the
    abort code *)
Definition test_download_initiate (m last : msg) : option Z :=
  if (m_command last =? 1) && (m_index m =? m_index last) && (m_sub m =? m_sub last)
  then None else Some 0x08000000.

(** sdo.cpp:143-153, DownloadSegmentResponse::test *)
Definition test_download_segment (m last : msg) : option Z :=
  if negb (m_command last =? 0) then Some 0x08000000
  else if negb (Bool.eqb (m_toggle m) (m_toggle last)) then Some 0x05030000
  else None.

(** sdo.cpp:169-182, UploadInitiateResponse::test *)
Definition test_upload_initiate (m last : msg) (size : nat) : option Z :=
  if (m_command last =? 2) && (m_index m =? m_index last) && (m_sub m =? m_sub last) then
    let ds := init_data_size m in
    if (ds =? 0)%nat || (size =? 0)%nat || (size <=? ds)%nat then
      if negb (m_expedited m) || ((ds <=? 4)%nat && (size <=? 4)%nat) then None
      else Some 0x08000000
    else Some 0x06070010
  else Some 0x08000000.

(** sdo.cpp:209-219, UploadSegmentResponse::test *)
Definition test_upload_segment (m last : msg) : option Z :=
  if negb (m_command last =? 3) then Some 0x08000000
  else if negb (Bool.eqb (m_toggle m) (m_toggle last)) then Some 0x05030000
  else None.

(** sdo.cpp:183-194, UploadInitiateResponse::read_data: the client state and
    whether the transfer is complete. [&buffer.front()] of an empty vector is
    undefined. *)
Definition read_initiate (m : msg) (s : sdo) : outcome (sdo * bool) :=
  let '(total, buf) :=
    if m_sized m && (s_total s =? 0)%nat
    then (init_data_size m, resize (init_data_size m) (s_buf s))
    else (s_total s, s_buf s) in
  if m_expedited m then
    if (List.length buf =? 0)%nat then Undef
    else match copy_in buf 0 (m_payload4 m) (List.length buf) with
         | Undef => Undef
         | Ok b => Ok (mkSdo b (List.length b) total (s_done s) (s_last s), true)
         end
  else Ok (mkSdo buf (s_off s) total (s_done s) (s_last s), false).

(** sdo.cpp:220-231, UploadSegmentResponse::read_data. [&buffer[offset]] with
    offset = size() is undefined. *)
Definition read_segment (m : msg) (s : sdo) : outcome (sdo * bool) :=
  let n := seg_data_size m in
  let buf := if (s_total s =? 0)%nat then resize (s_off s + n) (s_buf s) else s_buf s in
  if (s_off s + n <=? List.length buf)%nat then
    if (List.length buf <=? s_off s)%nat then Undef
    else match copy_in buf (s_off s) (m_payload7 m) n with
         | Undef => Undef
         | Ok b => Ok (mkSdo b (s_off s + n) (s_total s) (s_done s) (s_last s), true)
         end
  else Ok (mkSdo buf (s_off s) (s_total s) (s_done s) (s_last s), false).

Definition set_done (s : sdo) : sdo := mkSdo (s_buf s) (s_off s) (s_total s) true (s_last s).
Definition set_last (s : sdo) (m : msg) : sdo := mkSdo (s_buf s) (s_off s) (s_total s) (s_done s) m.
Definition set_off (s : sdo) (o : nat) : sdo := mkSdo (s_buf s) o (s_total s) (s_done s) (s_last s).

(** sdo.cpp:298-371, processFrame for a frame with the given dlc and data:
    new state, messages sent, return value. *)
Definition process_frame (index sub : Z) (dlc : Z) (m : msg) (s : sdo)
  : outcome (sdo * list msg * bool) :=
  if negb (dlc =? 8) then Ok (s, [], false)
  else
    (* lines 364-368 and 292-296 *)
    let fail (s : sdo) reason :=
      let a := abort_request index sub reason in
      Ok (set_off (set_last s a) 0, [a], false) in
    let send (s : sdo) r := Ok (set_last s r, [r], true) in
    let c := m_command m in
    if c =? 3 then
      match test_download_initiate m (s_last s) with
      | Some reason => fail s reason
      | None =>
        if (s_off s <? s_total s)%nat then
          let '(r, o) := download_segment false (s_buf s) (s_off s) in send (set_off s o) r
        else Ok (set_done s, [], true)
      end
    else if c =? 1 then
      match test_download_segment m (s_last s) with
      | Some reason => fail s reason
      | None =>
        if (s_off s <? s_total s)%nat then
          let '(r, o) := download_segment (negb (m_toggle m)) (s_buf s) (s_off s) in send (set_off s o) r
        else Ok (set_done s, [], true)
      end
    else if c =? 2 then
      match test_upload_initiate m (s_last s) (s_total s) with
      | Some reason => fail s reason
      | None =>
        match read_initiate m s with
        | Undef => Undef
        | Ok (s1, true) => Ok (set_done s1, [], true)
        | Ok (s1, false) => send s1 (upload_segment false)
        end
      end
    else if c =? 0 then
      match test_upload_segment m (s_last s) with
      | Some reason => fail s reason
      | None =>
        match read_segment m s with
        | Undef => Undef
        | Ok (s1, true) =>
          if m_done m || (s_off s1 =? s_total s1)%nat then Ok (set_done s1, [], true)
          else send s1 (upload_segment (negb (m_toggle m)))
        | Ok (s1, false) => fail s1 0x06070010
        end
      end
    else if c =? 4 then Ok (set_off s 0, [], false)
    else Ok (s, [], true).

(** What the client sees while it waits: a frame with the server's identifier,
    or nothing within one second. *)
Inductive input := IFrame (dlc : Z) (m : msg) | ITimeout.

(** sdo.cpp:416-427, the loop. The last component tells whether it was left;
    otherwise all inputs are consumed and the client still waits. *)
Fixpoint transfer_loop (index sub : Z) (ins : list input) (s : sdo) : outcome (sdo * list msg * bool) :=
  if s_done s then Ok (s, [], true)
  else match ins with
       | [] => Ok (s, [], false)
       | ITimeout :: _ =>
         let a := abort_request index sub 0x05040000 in
         Ok (set_last s a, [a], true)
       | IFrame dlc m :: t =>
         match process_frame index sub dlc m s with
         | Undef => Undef
         | Ok (s1, out, false) => Ok (s1, out, true)
         | Ok (s1, out, true) =>
           match transfer_loop index sub t s1 with
           | Undef => Undef
           | Ok (s2, out2, stopped) => Ok (s2, out ++ out2, stopped)
           end
         end
       end.

Inductive sdo_result := SReturn (b : bytes) | SThrow | SWaiting.

(** sdo.cpp:399-411: the state and the first request of a transfer *)
Definition start_write (index sub : Z) (data : bytes) : sdo :=
  let '(m, o) := download_initiate index sub data in
  mkSdo data o (List.length data) false m.
Definition start_read (index sub : Z) (data : bytes) : sdo :=
  mkSdo data 0 (List.length data) false (upload_initiate index sub).

(** sdo.cpp:428-432 *)
Definition finish (s : sdo) (stopped : bool) : sdo_result :=
  if negb stopped then SWaiting
  else if (s_off s =? 0)%nat || negb (s_off s =? s_total s)%nat then SThrow
  else SReturn (s_buf s).

(** sdo.cpp:398-434 and 436-451 with the mutex acquired: messages sent and
    result of a transfer that sees the given inputs. *)
Definition transmit (index sub : Z) (s : sdo) (ins : list input) : outcome (list msg * sdo_result) :=
  match transfer_loop index sub ins s with
  | Undef => Undef
  | Ok (s1, out, stopped) => Ok (s_last s :: out, finish s1 stopped)
  end.
Definition sdo_write (index sub : Z) (data : bytes) (ins : list input) :=
  transmit index sub (start_write index sub data) ins.
(** [data] is the content of the caller's buffer: sizeof(T) bytes for a number,
    empty for a String. *)
Definition sdo_read (index sub : Z) (data : bytes) (ins : list input) :=
  transmit index sub (start_read index sub data) ins.
