(** CAN headers and frames, and their text form.
    Source: /repo/socketcan_interface/include/socketcan_interface/interface.h
            /repo/socketcan_interface/src/string.cpp *)
From Verif Require Import Base.

(** interface.h:18-21 *)
Definition ID_MASK : Z := 2^29 - 1.
Definition ERROR_MASK : Z := 2^29.
Definition RTR_MASK : Z := 2^30.
Definition EXTENDED_MASK : Z := 2^31.

(** interface.h:17-46, struct Header: bit fields [id:29], [is_error:1],
    [is_rtr:1], [is_extended:1]. *)
Record header := mkHeader {
  h_id : Z;
  h_ext : bool;
  h_rtr : bool;
  h_err : bool
}.

(** interface.h:44-45, Header(i, extended, rtr, error). [id] is a 29 bit field,
    so the argument is truncated. *)
Definition Header (i : Z) (extended rtr error : bool) : header :=
  mkHeader (i mod 2^29) extended rtr error.

(** interface.h:50 *)
Definition MsgHeader (i : Z) (rtr : bool) : header := Header i false rtr false.
(** interface.h:53 *)
Definition ExtendedHeader (i : Z) (rtr : bool) : header := Header i true rtr false.
(** interface.h:56 *)
Definition ErrorHeader (i : Z) : header := Header i false false true.

(** interface.h:28-30, Header::isValid *)
Definition header_isValid (h : header) : bool :=
  h_id h <? (if h_ext h then 2^29 else 2^11).

(** interface.h:31, Header::fullid *)
Definition fullid (h : header) : Z :=
  Z.lor (Z.lor (Z.lor (h_id h) (if h_err h then ERROR_MASK else 0))
               (if h_rtr h then RTR_MASK else 0))
        (if h_ext h then EXTENDED_MASK else 0).

(** interface.h:32, Header::key *)
Definition key (h : header) : Z := if h_err h then ERROR_MASK else fullid h.

(** interface.h:62-83, struct Frame. [f_data] is the array of 8 bytes;
    [f_dlc] is an [unsigned char] and may exceed 8. *)
Record frame := mkFrame {
  f_hdr : header;
  f_dlc : Z;
  f_data : bytes
}.

(** interface.h:68-70, Frame::isValid *)
Definition frame_isValid (f : frame) : bool :=
  (f_dlc f <=? 8) && header_isValid (f_hdr f).

(** interface.h:79, Frame(h, l). The constructor does not initialise [data];
    its content is the arbitrary parameter [junk]. *)
Definition Frame (junk : bytes) (h : header) (l : Z) : frame := mkFrame h l junk.

(** The meaningful payload of a frame: its first [dlc] bytes. *)
Definition payload (f : frame) : bytes := firstn (Z.to_nat (f_dlc f)) (f_data f).

(** string.cpp:6-17, hex2dec *)
Definition hex2dec (h : Z) : option Z :=
  if (48 <=? h) && (h <=? 57) then Some (h - 48)
  else if (97 <=? h) && (h <=? 102) then Some (h - 97 + 10)
  else if (65 <=? h) && (h <=? 70) then Some (h - 65 + 10)
  else None.

(** string.cpp:27-35, the loop of hex2buffer over an even number of characters.
    The output argument is only meaningful on success, so the pair (return
    value, out) is modelled as an option. *)
Fixpoint hex2buffer_loop (inp : text) : option bytes :=
  match inp with
  | [] => Some []
  | [_] => Some []       (* size >> 1: a single trailing character is ignored *)
  | c1 :: c2 :: t =>
    match hex2dec c1 with
    | None => None
    | Some hi =>
      match hex2dec c2 with
      | None => None
      | Some lo =>
        match hex2buffer_loop t with
        | None => None
        | Some out => Some (Z.lor (Z.shiftl hi 4) lo :: out)
        end
      end
    end
  end.

(** string.cpp:19-36, hex2buffer *)
Definition hex2buffer (in_raw : text) (pad : bool) : option bytes :=
  if negb (Z.of_nat (List.length in_raw) mod 2 =? 0) then
    if pad then hex2buffer_loop (48 :: in_raw)   (* in.insert(0, "0") *)
    else None
  else hex2buffer_loop in_raw.

(** string.cpp:38-50, dec2hex (63 is the question mark character) *)
Definition dec2hex (d : Z) (lc : bool) : Z :=
  if d <? 10 then 48 + d
  else if (d <? 16) && lc then 97 + (d - 10)
  else if (d <? 16) && negb lc then 65 + (d - 10)
  else 63.

(** string.cpp:52-63, byte2hex *)
Definition byte2hex (d : Z) (pad lc : bool) : text :=
  let hi := Z.shiftr d 4 in
  (if negb (hi =? 0) || pad then [dec2hex hi lc] else [])
    ++ [dec2hex (Z.land d 15) lc].

(** string.cpp:65-76, buffer2hex *)
Fixpoint buffer2hex (inp : bytes) (lc : bool) : text :=
  match inp with
  | [] => []
  | b :: t => byte2hex b true lc ++ buffer2hex t lc
  end.

(** operator<< of an unsigned int with std::hex (no showbase): hexadecimal
    digits without leading zeros; used at string.cpp:91. [fuel] 8 suffices for
    32 bits. *)
Fixpoint hex_digits (fuel : nat) (n : Z) (lc : bool) (acc : text) : text :=
  match fuel with
  | O => acc
  | S k =>
    let acc' := dec2hex (n mod 16) lc :: acc in
    if n / 16 =? 0 then acc' else hex_digits k (n / 16) lc acc'
  end.
Definition print_hex (n : Z) (lc : bool) : text := hex_digits 8 n lc [].

(** std::setfill('0') << std::setw(8), string.cpp:88-89 *)
Definition pad8 (t : text) : text :=
  repeat 48 (8 - List.length t) ++ t.

(** string.cpp:78-93, tostring(Header) *)
Definition tostring_header (h : header) (lc : bool) : text :=
  let t := print_hex (Z.land (fullid h) (Z.ldiff (2^32 - 1) EXTENDED_MASK)) lc in
  if h_ext h then pad8 t else t.

(** Whitespace skipped by formatted stream extraction (C locale). *)
Definition is_space (c : Z) : bool := (c =? 32) || ((9 <=? c) && (c <=? 13)).

Fixpoint skip_space (s : text) : text :=
  match s with
  | c :: t => if is_space c then skip_space t else s
  | [] => []
  end.

(** Longest prefix of hex digits as an (unbounded) number, and whether there is
    at least one digit. *)
Fixpoint take_hex (s : text) (acc : Z) (any : bool) : Z * bool :=
  match s with
  | c :: t => match hex2dec c with
              | Some d => take_hex t (acc * 16 + d) true
              | None => (acc, any)
              end
  | [] => (acc, any)
  end.

Definition strip_0x (s : text) : text :=
  match s with
  | 48 :: x :: t => if (x =? 120) || (x =? 88) then t else s
  | _ => s
  end.

(** string.cpp:95-101, tohex: [stream >> std::hex >> unsigned]. num_get skips
    white space, takes an optional sign, an optional 0x prefix and the longest
    run of hex digits. No digits gives 0, overflow gives 2^32-1, a minus sign
    negates modulo 2^32. *)
Definition tohex (s : text) : Z :=
  let s1 := skip_space s in
  let '(neg, s2) := match s1 with
                    | 45 :: t => (true, t)
                    | 43 :: t => (false, t)
                    | _ => (false, s1)
                    end in
  let '(v, any) := take_hex (strip_0x s2) 0 false in
  if negb any then 0
  else if v >? 2^32 - 1 then 2^32 - 1
  else if neg then (- v) mod 2^32 else v.

(** string.cpp:103-108, toheader *)
Definition toheader (s : text) : header :=
  let h := tohex s in
  let id := Z.land h ID_MASK in
  Header id
    (has h EXTENDED_MASK || ((Z.of_nat (List.length s) =? 8) && (2^11 <=? id)))
    (has h RTR_MASK) (has h ERROR_MASK).

(** string.cpp:110-117, tostring(Frame). Reading [data[i]] for i >= 8 is out of
    bounds: undefined when dlc > 8. *)
Definition tostring_frame (f : frame) (lc : bool) : outcome text :=
  if f_dlc f <=? 8
  then Ok (tostring_header (f_hdr f) lc ++ [35] ++ buffer2hex (payload f) lc)
  else Undef.

(** std::string::find and substr for a single character. *)
Fixpoint split_at (c : Z) (s : text) : option (text * text) :=
  match s with
  | [] => None
  | x :: t => if x =? c then Some ([], t)
              else match split_at c t with
                   | None => None
                   | Some (a, b) => Some (x :: a, b)
                   end
  end.

(** Overwrite the first bytes of an array. *)
Definition overwrite (new old : bytes) : bytes := new ++ skipn (List.length new) old.

(** string.cpp:119-137, toframe *)
Definition toframe (junk : bytes) (s : text) : frame :=
  match split_at 35 s with
  | None => Frame junk (MsgHeader 4095 false) 0
  | Some (pre, post) =>
    let hdr := toheader pre in
    let fr := Frame junk hdr 0 in
    if header_isValid hdr then
      match hex2buffer post false with
      | Some buffer =>
        if Z.of_nat (List.length buffer) >? 8 then Frame junk (MsgHeader 4095 false) 0
        else mkFrame hdr (Z.of_nat (List.length buffer)) (overwrite buffer junk)
      | None => fr
      end
    else fr
  end.
