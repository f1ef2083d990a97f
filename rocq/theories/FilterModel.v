(** Frame filters. Source:
    /repo/socketcan_interface/include/socketcan_interface/filter.h
    /repo/socketcan_interface/src/string.cpp:139-172 *)
From Verif Require Import Base CanModel.

(** filter.h:19-20 *)
Definition MASK_ALL : Z := 2^32 - 1.
Definition MASK_RELAXED : Z := Z.ldiff (2^32 - 1) EXTENDED_MASK.

(** filter.h:17-47: the two filter classes. The mask filter stores the masked
    id (filter.h:22), kept here as [masked]. *)
Inductive filter :=
| FMask (mask masked : Z) (invert : bool)
| FRange (min_id max_id : Z) (invert : bool).

(** filter.h:21-23, FrameMaskFilter constructor *)
Definition FrameMaskFilter (can_id mask : Z) (invert : bool) : filter :=
  FMask mask (Z.land can_id mask) invert.

(** filter.h:36-38 *)
Definition FrameRangeFilter (min_id max_id : Z) (invert : bool) : filter :=
  FRange min_id max_id invert.

(** filter.h:24-27 and 39-42, pass *)
Definition pass (f : filter) (h : header) : bool :=
  match f with
  | FMask mask masked invert =>
    let k := key h in negb (Bool.eqb (Z.land mask k =? masked) invert)
  | FRange min_id max_id invert =>
    let k := key h in negb (Bool.eqb ((min_id <=? k) && (k <=? max_id)) invert)
  end.

(** string.cpp:141, find_first_of(":~-_"): split at the first delimiter *)
Definition is_delim (c : Z) : bool :=
  (c =? 58) || (c =? 126) || (c =? 45) || (c =? 95).

Fixpoint split_delim (s : text) : option (text * Z * text) :=
  match s with
  | [] => None
  | x :: t => if is_delim x then Some ([], x, t)
              else match split_delim t with
                   | None => None
                   | Some (a, d, b) => Some (x :: a, d, b)
                   end
  end.

(** string.cpp:139-165, tofilter(std::string) *)
Definition tofilter (s : text) : filter :=
  let '(pre, type, second) :=
    match split_delim s with
    | Some (a, d, b) => (a, d, tohex b)
    | None => (s, 58, MASK_RELAXED)
    end in
  let first := fullid (toheader pre) in
  if type =? 126 then FrameMaskFilter first second true
  else if type =? 58 then FrameMaskFilter first second false
  else if type =? 95 then FrameRangeFilter first second true
  else FrameRangeFilter first second false.

(** string.cpp:166-168, tofilter(uint32_t): default mask MASK_RELAXED *)
Definition tofilter_id (id : Z) : filter := FrameMaskFilter id MASK_RELAXED false.

(** filter.h:54-63, the callback of FilteredFrameListener: call the listener
    for the first filter that passes, then stop. Returns the calls made. *)
Fixpoint filtered_callback (filters : list filter) (f : frame) : list frame :=
  match filters with
  | [] => []
  | x :: r => if pass x (f_hdr f) then [f] else filtered_callback r f
  end.

(** All calls for a sequence of frames. *)
Definition filtered_listener (filters : list filter) (fs : list frame) : list frame :=
  flat_map (filtered_callback filters) fs.
