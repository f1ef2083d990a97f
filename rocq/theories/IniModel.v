(** The text of an EDS file: boost::property_tree::read_ini, called at
    /repo/canopen_master/src/objdict.cpp:283. The parser belongs to Boost
    (boost/property_tree/ini_parser.hpp); it is not part of /repo and modelled here
    as it is known from Boost 1.58 to 1.74, with the C locale. *)
From Verif Require Import Base CanModel KeyModel StorageModel EdsModel.

(** What a line is, after trimming: nothing (empty, or a comment), the begin of a
    section, a key with its value. *)
Inductive said := Nothing | Begin (name : text) | Item (key value : text).

(** The loop body of read_ini as far as it looks at the line; None: exception. *)
Definition read_line (line : text) : option said :=
  match trim line with
  | [] => Some Nothing
  | c :: t =>
    if (c =? 59) || (c =? 35) then Some Nothing
    else if c =? 91 then
      match split_at 93 t with
      | None => None                                   (* unmatched '[' *)
      | Some (n, _) => Some (Begin (trim n))
      end
    else
      match split_at 61 (c :: t) with
      | None => None                                   (* no '=' *)
      | Some ([], _) => None                           (* key expected *)
      | Some (k, v) => Some (Item (trim k) (trim v))
      end
  end.

(** The tree built so far: what is complete, and the current section. A value in
    front of the first section becomes a child of the root without children (its
    value is not used by objdict.cpp and left out). *)
Record istate := mkI { i_done : ini; i_cur : option (text * section) }.
(** An empty section is dropped when the next one begins or the file ends. *)
Definition close (s : istate) : ini :=
  match i_cur s with
  | None | Some (_, []) => i_done s
  | Some ns => i_done s ++ [ns]
  end.
Definition add_line (x : said) (s : istate) : option istate :=
  match x with
  | Nothing => Some s
  | Begin n =>
    match child n (close s) with
    | Some _ => None                                   (* duplicate section name *)
    | None => Some (mkI (close s) (Some (n, [])))
    end
  | Item k v =>
    match i_cur s with
    | None => match child k (i_done s) with Some _ => None | None => Some (mkI (i_done s ++ [(k, [])]) None) end
    | Some (n, l) => match child k l with Some _ => None | None => Some (mkI (i_done s) (Some (n, l ++ [(k, v)]))) end
    end
  end.
Fixpoint add_lines (ls : list text) (s : istate) : option istate :=
  match ls with
  | [] => Some s
  | l :: ls =>
    match read_line l with
    | None => None
    | Some x => match add_line x s with None => None | Some s => add_lines ls s end
    end
  end.
(** std::getline until the stream is exhausted *)
Fixpoint get_lines (t : text) : list text :=
  match t with
  | [] => [[]]
  | c :: t => if c =? 10 then [] :: get_lines t
              else match get_lines t with [] => [[c]] | l :: ls => (c :: l) :: ls end
  end.
Definition read_ini (t : text) : option ini :=
  match add_lines (get_lines t) (mkI [] None) with None => None | Some s => Some (close s) end.

(** ObjectDict::fromFile, objdict.cpp:280-334, from the text of the file *)
Definition from_text (real : nat -> text -> option bytes) (raw_string : text -> bytes) raw (t : text) (ov : list (text * text)) : option (info * dict) :=
  match read_ini t with None => None | Some pt => from_file real raw_string raw pt ov end.
