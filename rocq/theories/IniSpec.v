(** The text of an EDS file as its author wrote it (CiA 306: lines, sections in
    brackets, keys and values, comments in lines of their own). *)
From Verif Require Import Base CanModel CanSpec KeyModel KeySpec StorageModel EdsModel EdsSpec IniModel.

(** Without white space at its ends *)
Definition white (c : Z) : Prop := In c [32; 9; 10; 11; 12; 13].
Definition clean (t : text) : Prop := t = [] \/ (exists c r, t = c :: r /\ ~ white c) /\ exists r c, t = r ++ [c] /\ ~ white c.
Inductive says : text -> said -> Prop :=
| says_blank : forall w, spaces w -> says w Nothing
| says_comment : forall w c r, spaces w -> c = 59 \/ c = 35 -> says (w ++ c :: r) Nothing
| says_begin : forall w w1 n w2 r, spaces w -> spaces w1 -> spaces w2 -> clean n -> ~ In 93 n ->
    says (w ++ [91] ++ w1 ++ n ++ w2 ++ [93] ++ r) (Begin n)
| says_item : forall w k w1 w2 v w3, spaces w -> spaces w1 -> spaces w2 -> spaces w3 -> clean k -> clean v ->
    ~ In 61 k -> k <> [] -> ~ In (hd 0 k) [91; 59; 35] -> says (w ++ k ++ w1 ++ [61] ++ w2 ++ v ++ w3) (Item k v).

(** Lines joined by line ends *)
Inductive lines : text -> list text -> Prop :=
| lines_last : forall l, ~ In 10 l -> lines l [l]
| lines_more : forall l t ls, ~ In 10 l -> lines t ls -> lines (l ++ 10 :: t) (l :: ls).

(** What the lines tell together: items in front of the first section, and
    sections with their items. Sections without items do not count. *)
Definition no_begin (x : said) : Prop := match x with Begin _ => False | _ => True end.
Definition items (xs : list said) : section := flat_map (fun x => match x with Item k v => [(k, v)] | _ => [] end) xs.
Inductive sections : list said -> ini -> Prop :=
| sections_nil : sections [] []
| sections_cons : forall n xs rest pt, Forall no_begin xs -> sections rest pt ->
    sections (Begin n :: xs ++ rest) (match items xs with [] => [] | l => [(n, l)] end ++ pt).
Inductive tells : list said -> ini -> Prop :=
| tells_all : forall xs rest pt, Forall no_begin xs -> sections rest pt ->
    tells (xs ++ rest) (map (fun kv => (fst kv, [])) (items xs) ++ pt).
(** The names at the root: of the items in front of the first section and of all sections *)
Definition begun (xs : list said) : list text := flat_map (fun x => match x with Begin n => [n] | _ => [] end) xs.
Fixpoint front (xs : list said) : list text :=
  match xs with Item k _ :: t => k :: front t | Nothing :: t => front t | _ => [] end.
Definition root_names (xs : list said) : list text := front xs ++ begun xs.
Definition different (l : list text) : Prop := NoDup (map (map lower) l).
(** The same text with line ends as DOS has them *)
Definition dos (t : text) : text := flat_map (fun c => if c =? 10 then [13; 10] else [c]) t.
