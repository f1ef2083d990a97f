(** Demands on diagnostics. *)
From Verif Require Import Base LayerModel DiagModel.
From Verif Require EmcyModel.

(** A layer takes part if it and all groups around it are past initialisation and not being shut
    down, and no group hides it; [h] is what its handler does. *)
Definition past_init (s : lstate) : Prop := In s [Error; Halt; Recover; Ready].
Inductive active : dlayer -> list act -> Prop :=
| active_leaf : forall s h, past_init s -> active (DLeaf s h) h
| active_group : forall s l c h, past_init s -> In c l -> active c h -> active (DGroup s false l) h.
(** The handler gets to this action: nothing is thrown before *)
Definition reached (h : list act) (a : act) : Prop := exists p q, h = p ++ a :: q /\ forall w, ~ In (AThrow w) p.
(** Something is said with a severity, exceptions being errors; a value is given *)
Definition says (l : list dlayer) (s : sev) (t : text) : Prop :=
  exists c h, In c l /\ active c h /\ (reached h (ASet s t) \/ s = ERROR /\ reached h (AThrow t)).
Definition gives (l : list dlayer) (k : text) (v : dval) : Prop := exists c h, In c l /\ active c h /\ reached h (AAdd k v).

(** What layers contribute in order: a handler what it does until it throws, the exception as an error; a group what
    its layers contribute one after the other; layers that do not take part, and groups that hide theirs, nothing. *)
Inductive contributes : dlayer -> list act -> Prop :=
| contributes_all : forall s h, past_init s -> (forall w, ~ In (AThrow w) h) -> contributes (DLeaf s h) h
| contributes_until : forall s h w h2, past_init s -> (forall w, ~ In (AThrow w) h) -> contributes (DLeaf s (h ++ AThrow w :: h2)) (h ++ [ASet ERROR w])
| contributes_out : forall s h, ~ past_init s -> contributes (DLeaf s h) []
| contributes_hidden : forall s l, contributes (DGroup s true l) []
| contributes_group_out : forall s b l, ~ past_init s -> contributes (DGroup s b l) []
| contributes_group : forall s l hs, past_init s -> Forall2 contributes l hs -> contributes (DGroup s false l) (List.concat hs).
Definition texts (h : list act) : list text := flat_map (fun a => match a with ASet _ (c :: t) => [c :: t] | _ => [] end) h.
Definition values (h : list act) : list (text * dval) := flat_map (fun a => match a with AAdd k v => [(k, v)] | _ => [] end) h.

(** Texts separated by "; " *)
Fixpoint join (ts : list text) : text :=
  match ts with [] => [] | [t] => t | t :: ts => t ++ [59; 32] ++ join ts end.

(** Error register of a node: one of the bits 1, 2, 3, 4, 6, 7 is set, but not bit 0 (any error);
    bit 5 belongs to the device profile *)
Definition register_error (v : Z) : Prop := Z.testbit v 0 = true.
Definition register_warning (v : Z) : Prop := Z.testbit v 0 = false /\ exists i, In i [1; 2; 3; 4; 6; 7] /\ Z.testbit v i = true.
(** Reading the list of [n] errors raises an exception: an entry cannot be read for another reason
    than being absent from the dictionary or timing out, and no entry before timed out *)
Definition list_raises (n : EmcyModel.num) (get : Z -> EmcyModel.entry) : Prop :=
  n = EmcyModel.NumThrows \/
  exists c k, n = EmcyModel.NumVal c /\ 1 <= k <= c /\ get k = EmcyModel.EOther /\ forall j, 1 <= j < k -> get j <> EmcyModel.ETimeout.
