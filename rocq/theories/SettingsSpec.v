(** What settings mean: nested parameters are addressed by paths; texts are numbers and truth values. *)
From Verif Require Import Base ChainModel SocketCanSpec.

(** [v] is the (first) member [k] *)
Definition has_member (ms : list (text * value)) (k : text) (v : value) : Prop :=
  exists a b, ms = a ++ (k, v) :: b /\ ~ In k (map fst a).
(** The path leads from the parameters [v] to the value [w]. *)
Inductive leads : value -> list text -> value -> Prop :=
| leads_member : forall ms k w, has_member ms k w -> leads (Struct ms) [k] w
| leads_deeper : forall ms k p u w, has_member ms k u -> leads u p w -> p <> [] -> leads (Struct ms) (k :: p) w.
(** The text of a path: its names separated by slashes *)
Fixpoint path_text (p : list text) : text :=
  match p with
  | [] => []
  | [s] => s
  | s :: p => s ++ [47] ++ path_text p
  end.
(** Names have no slash; a path has at least one. *)
Definition proper_path (p : list text) : Prop := p <> [] /\ Forall (fun s => ~ In 47 s) p.

(** Digits and their value *)
Definition is_digit (c : Z) : Prop := 48 <= c <= 57.
Fixpoint digits_value (t : text) : Z :=
  match t with
  | [] => 0
  | c :: t => (c - 48) * 10 ^ Z.of_nat (List.length t) + digits_value t
  end.
(** The text is the number [z] of 32 bits; a number with a minus counts down from 2^32. *)
Definition reads_unsigned (t : text) (z : Z) : Prop :=
  exists s d, t = s ++ d /\ d <> [] /\ Forall is_digit d /\ digits_value d < 2 ^ 32 /\
    ((s = [] \/ s = [43]) /\ z = digits_value d \/ s = [45] /\ z = (2 ^ 32 - digits_value d) mod 2 ^ 32).
Definition reads_bool (t : text) (b : bool) : Prop :=
  exists s n, t = s ++ repeat 48 n ++ [if b then 49 else 48] /\ (s = [] \/ s = [43] \/ (s = [45] /\ b = false)).

(** The value of a setting: what the path leads to, or the default if it leads nowhere *)
Definition chosen {A : Type} (print : value -> text) (v : value) (p : list text) (reads : text -> A -> Prop) (def a : A) : Prop :=
  (exists w, leads v p w /\ reads (print w) a) \/ ((forall w, ~ leads v p w) /\ a = def).
(** The conditions by their names *)
Definition names_of_conditions : list (Z * text) :=
  [(0, str "CAN_ERR_TX_TIMEOUT"); (1, str "CAN_ERR_LOSTARB"); (2, str "CAN_ERR_CRTL"); (3, str "CAN_ERR_PROT"); (4, str "CAN_ERR_TRX");
   (5, str "CAN_ERR_ACK"); (6, str "CAN_ERR_BUSOFF"); (7, str "CAN_ERR_BUSERROR"); (8, str "CAN_ERR_RESTARTED")].
(** A configuration of conditions (SocketCanSpec) that says what the parameters say in a group *)
Definition configured (print : value -> text) (v : value) (group : text) (cfg : Z -> option bool) : Prop :=
  forall i n, In (i, n) names_of_conditions ->
    match cfg (2 ^ i) with
    | Some b => exists w, leads v [group; n] w /\ reads_bool (print w) b
    | None => forall w, ~ leads v [group; n] w
    end.
