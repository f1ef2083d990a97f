(** Demands on the chain. *)
From Verif Require Import Base LayerModel LayerSpec ChainModel.

(** ** Services *)
Definition off (t : tree) (c : chain) : Prop := all_in Off t (lay c).
Definition ready (t : tree) (c : chain) : Prop := all_in Ready t (lay c).
Definition halted (t : tree) (c : chain) : Prop := all_in Error t (lay c).
(** The chain after some history *)
Definition reached (b : behaviour) (t : tree) (rf : bool) (c : chain) : Prop := exists l, crun b t rf l chain0 = Ok c.
(** The number of threads in the control loop, or about to enter it *)
Definition alive (c : chain) : nat := List.length (List.filter (fun x => match x with TEnd => false | _ => true end) (threads c)).
(** Every created thread begins before the initialisation ends. *)
Definition prompt (l : list cevent) : Prop := Forall (fun e => match e with VInit g => g = true | _ => True end) l.

(** ** Parameters *)
(** The value at a path of names *)
Fixpoint at_path (p : list text) (v : value) : option value :=
  match p with
  | [] => Some v
  | k :: p => match v with
              | Plain _ => None
              | Struct ms => match find k ms with Some v => at_path p v | None => None end
              end
  end.
Definition plain_at (p : list text) (v : value) : option Z :=
  match at_path p v with Some (Plain z) => Some z | _ => None end.
(** Some value that is no structure is at the path or on the way to it *)
Definition blocked (p : list text) (v : value) : Prop :=
  exists q r z, p = q ++ r /\ at_path q v = Some (Plain z).
(** A structure ends at the path: the path is present, with members *)
Definition struct_at (p : list text) (v : value) : Prop := exists ms, at_path p v = Some (Struct ms).
Definition is_struct (v : value) : Prop := exists ms, v = Struct ms.
Fixpoint names_unique (ms : list (text * value)) : Prop :=
  match ms with [] => True | (k, _) :: ms => find k ms = None /\ names_unique ms end.
(** Maps: every name once, in all structures *)
Fixpoint proper (v : value) : Prop :=
  match v with
  | Plain _ => True
  | Struct ms => names_unique ms /\
    (fix each (ms : list (text * value)) : Prop := match ms with [] => True | (_, v) :: ms => proper v /\ each ms end) ms
  end.

(** ** Names with "!" *)
Definition bang : Z := 33.

(** ** The sync node *)
(** Nothing worse than a warning was reported between two worlds *)
Definition fine (w w' : world) : Prop :=
  exists rs, reports (log w') = reports (log w) ++ rs /\ Forall (fun r => sev_z (fst r) <= sev_z WARN) rs.
(** All intervals accepted by a parameter check are used as given *)
Definition used_as_given (interval overflow : Z) (r : option (Z * Z)) : Prop :=
  r = Some (interval, overflow) /\ (overflow = 0 \/ 2 <= overflow <= 240).
