(** What the values of joints should be, from the history of a handle. *)
From Coq Require Import ZArith QArith List Bool.
From Coq Require Qabs Floats.SpecFloat.
From Verif Require Import Base KeyModel LayerModel HandleModel JointModel.
Import ListNotations.
Local Open Scope Z_scope.

Section Spec.
Variable num : Type.
Variable nan : num.
Variable dtype : Z -> option Z.
Variable opens : Z -> bool.
Variable fstate ls : Type.
Variable fupd : fstate -> num -> fstate * option num.

(** INTEGER8-64, UNSIGNED8-64, REAL32, REAL64 as in CiA 301, table 44 *)
Definition number_types : list Z := [2; 3; 4; 16; 5; 6; 7; 8; 21; 27].
(** A name stands for an object: "obj" followed by the text of its key, the dictionary knows the object and
    it is a number. *)
Definition stands_for (n : text) (k : Z) : Prop :=
  exists s t, n = str "obj" ++ s /\ k = key_fromString s /\ dtype k = Some t /\ In t number_types /\ opens k = true.
Definition no_object (n : text) : Prop := forall k, ~ stands_for n k.

(** The value that was read last; [d] if there was none *)
Fixpoint latest (rds : list (Z -> option num)) (k : Z) (d : num) : num :=
  match rds with
  | [] => d
  | rd :: rds => latest rds k (match rd k with Some v => v | None => d end)
  end.

(** Values of names after reads of the device; [jk] are the values of objects that were not read yet *)
Definition values (jk : Z -> num) (rds : list (Z -> option num)) : list text -> list num -> Prop :=
  Forall2 (fun n v => (exists k, stands_for n k /\ v = latest rds k (jk k)) \/ (no_object n /\ v = nan)).
(** The value of an expression *)
Definition shown (e : expr num) (jk : Z -> num) (rds : list (Z -> option num)) (v : num) : Prop :=
  exists vs, values jk rds (names num e) vs /\ v = snd (eval num e vs).

(** An expression without assignments *)
Definition pure (e : expr num) : Prop := forall vs, fst (eval num e vs) = vs.

(** The reads of the device in a history: by initialisations and by reads in a state after Shutdown *)
Definition reading (s : lstate) : bool := match s with Off | Init | Shutdown => false | _ => true end.
Definition configurable (fc : kind -> option (option fstate)) : Prop := forall k, fc k <> Some None.
Fixpoint polls (ok : bool) (l : list (event num ls)) : list (Z -> option num) :=
  match l with
  | [] => []
  | EInit _ _ rd :: l => if ok then rd :: polls ok l else polls ok l
  | ERead _ _ s rd :: l => if reading s then rd :: polls ok l else polls ok l
  | _ :: l => polls ok l
  end.
Definition is_init (e : event num ls) : bool := match e with EInit _ _ _ => true | _ => false end.

(** The output of a filter that is fed with some values, starting with the output [old] *)
Fixpoint filtered (f : fstate) (l : list num) (old : num) : num :=
  match l with
  | [] => old
  | v :: l => filtered (fst (fupd f v)) l (match snd (fupd f v) with Some r => r | None => old end)
  end.

(** The reads up to each of the reads [qs] that follow the reads [ps] *)
Fixpoint grown (ps qs : list (Z -> option num)) : list (list (Z -> option num)) :=
  match qs with
  | [] => []
  | q :: qs => (ps ++ [q]) :: grown (ps ++ [q]) qs
  end.

(** The name of the variable for the command in the expressions for the device *)
Definition command_variable (k : kind) : text := match k with KPos => str "pos" | KVel => str "vel" | KEff => str "eff" end.
(** The target for a command: the value of the expression, where all other names are undefined *)
Definition target (k : kind) (e : expr num) (c v : num) : Prop :=
  exists vs, Forall2 (fun n w => (n = command_variable k -> w = c) /\ (n <> command_variable k -> w = nan)) (names num e) vs /\
             v = snd (eval num e vs).

(** The joint got limits for a kind of command: it was registered, the motor supports the kind, and there are
    such limits. *)
Definition limited (k : kind) (l : list (event num ls)) : Prop :=
  exists sup has soft l0, In (ERegister num ls sup has soft l0) l /\ sup k = true /\ has k = true.
(** The last request counts. *)
Fixpoint limits_on (b : bool) (l : list (event num ls)) : bool :=
  match l with
  | [] => b
  | ELimits _ _ c :: l => limits_on c l
  | _ :: l => limits_on b l
  end.
End Spec.

(** Handles that differ at most in the contents of the own variables of their conversions from the device, and
    in everything that belongs to commands, measured values and filters *)
Definition alike {num fstate ls : Type} (x y : hl num fstate ls) : Prop :=
  vars num fstate ls x = vars num fstate ls y /\ alloc num fstate ls x = alloc num fstate ls y /\
  forall k, let c := from num fstate ls x k in let d := from num fstate ls y k in
    ex num c = ex num d /\ refs num c = refs num d /\ List.length (own num c) = List.length (own num d).

(** ** Rounding of doubles *)
(** [rnd] gives an integer that is nearest, up to what a sum of doubles may lose: for numbers of up to 2^50 the
    distance is at most 1/2, and 2^-53 of one more than the number. The numbers are doubles: they have 53 bits. *)
Definition rounds (rnd : SpecFloat.spec_float -> SpecFloat.spec_float) : Prop :=
  forall x q, dvalue x = Some q -> (match x with SpecFloat.S754_finite _ m _ => Zpos m < 2 ^ 53 | _ => True end) ->
    (Qabs.Qabs q <= inject_Z (2 ^ 50) ->
     exists r n, dvalue (rnd x) = Some r /\ r == inject_Z n /\ Qabs.Qabs (inject_Z n - q) <= (1 # 2) + (1 # (2 ^ 53)) * (Qabs.Qabs q + 1))%Q.
