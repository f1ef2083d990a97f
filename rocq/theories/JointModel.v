(** The values of a joint: handle_layer.h/.cpp, unit_converter.h and robot_layer.cpp of
    canopen_motor_node. The objects of the device become variables of conversion expressions, these
    become measured values; commands are limited and become targets of the motor.
    Simplifications: doubles are an arbitrary type [num] that is only copied; an expression is an
    arbitrary function of its variables (which may assign them, as muParser allows); muParser asks
    for its variables at the first evaluation (SetExpr only stores the text) in the order of their
    appearance; filters and joint limits are arbitrary functions with a state. Which handle forwards
    commands is the matter of HandleModel, here it is a parameter of a write. *)
From Coq Require Import ZArith QArith Qround List Bool.
From Coq Require Floats.SpecFloat.
From Verif Require ChainModel UnitModel.
From Verif Require Import Base KeyModel LayerModel HandleModel.
Import ListNotations.
Local Open Scope Z_scope.

Section Joint.
(** double, with quiet_NaN *)
Variable num : Type.
Variable nan : num.
(** The [n]-th double that is allocated without a value (new double, handle_layer.h:41): whatever the
    memory contains *)
Variable junk : nat -> num.
(** dict_->get(key)->data_type, None: no such object *)
Variable dtype : Z -> option Z.
(** storage_->entry<type>(key) gives an entry, otherwise it throws *)
Variable opens : Z -> bool.
(** States of filter chains and of limit handles (joint_limits_interface); [fupd] is the update of a
    chain (None: it fails and leaves its result alone), [enf] is enforceLimits for a handle of a kind,
    with soft limits or not, for a period, with the measured values; [lrst] is reset *)
Variable fstate lstate' : Type.
Variable fupd : fstate -> num -> fstate * option num.
Variable enf : kind -> bool -> Z -> (kind -> num) -> num -> lstate' -> lstate' * num.
Variable lrst : lstate' -> lstate'.

Definition upd {A} (f : kind -> A) (k : kind) (v : A) : kind -> A := fun l => if kind_eqb l k then v else f l.

(** ** Variables of objects, handle_layer.h:35-87 *)

(** getters_: key and value *)
Definition getters := list (Z * num).
Definition getter (g : getters) (k : Z) : option num := option_map snd (List.find (fun p => fst p =? k) g).

(** The types of branch_type (objdict.h:560-583) for which func makes a variable: numbers
    (handle_layer.h:54-57); strings and domains have none (84-87), other types throw *)
Definition numeric (t : Z) : bool :=
  existsb (Z.eqb t) [2; 3; 4; 21; 5; 6; 7; 27; 8; 16].

(** A name that starts with "obj"; the key is the text after it. handle_layer.h:70-71 *)
Definition object_name (n : text) : option Z :=
  option_map key_fromString (match_lit (str "obj") n).

(** getVariable, handle_layer.h:67-81: the key of the variable (None: a null pointer), the getters and
    the number of doubles allocated *)
Definition get_variable (n : text) (g : getters) (a : nat) : option Z * getters * nat :=
  match object_name n with
  | None => (None, g, a)
  | Some k =>
      match getter g k with
      | Some _ => (Some k, g, a)
      | None =>
          match dtype k with
          | Some t => if numeric t && opens k then (Some k, g ++ [(k, junk a)], S a) else (None, g, a)
          | None => (None, g, a)
          end
      end
  end.

(** sync, handle_layer.h:59-66; [rd k] is the result of Entry::get for the object, None: exception.
    A value that cannot be read leaves the variable alone. *)
Definition sync (rd : Z -> option num) (g : getters) : getters * bool :=
  (map (fun p => (fst p, match rd (fst p) with Some v => v | None => snd p end)) g,
   forallb (fun p => match rd (fst p) with Some _ => true | None => false end) g).

(** ** Conversion expressions, unit_converter.h *)

(** The variables in the order of their appearance (each once), and what an evaluation does with their
    values: the values afterwards and the result. *)
Record expr := mkExpr { names : list text; eval : list num -> list num * num }.
(** What a name was bound to by createVariable, unit_converter.h:44-52: an object, the command of the
    handle (assignVariable, handle_layer.h:135), or an own variable, by number *)
Inductive ref := RObj (k : Z) | RCmd | ROwn (i : nat).
(** [refs]: None before the first evaluation; [own]: var_list_ *)
Record conv := mkConv { ex : expr; refs : option (list ref); own : list num }.
Definition new_conv (e : expr) : conv := mkConv e None [].
(** reset, unit_converter.h:34-38 *)
Definition conv_reset (c : conv) : conv := mkConv (ex c) (refs c) (map (fun _ => nan) (own c)).

(** createVariable for the names of an expression; [cn] is the name of the command, None for the
    conversions from the device *)
Fixpoint bind (cn : option text) (ns : list text) (g : getters) (a : nat) (o : list num) : list ref * getters * nat * list num :=
  match ns with
  | [] => ([], g, a, o)
  | n :: ns =>
      let '(r, g, a, o) :=
        match cn with
        | Some c => if ChainModel.text_eqb c n then (RCmd, g, a, o) else (ROwn (List.length o), g, a, o ++ [nan])
        | None => match get_variable n g a with
                  | (Some k, g, a) => (RObj k, g, a, o)
                  | (None, g, a) => (ROwn (List.length o), g, a, o ++ [nan])
                  end
        end in
      let '(rs, g, a, o) := bind cn ns g a o in
      (r :: rs, g, a, o)
  end.

(** Access through the pointers *)
Definition fetch (g : getters) (c : num) (o : list num) (r : ref) : num :=
  match r with
  | RObj k => match getter g k with Some v => v | None => nan end
  | RCmd => c
  | ROwn i => nth i o nan
  end.
Definition put_getter (g : getters) (k : Z) (v : num) : getters := map (fun p => if fst p =? k then (k, v) else p) g.
Fixpoint put_nth (i : nat) (v : num) (l : list num) : list num :=
  match l, i with
  | [], _ => []
  | _ :: l, O => v :: l
  | x :: l, S i => x :: put_nth i v l
  end.
Fixpoint store (rs : list ref) (vs : list num) (g : getters) (c : num) (o : list num) : getters * num * list num :=
  match rs, vs with
  | r :: rs, v :: vs =>
      match r with
      | RObj k => store rs vs (put_getter g k v) c o
      | RCmd => store rs vs g v o
      | ROwn i => store rs vs g c (put_nth i v o)
      end
  | _, _ => (g, c, o)
  end.

(** evaluate, unit_converter.h:39: result, converter, getters, command, number of allocations *)
Definition evaluate (cn : option text) (x : conv) (g : getters) (a : nat) (c : num) : num * conv * getters * nat * num :=
  let '(rs, g, a, o) :=
    match refs x with
    | Some rs => (rs, g, a, own x)
    | None => bind cn (names (ex x)) g a (own x)
    end in
  let '(vs, r) := eval (ex x) (map (fetch g c o) rs) in
  let '(g, c, o) := store rs vs g c o in
  (r, mkConv (ex x) (Some rs) o, g, a, c).

(** ** The handle, handle_layer.h:90-132 *)

(** [from], [to]: conv_pos_ ..., conv_target_pos_ ...; [filt]: filter_pos_ ... (None: an empty chain);
    [lims]: limits_ (kind, soft limits, state); [limon]: enable_limits_ *)
Record hl := mkHl { vars : getters; from : kind -> conv; to : kind -> conv; meas : kind -> num; cmd : kind -> num;
                    filt : kind -> option fstate; lims : list (kind * bool * lstate'); limon : bool; alloc : nat }.
Definition with_lims (l : list (kind * bool * lstate')) (x : hl) : hl :=
  mkHl (vars x) (from x) (to x) (meas x) (cmd x) (filt x) l (limon x) (alloc x).
(** enableLimits, handle_layer.cpp:213-215 *)
Definition enable_limits (b : bool) (x : hl) : hl :=
  mkHl (vars x) (from x) (to x) (meas x) (cmd x) (filt x) (lims x) b (alloc x).
Definition with_cmd (c : kind -> num) (x : hl) : hl :=
  mkHl (vars x) (from x) (to x) (meas x) c (filt x) (lims x) (limon x) (alloc x).

(** The names of the commands, handle_layer.cpp:50-52 *)
Definition cmd_name (k : kind) : text := match k with KPos => str "pos" | KVel => str "vel" | KEff => str "eff" end.

(** Constructor, handle_layer.cpp:26-57: the expressions are those of the options or the defaults; pos_,
    vel_, eff_ and the commands have no value. *)
Definition new_hl (ef et : kind -> expr) (m c : kind -> num) : hl :=
  mkHl [] (fun k => new_conv (ef k)) (fun k => new_conv (et k)) m c (fun _ => None) [] true 0.

(** update of a filter chain; an empty one copies *)
Definition filter_step (f : option fstate) (v old : num) : option fstate * num :=
  match f with
  | None => (None, v)
  | Some f => match fupd f v with
              | (f, Some r) => (Some f, r)
              | (f, None) => (Some f, old)
              end
  end.
(** One of the lines 141-143 of handle_layer.cpp *)
Definition read_kind (k : kind) (x : hl) : hl :=
  let '(v, c, g, a, _) := evaluate None (from x k) (vars x) (alloc x) nan in
  let '(f, m) := filter_step (filt x k) v (meas x k) in
  mkHl g (upd (from x) k c) (to x) (upd (meas x) k m) (cmd x) (upd (filt x) k f) (lims x) (limon x) a.
(** handleRead, handle_layer.cpp:138-145 *)
Definition handle_read (s : lstate) (rd : Z -> option num) (x : hl) : hl :=
  if lgt s Shutdown then
    let g := fst (sync rd (vars x)) in
    read_kind KEff (read_kind KVel (read_kind KPos
      (mkHl g (from x) (to x) (meas x) (cmd x) (filt x) (lims x) (limon x) (alloc x))))
  else x.

(** prepareFilter(s), handle_layer.cpp:172-188: [fc k] is None without the option, Some None if the
    configuration fails. *)
Definition prepare_filter (fc : kind -> option (option fstate)) (k : kind) (x : hl) : hl * bool :=
  let put f := mkHl (vars x) (from x) (to x) (meas x) (cmd x) (upd (filt x) k f) (lims x) (limon x) (alloc x) in
  match fc k with
  | None => (put None, true)
  | Some None => (put None, false)
  | Some (Some f) => (put (Some f), true)
  end.
Definition prepare_filters (fc : kind -> option (option fstate)) (x : hl) : hl * bool :=
  match prepare_filter fc KPos x with
  | (x, false) => (x, false)
  | (x, true) => match prepare_filter fc KVel x with
                 | (x, false) => (x, false)
                 | (x, true) => prepare_filter fc KEff x
                 end
  end.
(** handleInit, handle_layer.cpp:190-204; the flag: no error *)
Definition handle_init (fc : kind -> option (option fstate)) (rd : Z -> option num) (x : hl) : hl * bool :=
  let x := mkHl (vars x) (fun k => conv_reset (from x k)) (fun k => conv_reset (to x k)) (meas x) (cmd x) (filt x) (lims x) (limon x) (alloc x) in
  match prepare_filters fc x with
  | (x, true) => (handle_read Ready rd x, true)
  | (x, false) => (x, false)
  end.

(** registerHandle for the three interfaces with the limits of the joint, handle_layer.cpp:99-136,
    robot_layer.cpp:54-70; [sup k]: the motor supports a mode of the kind, [has k]: has_..._limits,
    [l0 k s]: a new limits handle *)
Definition register_limits (sup has : kind -> bool) (soft : bool) (l0 : kind -> bool -> lstate') (x : hl) : hl :=
  with_lims (lims x ++ flat_map (fun k => if sup k && has k then (k, false, l0 k false) :: (if soft then [(k, true, l0 k true)] else []) else [])
                         [KPos; KVel; KEff]) x.

(** enforceLimits, handle_layer.cpp:206-211 *)
Fixpoint enforce_all (on reset : bool) (period : Z) (m : kind -> num) (l : list (kind * bool * lstate')) (c : kind -> num)
  : list (kind * bool * lstate') * (kind -> num) :=
  match l with
  | [] => ([], c)
  | (k, s, st) :: l =>
      let st := if reset then lrst st else st in
      let '(st, v) := if on then enf k s period m (c k) st else (st, c k) in
      let '(l, c) := enforce_all on reset period m l (upd c k v) in
      ((k, s, st) :: l, c)
  end.
Definition enforce_limits (period : Z) (reset : bool) (x : hl) : hl :=
  let '(l, c) := enforce_all (limon x) reset period (meas x) (lims x) (cmd x) in
  with_cmd c (with_lims l x).

(** handleWrite, handle_layer.cpp:146-170; [active] is the handle that forwards. The second result is the
    argument of setTarget. *)
Definition handle_write (s : lstate) (active : option kind) (x : hl) : hl * option num :=
  match s with
  | Ready =>
      match active with
      | Some k =>
          let '(v, c, g, a, w) := evaluate (Some (cmd_name k)) (to x k) (vars x) (alloc x) (cmd x k) in
          (mkHl g (from x) (upd (to x) k c) (meas x) (upd (meas x) k w) (filt x) (lims x) (limon x) a, Some v)
      | None => (with_cmd (meas x) x, None)
      end
  | _ => (x, None)
  end.

(** ** Histories *)
Inductive event :=
| EInit (rd : Z -> option num)
| ERegister (sup has : kind -> bool) (soft : bool) (l0 : kind -> bool -> lstate')
| ERead (s : lstate) (rd : Z -> option num)
| ECommand (k : kind) (v : num)
| ELimits (b : bool)
| EEnforce (period : Z) (reset : bool)
| EWrite (s : lstate) (active : option kind).
Definition step (fc : kind -> option (option fstate)) (x : hl) (e : event) : hl :=
  match e with
  | EInit rd => fst (handle_init fc rd x)
  | ERegister sup has soft l0 => register_limits sup has soft l0 x
  | ERead s rd => handle_read s rd x
  | ECommand k v => with_cmd (upd (cmd x) k v) x
  | ELimits b => enable_limits b x
  | EEnforce p r => enforce_limits p r x
  | EWrite s a => fst (handle_write s a x)
  end.
Definition run (fc : kind -> option (option fstate)) (l : list event) (x : hl) : hl := fold_left (step fc) l x.
End Joint.

(** ** The default conversions, handle_layer.cpp:32-33, with exact numbers (UnitModel) *)

(** rint: the nearest integer, the even one if there are two *)
Definition rint (q : Q) : Z :=
  let f := Qfloor q in
  match Qcompare (q - inject_Z f) (1 # 2) with
  | Lt => f
  | Gt => f + 1
  | Eq => if Z.even f then f else f + 1
  end.
(** rint(rad2deg(pos)*1000) *)
Definition default_to (pi : Q) (p : option Q) : option Z :=
  option_map rint (UnitModel.mul UnitModel.exact (UnitModel.rad2deg UnitModel.exact (Some pi) p) (UnitModel.of_int UnitModel.exact 1000)).
(** deg2rad(obj6064)/1000 *)
Definition default_from (pi : Q) (d : Z) : option Q :=
  UnitModel.div UnitModel.exact (UnitModel.deg2rad UnitModel.exact (Some pi) (UnitModel.of_int UnitModel.exact d)) (UnitModel.of_int UnitModel.exact 1000).

(** ** The default conversions with IEEE doubles (UnitModel.doubles) *)
Import SpecFloat.
(** M_PI, the double next to pi *)
Definition M_PI : spec_float := S754_finite false 7074237752028440 (-51).
(** The number that a double stands for, None: infinite or not a number *)
Definition dvalue (x : spec_float) : option Q :=
  match x with
  | S754_zero _ => Some 0%Q
  | S754_finite s m e => Some (if s then - (inject_Z (Zpos m) * Qpower 2 e) else inject_Z (Zpos m) * Qpower 2 e)%Q
  | _ => None
  end.
(** A function of doubles that gives an integer for every number; the sign of zero is that of the argument *)
Definition integral (f : Q -> Z) (x : spec_float) : spec_float :=
  match x, dvalue x with
  | S754_finite s _ _, Some q => if f q =? 0 then S754_zero s else UnitModel.double_of_int (f q)
  | _, _ => x
  end.
(** rint is a function of muParser, which is not a part of the repository; its versions have used
    floor(x+0.5) and rint of the C library *)
Definition rint_c : spec_float -> spec_float := integral rint.
Definition rint_floor (x : spec_float) : spec_float := integral Qfloor (UnitModel.add UnitModel.doubles x (S754_finite false 1 (-1))).
(** rint(rad2deg(pos)*1000) and rint(rad2deg(vel)*1000), handle_layer.cpp:32 *)
Definition default_to_d (rnd : spec_float -> spec_float) (p : spec_float) : spec_float :=
  rnd (UnitModel.mul UnitModel.doubles (UnitModel.rad2deg UnitModel.doubles M_PI p) (UnitModel.of_int UnitModel.doubles 1000)).
(** deg2rad(obj6064)/1000 and deg2rad(obj606C)/1000, handle_layer.cpp:33 *)
Definition default_from_d (d : Z) : spec_float :=
  UnitModel.div UnitModel.doubles (UnitModel.deg2rad UnitModel.doubles M_PI (UnitModel.of_int UnitModel.doubles d)) (UnitModel.of_int UnitModel.doubles 1000).
