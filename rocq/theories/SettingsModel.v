(** Settings of drivers and motors: settings.h and xmlrpc_settings.h of socketcan_interface, and their
    use in socketcan.h:28-44, 80-81 and canopen_402/motor.h:295-300.
    Simplifications: how XmlRpcValue prints a value is a parameter [print]; boost::lexical_cast is
    modelled for bool and unsigned int without locales. *)
From Verif Require Import Base ChainModel.
From Verif Require SocketCanModel SetupModel.

Section Settings.
Variable print : value -> text.

(** Settings: getRepr by name; None: the name is unknown *)
Definition settings := text -> option text.
(** NoSettings, settings.h:33-38 *)
Definition no_settings : settings := fun _ => None.
(** SettingsMap::getRepr and set, settings.h:40-55; a map from names to texts *)
Fixpoint map_get (n : text) (m : list (text * text)) : option text :=
  match m with
  | [] => None
  | (k, t) :: m => if text_eqb n k then Some t else map_get n m
  end.
Fixpoint map_set (n t : text) (m : list (text * text)) : list (text * text) :=
  match m with
  | [] => [(n, t)]
  | (k, t') :: m => if text_eqb n k then (k, t) :: m else (k, t') :: map_set n t m
  end.

(** n.find('/'): the parts before and after the first slash *)
Fixpoint find_slash (n : text) : option (text * text) :=
  match n with
  | [] => None
  | c :: n => if c =? 47 then Some ([], n) else match find_slash n with Some (a, b) => Some (c :: a, b) | None => None end
  end.
(** XmlRpcSettings::getRepr, xmlrpc_settings.h:21-40; the fuel is at least the length of the name *)
Fixpoint get_repr (f : nat) (v : value) (n : text) : option text :=
  match v, find_slash n, f with
  | Struct ms, Some (seg, rest), S f =>
      match find seg ms with
      | None => None
      | Some w => get_repr f w rest
      end
  | _, _, _ => option_map print (SetupModel.member n v)
  end.
Definition xml_settings (v : value) : settings := fun n => get_repr (List.length n) v n.
End Settings.

(** The result of get_optional: a value or an exception (bad_lexical_cast) *)
Inductive got (A : Type) := Got (a : A) | Throws.
Arguments Got {A}. Arguments Throws {A}.
(** get_optional, settings.h:14-20 *)
Definition get_optional {A : Type} (cast : text -> option A) (s : settings) (n : text) (def : A) : got A :=
  match s n with
  | None => Got def
  | Some t => match cast t with Some a => Got a | None => Throws end
  end.
(** get, settings.h:21-26: false without the setting *)
Definition get {A : Type} (cast : text -> option A) (s : settings) (n : text) : got (option A) :=
  match s n with
  | None => Got None
  | Some t => match cast t with Some a => Got (Some a) | None => Throws end
  end.

(** boost::lexical_cast<unsigned int>: an optional sign, decimal digits, nothing else; a minus wraps *)
Fixpoint cast_digits (t : text) (acc : Z) : option Z :=
  match t with
  | [] => Some acc
  | c :: t => if (48 <=? c) && (c <=? 57) then cast_digits t (10 * acc + (c - 48)) else None
  end.
Definition cast_unsigned (t : text) : option Z :=
  let '(neg, d) := match t with c :: r => if c =? 45 then (true, r) else if c =? 43 then (false, r) else (false, t) | [] => (false, t) end in
  match d with
  | [] => None
  | _ => match cast_digits d 0 with
         | Some v => if v <? 2 ^ 32 then Some (if neg : bool then (- v) mod 2 ^ 32 else v) else None
         | None => None
         end
  end.
(** boost::lexical_cast<bool>: 0 or 1, zeros may precede, and a sign (a minus only for 0) *)
Fixpoint cast_zeros (t : text) : option bool :=
  match t with
  | [] => None
  | [c] => if c =? 48 then Some false else if c =? 49 then Some true else None
  | c :: t => if c =? 48 then cast_zeros t else None
  end.
Definition cast_bool (t : text) : option bool :=
  match t with
  | c :: (_ :: _) as r =>
      match t with
      | c :: r => if c =? 43 then cast_zeros r else if c =? 45 then match cast_zeros r with Some false => Some false | _ => None end else cast_zeros t
      | [] => None
      end
  | _ => cast_zeros t
  end.

(** parse_error_mask, socketcan.h:28-44: the names of the conditions; the first exception ends it *)
Definition condition_names : list (Z * text) :=
  [(SocketCanModel.CAN_ERR_LOSTARB, str "CAN_ERR_LOSTARB"); (SocketCanModel.CAN_ERR_CRTL, str "CAN_ERR_CRTL"); (SocketCanModel.CAN_ERR_PROT, str "CAN_ERR_PROT");
   (SocketCanModel.CAN_ERR_TRX, str "CAN_ERR_TRX"); (SocketCanModel.CAN_ERR_ACK, str "CAN_ERR_ACK"); (SocketCanModel.CAN_ERR_TX_TIMEOUT, str "CAN_ERR_TX_TIMEOUT");
   (SocketCanModel.CAN_ERR_BUSOFF, str "CAN_ERR_BUSOFF"); (SocketCanModel.CAN_ERR_BUSERROR, str "CAN_ERR_BUSERROR"); (SocketCanModel.CAN_ERR_RESTARTED, str "CAN_ERR_RESTARTED")].
Fixpoint add_bits (s : settings) (entry : text) (defaults : Z) (l : list (Z * text)) (mask : Z) : got Z :=
  match l with
  | [] => Got mask
  | (e, n) :: l =>
      match get_optional cast_bool s (entry ++ str "/" ++ n) (negb (Z.land defaults e =? 0)) with
      | Throws => Throws
      | Got b => add_bits s entry defaults l (Z.lor mask (if b then e else 0))
      end
  end.
Definition parse_mask (s : settings) (entry : text) (defaults : Z) : got Z := add_bits s entry defaults condition_names 0.
(** socketcan.h:80-81: (error mask, fatal error mask) *)
Definition parse_masks (s : settings) : got (Z * Z) :=
  match parse_mask s (str "fatal_error_mask") SocketCanModel.fatal_errors with
  | Throws => Throws
  | Got f => let fatal := Z.lor f SocketCanModel.CAN_ERR_BUSOFF in
      match parse_mask s (str "error_mask") (Z.lor SocketCanModel.report_errors fatal) with
      | Throws => Throws
      | Got e => Got (Z.lor e fatal, fatal)
      end
  end.

(** The settings of a motor, motor.h:297-299; Operation_Enable is 5 (motor.h:45) *)
Record motor_settings := mkMotorSettings { switching_state : Z; monitor_mode : bool; state_switch_timeout : Z }.
Definition parse_motor (s : settings) : got motor_settings :=
  match get_optional cast_unsigned s (str "switching_state") 5 with
  | Throws => Throws
  | Got a => match get_optional cast_bool s (str "monitor_mode") true with
             | Throws => Throws
             | Got b => match get_optional cast_unsigned s (str "state_switch_timeout") 5 with
                        | Throws => Throws
                        | Got c => Got (mkMotorSettings a b c)
                        end
             end
  end.

(** boost::lexical_cast<std::string> of an unsigned int and of a bool (SettingsMap::set, settings.h:51-53): decimal digits, "1" or "0".
    Each digit is taken from the remainder by ten, the last one first. *)
Fixpoint show_digits (f : nat) (z : Z) (t : text) : text :=
  match f with
  | O => t
  | S f => let t := (48 + z mod 10) :: t in if z / 10 =? 0 then t else show_digits f (z / 10) t
  end.
Definition show_unsigned (z : Z) : text := show_digits 10 z [].
Definition show_bool (b : bool) : text := if b then str "1" else str "0".
(** A SettingsMap after a sequence of set, the first one first *)
Definition settings_map (sets : list (text * text)) : settings :=
  let m := fold_left (fun m x => map_set (fst x) (snd x) m) sets [] in fun n => map_get n m.
