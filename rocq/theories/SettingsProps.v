(** C98: what the settings of drivers and motors do. *)
From Verif Require Import Base ChainModel SettingsModel SettingsSpec SettingsProofs.
From Verif Require SocketCanModel SocketCanSpec.

(** C98. A name with slashes is a path through nested parameters: the setting is there exactly if the path leads to a value, and
    it is the text of that value. Every name is the text of a path. *)
Theorem C98_lookup : forall print v p t, proper_path p ->
  (xml_settings print v (path_text p) = Some t <-> exists w, leads v p w /\ t = print w).
Proof. intros. apply xml_path; assumption. Qed.
Theorem C98_names : forall n, exists p, proper_path p /\ path_text p = n.
Proof. exact paths_all. Qed.

(** C98. A map of settings has for each name what was set last. *)
Theorem C98_map : forall sets n t,
  settings_map sets n = Some t <-> exists a b, sets = a ++ (n, t) :: b /\ ~ In n (map fst b).
Proof. intros. apply map_last. Qed.
(** C98. A number or truth value that was set is read as what was set; without a setting it is the default. *)
Theorem C98_map_values : forall sets n,
  (forall z def, 0 <= z < 2 ^ 32 -> get_optional cast_unsigned (settings_map (sets ++ [(n, show_unsigned z)])) n def = Got z) /\
  (forall b def, get_optional cast_bool (settings_map (sets ++ [(n, show_bool b)])) n def = Got b) /\
  (~ In n (map fst sets) -> forall (A : Type) (cast : text -> option A) def, get_optional cast (settings_map sets) n def = Got def /\ get cast (settings_map sets) n = Got None).
Proof.
  intros sets n. assert (L : forall t, settings_map (sets ++ [(n, t)]) n = Some t) by (intros t; apply map_last; exists sets, []; split; [reflexivity|intros []]). split; [|split].
  - intros z def R. unfold get_optional. rewrite L. rewrite (proj2 (cast_unsigned_ok _ _) (show_unsigned_ok z R)). reflexivity.
  - intros b def. unfold get_optional. rewrite L. rewrite (proj2 (cast_bool_ok _ _) (show_bool_ok b)). reflexivity.
  - intros N A cast def. unfold get_optional, get. destruct (settings_map sets n) as [t|] eqn:E; [|split; reflexivity].
    apply map_last in E as (a & b & -> & _). exfalso. apply N. rewrite map_app. apply in_or_app. right. left. reflexivity.
Qed.

(** C98. The settings of a motor: each is the number or truth value of the parameter, or the default without the parameter. With a
    parameter that is neither there is no motor, never the default. *)
Theorem C98_motor : forall print v m, parse_motor (xml_settings print v) = Got m <->
  chosen print v [str "switching_state"] reads_unsigned 5 (switching_state m) /\
  chosen print v [str "monitor_mode"] reads_bool true (monitor_mode m) /\
  chosen print v [str "state_switch_timeout"] reads_unsigned 5 (state_switch_timeout m).
Proof. exact motor_ok. Qed.

(** C98. The masks of the driver: each condition is what the parameter of its name says in its group, or the default without one
    (bus-off is always fatal, fatal conditions are always reported); with a parameter that is no truth value init fails. *)
Theorem C98_masks : forall print v e f, 0 <= e -> 0 <= f ->
  (parse_masks (xml_settings print v) = Got (e, f) <->
   exists cfg_error cfg_fatal,
     configured print v (str "error_mask") cfg_error /\ configured print v (str "fatal_error_mask") cfg_fatal /\
     forall i, 0 <= i ->
       Z.testbit f i = existsb (Z.eqb i) SocketCanSpec.conditions && SocketCanSpec.fatal_spec cfg_fatal i /\
       Z.testbit e i = existsb (Z.eqb i) SocketCanSpec.conditions && SocketCanSpec.reported_spec cfg_error cfg_fatal i).
Proof.
  intros print v e f E F. rewrite masks_ok. split; intros (ce & cf & A & B & C); exists ce, cf; (split; [exact A|]; split; [exact B|]).
  - apply masks_bits; assumption.
  - apply masks_bits; assumption.
Qed.

(** C98. A number is taken as it was written: refuted. A negative timeout is taken as more than a hundred years, and a state that is
    no state of a drive is accepted. *)
Definition print_int (v : value) : text :=
  match v with
  | Plain z => if z <? 0 then str "-" ++ show_unsigned (- z) else show_unsigned z
  | Struct _ => []
  end.
Theorem C98_sign_refuted : ~ (forall ms m z, parse_motor (xml_settings print_int (Struct ms)) = Got m -> has_member ms (str "state_switch_timeout") (Plain z) -> state_switch_timeout m = z).
Proof.
  intros H. specialize (H [(str "state_switch_timeout", Plain (-1))] (mkMotorSettings 5 true 4294967295) (-1) ltac:(vm_compute; reflexivity) ltac:(exists [], []; split; [reflexivity|intros []])). discriminate.
Qed.
(** C98. It is, if it is a number of 32 bits; and a bigger one is refused. *)
Theorem C98_number_partial : forall ms m z, parse_motor (xml_settings print_int (Struct ms)) = Got m -> has_member ms (str "state_switch_timeout") (Plain z) ->
  0 <= z < 10 ^ 10 -> state_switch_timeout m = z /\ z < 2 ^ 32.
Proof.
  intros ms m z H M R. apply motor_ok in H as (_ & _ & H).
  assert (L : leads (Struct ms) [str "state_switch_timeout"] (Plain z)) by (constructor; exact M).
  destruct H as [(w & L' & RD)|[N _]]; [|exfalso; exact (N _ L)]. rewrite (leads_unique _ _ _ _ L' L) in RD. cbn [print_int] in RD. destruct (Z.ltb_spec z 0); [lia|].
  destruct (show_digits_ok 10 z [] ltac:(cbn; lia) ltac:(lia)) as (d & E & N & D & V). unfold show_unsigned in RD. rewrite E, app_nil_r in RD.
  destruct RD as (s & d' & E' & N' & D' & B & Z'). assert (S0 : forall c, s = [c] -> is_digit c).
  { intros c ->. cbn in E'. subst d. apply Forall_cons_iff in D as [D _]. exact D. }
  destruct Z' as [[[-> | ->] Z']|[-> Z']]; [cbn in E'; subst d'; lia|destruct (S0 43 eq_refl); lia|destruct (S0 45 eq_refl); lia].
Qed.

(** parameters with nested groups; a path through them; a mask *)
Definition params : value :=
  Struct [(str "switching_state", Plain 4); (str "monitor_mode", Plain 0);
          (str "error_mask", Struct [(str "CAN_ERR_ACK", Plain 0)]); (str "fatal_error_mask", Struct [(str "CAN_ERR_CRTL", Plain 1); (str "CAN_ERR_BUSOFF", Plain 0)])].
Example C98_example :
  xml_settings print_int params (str "fatal_error_mask/CAN_ERR_CRTL") = Some (str "1") /\ xml_settings print_int params (str "fatal_error_mask/CAN_ERR_ACK") = None /\
  xml_settings print_int params (str "switching_state/CAN_ERR_ACK") = None /\
  parse_motor (xml_settings print_int params) = Got (mkMotorSettings 4 false 5) /\
  parse_masks (xml_settings print_int params) = Got (479, 453) /\
  parse_motor (xml_settings print_int (Struct [(str "monitor_mode", Plain 2)])) = Throws /\
  parse_motor (xml_settings print_int (Struct [(str "state_switch_timeout", Plain 4294967296)])) = Throws /\
  parse_masks (xml_settings print_int (Struct [(str "error_mask", Struct [(str "CAN_ERR_ACK", Plain 7)])])) = Throws.
Proof. vm_compute. repeat split. Qed.
Example C98_path : proper_path [str "fatal_error_mask"; str "CAN_ERR_CRTL"] /\ path_text [str "fatal_error_mask"; str "CAN_ERR_CRTL"] = str "fatal_error_mask/CAN_ERR_CRTL" /\
  leads params [str "fatal_error_mask"; str "CAN_ERR_CRTL"] (Plain 1).
Proof.
  split; [split; [discriminate|repeat constructor; noslash]|]. split; [vm_compute; reflexivity|].
  apply leads_deeper with (Struct [(str "CAN_ERR_CRTL", Plain 1); (str "CAN_ERR_BUSOFF", Plain 0)]); [apply find_member; vm_compute; reflexivity|constructor; apply find_member; vm_compute; reflexivity|discriminate].
Qed.
Example C98_map_example : settings_map [(str "a", str "1"); (str "b", str "2"); (str "a", str "3")] (str "a") = Some (str "3") /\ show_unsigned 4294967295 = str "4294967295" /\ show_unsigned 0 = str "0".
Proof. vm_compute. repeat split. Qed.
Print Assumptions C98_lookup.
Print Assumptions C98_names.
Print Assumptions C98_map.
Print Assumptions C98_map_values.
Print Assumptions C98_motor.
Print Assumptions C98_masks.
Print Assumptions C98_sign_refuted.
Print Assumptions C98_number_partial.
