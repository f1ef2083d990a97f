(** What the users of an SDO client rely on, for any traffic on the bus. *)
From Verif Require Import Base CanModel KeyModel StorageModel PdoModel SdoModel SdoSpec SdoChanModel.

(** ** Identifiers *)

(** The number configured in an object of type UNSIGNED32, by value or relative
    to the node id. *)
Definition configured (nid : Z) (e : entry) (v : Z) : Prop :=
  exists h b, (h = e_init e \/ (h_data (e_init e) = None /\ h = e_def e)) /\ h_data h = Some b /\
  ((h_type h = Some (TInt (mkIty false 4)) /\ v = le32 b) \/
   (h_type h = Some (TOff (mkIty false 4)) /\ v = (nid + le32 b) mod 2^32)).
(** The COB-ID of CiA 301: bit 29 selects the extended format. *)
Definition cob_id (v : Z) : header :=
  mkHeader (v mod 2^29) ((v / 2^29) mod 2 =? 1) false false.
Definition standard_id (i : Z) : header := mkHeader i false false false.

(** ** Calls *)

Definition addressed (f : frame) (h : header) : Prop := key (f_hdr f) = key h.

(** The calls that have returned: what the loop was given, what was sent, and the
    result. *)
Record done_call := mkDone { n_call : call; n_inputs : list input; n_sent : list frame; n_result : sdo_result }.
Fixpoint calls_from (cur : option (call * list input * list frame)) (tr : list obs) : list done_call :=
  match tr with
  | [] => []
  | OStart k :: t => calls_from (Some (k, [], [])) t
  | o :: t =>
    match cur with
    | None => calls_from None t
    | Some (k, ins, sent) =>
      match o with
      | OSent f => calls_from (Some (k, ins, sent ++ [f])) t
      | OTaken f => calls_from (Some (k, ins ++ [IFrame (f_dlc f) (f_data f)], sent)) t
      | OTimedOut => calls_from (Some (k, ins ++ [ITimeout], sent)) t
      | OReturn r => mkDone k ins sent r :: calls_from None t
      | _ => calls_from cur t
      end
    end
  end.
Definition calls (tr : list obs) : list done_call := calls_from None tr.
(** What the transfer of a call would do with these inputs. *)
Definition transfer (k : call) (ins : list input) : outcome (list msg * sdo_result) :=
  if k_write k then sdo_write (k_index k) (k_sub k) (k_data k) ins
  else sdo_read (k_index k) (k_sub k) (k_data k) ins.

Definition received (tr : list obs) : list frame :=
  flat_map (fun o => match o with ORecv f => [f] | _ => [] end) tr.
Definition taken (tr : list obs) : list frame :=
  flat_map (fun o => match o with OTaken f => [f] | _ => [] end) tr.
Definition sent (tr : list obs) : list frame :=
  flat_map (fun o => match o with OSent f => [f] | _ => [] end) tr.
Definition results (tr : list obs) : list sdo_result :=
  flat_map (fun o => match o with OReturn r => [r] | _ => [] end) tr.

(** What the client itself does. *)
Definition own (tr : list obs) : list obs :=
  List.filter (fun o => match o with ORecv _ => false | _ => true end) tr.
(** Without the frames for others. *)
Definition without_others (h : header) (es : list event) : list event :=
  List.filter (fun e => match e with EFrame f => key (f_hdr f) =? key h | _ => true end) es.

(** ** Responses belong to the request *)

(** Every frame processed was received after the latest message was sent. *)
Definition fresh (tr : list obs) : Prop :=
  forall a f b, tr = a ++ OTaken f :: b ->
  exists x r y, a = x ++ OSent r :: y /\ In (ORecv f) y /\ sent y = [].
(** The device answers requests, each one once at most, and sends nothing else
    with the identifier of its server. Abort messages are not answered. *)
Definition asks (f : frame) : bool := negb (code (f_data f) =? 4).
Definition polite (server : header) (tr : list obs) : Prop :=
  forall a b, tr = a ++ b ->
  (List.length (List.filter (fun f => (key (f_hdr f) =? key server)%Z) (received a))
   <= List.length (List.filter asks (sent a)))%nat.
Definition no_timeouts (es : list event) : Prop := ~ In ETimeout es.
