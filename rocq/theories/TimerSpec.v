(** Demands on the heartbeat of the chain. *)
From Verif Require Import Base CanModel LayerModel ChainModel ChainSpec TimerModel.

(** No completion of an expired wait is queued *)
Definition clean (t : timer) : Prop := ~ In true (queue t).
(** Configured with period [p] *)
Definition configured (p : Z) (t : timer) : Prop := period t = Some p /\ armed t = true.
(** All calls of the delegate succeed *)
Definition all_sent (l : list tevent) : Prop := Forall (fun e => match e with TRun ok => ok = true | _ => True end) l.
(** The thread is never more than [d] behind the expiry of the timer *)
Definition punctual (d : Z) (l : list tevent) (t : timer) : Prop :=
  forall l1 l2 s, l = l1 ++ l2 -> trun l1 t = Ok s -> clock s <= expiry s + d.
(** The calls of the delegate between two states, in order *)
Definition between (t t' : timer) (new : list (Z * bool)) : Prop := beats t' = rev new ++ beats t.

(** Anything but a shutdown *)
Definition up_event (e : hevent) : Prop := match e with HChain VShutdown => False | _ => True end.
(** Initialisations and shutdowns find no completion of an expired wait queued *)
Definition clean_stops (b : behaviour) (tr : tree) (rf : bool) (l : list hevent) (s : chain * timer) : Prop :=
  forall l1 e l2 s1, l = l1 ++ HChain e :: l2 -> hrun b tr rf l1 s = Ok s1 ->
  match e with VInit _ | VShutdown => clean (snd s1) | _ => True end.
(** Every frame is sent *)
Definition all_ok (l : list hevent) : Prop := Forall (fun e => match e with HTimer (TRun ok) => ok = true | _ => True end) l.
