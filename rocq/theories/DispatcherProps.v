(** Properties C08, C09. *)
From Verif Require Import Base DispatcherModel DispatcherSpec DispatcherProofs.

(** C08. For every history, every dispatch reaches exactly the listeners alive at
    that moment, each once, in registration order, keyed before general. *)
Theorem C08_dispatch_delivery : forall Obj (ops : list (dop Obj)) d outs,
  well_used [] ops -> drun dinit ops = (d, outs) -> deliveries_correct ops outs.
Proof. exact @dispatcher_correct. Qed.
Print Assumptions C08_dispatch_delivery.

Example C08_example :
  let ops := [Create 1 (Some 7); Create 2 None; Create 3 (Some 8); Create 4 (Some 7);
              Dispatch 7 100; Destroy 1; Dispatch 7 101; Create 1 None; Dispatch 9 102;
              DispatchWithout 103 2] in
  well_used [] ops /\
  snd (drun dinit ops) =
    [[]; []; []; []; [(1, 100); (4, 100); (2, 100)]; []; [(4, 101); (2, 101)]; [];
     [(2, 102); (1, 102)]; [(1, 103)]].
Proof. cbn. intuition congruence. Qed.

(** C09. Sending on the dummy bus appends the frame exactly once to the queue of
    every other attached interface, and to the sender's own queue exactly if it
    has loopback enabled. (Dispatching without a listener: see C08.) *)
Theorem C09_bus_send : forall Obj sender o (ifs : list (iface Obj)),
  NoDup (map if_id ifs) ->
  bus_send sender o ifs =
  map (fun i => if negb (if_id i =? sender) || if_loopback i
                then mkIface (if_id i) (if_loopback i) (if_in i ++ [o]) else i) ifs.
Proof. exact @bus_send_spec. Qed.
Print Assumptions C09_bus_send.

Theorem C09_filtered_dispatch : forall Obj ls (o : Obj) w,
  dispatch_nolock ls o (Some w) =
  map (fun l => (l, o)) (List.filter (fun l => negb (l =? w)) ls).
Proof. exact @dispatch_nolock_some. Qed.
Print Assumptions C09_filtered_dispatch.

Example C09_example :
  NoDup (map if_id [mkIface 1 false [5]; mkIface 2 false []; mkIface 3 true []]) /\
  bus_send 1 42 [mkIface 1 false [5]; mkIface 2 false []; mkIface 3 true []]
  = [mkIface 1 false [5]; mkIface 2 false [42]; mkIface 3 true [42]] /\
  bus_send 3 42 [mkIface 1 false [5]; mkIface 2 false []; mkIface 3 true []]
  = [mkIface 1 false [5; 42]; mkIface 2 false [42]; mkIface 3 true [42]].
Proof. cbn. repeat split. repeat constructor; cbn; intuition congruence. Qed.
