(** Histories of the PDOs of a node, with set-ups that may fail at any point. *)
From Verif Require Import Base CanModel KeyModel StorageModel PdoModel PdoBootSpec.

(** pdo.cpp:175-323 in any order: accesses to objects (of any kind, with any
    device), resets of the storage, set-ups with any outcome, received frames and
    both directions of the cycle. *)
Inductive operates : pw -> mapper -> Prop :=
| Onew : forall w, (0 < w_next w)%nat -> operates w (mkMapper [] [])
| Oaccess : forall dv d k o w w1 r m, operates w m -> obj dv d k o w = Ok (w1, r) -> operates w1 m
| Oreset : forall d w m, operates w m -> operates (reset_world d w) m
| Osetup : forall dv d nid junk nr_tx nr_rx w m w1 m1 x, operates w m ->
    mapper_init dv d nid junk nr_tx nr_rx m w = Ok (w1, m1, x) -> operates w1 m1
| Oreceive : forall w ps p qs ts msg p1 w1, operates w (mkMapper (ps ++ p :: qs) ts) ->
    rpdo_handle p msg w = Ok (p1, w1) -> operates w1 (mkMapper (ps ++ p1 :: qs) ts)
| Oexpect : forall w ps p qs ts p1 t f, operates w (mkMapper (ps ++ p :: qs) ts) ->
    rpdo_sync p = (p1, t, f) -> operates w (mkMapper (ps ++ p1 :: qs) ts)
| Osend : forall w rs ps p qs p1 w1 f, operates w (mkMapper rs (ps ++ p :: qs)) ->
    tpdo_sync p w = Ok (p1, w1, f) -> operates w1 (mkMapper rs (ps ++ p1 :: qs)).
