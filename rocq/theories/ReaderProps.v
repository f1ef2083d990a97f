(** Property C07. *)
From Verif Require Import Base ReaderModel ReaderSpec ReaderProofs.

Theorem C07_reader_is_bounded_fifo : forall A enable limit (ops : list (rop A)) r rs,
  rrun (rinit enable limit) ops = (r, rs) ->
  fifo ops limit enable [] (max_len_ r) (enabled_ r) (buffer_ r) (handed_out rs).
Proof. exact @reader_refines_fifo. Qed.
Print Assumptions C07_reader_is_bounded_fifo.

(** Handed out and held frames are a subsequence of those received while
    enabled: arrival order, no duplicates, nothing that came while disabled. *)
Theorem C07_arrival_order : forall A enable limit (ops : list (rop A)) r rs,
  rrun (rinit enable limit) ops = (r, rs) ->
  sub (handed_out rs ++ buffer_ r) (received enable ops).
Proof. exact @reader_order. Qed.
Print Assumptions C07_arrival_order.

Theorem C07_limit_respected : forall A enable limit (ops : list (rop A)) r rs,
  rrun (rinit enable limit) ops = (r, rs) ->
  (0 < max_len_ r)%nat -> (List.length (buffer_ r) <= max_len_ r)%nat.
Proof. exact @reader_bounded. Qed.
Print Assumptions C07_limit_respected.

Theorem C07_unlimited_is_lossless : forall A enable (ops : list (rop A)) r rs,
  Forall plain ops ->
  rrun (rinit enable 0) ops = (r, rs) ->
  handed_out rs ++ buffer_ r = received enable ops.
Proof. exact @reader_lossless. Qed.
Print Assumptions C07_unlimited_is_lossless.

Theorem C07_newest_kept : forall A (r : reader A) f,
  enabled_ r = true -> exists b, buffer_ (fst (rstep r (Arrive f))) = b ++ [f].
Proof. exact @reader_keeps_newest. Qed.
Print Assumptions C07_newest_kept.

Theorem C07_drops_oldest_only_when_full : forall A (r : reader A) f,
  enabled_ r = true -> (0 < max_len_ r)%nat -> (List.length (buffer_ r) <= max_len_ r)%nat ->
  buffer_ (fst (rstep r (Arrive f))) =
  (if (List.length (buffer_ r) =? max_len_ r)%nat then tl (buffer_ r) else buffer_ r) ++ [f].
Proof. exact @reader_drop_only_when_full. Qed.
Print Assumptions C07_drops_oldest_only_when_full.

Example C07_example :
  let ops := [Arrive 1; Arrive 2; Arrive 3; SetEnabled false; Arrive 4; SetEnabled true;
              Peek; Read; Arrive 5; Read; Read; Read] in
  exists r rs, rrun (rinit true 2) ops = (r, rs) /\
    handed_out rs = [2; 3; 5] /\ received true ops = [1; 2; 3; 5] /\ buffer_ r = [].
Proof. eexists _, _. split; [reflexivity|]. repeat split. Qed.

Example C07_example_lossless :
  let ops := [Arrive 1; Arrive 2; Read; Arrive 3; SetEnabled false; Arrive 4] in
  Forall (@plain Z) ops /\
  exists r rs, rrun (rinit true 0) ops = (r, rs) /\ handed_out rs ++ buffer_ r = [1; 2; 3].
Proof. split; [repeat constructor|]. eexists _, _. split; reflexivity. Qed.
