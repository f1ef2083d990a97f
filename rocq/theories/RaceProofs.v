(** Proofs about a layer used by two threads. *)
From Verif Require Import Base LayerModel RaceModel RaceSpec.

Lemma rrun_snoc : forall es e l, rrun (es ++ [e]) l = rstep e (rrun es l).
Proof. intros. unfold rrun. rewrite fold_left_app. reflexivity. Qed.

(** Transitional states belong to a thread that will leave them *)
Definition owned (l : layer) : Prop :=
  match st l with
  | Off | Error | Ready => True
  | Init => match sv l with SInit P2 | SInit P3 | SShut P0 | SShut P1 => True | _ => False end
  | Shutdown => match sv l with SShut P2 | SShut P3 => True | _ => False end
  | Recover => match sv l with SRec P2 | SRec P3 | SHalt P0 | SHalt P1 => True | _ => False end
  | Halt => match sv l with SHalt P2 | SHalt P3 => True | _ => match lo l with LHalt P2 | LHalt P3 => True | _ => False end end
  end.
Lemma owned_step : forall e l, owned l -> owned (rstep e l).
Proof.
  intros e [s v p h r n] H. unfold owned in *. cbn in H.
  destruct e as [[]|[]| |[]]; cbn; destruct v as [|[]|[]|[]|[]], s; cbn in *; try contradiction; try exact I;
    destruct p as [| | | |[]]; cbn in *; try contradiction; exact I.
Qed.
Lemma owned_run : forall es l, owned l -> owned (rrun es l).
Proof. induction es as [|e es IH]; intros l H; [exact H|]. cbn. apply IH, owned_step, H. Qed.

(** Without overlap *)
Definition follows (l : layer) : Prop :=
  let e := expected (hist l) in
  (e = Off \/ e = Error \/ e = Ready) /\
  match sv l with
  | SIdle =>
    match lo l with
    | LHalt P1 => st l = Ready /\ e = Ready
    | LHalt P2 | LHalt P3 => st l = Halt /\ e = Ready
    | _ => st l = e
    end
  | SInit P0 => st l = e
  | SInit P1 => st l = Off /\ e = Off
  | SInit P2 | SInit P3 => st l = Init /\ e = Off
  | SShut P0 => st l = e \/ (st l = Init /\ e = Off)
  | SShut P1 => True
  | SShut P2 | SShut P3 => True
  | SHalt P0 => st l = e \/ (st l = Recover /\ e = Error)
  | SHalt P1 | SHalt P2 | SHalt P3 => e <> Off
  | SRec P0 => st l = e
  | SRec P1 => st l = Error /\ e = Error
  | SRec P2 | SRec P3 => st l = Recover /\ e = Error
  end.
Definition distinct (l : layer) : Prop := sv l = SIdle \/ (match lo l with LHalt _ => False | _ => True end).
Lemma follows_step : forall ev l, follows l -> distinct l -> distinct (rstep ev l) -> follows (rstep ev l).
Proof.
  intros ev [s v p h r n]. unfold follows, distinct. cbn [st sv lo hist ran seen].
  intros [E H] D D'. remember (expected h) as e eqn:He.
  assert (F : forall d, expected (d :: h) = match d with DShutdown => Off | DInit => match e with Off => Ready | s => s end
    | DHalt => match e with Ready => Error | s => s end | DRecover => match e with Error => Ready | s => s end end)
    by (intros []; subst e; cbn; destruct (expected h); reflexivity).
  assert (P : match v with SIdle => True | _ => match p with LHalt _ => False | _ => True end end) by (destruct D as [->|D]; [exact I|destruct v; auto]).
  assert (P' : match sv (rstep ev (mkL s v p h r n)) with SIdle => True | _ => match lo (rstep ev (mkL s v p h r n)) with LHalt _ => False | _ => True end end)
    by (destruct D' as [D'|D']; [rewrite D'; exact I|destruct (sv (rstep ev (mkL s v p h r n))); auto]).
  clear D D'.
  destruct ev as [[]|[]| |[]]; cbn [rstep sv] in *.
  all: destruct v as [|[]|[]|[]|[]].
  all: cbn [service_step loop_step goto assign enter finish lgoto lfinish st sv lo hist] in *.
  all: try (destruct p as [| | | |[]]; try contradiction).
  all: cbn [service_step loop_step goto assign enter finish lgoto lfinish st sv lo hist] in *; try contradiction.
  all: try (rewrite <- He; split; [exact E|]; tauto).
  all: destruct E as [E|[E|E]]; rewrite E in *; try (destruct s; try (exfalso; intuition discriminate)).
  all: cbn [is_off is_error lgt lz service_step loop_step goto assign enter finish lgoto lfinish st sv lo hist] in *.
  all: try (split; [auto|]; auto; fail).
  all: cbn -[expected] in *; rewrite ?F, <- ?He; cbn; intuition (try congruence).
Qed.

Definition told (l : layer) : Prop :=
  match sv l with
  | SIdle =>
    match lo l with
    | LHalt P1 => True
    | LHalt P2 => True
    | LHalt P3 => exists r, ran l = OHalt :: r
    | _ => agrees (st l) (ran l)
    end
  | SInit P0 | SRec P0 => agrees (st l) (ran l)
  | SInit P1 | SInit P2 => True
  | SInit P3 => exists r, ran l = OInit :: r
  | SShut P0 => agrees (st l) (ran l) \/ st l = Init
  | SShut P1 | SShut P2 => True
  | SShut P3 => exists r, ran l = OShutdown :: r
  | SHalt P0 => agrees (st l) (ran l) \/ st l = Recover
  | SHalt P1 | SHalt P2 => True
  | SHalt P3 => exists r, ran l = OHalt :: r
  | SRec P1 | SRec P2 => True
  | SRec P3 => exists r, ran l = ORecover :: r
  end.
Lemma told_step : forall ev l, follows l -> told l -> distinct l -> distinct (rstep ev l) -> told (rstep ev l).
Proof.
  intros ev [s v p h r n] Fo T D D'. unfold told, distinct, follows in *. cbn [st sv lo hist ran seen] in *.
  assert (P : match v with SIdle => True | _ => match p with LHalt _ => False | _ => True end end) by (destruct D as [->|D]; [exact I|destruct v; auto]).
  assert (P' : match sv (rstep ev (mkL s v p h r n)) with SIdle => True | _ => match lo (rstep ev (mkL s v p h r n)) with LHalt _ => False | _ => True end end)
    by (destruct D' as [D'|D']; [rewrite D'; exact I|destruct (sv (rstep ev (mkL s v p h r n))); auto]).
  clear D D'.
  destruct ev as [[]|[]| |[]]; cbn [rstep sv] in *.
  all: destruct v as [|[]|[]|[]|[]].
  all: cbn [service_step loop_step goto assign enter finish lgoto lfinish st sv lo hist ran] in *.
  all: try (destruct p as [| | | |[]]; try contradiction).
  all: cbn [service_step loop_step goto assign enter finish lgoto lfinish st sv lo hist ran] in *; try contradiction.
  all: try exact I; try exact T; try (left; exact T).
  all: try (match type of T with ex _ => destruct T as [r' ->] end; cbn; reflexivity).
  all: try (eexists; reflexivity).
  all: try (destruct Fo as [_ [-> _]]; cbn in *; auto; fail).
  all: try (destruct s; cbn in *; try exact I; try exact T; try (destruct T as [T|T]; [exact T|discriminate T]); try contradiction; fail).
Qed.
Lemma both_run : forall es l, apart es l -> follows l -> told l -> follows (rrun es l) /\ told (rrun es l).
Proof.
  induction es as [|e es IH]; intros l A F T; [auto|]. cbn.
  assert (D : distinct l) by (apply (A [] (e :: es)); reflexivity).
  assert (D' : distinct (rstep e l)) by (apply (A [e] es); reflexivity).
  apply IH.
  - intros e1 e2 X. apply (A (e :: e1) e2). cbn. congruence.
  - apply follows_step; assumption.
  - apply told_step; assumption.
Qed.
