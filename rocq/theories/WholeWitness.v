(** A main loop that is interrupted in every call, for the examples *)
From Verif Require Import Prelude Address SpecCodec RxState Rx SpecRx SpecConf SpecLayout Toy CvWitness LogonWitness AsyncWitness
  Preempt SpecPreempt PreemptWitness SpecTorn TornWitness PreemptLoop SpecLoop LoopWitness SpecWhole.

Definition busy_loop : loop_plan :=
  [([OEnable], TInit, pieces join); (arriving [join], TExecute, pieces ride); ([], TDatagram [DynTemperature 40], pieces ride);
   ([], TInit, pieces ride);
   ([], TExecute, [[]; [OBiDi1]]); ([], TExecute, [[]; [OBiDi1]]); ([], TExecute, [[]; [OBiDi1]])].

Fixpoint loop_unassignedb (ts : loop_plan) (outs : list outcome) (l : listener) : bool :=
  match ts, outs with
  | (os, t, _) :: ts', o :: outs' =>
      match logons os l, logons (served o) (listen_all os l) with [], [] => loop_unassignedb ts' outs' (round os t o l) | _, _ => false end
  | _, _ => true
  end.
Lemma loop_unassignedb_ok : forall ts outs l, loop_unassignedb ts outs l = true -> loop_unassigned ts outs l.
Proof.
  induction ts as [|[[os t] w] ts IH]; intros [|o outs] l H; try exact Logic.I. cbn [loop_unassignedb loop_unassigned] in *.
  destruct (logons os l); [|discriminate]. destruct (logons (served o) _); [|discriminate]. auto.
Qed.
Lemma loop_planned_ok : forall ts : loop_plan, forallb (fun t => forallb (forallb is_handler) (snd t)) ts = true ->
  Forall (fun t => Forall (Forall handler) (snd t)) ts.
Proof.
  intros ts H. apply Forall_forall. intros t Ht. rewrite forallb_forall in H. apply handlers_ok. exact (H t Ht).
Qed.
