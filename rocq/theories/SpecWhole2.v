(** Vocabulary for a main loop that hears a station. *)
From Verif Require Import Prelude RxState Rx SpecRx Preempt SpecPreempt PreemptLoop SpecLoop.

(** The calls a main loop really makes, interrupts included, without its interrupted calls *)
Fixpoint loop_made (ts : loop_plan) (outs : list outcome) : list op :=
  match ts, outs with
  | (os, _, _) :: ts', o :: outs' => os ++ served o ++ loop_made ts' outs'
  | _, _ => []
  end.

(** There is room in the queue before every call of the loop *)
Fixpoint loop_roomy (ts : loop_plan) (outs : list outcome) (l : listener) : Prop :=
  match ts, outs with
  | (os, t, _) :: ts', o :: outs' =>
      never_full os l /\ never_full (served o) (listen_all os l) /\ loop_roomy ts' outs' (round os t o l)
  | _, _ => True
  end.
