(** Vocabulary for a decoder that is interrupted all the time. *)
From Verif Require Import Prelude RxState Rx SpecRx SpecLayout Preempt SpecPreempt.

(** No logon packet comes in during a session *)
Fixpoint unassigned (ts : session_plan) (outs : list outcome) (l : listener) : Prop :=
  match ts, outs with
  | (os, _) :: ts', o :: outs' =>
      logons os l = [] /\ logons (served o) (listen_all os l) = [] /\ unassigned ts' outs' (turn os o l)
  | _, _ => True
  end.

(** The calls a session really makes, interrupts included, without its interrupted executions *)
Fixpoint all_calls (ts : session_plan) (outs : list outcome) : list op :=
  match ts, outs with
  | (os, _) :: ts', o :: outs' => os ++ served o ++ all_calls ts' outs'
  | _, _ => []
  end.

(** There is room in the queue before every call of a session *)
Fixpoint roomy (ts : session_plan) (outs : list outcome) (l : listener) : Prop :=
  match ts, outs with
  | (os, _) :: ts', o :: outs' =>
      never_full os l /\ never_full (served o) (listen_all os l) /\ roomy ts' outs' (turn os o l)
  | _, _ => True
  end.
