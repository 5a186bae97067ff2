(** Vocabulary for a main loop without logon packets. *)
From Verif Require Import Prelude RxState Rx SpecRx SpecLayout Preempt SpecPreempt PreemptLoop SpecLoop.

(** No logon packet comes in while the loop runs *)
Fixpoint loop_unassigned (ts : loop_plan) (outs : list outcome) (l : listener) : Prop :=
  match ts, outs with
  | (os, t, _) :: ts', o :: outs' =>
      logons os l = [] /\ logons (served o) (listen_all os l) = [] /\ loop_unassigned ts' outs' (round os t o l)
  | _, _ => True
  end.

(** What may come before the first init(): the decoder is enabled or disabled, interrupts run *)
Definition starting (o : op) : Prop :=
  match o with OEnable | ODisable | OReceive _ | OBiDi1 | OBiDi2 => True | _ => False end.
