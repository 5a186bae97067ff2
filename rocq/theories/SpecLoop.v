(** Vocabulary for a main loop all of whose calls are interrupted. *)
From Verif Require Import Prelude RxState Rx SpecRx SpecBidi SpecSafe Preempt SpecPreempt PreemptLoop SpecFirm.

(** Again and again some undisturbed calls, then a call that is interrupted *)
Definition loop_plan : Type := list (list op * task * list (list op)).
Fixpoint mainloop {I : Type} (E : Env I) (ts : loop_plan) : M (I := I) (list outcome) :=
  match ts with
  | [] => ret []
  | (os, t, w) :: r =>
      bind (run E os) (fun _ =>
      bind (preempted E (taskP E t) w) (fun o =>
      bind (mainloop E r) (fun x => ret (o :: x))))
  end.

(** The call of Rx.v that is taken apart *)
Definition call_of (t : task) : op :=
  match t with TExecute => OExecute | TInit => OInit | TDatagram ds => ODatagram ds | TCallback i v => OCallback i v end.

(** The packet the interrupted call worked on: only execute() takes packets *)
Definition packet_of (t : task) (o : outcome) : option (list Z) :=
  match t with TExecute => worked_on o | _ => None end.
(** The listener of SpecRx after a round *)
Definition round (os : list op) (t : task) (o : outcome) (l : listener) : listener :=
  let l' := listen_all (served o) (listen_all os l) in
  match packet_of t o with
  | Some _ => Listener (l_heard l') (tl (l_queue l')) (l_fresh l') (l_on l')
  | None => l'
  end.

(** The listener, what is due, the packets queued and the packets executed in the course of
    the loop *)
Fixpoint loop_listened (ts : loop_plan) (outs : list outcome) (l : listener) : listener :=
  match ts, outs with
  | (os, t, _) :: ts', o :: outs' => loop_listened ts' outs' (round os t o l)
  | _, _ => l
  end.
Fixpoint loop_due (ts : loop_plan) (outs : list outcome) (l : listener) (due : bool) : bool :=
  match ts, outs with
  | (os, t, _) :: ts', o :: outs' =>
      loop_due ts' outs' (round os t o l) (owes_all (served o) (listen_all os l) (owes_all os l due))
  | _, _ => due
  end.
Fixpoint loop_heard (ts : loop_plan) (outs : list outcome) (l : listener) : list (list Z) :=
  match ts, outs with
  | (os, t, _) :: ts', o :: outs' =>
      heard os l ++ heard (served o) (listen_all os l) ++ loop_heard ts' outs' (round os t o l)
  | _, _ => []
  end.
Fixpoint loop_executed (ts : loop_plan) (outs : list outcome) (l : listener) : list (list Z) :=
  match ts, outs with
  | (os, t, _) :: ts', o :: outs' =>
      SpecRx.taken os l ++ match packet_of t o with Some p => [p] | None => [] end
        ++ loop_executed ts' outs' (round os t o l)
  | _, _ => []
  end.

(** Every execution sees the same packet from its start to its end *)
Definition executions_whole (ts : loop_plan) (outs : list outcome) : Prop :=
  Forall2 (fun t o => snd (fst t) = TExecute -> one_packet o) ts outs.

(** A round keeps to the rules: its calls and its interrupts do, the interrupts are interrupt
    handlers, only dynamic information that exists is offered *)
Definition task_by_rules (t : task) : Prop :=
  match t with TDatagram ds => Forall in_range ds | _ => True end.
Definition round_by_rules (sent : list Z -> Prop) (t : list op * task * list (list op)) (l : listener) (due : bool) : Prop :=
  let '(os, t, w) := t in
  by_rules sent os l due /\ task_by_rules t /\ Forall (Forall handler) w /\
  by_rules sent (concat w) (listen_all os l) (owes_all os l due).
(** Every round does, given what was heard in the rounds before it *)
Definition loop_by_rules {I : Type} (E : Env I) (sent : list Z -> Prop) (ts : loop_plan) (i : I) : Prop :=
  forall ts1 t ts2 outs s es, ts = ts1 ++ t :: ts2 -> mainloop E ts1 (st0 i) = Ok (outs, s, es) ->
  round_by_rules sent t (loop_listened ts1 outs listener0) (loop_due ts1 outs listener0 false).
