(** Vocabulary for the progress of a main loop that is interrupted in every call. *)
From Verif Require Import Prelude RxState Rx SpecRx Preempt SpecPreempt PreemptLoop SpecLoop.

(** An execution that is held up: in its first step, after the interrupts before it, the last
    receive() has just completed a packet (rx/crtp_base.hpp:275, packetEnd()) *)
Definition held (os : list op) (w : list (list op)) (l : listener) : bool := l_fresh (listen_all (hd [] w) (listen_all os l)).

(** Interrupted executions of a main loop that are not held up *)
Fixpoint turns (ts : loop_plan) (outs : list outcome) (l : listener) : nat :=
  match ts, outs with
  | (os, t, w) :: ts', o :: outs' =>
      (match t with TExecute => if held os w l then 0 else 1 | _ => 0 end + turns ts' outs' (round os t o l))%nat
  | _, _ => 0%nat
  end.
