(** Vocabulary for interrupted executions that are defined. *)
From Verif Require Import Prelude RxState Rx SpecRx SpecBidi SpecSafe Preempt SpecPreempt.

(** A logon packet was received and channel 2 has not been called since *)
Definition owes (o : op) (l : listener) (due : bool) : bool :=
  match o with
  | OReceive _ => match completed o l with Some p => is_logon p || due | None => due end
  | OBiDi2 => false
  | _ => due
  end.
Fixpoint owes_all (os : list op) (l : listener) (due : bool) : bool :=
  match os with
  | [] => due
  | o :: r => owes_all r (listen o l) (owes o l due)
  end.

(** The rules of SpecSafe for a call made after [l] was heard: no frame of more than 18
    bytes, all packets are ones that [sent] allows, a logon packet is followed by channel 2
    before the next duration, channel 2 only between a packet and the next duration, only
    dynamic information that exists *)
Definition allowed (sent : list Z -> Prop) (o : op) (l : listener) (due : bool) : Prop :=
  match o with
  | OReceive t =>
      match half_bit t with
      | Some b => (length (frame_so_far (l_heard l ++ [b])) <= 18)%nat
      | None => True
      end /\ (forall p, completed o l = Some p -> sent p) /\ due = false
  | OBiDi2 => l_fresh l = true
  | ODatagram ds => Forall in_range ds
  | _ => True
  end.
Fixpoint by_rules (sent : list Z -> Prop) (os : list op) (l : listener) (due : bool) : Prop :=
  match os with
  | [] => True
  | o :: r => allowed sent o l due /\ by_rules sent r (listen o l) (owes o l due)
  end.

(** A turn of a session: the calls [os] and the interrupts [w] keep to the rules, the
    interrupts are interrupt handlers *)
Definition turn_by_rules (sent : list Z -> Prop) (t : list op * list (list op)) (l : listener) (due : bool) : Prop :=
  let '(os, w) := t in
  by_rules sent os l due /\ Forall (Forall handler) w /\
  by_rules sent (concat w) (listen_all os l) (owes_all os l due).

(** What is due after a session *)
Fixpoint all_due (ts : session_plan) (outs : list outcome) (l : listener) (due : bool) : bool :=
  match ts, outs with
  | (os, _) :: ts', o :: outs' =>
      all_due ts' outs' (turn os o l) (owes_all (served o) (listen_all os l) (owes_all os l due))
  | _, _ => due
  end.

(** Every turn keeps to the rules, given what was heard in the turns before it *)
Definition session_by_rules {I : Type} (E : Env I) (sent : list Z -> Prop) (ts : session_plan) (i : I) : Prop :=
  forall ts1 t ts2 outs s es, ts = ts1 ++ t :: ts2 -> session E ts1 (st0 i) = Ok (outs, s, es) ->
  turn_by_rules sent t (all_listened ts1 outs listener0) (all_due ts1 outs listener0 false).

(** The states an interrupted program passes through: before it and before and after each of
    its steps *)
Fixpoint passed {I A : Type} (E : Env I) (p : prog (I := I) A) (w : list (list op)) (s : st I) : list (st I) :=
  s :: match p with
       | Done _ => []
       | Act B m k =>
           match run E (hd [] w) s with
           | Ok (_, s1, _) => s1 :: match m s1 with Ok (b, s2, _) => passed E (k b) (tl w) s2 | UB _ => [] end
           | UB _ => []
           end
       end.

(** The queues of BiDi datagrams hold no more than there is room for, and a datagram of each
    queue has the size of its type (rx/crtp_base.hpp:1200-1206) *)
Definition sized (n : nat) (q : list (list Z)) : Prop := Forall (fun d => length d = n) q.
Definition roomy {I : Type} (s : st I) : Prop :=
  let b := r_bidi (rxs s) in
  (length (adr_deque b) <= 2)%nat /\ sized 2 (adr_deque b) /\ (length (pom_deque b) <= 2)%nat /\ sized 2 (pom_deque b) /\
  (length (tos_deque b) <= 1)%nat /\ sized 6 (tos_deque b) /\ (length (dyn_deque b) <= 7)%nat /\ sized 3 (dyn_deque b).
