(** Vocabulary for datagram() under interrupts. *)
From Verif Require Import Prelude RxState Rx SpecBidi SpecPreempt Preempt PreemptData.

(** [part xs ys]: [xs] is [ys] with some elements left out *)
Inductive part {A : Type} : list A -> list A -> Prop :=
| part_nil : part [] []
| part_skip : forall x xs ys, part xs ys -> part xs (x :: ys)
| part_keep : forall x xs ys, part xs ys -> part (x :: xs) (x :: ys).

Section Offers.
  Context {I : Type} (E : Env I).

  (** The interrupts served while a program runs: the state each of them found and what
      it transmitted *)
  Fixpoint meanwhile {A} (p : prog (I := I) A) (w : list (list op)) (s : st I) : list (moment (I := I)) :=
    match p with
    | Done _ => []
    | Act B m k =>
        match run E (hd [] w) s with
        | Ok (_, s1, _) => match m s1 with
                           | Ok (b, s2, _) => moments E (hd [] w) s ++ meanwhile (k b) (tl w) s2
                           | UB _ => []
                           end
        | UB _ => []
        end
    end.

  (** Again and again some calls, then a call of datagram() that is interrupted. The result
      lists the state each of these calls found and what was offered. *)
  Definition offer_plan : Type := list (list op * list dyn_arg * list (list op)).
  Fixpoint offering (ts : offer_plan) : M (I := I) (list (st I * list dyn_arg)) :=
    match ts with
    | [] => ret []
    | (os, ds, w) :: r =>
        bind (run E os) (fun _ s =>
        bind (preempted E (datagramP ds) w) (fun _ =>
        bind (offering r) (fun x => ret ((s, ds) :: x))) s)
    end.
  Fixpoint offering_moments (ts : offer_plan) (s : st I) : list (moment (I := I)) :=
    match ts with
    | [] => []
    | (os, ds, w) :: r =>
        match run E os s with
        | Ok (_, s1, _) => match preempted E (datagramP ds) w s1 with
                           | Ok (_, s2, _) => moments E os s ++ meanwhile (datagramP ds) w s1 ++ offering_moments r s2
                           | UB _ => []
                           end
        | UB _ => []
        end
    end.

  (** No other calls of datagram(), interrupts are interrupt handlers, and there is a code for
      every value *)
  Definition proper (t : list op * list dyn_arg * list (list op)) : Prop :=
    let '(os, ds, w) := t in
    Forall (fun o => forall x, o <> ODatagram x) os /\ Forall in_range ds /\ Forall (Forall handler) w.

  (** What an interrupted call takes: at least what it would have taken undisturbed, and
      nothing but the quality of service and values offered, in order *)
  Definition takes (c : st I * list dyn_arg) (ps : list (Z * Z)) : Prop :=
    part (accepted (fst c) (snd c)) ps /\ part ps ((quality (fst c), 7) :: map point_of (snd c)).
End Offers.
