(** Vocabulary for channel 1 under interrupts. *)
From Verif Require Import Prelude RxState Rx SpecRx SpecBidi Preempt SpecPreempt SpecOffer.

Section Tell.
  Context {I : Type} (E : Env I).

  (** The executions of a session: the state each of them found and the packet it worked on *)
  Fixpoint executions (ts : session_plan) (s : st I) : list (st I * option (list Z)) :=
    match ts with
    | [] => []
    | (os, w) :: r =>
        match run E os s with
        | Ok (_, s1, _) => match preempted E (executeP E) w s1 with
                           | Ok (o, s2, _) => (s1, worked_on o) :: executions r s2
                           | UB _ => []
                           end
        | UB _ => []
        end
    end.

  (** The other calls of a session: those between executions and those that interrupt them *)
  Fixpoint session_moments (ts : session_plan) (s : st I) : list (moment (I := I)) :=
    match ts with
    | [] => []
    | (os, w) :: r =>
        match run E os s with
        | Ok (_, s1, _) => match preempted E (executeP E) w s1 with
                           | Ok (_, s2, _) => moments E os s ++ meanwhile E (executeP E) w s1 ++ session_moments r s2
                           | UB _ => []
                           end
        | UB _ => []
        end
    end.

  (** [announced xs ds]: some of the executions that work on a packet, in order, each with the
      address active in the state it found and the two datagrams telling that address *)
  Inductive announced : list (st I * option (list Z)) -> list (list Z) -> Prop :=
  | announced_nil : announced [] []
  | announced_skip : forall x xs ds, announced xs ds -> announced (x :: xs) ds
  | announced_pair : forall s p xs a hi lo ds, channel1_on s = true -> active (r_addrs (rxs s)) = Some a ->
      address_pair (r_addrs (rxs s)) a hi lo -> announced xs ds -> announced ((s, Some p) :: xs) (hi :: lo :: ds).
End Tell.

(** No other executions; interrupts are interrupt handlers *)
Definition orderly (t : list op * list (list op)) : Prop :=
  Forall (fun o => o <> OExecute) (fst t) /\ Forall (Forall handler) (snd t).

(** No logon packet is completed during an execution *)
Fixpoint no_logon_inside (ts : session_plan) (outs : list outcome) (l : listener) : Prop :=
  match ts, outs with
  | (os, _) :: ts', o :: outs' => no_logon (served o) (listen_all os l) /\ no_logon_inside ts' outs' (turn os o l)
  | _, _ => True
  end.
