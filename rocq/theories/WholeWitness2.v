(** A main loop that hears a station, for the examples *)
From Verif Require Import Prelude Address SpecCodec RxState Rx SpecRx SpecConf SpecLayout Toy CvWitness LogonWitness AsyncWitness
  Preempt SpecPreempt PreemptWitness SpecTorn TornWitness PreemptLoop SpecLoop SpecWhole2.

(** Durations [ds] spread over a main loop: [n] at a time before a call, one before each of
    the first [k] steps of it *)
Fixpoint spread_loop (tasks : list task) (n k : nat) (ds : list Z) (s : st (Z -> Z)) : loop_plan :=
  match tasks with
  | [] => []
  | t :: tasks =>
      let os := map OReceive (firstn n ds) in
      let w := map (fun d => [OReceive d]) (firstn k (skipn n ds)) in
      match run toy os s with
      | Ok (_, s1, _) =>
          match preempted toy (taskP toy t) w s1 with
          | Ok (o, s2, _) => (os, t, w) :: spread_loop tasks n k (skipn (n + length (served o)) ds) s2
          | UB _ => []
          end
      | UB _ => []
      end
  end.

Fixpoint loop_roomyb (ts : loop_plan) (outs : list outcome) (l : listener) : bool :=
  match ts, outs with
  | (os, t, _) :: ts', o :: outs' =>
      never_fullb os l && never_fullb (served o) (listen_all os l) && loop_roomyb ts' outs' (round os t o l)
  | _, _ => true
  end.
Lemma loop_roomyb_ok : forall ts outs l, loop_roomyb ts outs l = true -> loop_roomy ts outs l.
Proof.
  induction ts as [|[[os t] w] ts IH]; intros [|o outs] l H; try exact Logic.I. cbn [loop_roomyb loop_roomy] in *.
  apply andb_prop in H. destruct H as [H H3]. apply andb_prop in H. destruct H as [H1 H2].
  split; [apply never_fullb_ok, H1|]. split; [apply never_fullb_ok, H2|apply IH, H3].
Qed.
