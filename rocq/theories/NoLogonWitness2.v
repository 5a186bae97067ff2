(** A main loop without automatic logon that hears a station, for the examples *)
From Verif Require Import Prelude Address SpecCodec RxState Rx SpecRx SpecConf SpecLayout Toy CvWitness LogonWitness AsyncWitness
  Preempt SpecPreempt PreemptWitness SpecTorn TornWitness PreemptLoop SpecLoop SpecWhole2 NoLogonWitness.

(** As [spread_loop], for the application [plain] *)
Fixpoint spread_plain (tasks : list task) (n k : nat) (ds : list Z) (s : st (Z -> Z)) : loop_plan :=
  match tasks with
  | [] => []
  | t :: tasks =>
      let os := map OReceive (firstn n ds) in
      let w := map (fun d => [OReceive d]) (firstn k (skipn n ds)) in
      match run plain os s with
      | Ok (_, s1, _) =>
          match preempted plain (taskP plain t) w s1 with
          | Ok (o, s2, _) => (os, t, w) :: spread_plain tasks n k (skipn (n + length (served o)) ds) s2
          | UB _ => []
          end
      | UB _ => []
      end
  end.
