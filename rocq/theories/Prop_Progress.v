(** Property theorems C127: progress of a main loop that is interrupted all the time. *)
From Verif Require Import Prelude Address SpecCodec RxState Rx SpecRx SpecConf SpecLayout Toy CvWitness LogonWitness AsyncWitness
  Preempt SpecPreempt PreemptWitness TornWitness PreemptLoop SpecLoop LoopWitness SpecWhole WholeWitness SpecProgress ProgressProofs ProgressWitness.

(** * C127 *)

(** What an interrupted execute() works on, after any main loop: nothing if a packet has just
    been completed when its first step looks, otherwise the first packet waiting when its
    second step looks. Interrupts after that make no difference. *)
Theorem C127_turn : forall (I : Type) (E : Env I) ts i outs s0 e0 os (s : st I) e1 w o s' es,
  Forall (fun t => Forall (Forall handler) (snd t)) ts ->
  mainloop E ts (st0 i) = Ok (outs, s0, e0) -> run E os s0 = Ok (tt, s, e1) -> Forall (Forall handler) w ->
  preempted E (executeP E) w s = Ok (o, s', es) ->
  let l := listen_all os (loop_listened ts outs listener0) in
  worked_on o = if l_fresh (listen_all (hd [] w) l) then None else hd_error (l_queue (listen_all (hd [] w ++ hd [] (tl w)) l)).
Proof. exact @loop_turn. Qed.
Print Assumptions C127_turn.

(** The packets waiting at some time are executed first, in order, one by every execution that is
    not held up, whatever else the main loop calls, whatever comes in meanwhile and wherever the calls are interrupted *)
Theorem C127_progress : forall (I : Type) (E : Env I) ts1 i outs1 (s1 : st I) e1 ts2 outs2 s2 e2,
  Forall (fun t => Forall (Forall handler) (snd t)) (ts1 ++ ts2) ->
  mainloop E ts1 (st0 i) = Ok (outs1, s1, e1) -> mainloop E ts2 s1 = Ok (outs2, s2, e2) ->
  let l := loop_listened ts1 outs1 listener0 in
  exists more, loop_executed ts2 outs2 l = firstn (turns ts2 outs2 l) (r_deque (rxs s1)) ++ more.
Proof. exact @loop_progress. Qed.
Print Assumptions C127_progress.

(** Three packets wait. Of four executions the first one is held up, the others execute
    these packets; the three packets that come in meanwhile wait. *)
Example C127_ex : exists outs1 s1 e1 outs2 s2 e2, let l := loop_listened lazy_start outs1 listener0 in
  Forall (fun t => Forall (Forall handler) (snd t)) (lazy_start ++ catching_up) /\
  mainloop toy lazy_start (st0 factory) = Ok (outs1, s1, e1) /\ r_deque (rxs s1) = [join; join; ride] /\
  mainloop toy catching_up s1 = Ok (outs2, s2, e2) /\
  map (fun x => packet_of (fst x) (snd x)) (combine (map (fun t => snd (fst t)) catching_up) outs2) = [None; Some join; None; Some join; Some ride] /\
  turns catching_up outs2 l = 3%nat /\ loop_executed catching_up outs2 l = [join; join; ride] /\ r_deque (rxs s2) = [ride; ride; ride].
Proof.
  do 6 eexists. cbv zeta. split; [apply loop_planned_ok; vm_compute; reflexivity|]. split; [vm_compute; reflexivity|]. split; [vm_compute; reflexivity|].
  split; [vm_compute; reflexivity|]. split; [vm_compute; reflexivity|]. split; [vm_compute; reflexivity|]. split; vm_compute; reflexivity.
Qed.
