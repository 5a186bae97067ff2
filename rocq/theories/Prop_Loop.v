(** Property theorems C120: a main loop all of whose calls are interrupted. *)
From Verif Require Import Prelude SpecCodec Packets RxState Rx SpecRx SpecCv SpecBidi SpecLogon SpecSafe Toy CvWitness LogonWitness SafeWitness
  Preempt SpecPreempt PreemptWitness SpecFirm FirmWitness PreemptLoop SpecLoop LoopProofs LoopProofs3 LoopWitness.

(** * C120 *)

(** Without interrupts the steps are the calls *)
Theorem C120_steps : forall (I : Type) (E : Env I) t (s : st I), flat (taskP E t) s = step E (call_of t) s.
Proof. intros I E. exact (flat_task E). Qed.
Print Assumptions C120_steps.

(** execute(), init(), datagram() and the callbacks of the application, in any order, each
    interrupted between any two of its steps by receive() and the cutout handlers, all keeping
    to the rules: no undefined behaviour *)
Theorem C120_defined : forall (I : Type) (E : Env I) time ts i, short_cv1 E -> clock E time ->
  0 <= time i -> loop_by_rules E complete ts i ->
  exists outs s es, mainloop E ts (st0 i) = Ok (outs, s, es).
Proof. intros I E time ts i HE HC. exact (loop_defined E HE time HC ts i). Qed.
Print Assumptions C120_defined.

(** In particular if all packets come from the generators *)
Theorem C120_generated : forall (I : Type) (E : Env I) time ts i, short_cv1 E -> clock E time ->
  0 <= time i -> loop_by_rules E generated ts i ->
  exists outs s es, mainloop E ts (st0 i) = Ok (outs, s, es).
Proof. intros I E time ts i HE HC. exact (loop_generated E HE time HC ts i). Qed.
Print Assumptions C120_generated.

(** Whatever interrupts what: every execution sees one packet only, and the packets received
    are those executed, in the same order, followed by those that wait *)
Theorem C120_once : forall (I : Type) (E : Env I) ts i outs (s : st I) es,
  Forall (fun t => interrupting (snd t)) ts -> mainloop E ts (st0 i) = Ok (outs, s, es) ->
  executions_whole ts outs /\ loop_heard ts outs listener0 = loop_executed ts outs listener0 ++ r_deque (rxs s).
Proof. intros I E. exact (loop_fifo E). Qed.
Print Assumptions C120_once.

(** No queue of datagrams overflows, not even within one of these calls *)
Theorem C120_room : forall (I : Type) (E : Env I) ts i outs s0 e0 os (s : st I) e1 t w o s' es,
  Forall (fun t => Forall (Forall handler) (snd t)) ts -> mainloop E ts (st0 i) = Ok (outs, s0, e0) ->
  run E os s0 = Ok (tt, s, e1) -> Forall (Forall handler) w -> preempted E (taskP E t) w s = Ok (o, s', es) ->
  Forall roomy (passed E (taskP E t) w s).
Proof. intros I E ts i outs s0 e0 os s e1 t w o s' es. exact (loop_room E ts i outs s0 e0 os s e1 t w o s' es). Qed.
Print Assumptions C120_room.

(** init(), six executions, datagram() and a callback are interrupted. The packet received
    during init() is executed, the dynamic information offered before and after a logon
    packet is transmitted, and so is what the callback told *)
Example C120_ex : short_cv1 patient /\ clock patient (fun _ => 0) /\ loop_by_rules patient generated busy_plan joining /\
  forallb (fun t => forallb (forallb is_handler) (snd t)) busy_plan = true /\
  match busy_loop with
  | Ok (outs, s, es) =>
      loop_executed busy_plan outs listener0 = [frame 3 [0x3F; 0x90]; frame 3 [0xEC; 2; 7]; frame 3 [0xEC; 2; 7]; make_idle_packet; frame 3 [0x3F; 0x90]; frame 3 [0xEC; 2; 7]] /\
      Forall (fun o => 80 < Z.of_nat (length (SpecPreempt.served o))) (firstn 7 outs) /\ In (ESpeed 3 30) es /\ app s 2 = 7 /\
      In (ETransmitBiDi [163; 172; 172; 172; 172; 172]) es /\ In (ETransmitBiDi [90; 172; 154; 89; 102; 102]) es /\ In (ETransmitBiDi [172; 154]) es
  | UB _ => False
  end.
Proof.
  split; [exact patient_short|]. split; [exact patient_clock|]. split; [exact busy_ruled|]. split; [vm_compute; reflexivity|].
  vm_compute. split; [reflexivity|]. split; [repeat constructor|]. split; [tauto|]. split; [reflexivity|]. split; [tauto|]. split; tauto.
Qed.

(** The states of an interrupted datagram(): the first value waits, a cutout fetches it, then
    three more are queued *)
Example C120_ex2 : match mainloop patient (firstn 3 busy_plan) (st0 joining) with
  | Ok (_, s, _) => match preempted patient (taskP patient offering) with_a_cutout s with
      | Ok _ => skipn 12 (map (fun t => length (dyn_deque (r_bidi (rxs t)))) (passed patient (taskP patient offering) with_a_cutout s)) =
          [0; 0; 1; 1; 1; 0; 0; 0; 0; 0; 1; 1; 1; 1; 1; 1; 2; 2; 2; 2; 2; 2; 3]%nat
      | UB _ => False
      end
  | UB _ => False
  end.
Proof. vm_compute. reflexivity. Qed.
