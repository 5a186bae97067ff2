(** Property theorems C118: interrupted executions are defined. *)
From Verif Require Import Prelude SpecCodec Packets RxState Rx SpecRx SpecCv SpecBidi SpecLogon SpecSafe Toy CvWitness LogonWitness SafeWitness
  Preempt SpecPreempt PreemptWitness SpecFirm FirmProofs7 FirmWitness.

(** * C118 *)

(** A session of executions, each interrupted between any two of its steps by receive() and
    the cutout handlers, in which these calls keep to the rules of C63 in the order in which
    they are really made: no undefined behaviour *)
Theorem C118_defined : forall (I : Type) (E : Env I) time ts i, short_cv1 E -> clock E time ->
  0 <= time i -> session_by_rules E complete ts i ->
  exists outs s es, session E ts (st0 i) = Ok (outs, s, es).
Proof. intros I E time ts i HE HC. exact (session_defined E HE time HC ts i). Qed.
Print Assumptions C118_defined.

(** In particular if all packets come from the generators *)
Theorem C118_generated : forall (I : Type) (E : Env I) time ts i, short_cv1 E -> clock E time ->
  0 <= time i -> session_by_rules E generated ts i ->
  exists outs s es, session E ts (st0 i) = Ok (outs, s, es).
Proof. intros I E time ts i HE HC. exact (session_generated E HE time HC ts i). Qed.
Print Assumptions C118_generated.

(** No queue of datagrams overflows, not even within an execution, whatever the calls *)
Theorem C118_room : forall (I : Type) (E : Env I) ts i outs s0 e0 os (s : st I) e1 w o s' es,
  Forall (fun t => Forall (Forall handler) (snd t)) ts -> session E ts (st0 i) = Ok (outs, s0, e0) ->
  run E os s0 = Ok (tt, s, e1) -> Forall (Forall handler) w -> preempted E (executeP E) w s = Ok (o, s', es) ->
  Forall roomy (passed E (executeP E) w s).
Proof. intros I E ts i outs s0 e0 os s e1 w o s' es. exact (session_room E ts i outs s0 e0 os s e1 w o s' es). Qed.
Print Assumptions C118_room.

(** Packets arrive in pieces during executions, with cutouts; six packets are executed, among
    them the second of two that write CV3. During that execution a logon packet arrives and is
    answered. *)
Example C118_ex : short_cv1 polite /\ clock polite (fun _ => 0) /\
  session_by_rules polite generated firm_plan joining /\
  match polite_session with
  | Ok (outs, s, es) =>
      map worked_on outs = [Some (frame 3 [0x3F; 0x90]); Some (frame 3 [0xEC; 2; 7]); Some (frame 3 [0xEC; 2; 7]); Some (frame 1530 [0x3F; 0x90]);
        Some make_idle_packet; Some make_reset_packet; None; None] /\
      Forall (fun o => 80 < Z.of_nat (length (SpecPreempt.served o))) (firstn 5 outs) /\ In (ESpeed 3 30) es /\ app s 2 = 7 /\
      In (ETransmitBiDi [45; 149]) es /\ In (ETransmitBiDi [163; 172; 172; 172; 172; 172]) es
  | UB _ => False
  end.
Proof.
  split; [exact polite_short|]. split; [exact polite_clock|]. split; [exact firm_ruled|].
  vm_compute. split; [reflexivity|]. split; [repeat constructor|]. split; [tauto|]. split; [reflexivity|]. split; tauto.
Qed.

(** An execution of a CV access: the two datagrams that tell the address are transmitted in its
    course, then the answer is queued *)
Example C118_ex2 : match run polite [OReceive 58] found_second with
  | Ok (_, s, _) => match preempted polite (executeP polite) (over make_idle_packet) s with
      | Ok (o, _, _) => worked_on o = Some (frame 3 [0xEC; 2; 7]) /\ (30 < length (passed polite (executeP polite) (over make_idle_packet) s))%nat /\
          Exists (fun t => length (adr_deque (r_bidi (rxs t))) = 2%nat) (passed polite (executeP polite) (over make_idle_packet) s) /\
          Exists (fun t => length (pom_deque (r_bidi (rxs t))) = 1%nat) (passed polite (executeP polite) (over make_idle_packet) s)
      | UB _ => False
      end
  | UB _ => False
  end.
Proof.
  vm_compute. split; [reflexivity|]. split; [repeat constructor|]. split; [constructor; reflexivity|].
  repeat (first [apply Exists_cons_hd; reflexivity|apply Exists_cons_tl]).
Qed.
