(** Property theorems C116: CV answers in channel 2 while execute() is interrupted. *)
From Verif Require Import Prelude Address SpecCodec Datagram RxState Rx SpecRx SpecExec SpecConf SpecCv SpecBidi Toy LogonWitness SpecDialog DialogWitness
  Preempt SpecPreempt PreemptWitness SpecOffer SpecStale StaleProofs4 StaleWitness.

(** * C116 *)

(** One would expect that channel 2 answers a read of a CV with the value of that CV only.
    This is false, see [C116_stale_refuted]. What holds ([s1] is the state that an execution
    leaves that is not interrupted): whatever is sent during an interrupted execution of a CV packet [p], behind a CV
    packet for the own number, is the acknowledgement or a value. The value waited before or
    is one prepared for [p]. If it waited before, the packet received last is the one it was
    prepared for, or [p]. *)
Theorem C116_answers_partial : forall (I : Type) (E : Env I) ts i outs s0 e0 os (s : st I) e1 w o s' es,
  (forall a d, e_hook E a (ETransmitBiDi d) = a) ->
  Forall (fun t => interrupting (snd t)) ts -> session E ts (st0 i) = Ok (outs, s0, e0) ->
  run E os s0 = Ok (tt, s, e1) ->
  Forall (Forall handler) w -> no_logon (SpecPreempt.served o) (listen_all os (all_listened ts outs listener0)) ->
  preempted E (executeP E) w s = Ok (o, s', es) ->
  forall p, worked_on o = Some p -> cv_packet p -> in_service s = false ->
  exists s1, execute E (only p s) = Ok (told o, s1, commands es) /\
  Forall (fun m => cv_reply m (fun f d => (f = last_cv_packet s /\ In d (cv_waiting s)) \/
                                          (f = p /\ (In d (cv_waiting s) \/ In d (cv_waiting s1)))))
    (meanwhile E (executeP E) w s).
Proof. intros I E ts i outs s0 e0 os s e1 w o s' es HD. exact (answers_meanwhile E HD ts i outs s0 e0 os s e1 w o s' es). Qed.
Print Assumptions C116_answers_partial.

(** As long as no packet is executed only values for the CV packet executed last are sent *)
Theorem C116_idle : forall (I : Type) (E : Env I) ts i outs s0 e0 os (s : st I) e1 w o s' es,
  (forall a d, e_hook E a (ETransmitBiDi d) = a) ->
  Forall (fun t => interrupting (snd t)) ts -> session E ts (st0 i) = Ok (outs, s0, e0) ->
  run E os s0 = Ok (tt, s, e1) ->
  Forall (Forall handler) w -> no_logon (SpecPreempt.served o) (listen_all os (all_listened ts outs listener0)) ->
  preempted E (executeP E) w s = Ok (o, s', es) -> worked_on o = None ->
  Forall (fun m => cv_reply m (fun f d => f = last_cv_packet s /\ In d (cv_waiting s))) (meanwhile E (executeP E) w s).
Proof. intros I E ts i outs s0 e0 os s e1 w o s' es HD. exact (answers_idle E HD ts i outs s0 e0 os s e1 w o s' es). Qed.
Print Assumptions C116_idle.

(** What waits afterwards is what an execution leaves that is not interrupted, or the last
    of it: nothing outdated stays behind. This is so for every packet. *)
Theorem C116_left : forall (I : Type) (E : Env I) ts i outs s0 e0 os (s : st I) e1 w o s' es,
  (forall a d, e_hook E a (ETransmitBiDi d) = a) ->
  Forall (fun t => interrupting (snd t)) ts -> session E ts (st0 i) = Ok (outs, s0, e0) ->
  run E os s0 = Ok (tt, s, e1) ->
  Forall (Forall handler) w -> no_logon (SpecPreempt.served o) (listen_all os (all_listened ts outs listener0)) ->
  preempted E (executeP E) w s = Ok (o, s', es) ->
  match worked_on o with
  | Some p => exists s1, execute E (only p s) = Ok (told o, s1, commands es) /\ rest_of (cv_waiting s') (cv_waiting s1)
  | None => rest_of (cv_waiting s') (cv_waiting s)
  end.
Proof. intros I E ts i outs s0 e0 os s e1 w o s' es HD. exact (answers_left E HD ts i outs s0 e0 os s e1 w o s' es). Qed.
Print Assumptions C116_left.

(** A value of another CV is told. CV4 is 9 before and after. The packet that reads it is
    received again while its first copy is executed, and channel 2 answers it with 77. *)
Theorem C116_stale_refuted : exists (cvs : Z -> Z) os s e1 w o s' es m es' d, run toy os (st0 cvs) = Ok (tt, s, e1) /\
  Forall (Forall handler) w /\ no_logon (SpecPreempt.served o) (listen_all os listener0) /\
  preempted toy (executeP toy) w s = Ok (o, s', es) /\ worked_on o = Some (frame 3 [0xE4; 3; 0]) /\ in_service s = false /\
  In (m, OBiDi2, es') (meanwhile toy (executeP toy) w s) /\ own_packet m /\ for_cvs m /\ last_bytes m = frame 3 [0xE4; 3; 0] /\
  cvs 3 = 9 /\ app s' 3 = 9 /\ SpecBidi.sent es' = [d] /\ make_data (decode_datagram d) = Ok 77.
Proof. exact stale_read. Qed.
Print Assumptions C116_stale_refuted.

(** The same some steps later: channel 2 tells 9, which was prepared meanwhile, and what
    waited before is gone *)
Example C116_ex : let s := LogonWitness.after reading4 two_cvs in let r := cut (again 31) s in
  (exists e1, run toy reading4 (st0 two_cvs) = Ok (tt, s, e1)) /\
  Forall (Forall handler) (again 31) /\ no_logon (SpecPreempt.served (fst (fst r))) (listen_all reading4 listener0) /\
  preempted toy (executeP toy) (again 31) s = Ok (fst (fst r), snd (fst r), snd r) /\
  worked_on (fst (fst r)) = Some read4 /\ cv_packet read4 /\ in_service s = false /\
  map (fun d => make_data (decode_datagram d)) (skipn 1 (SpecBidi.sent (snd r))) = [Ok 9] /\
  map (fun d => make_data (decode_datagram d)) (cv_waiting s) = [Ok 77] /\ cv_waiting (snd (fst r)) = [].
Proof. exact true_read. Qed.

(** The read of CV3 comes again; execute() is called too early and interrupted by the cutout *)
Example C116_ex2 : let s := LogonWitness.after read_again two_cvs in let w := [[OBiDi1; OBiDi2]] in let r := cut w s in
  Forall (Forall handler) w /\ no_logon (SpecPreempt.served (fst (fst r))) (listen_all read_again listener0) /\
  preempted toy (executeP toy) w s = Ok (fst (fst r), snd (fst r), snd r) /\ worked_on (fst (fst r)) = None /\
  map (fun d => make_data (decode_datagram d)) (skipn 1 (SpecBidi.sent (snd r))) = [Ok 77].
Proof. exact idle_read. Qed.
