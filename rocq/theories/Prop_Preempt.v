(** Property theorems C65: execute() interrupted by receive() and the cutout handlers. *)
From Verif Require Import Prelude Address SpecCodec RxState Rx SpecRx SpecConf Toy CvWitness LogonWitness AsyncWitness
  Preempt SpecPreempt PreemptProofs PreemptProofs2 PreemptProofs4 PreemptWitness.

(** * C65 *)

(** The steps of an execution, taken one after another without interrupts, are execute() *)
Theorem C65_steps : forall (I : Type) (E : Env I) (s : st I), flat (executeP E) s = execute E s.
Proof. intros I E. exact (flat_execute E). Qed.
Print Assumptions C65_steps.

(** Anything but execute() itself may be called between any two steps of an execution.
    Packets are executed in the order in which they came, each of them once, and all steps
    of an execution find the same packet in front. *)
Theorem C65_once : forall (I : Type) (E : Env I) ts i outs (s : st I) es,
  Forall (fun t => interrupting (snd t)) ts -> session E ts (st0 i) = Ok (outs, s, es) ->
  Forall one_packet outs /\
  all_heard ts outs listener0 = all_executed ts outs listener0 ++ r_deque (rxs s).
Proof. intros I E. exact (session_fifo E). Qed.
Print Assumptions C65_once.

(** An execution interrupted by receive() and the cutout handlers only, none of which
    completes a logon packet, does what execute() does with that packet alone in the
    queue: it returns the same, makes the same calls apart from the transmissions of the
    cutouts and leaves the same decoder. Transmitting does not change the application. *)
Theorem C65_undisturbed : forall (I : Type) (E : Env I) ts i outs s0 e0 os (s : st I) e1 w o s' es,
  (forall a d, e_hook E a (ETransmitBiDi d) = a) ->
  Forall (fun t => interrupting (snd t)) ts -> session E ts (st0 i) = Ok (outs, s0, e0) ->
  run E os s0 = Ok (tt, s, e1) ->
  Forall (Forall handler) w -> no_logon (served o) (listen_all os (all_listened ts outs listener0)) ->
  preempted E (executeP E) w s = Ok (o, s', es) ->
  match worked_on o with
  | Some p => exists s1, execute E (only p s) = Ok (told o, s1, commands es) /\ same_decoder s1 s'
  | None => told o = false /\ same_decoder s s' /\ commands es = []
  end.
Proof. intros I E ts i outs s0 e0 os s e1 w o s' es HD. exact (undisturbed E HD ts i outs s0 e0 os s e1 w o s' es). Qed.
Print Assumptions C65_undisturbed.

(** A logon packet does disturb: while address 1000 is being stored the decoder is
    assigned 1234. Address 978 is stored. The next execution will store again. *)
Theorem C65_torn_address : exists (cvs : Z -> Z) os s e1 w o s' es, run toy os (st0 cvs) = Ok (tt, s, e1) /\
  Forall (Forall handler) w /\ preempted toy (executeP toy) w s = Ok (o, s', es) /\
  logon (r_addrs (rxs s)) = Addr 1000 ATLong false /\ logon (r_addrs (rxs s')) = Addr 1234 ATLong false /\
  256 * app s' 65299 + app s' 65300 = 978 /\ logon_store (r_logon (rxs s')) = true.
Proof. exact torn_address. Qed.
Print Assumptions C65_torn_address.

(** A function packet arrives while a speed packet is being executed, in two pieces and
    with a cutout before it; then it is executed itself *)
Example C65_ex : let outs := fst (fst (played plan factory)) in
  Forall (fun t => interrupting (snd t)) plan /\
  session toy plan (st0 factory) = Ok (outs, snd (fst (played plan factory)), snd (played plan factory)) /\
  all_heard plan outs listener0 = [go; lamp] /\ map worked_on outs = [Some go; Some lamp] /\
  map told outs = [true; true] /\ map (fun o => nth 10 (seen o) []) outs = [[go; lamp]; [lamp]].
Proof.
  cbv zeta. split; [apply interrupting_ok; vm_compute; reflexivity|].
  split; [apply plays_ok; vm_compute; reflexivity|]. repeat split; vm_compute; reflexivity.
Qed.

(** The first of these executions by itself *)
Example C65_ex2 : let os := [OInit; OEnable] ++ arriving [go] in let s := after os factory in
  let o := fst (fst (cut busy s)) in
  (forall a d, e_hook toy a (ETransmitBiDi d) = a) /\ session toy [] (st0 factory) = Ok ([], st0 factory, []) /\
  (exists e1, run toy os (st0 factory) = Ok (tt, s, e1)) /\ Forall (Forall handler) busy /\
  no_logon (served o) (listen_all os listener0) /\
  preempted toy (executeP toy) busy s = Ok (o, snd (fst (cut busy s)), snd (cut busy s)) /\
  worked_on o = Some go /\ commands (snd (cut busy s)) = [EDirection 3 true; ESpeed 3 30].
Proof.
  cbv zeta. split; [reflexivity|]. split; [reflexivity|]. split.
  { unfold after. destruct (run toy ([OInit; OEnable] ++ arriving [go]) (st0 factory)) as [[[[] s] e1]|] eqn:E;
      [exists e1; reflexivity|vm_compute in E; discriminate]. }
  split; [apply handlers_ok; vm_compute; reflexivity|]. split; [apply no_logonb_ok; vm_compute; reflexivity|].
  split; [apply cuts_ok; vm_compute; reflexivity|]. split; vm_compute; reflexivity.
Qed.
