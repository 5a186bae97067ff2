(** Property theorems C123: a main loop that is interrupted all the time. *)
From Verif Require Import Prelude Address SpecCodec RxState Rx SpecRx SpecExec SpecConf SpecCv SpecLayout Toy CvWitness LogonWitness AsyncWitness
  Preempt SpecPreempt PreemptWitness TornWitness PreemptLoop SpecLoop LoopWitness SpecWhole TornProofs StoredProofs4 WholeProofs WholeWitness.

(** * C123 *)

(** init() and the callbacks of the application, after any history, interrupted between any two
    of their steps: they tell the application the same and leave the same decoder behind as
    without interrupts. No logon packet comes in meanwhile, and transmitting does not change the
    application. *)
Theorem C123_calls : forall (I : Type) (E : Env I), (forall a d, e_hook E a (ETransmitBiDi d) = a) ->
  forall ts i outs s0 e0 os (s : st I) e1 t w o s' es,
  Forall (fun t => Forall (Forall handler) (snd t)) ts -> mainloop E ts (st0 i) = Ok (outs, s0, e0) -> run E os s0 = Ok (tt, s, e1) ->
  t = TInit \/ (exists k v, t = TCallback k v) ->
  Forall (Forall handler) w -> no_logon (served o) (listen_all os (loop_listened ts outs listener0)) ->
  preempted E (taskP E t) w s = Ok (o, s', es) ->
  exists s1, step E (call_of t) s = Ok (told o, s1, commands es) /\ same_decoder s1 s'.
Proof. exact @loop_calls. Qed.
Print Assumptions C123_calls.

(** A packet is queued while init() runs, and a speed packet while datagram() does *)
Example C123_calls_ex : exists s o s' es o2 s2 es2,
  run toy [OEnable] (st0 factory) = Ok (tt, s, []) /\ Forall (Forall handler) (pieces join) /\
  preempted toy (taskP toy TInit) (pieces join) s = Ok (o, s', es) /\ no_logon (served o) (listen_all [OEnable] listener0) /\
  length (served o) = 123%nat /\ r_deque (rxs s') = [join] /\ commands es <> [] /\
  preempted toy (taskP toy (TDatagram [DynTemperature 40])) (pieces ride) s' = Ok (o2, s2, es2) /\
  length (served o2) = 105%nat /\ r_deque (rxs s2) = [join; ride].
Proof.
  do 7 eexists. split; [vm_compute; reflexivity|]. split; [apply handlers_ok; vm_compute; reflexivity|]. split; [vm_compute; reflexivity|].
  split; [apply logons_none; vm_compute; reflexivity|]. split; [vm_compute; reflexivity|]. split; [vm_compute; reflexivity|].
  split; [vm_compute; discriminate|]. split; [vm_compute; reflexivity|]. split; vm_compute; reflexivity.
Qed.

(** datagram() is no command *)
Theorem C123_datagram : forall (I : Type) (E : Env I), (forall a d, e_hook E a (ETransmitBiDi d) = a) ->
  forall ts i outs s0 e0 os (s : st I) e1 ds w o s' es,
  Forall (fun t => Forall (Forall handler) (snd t)) ts -> mainloop E ts (st0 i) = Ok (outs, s0, e0) -> run E os s0 = Ok (tt, s, e1) ->
  Forall (Forall handler) w -> no_logon (served o) (listen_all os (loop_listened ts outs listener0)) ->
  preempted E (taskP E (TDatagram ds)) w s = Ok (o, s', es) -> same_decoder s s' /\ commands es = [].
Proof. exact @loop_datagram. Qed.
Print Assumptions C123_datagram.

(** A decoder whose main loop is interrupted in every one of its calls, the first init()
    included, is the interpreter [obey_all] of the packets executed. The decoder may be enabled before
    the first init() already. These are the packets
    queued, in order, less those still queued. *)
Theorem C123_interpreter : forall (I : Type) (E : Env I) (m : I -> Z -> Z) able, keeps_cvs able E m ->
  (forall a d, e_hook E a (ETransmitBiDi d) = a) ->
  forall before w ts i outs s es, Forall starting before -> Forall (Forall handler) w -> Forall (fun t => Forall (Forall handler) (snd t)) ts ->
  mainloop E ((before, TInit, w) :: ts) (st0 i) = Ok (outs, s, es) -> loop_unassigned ((before, TInit, w) :: ts) outs listener0 ->
  let ps := loop_executed ((before, TInit, w) :: ts) outs listener0 in let x := obey_all (e_east_west E) ps (new_view (m i)) in
  Forall (allowed able) (snd x) ->
  seen_in es = snd x /\ (forall a, m (app s) a = v_cvs (fst x) a) /\ in_service s = v_service (fst x) /\ page s = v_page (fst x) /\
  loop_heard ((before, TInit, w) :: ts) outs listener0 = ps ++ r_deque (rxs s).
Proof. exact @whole_layout. Qed.
Print Assumptions C123_interpreter.

(** The first init() is interrupted by a packet that puts the decoder into consist 5. It is
    executed while a speed packet for the consist comes in. datagram() and another init() are
    interrupted by further packets, the last of which is still queued at the end. *)
Example C123_ex : exists outs s es,
  let x := obey_all false [join; join; ride; ride] (new_view (fun a => u8 (factory a))) in
  Forall starting [OEnable] /\ Forall (fun t => Forall (Forall handler) (snd t)) busy_loop /\
  mainloop toy busy_loop (st0 factory) = Ok (outs, s, es) /\ loop_unassigned busy_loop outs listener0 /\
  map (fun o => length (served o)) outs = [123; 105; 105; 105; 1; 1; 1]%nat /\
  loop_executed busy_loop outs listener0 = [join; join; ride; ride] /\ r_deque (rxs s) = [ride] /\
  snd x = [Access (Store 18 5); Told (EDirection 5 true); Told (ESpeed 5 30); Told (EDirection 5 true); Told (ESpeed 5 30)] /\ Forall (allowed all_cvs) (snd x).
Proof.
  do 3 eexists. cbv zeta. split; [repeat constructor|]. split; [apply loop_planned_ok; vm_compute; reflexivity|]. split; [vm_compute; reflexivity|].
  split; [apply loop_unassignedb_ok; vm_compute; reflexivity|]. split; [vm_compute; reflexivity|]. split; [vm_compute; reflexivity|].
  split; [vm_compute; reflexivity|].
  match goal with |- ?a = ?b /\ _ => assert (H : a = b) by (vm_compute; reflexivity) end.
  split; [exact H|]. rewrite H. repeat (apply Forall_cons; [unfold all_cvs; cbn; try exact Logic.I; lia|]). apply Forall_nil.
Qed.
