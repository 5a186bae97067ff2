(** Property theorems C132: asynchronous applications, station and decoder interrupted all the time. *)
From Verif Require Import Prelude Address Packets SpecCodec SpecTx Tx RxState Rx SpecRx SpecExec SpecConf SpecCv SpecLayout LayoutWitness
  Toy CvWitness LogonWitness SpecAsync AsyncWitness TxPreempt SpecTxPreempt TxPreemptProofs Preempt SpecPreempt PreemptWitness SpecTorn TornProofs2 TornWitness
  PreemptLoop SpecLoop StoredProofs4 SpecWhole WholeWitness SpecWhole2 WholeWitness2 SpecProgress SpecHalt PromptWitness PromptProofs2 PromptWitness2.

(** * C132 *)

(** An application that answers asynchronous requests at once. The main loop goes on ([ts2]) for
    as many executions that are not held up as packets were waiting: everything that was on the
    track in full before is executed, in order, and the application is asked and told what the
    interpreter [obey_all] says. *)
Theorem C132_delivered : forall (I : Type) (E : Env I) (m : I -> Z -> Z) able, prompt E -> keeps_cvs able (synchronous E) m ->
  (forall a d, e_hook E a (ETransmitBiDi d) = a) ->
  forall c xs s0, config_ok c -> (forall bs, In (XCall bs) xs -> packet_ok bs) ->
  tx_init c (tx_init_state 4) = Ok s0 ->
  exists outs g s1 ops h, xrun xs (SIdle, s0) = Ok (outs, (g, s1)) /\ placed xs (in_call g) ops /\
  flat_map SpecTx.call_of h = ops /\ ticks h = outs /\ history_ok c h /\
  forall before w ts1 ts2 i rs1 s e1 rs2 s' e2, Forall starting before -> Forall (Forall handler) w ->
    Forall (fun t => Forall (Forall handler) (snd t)) (ts1 ++ ts2) ->
    let loop := (before, TInit, w) :: ts1 in
    mainloop E loop (st0 i) = Ok (rs1, s, e1) -> mainloop E ts2 s = Ok (rs2, s', e2) ->
    let made := loop_made (loop ++ ts2) (rs1 ++ rs2) in
    filter is_receive made = map OReceive (map fst outs) -> ~ In ODisable made -> loop_roomy (loop ++ ts2) (rs1 ++ rs2) listener0 ->
    (length (r_deque (rxs s)) <= turns ts2 rs2 (loop_listened loop rs1 listener0))%nat ->
    let sent := finished c (None :: started h) (length (filter is_receive (loop_made loop rs1))) in
    let ps := loop_executed (loop ++ ts2) (rs1 ++ rs2) listener0 in
    (exists more, ps = sent ++ more) /\
    (Forall (allowed able) (snd (obey_all (e_east_west E) ps (new_view (m i)))) ->
     exists more, seen_in (e1 ++ e2) = snd (obey_all (e_east_west E) sent (new_view (m i))) ++ more).
Proof. exact @prompt_delivered. Qed.
Print Assumptions C132_delivered.

(** ... and an emergency stop for all among it, no reset packet before it and nothing that sets
    a speed after it, is the last the application has been told about driving *)
Theorem C132_halted : forall (I : Type) (E : Env I) (m : I -> Z -> Z) able, prompt E -> keeps_cvs able (synchronous E) m ->
  (forall a d, e_hook E a (ETransmitBiDi d) = a) ->
  forall c xs s0 i, config_ok c -> (forall bs, In (XCall bs) xs -> packet_ok bs) ->
  tx_init c (tx_init_state 4) = Ok s0 ->
  exists outs g s1 ops h, xrun xs (SIdle, s0) = Ok (outs, (g, s1)) /\ placed xs (in_call g) ops /\
  flat_map SpecTx.call_of h = ops /\ ticks h = outs /\ history_ok c h /\
  forall before w ts1 ts2 rs1 s e1 rs2 s' e2, Forall starting before -> Forall (Forall handler) w ->
    Forall (fun t => Forall (Forall handler) (snd t)) (ts1 ++ ts2) ->
    let loop := (before, TInit, w) :: ts1 in
    mainloop E loop (st0 i) = Ok (rs1, s, e1) -> mainloop E ts2 s = Ok (rs2, s', e2) ->
    let made := loop_made (loop ++ ts2) (rs1 ++ rs2) in
    filter is_receive made = map OReceive (map fst outs) -> ~ In ODisable made -> loop_roomy (loop ++ ts2) (rs1 ++ rs2) listener0 ->
    (length (r_deque (rxs s)) <= turns ts2 rs2 (loop_listened loop rs1 listener0))%nat ->
    Forall (allowed able) (snd (obey_all (e_east_west E) (loop_executed (loop ++ ts2) (rs1 ++ rs2) listener0) (new_view (m i)))) ->
    forall sent1 bs sent2, finished c (None :: started h) (length outs) = sent1 ++ bs :: sent2 ->
    (length sent1 < length (finished c (None :: started h) (length (filter is_receive (loop_made loop rs1)))))%nat ->
    (forall q, In q sent1 -> ~ resets q) -> stops_all bs -> (forall q, In q sent2 -> ~ sets_speed q) ->
    exists earlier, drives (e1 ++ e2) = earlier ++ [ESpeed 0 (-1)].
Proof. exact @prompt_halted. Qed.
Print Assumptions C132_halted.

(** A consist address, written by an asynchronous request, and an emergency stop for all wait while
    the main loop is busy with datagram() *)
Example C132_ex : exists s0 s1 rs1 s e1 rs2 s' e2,
  let loop := firstn 33 late_loop in let ts2 := skipn 33 late_loop in let idle := [0xFF; 0x00; 0xFF] in
  let ps := loop_executed (loop ++ ts2) (rs1 ++ rs2) listener0 in
  prompt quick /\ e_async_writable quick = true /\ keeps_cvs all_cvs (synchronous quick) (fun c a => u8 (c a)) /\
  (forall a d, e_hook quick a (ETransmitBiDi d) = a) /\
  packet_ok join_consist /\ packet_ok stop_all /\ tx_init late_config (tx_init_state 4) = Ok s0 /\
  xrun late_station (SIdle, s0) = Ok (late_line, (SIdle, s1)) /\
  Forall (fun t => Forall (Forall handler) (snd t)) (loop ++ ts2) /\
  mainloop quick loop (st0 factory) = Ok (rs1, s, e1) /\ mainloop quick ts2 s = Ok (rs2, s', e2) /\
  filter is_receive (loop_made (loop ++ ts2) (rs1 ++ rs2)) = map OReceive (map fst late_line) /\
  loop_roomy (loop ++ ts2) (rs1 ++ rs2) listener0 /\
  r_deque (rxs s) = [idle; idle; join_consist; stop_all] /\ turns ts2 rs2 (loop_listened loop rs1 listener0) = 20%nat /\ r_deque (rxs s') = [] /\
  ps = [idle; idle; join_consist] ++ stop_all :: [idle] /\
  (forall q, In q [idle; idle; join_consist] -> ~ resets q) /\ stops_all stop_all /\ (forall q, In q [idle] -> ~ sets_speed q) /\
  filter (fun e => match e with EWriteCvAsync _ _ => true | _ => false end) (e1 ++ e2) = [EWriteCvAsync 18 5] /\
  snd (obey_all false ps (new_view (fun a => u8 (factory a)))) = [Access (Store 18 5); Told (ESpeed 0 (-1))] /\
  seen_in (e1 ++ e2) = [Access (Store 18 5); Told (ESpeed 0 (-1))].
Proof.
  do 8 eexists. cbv zeta. split; [exact quick_prompt|]. split; [reflexivity|]. split; [exact quick_keeps|]. split; [intros; reflexivity|].
  split; [split; [apply Forall_forall; intros x Hx; vm_compute in Hx; unfold byte; intuition lia|vm_compute; repeat split; lia]|].
  split; [split; [apply Forall_forall; intros x Hx; vm_compute in Hx; unfold byte; intuition lia|vm_compute; repeat split; lia]|].
  split; [vm_compute; reflexivity|]. split; [vm_compute; reflexivity|].
  split; [apply loop_planned_ok; vm_compute; reflexivity|]. split; [vm_compute; reflexivity|]. split; [vm_compute; reflexivity|]. split; [vm_compute; reflexivity|].
  split; [apply loop_roomyb_ok; vm_compute; reflexivity|].
  split; [vm_compute; reflexivity|]. split; [vm_compute; reflexivity|]. split; [vm_compute; reflexivity|].
  match goal with |- ?a = ?b /\ _ => assert (Hx : a = b) by (vm_compute; reflexivity) end. rewrite Hx. clear Hx. split; [reflexivity|].
  split; [intros q [<-|[<-|[<-|[]]]] (H1 & H2); [cbn in H1; intuition discriminate|cbn in H1; intuition discriminate|vm_compute in H2; discriminate H2]|].
  split; [split; [cbn; auto|]; split; [vm_compute; reflexivity|]; right; do 2 eexists; split; [vm_compute; reflexivity|]; split; [lia|reflexivity]|].
  split; [intros q [<-|[]] (H1 & H2); cbn in H1; intuition discriminate|].
  split; [vm_compute; reflexivity|]. split; vm_compute; reflexivity.
Qed.
