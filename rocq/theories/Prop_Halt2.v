(** Property theorems C131: emergency stop of all locomotives, station and decoder interrupted all the time. *)
From Verif Require Import Prelude Address Packets SpecCodec SpecTx Tx RxState Rx SpecRx SpecExec SpecConf SpecCv SpecLayout LayoutWitness
  Toy CvWitness LogonWitness AsyncWitness TxPreempt SpecTxPreempt TxPreemptProofs Preempt SpecPreempt PreemptWitness SpecTorn TornProofs2 TornWitness
  PreemptLoop SpecLoop StoredProofs4 SpecWhole WholeWitness SpecWhole2 WholeWitness2 SpecProgress SpecHalt HaltProofs3.

(** * C131 *)

(** A main loop interrupted in every call has executed an emergency stop for all, no reset
    packet before it and nothing that sets a speed after it: the last the application has been
    told about driving is the emergency stop *)
Theorem C131_loop : forall (I : Type) (E : Env I) (m : I -> Z -> Z) able, keeps_cvs able E m ->
  (forall a d, e_hook E a (ETransmitBiDi d) = a) ->
  forall before w ts i outs s es, Forall starting before -> Forall (Forall handler) w -> Forall (fun t => Forall (Forall handler) (snd t)) ts ->
  mainloop E ((before, TInit, w) :: ts) (st0 i) = Ok (outs, s, es) -> loop_unassigned ((before, TInit, w) :: ts) outs listener0 ->
  let ps := loop_executed ((before, TInit, w) :: ts) outs listener0 in
  Forall (allowed able) (snd (obey_all (e_east_west E) ps (new_view (m i)))) ->
  forall a p b, ps = a ++ p :: b -> (forall q, In q a -> ~ resets q) -> stops_all p -> (forall q, In q b -> ~ sets_speed q) ->
  exists earlier, drives es = earlier ++ [ESpeed 0 (-1)].
Proof. exact @loop_halted. Qed.
Print Assumptions C131_loop.

(** An interrupted station sends an emergency stop for all, no reset packet before it and nothing
    that sets a speed after it. It was on the track in full before the main loop went on ([ts2]),
    for as many executions that are not held up as packets were waiting: the last the application
    has been told about driving is the emergency stop. *)
Theorem C131_station : forall (I : Type) (E : Env I) (m : I -> Z -> Z) able, keeps_cvs able E m ->
  (forall a d, e_hook E a (ETransmitBiDi d) = a) ->
  forall c xs s0 i, config_ok c -> (forall bs, In (XCall bs) xs -> packet_ok bs) ->
  tx_init c (tx_init_state 4) = Ok s0 ->
  exists outs g s1 ops h, xrun xs (SIdle, s0) = Ok (outs, (g, s1)) /\ placed xs (in_call g) ops /\
  flat_map SpecTx.call_of h = ops /\ ticks h = outs /\ history_ok c h /\
  forall before w ts1 ts2 rs1 s e1 rs2 s' e2, Forall starting before -> Forall (Forall handler) w ->
    Forall (fun t => Forall (Forall handler) (snd t)) (ts1 ++ ts2) ->
    let loop := (before, TInit, w) :: ts1 in
    mainloop E loop (st0 i) = Ok (rs1, s, e1) -> mainloop E ts2 s = Ok (rs2, s', e2) ->
    let made := loop_made (loop ++ ts2) (rs1 ++ rs2) in
    filter is_receive made = map OReceive (map fst outs) -> ~ In ODisable made -> loop_roomy (loop ++ ts2) (rs1 ++ rs2) listener0 ->
    (length (r_deque (rxs s)) <= turns ts2 rs2 (loop_listened loop rs1 listener0))%nat ->
    Forall (allowed able) (snd (obey_all (e_east_west E) (loop_executed (loop ++ ts2) (rs1 ++ rs2) listener0) (new_view (m i)))) ->
    forall sent1 bs sent2, finished c (None :: started h) (length outs) = sent1 ++ bs :: sent2 ->
    (length sent1 < length (finished c (None :: started h) (length (filter is_receive (loop_made loop rs1)))))%nat ->
    (forall q, In q sent1 -> ~ resets q) -> stops_all bs -> (forall q, In q sent2 -> ~ sets_speed q) ->
    exists earlier, drives (e1 ++ e2) = earlier ++ [ESpeed 0 (-1)].
Proof. exact @station_halted. Qed.
Print Assumptions C131_station.

(** A speed for locomotive 3 and an emergency stop for all wait while the main loop is busy
    with datagram(). Nothing is left in the queue at the end, so that what was executed is what was
    finished on the track. *)
Example C131_ex : exists s0 s1 outs loop ts2 rs1 s e1 rs2 s' e2,
  let c := TxConfig 17 58 100 false true in
  let go := frame 3 [0x3F; 0x90] in let stop := frame 0 [0x61] in let idle := [0xFF; 0x00; 0xFF] in
  let slow k := flat_map (fun _ => [XTick; XStep]) (repeat tt k) in
  let xs := [XCall go] ++ slow 150%nat ++ [XCall stop] ++ slow 150%nat ++ repeat XTick 200 in
  let tasks := TInit :: repeat (TDatagram [DynTemperature 40]) 32 ++
    flat_map (fun _ => [TExecute; TDatagram [DynTemperature 40]]) (repeat tt 6) ++ TInit :: repeat TExecute 14 in
  let all := spread_loop tasks 10 6 (map fst outs) (st0 factory) in
  packet_ok go /\ packet_ok stop /\ tx_init c (tx_init_state 4) = Ok s0 /\ xrun xs (SIdle, s0) = Ok (outs, (SIdle, s1)) /\
  loop = firstn 33 all /\ ts2 = skipn 33 all /\
  Forall (fun t => Forall (Forall handler) (snd t)) (loop ++ ts2) /\
  mainloop toy loop (st0 factory) = Ok (rs1, s, e1) /\ mainloop toy ts2 s = Ok (rs2, s', e2) /\
  filter is_receive (loop_made (loop ++ ts2) (rs1 ++ rs2)) = map OReceive (map fst outs) /\
  loop_roomy (loop ++ ts2) (rs1 ++ rs2) listener0 /\
  r_deque (rxs s) = [idle; idle; go; stop] /\ turns ts2 rs2 (loop_listened loop rs1 listener0) = 20%nat /\ r_deque (rxs s') = [] /\
  loop_executed (loop ++ ts2) (rs1 ++ rs2) listener0 = [idle; idle; go] ++ stop :: [idle] /\
  (forall q, In q [idle; idle; go] -> ~ resets q) /\ stops_all stop /\ (forall q, In q [idle] -> ~ sets_speed q) /\ sets_speed go /\
  drives (e1 ++ e2) = [EDirection 3 true; ESpeed 3 30; ESpeed 0 (-1)].
Proof.
  do 11 eexists. cbv zeta.
  split; [split; [apply Forall_forall; intros x Hx; vm_compute in Hx; unfold byte; intuition lia|vm_compute; repeat split; lia]|].
  split; [split; [apply Forall_forall; intros x Hx; vm_compute in Hx; unfold byte; intuition lia|vm_compute; repeat split; lia]|].
  split; [vm_compute; reflexivity|]. split; [vm_compute; reflexivity|]. split; [vm_compute; reflexivity|]. split; [vm_compute; reflexivity|].
  split; [apply loop_planned_ok; vm_compute; reflexivity|]. split; [vm_compute; reflexivity|]. split; [vm_compute; reflexivity|]. split; [vm_compute; reflexivity|].
  split; [apply loop_roomyb_ok; vm_compute; reflexivity|].
  split; [vm_compute; reflexivity|]. split; [vm_compute; reflexivity|]. split; [vm_compute; reflexivity|]. split; [vm_compute; reflexivity|].
  split; [intros q [<-|[<-|[<-|[]]]] (H1 & H2); [cbn in H1; intuition discriminate|cbn in H1; intuition discriminate|vm_compute in H2; discriminate H2]|].
  split; [split; [cbn; auto|]; split; [vm_compute; reflexivity|]; right; do 2 eexists; split; [vm_compute; reflexivity|]; split; [lia|reflexivity]|].
  split; [intros q [<-|[]] (H1 & H2); cbn in H1; intuition discriminate|].
  split; [split; [cbn; auto|left; cbn; auto]|]. vm_compute. reflexivity.
Qed.
