(** Property theorems C129: what a station sends is executed in the end. *)
From Verif Require Import Prelude Address Packets SpecCodec SpecTx Tx RxState Rx SpecRx SpecExec SpecConf SpecCv SpecLayout LayoutWitness
  Toy CvWitness LogonWitness AsyncWitness TxPreempt SpecTxPreempt TxPreemptProofs Preempt SpecPreempt PreemptWitness SpecTorn TornProofs2 TornWitness
  PreemptLoop SpecLoop SpecWhole WholeWitness SpecWhole2 WholeWitness2 SpecProgress DeliverProofs.

(** * C129 *)

(** The station's packet() and the calls of the decoder's main loop are interrupted as in C124.
    The main loop goes on ([ts2]) after some of its rounds ([loop]), with at least as many
    executions that are not held up as packets are waiting. Then the packets whose last half bit was on
    the track before it went on are the first packets executed, none is missing, and what they
    mean to the interpreter is what the application was told first. *)
Theorem C129_delivered : forall (I : Type) (E : Env I) (m : I -> Z -> Z) able, keeps_cvs able E m ->
  (forall a d, e_hook E a (ETransmitBiDi d) = a) ->
  forall c xs s0, config_ok c -> (forall bs, In (XCall bs) xs -> packet_ok bs) ->
  tx_init c (tx_init_state 4) = Ok s0 ->
  exists outs g s1 ops h, xrun xs (SIdle, s0) = Ok (outs, (g, s1)) /\ placed xs (in_call g) ops /\
  flat_map SpecTx.call_of h = ops /\ ticks h = outs /\ history_ok c h /\
  forall before w ts1 ts2 i rs1 s e1 rs2 s' e2, Forall starting before -> Forall (Forall handler) w ->
    Forall (fun t => Forall (Forall handler) (snd t)) (ts1 ++ ts2) ->
    let loop := (before, TInit, w) :: ts1 in
    mainloop E loop (st0 i) = Ok (rs1, s, e1) -> mainloop E ts2 s = Ok (rs2, s', e2) ->
    let made := loop_made (loop ++ ts2) (rs1 ++ rs2) in
    filter is_receive made = map OReceive (map fst outs) -> ~ In ODisable made -> loop_roomy (loop ++ ts2) (rs1 ++ rs2) listener0 ->
    (length (r_deque (rxs s)) <= turns ts2 rs2 (loop_listened loop rs1 listener0))%nat ->
    let sent := finished c (None :: started h) (length (filter is_receive (loop_made loop rs1))) in
    let ps := loop_executed (loop ++ ts2) (rs1 ++ rs2) listener0 in
    (exists more, ps = sent ++ more) /\
    (Forall (allowed able) (snd (obey_all (e_east_west E) ps (new_view (m i)))) ->
     exists more, seen_in (e1 ++ e2) = snd (obey_all (e_east_west E) sent (new_view (m i))) ++ more).
Proof. exact @delivered. Qed.
Print Assumptions C129_delivered.

(** The main loop makes no execution until three packets wait. Then it goes on while the rest
    of what the station sends comes in. *)
Example C129_ex : exists s0 s1 outs loop ts2 rs1 s e1 rs2 s' e2,
  let c := TxConfig 17 58 100 false true in
  let p1 := frame 3 [0x3F; 0x90] in let p2 := frame 3 [0xB5] in let idle := [0xFF; 0x00; 0xFF] in
  let slow k := flat_map (fun _ => [XTick; XStep]) (repeat tt k) in
  let xs := [XCall p1] ++ slow 150%nat ++ [XCall p2] ++ slow 150%nat ++ repeat XTick 200 in
  let tasks := TInit :: repeat (TDatagram [DynTemperature 40]) 26 ++
    flat_map (fun _ => [TExecute; TDatagram [DynTemperature 40]]) (repeat tt 10) ++ TInit :: repeat TExecute 20 in
  let all := spread_loop tasks 10 6 (map fst outs) (st0 factory) in
  keeps_cvs all_cvs toy (fun c a => u8 (c a)) /\
  config_ok c /\ packet_ok p1 /\ packet_ok p2 /\ tx_init c (tx_init_state 4) = Ok s0 /\
  xrun xs (SIdle, s0) = Ok (outs, (SIdle, s1)) /\
  loop = firstn 27 all /\ ts2 = skipn 27 all /\
  (exists before w ts1, loop = (before, TInit, w) :: ts1 /\ Forall starting before /\ Forall (Forall handler) w) /\
  Forall (fun t => Forall (Forall handler) (snd t)) (loop ++ ts2) /\
  mainloop toy loop (st0 factory) = Ok (rs1, s, e1) /\ mainloop toy ts2 s = Ok (rs2, s', e2) /\
  filter is_receive (loop_made (loop ++ ts2) (rs1 ++ rs2)) = map OReceive (map fst outs) /\ ~ In ODisable (loop_made (loop ++ ts2) (rs1 ++ rs2)) /\
  loop_roomy (loop ++ ts2) (rs1 ++ rs2) listener0 /\
  r_deque (rxs s) = [idle; idle; p1] /\ turns ts2 rs2 (loop_listened loop rs1 listener0) = 30%nat /\
  length (filter is_receive (loop_made loop rs1)) = 372%nat /\ length outs = 500%nat /\
  loop_executed (loop ++ ts2) (rs1 ++ rs2) listener0 = [idle; idle; p1; p2; idle] /\
  seen_in (e1 ++ e2) = [Told (EDirection 3 true); Told (ESpeed 3 30); Told (EFunction 3 0x1E0 0xA0)].
Proof.
  do 11 eexists. cbv zeta. split; [exact toy_keeps|]. split; [unfold config_ok; cbn; lia|].
  split; [split; [apply Forall_forall; intros x Hx; vm_compute in Hx; unfold byte; intuition lia|vm_compute; repeat split; lia]|].
  split; [split; [apply Forall_forall; intros x Hx; vm_compute in Hx; unfold byte; intuition lia|vm_compute; repeat split; lia]|].
  split; [vm_compute; reflexivity|]. split; [vm_compute; reflexivity|].
  split; [vm_compute; reflexivity|]. split; [vm_compute; reflexivity|].
  split; [do 3 eexists; split; [vm_compute; reflexivity|]; split; [repeat constructor|apply handlers_ok; vm_compute; reflexivity]|].
  split; [apply loop_planned_ok; vm_compute; reflexivity|]. split; [vm_compute; reflexivity|]. split; [vm_compute; reflexivity|]. split; [vm_compute; reflexivity|].
  split; [apply no_disableb_ok; vm_compute; reflexivity|]. split; [apply loop_roomyb_ok; vm_compute; reflexivity|].
  split; [vm_compute; reflexivity|]. split; [vm_compute; reflexivity|]. split; [vm_compute; reflexivity|]. split; [vm_compute; reflexivity|].
  split; vm_compute; reflexivity.
Qed.
