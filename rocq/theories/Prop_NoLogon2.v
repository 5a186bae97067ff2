(** Property theorems C126: a station that sends logon packets and a decoder without automatic logon. *)
From Verif Require Import Prelude Address Packets SpecCodec SpecTx Tx RxState Rx SpecRx SpecExec SpecConf SpecCv SpecLayout SpecLine LayoutWitness
  Toy CvWitness LogonWitness AsyncWitness TxPreempt SpecTxPreempt TxPreemptProofs Preempt SpecPreempt PreemptWitness SpecTorn TornProofs2 TornWitness
  PreemptLoop SpecLoop SpecWhole WholeWitness SpecWhole2 WholeWitness2 SpecNoLogon NoLogonProofs4 NoLogonWitness NoLogonWitness2.

(** * C126 *)

(** As C124, but the station may send logon packets as well and the decoder has no automatic
    logon. The packets executed are the packets finished on the track other than logon
    packets, in order, less those still queued in the decoder, and the decoder obeys them as the
    interpreter does. *)
Theorem C126_station : forall (I : Type) (E : Env I) (m : I -> Z -> Z) able, keeps_cvs able E m -> never_logs_on E ->
  (forall a d, e_hook E a (ETransmitBiDi d) = a) ->
  forall c xs s0, config_ok c -> (forall bs, In (XCall bs) xs -> sendable bs) ->
  tx_init c (tx_init_state 4) = Ok s0 ->
  exists outs g s1 ops h, xrun xs (SIdle, s0) = Ok (outs, (g, s1)) /\ placed xs (in_call g) ops /\
  flat_map SpecTx.call_of h = ops /\ ticks h = outs /\ history_ok c h /\
  forall before w ts i rs s es, Forall starting before -> Forall (Forall handler) w -> Forall (fun t => Forall (Forall handler) (snd t)) ts ->
    let loop := (before, TInit, w) :: ts in
    mainloop E loop (st0 i) = Ok (rs, s, es) ->
    filter is_receive (loop_made loop rs) = map OReceive (map fst outs) -> ~ In ODisable (loop_made loop rs) ->
    loop_roomy loop rs listener0 ->
    filter (fun p => negb (is_logon p)) (finished c (None :: started h) (length outs)) = loop_executed loop rs listener0 ++ r_deque (rxs s) /\
    let x := obey_all (e_east_west E) (loop_executed loop rs listener0) (new_view (m i)) in
    Forall (allowed able) (snd x) ->
    seen_in es = snd x /\ (forall a, m (app s) a = v_cvs (fst x) a) /\
    in_service s = v_service (fst x) /\ page s = v_page (fst x).
Proof. exact @quiet_station. Qed.
Print Assumptions C126_station.

(** An address is assigned to this very decoder between two commands *)
Example C126_ex : exists s0 s1 outs rs s es,
  let c := TxConfig 17 58 100 false true in
  let p1 := frame 3 [0x3F; 0x90] in let p2 := assign_to 0xC0 7 in let p3 := frame 3 [0xB5] in
  let slow k := flat_map (fun _ => [XTick; XStep]) (repeat tt k) in
  let xs := [XCall p1] ++ slow 150%nat ++ [XCall p2] ++ slow 300%nat ++ [XCall p3] ++ slow 150%nat ++ repeat XTick 350 in
  let tasks := TInit :: flat_map (fun _ => [TExecute; TDatagram [DynTemperature 40]]) (repeat tt 40) ++ TInit :: repeat TExecute 40 in
  let loop := spread_plain tasks 10 6 (map fst outs) (st0 ready_made) in
  keeps_cvs but_28 plain (fun c a => u8 (fixed c a)) /\ never_logs_on plain /\
  config_ok c /\ sendable p1 /\ sendable p2 /\ is_logon p2 = true /\ sendable p3 /\ tx_init c (tx_init_state 4) = Ok s0 /\
  xrun xs (SIdle, s0) = Ok (outs, (SIdle, s1)) /\ length outs = 950%nat /\
  (exists before w ts, loop = (before, TInit, w) :: ts /\ Forall starting before /\ Forall (Forall handler) w) /\
  Forall (fun t => Forall (Forall handler) (snd t)) loop /\
  mainloop plain loop (st0 ready_made) = Ok (rs, s, es) /\
  filter is_receive (loop_made loop rs) = map OReceive (map fst outs) /\ ~ In ODisable (loop_made loop rs) /\
  loop_roomy loop rs listener0 /\ loop_logons loop rs listener0 = [p2] /\
  map (fun o => length (served o)) (firstn 3 rs) = [6; 2; 6]%nat /\
  seen_in es = [Told (EDirection 3 true); Told (ESpeed 3 30); Told (EFunction 3 0x1E0 0xA0)].
Proof.
  do 6 eexists. cbv zeta. split; [exact plain_keeps|]. split; [exact plain_never|]. split; [unfold config_ok; cbn; lia|].
  split; [split; [apply Forall_forall; intros x Hx; vm_compute in Hx; unfold byte; intuition lia|vm_compute; repeat split; lia]|].
  split; [split; [apply Forall_forall; intros x Hx; vm_compute in Hx; unfold byte; intuition lia|vm_compute; repeat split; lia]|].
  split; [vm_compute; reflexivity|].
  split; [split; [apply Forall_forall; intros x Hx; vm_compute in Hx; unfold byte; intuition lia|vm_compute; repeat split; lia]|].
  split; [vm_compute; reflexivity|]. split; [vm_compute; reflexivity|]. split; [vm_compute; reflexivity|].
  split; [do 3 eexists; split; [vm_compute; reflexivity|]; split; [repeat constructor|apply handlers_ok; vm_compute; reflexivity]|].
  split; [apply loop_planned_ok; vm_compute; reflexivity|]. split; [vm_compute; reflexivity|]. split; [vm_compute; reflexivity|].
  split; [apply no_disableb_ok; vm_compute; reflexivity|]. split; [apply loop_roomyb_ok; vm_compute; reflexivity|].
  split; [vm_compute; reflexivity|].
  split; vm_compute; reflexivity.
Qed.
