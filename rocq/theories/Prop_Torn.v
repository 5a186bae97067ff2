(** A decoder that is interrupted all the time *)
From Verif Require Import Prelude Address Packets SpecCodec SpecTx Tx RxState Rx SpecRx SpecExec SpecConf SpecCv SpecLayout LayoutWitness
  Toy CvWitness LogonWitness AsyncWitness TxPreempt SpecTxPreempt TxPreemptProofs Preempt SpecPreempt PreemptWitness SpecTorn TornProofs TornProofs2 TornWitness.

(** * C111 *)

(** Sessions from a new decoder in which every execution may be interrupted between any two
    of its steps by receive() and the cutout handlers: what the application sees, its CVs,
    the mode and the page register are those of the interpreter [obey_all] on the packets
    executed. These are the packets queued, in order, less those still queued. No logon
    packet comes in, the interpreter writes only what the application is [able] to keep,
    and transmitting does not change the application. *)
Theorem C111_interpreter : forall (I : Type) (E : Env I) (m : I -> Z -> Z) able, keeps_cvs able E m ->
  (forall a d, e_hook E a (ETransmitBiDi d) = a) ->
  forall ts i outs s es, Forall (fun t => Forall (Forall handler) (snd t)) ts ->
  bind (run E [OInit]) (fun _ => session E ts) (st0 i) = Ok (outs, s, es) -> unassigned ts outs listener0 ->
  let x := obey_all (e_east_west E) (all_executed ts outs listener0) (new_view (m i)) in
  Forall (allowed able) (snd x) ->
  seen_in es = snd x /\ (forall a, m (app s) a = v_cvs (fst x) a) /\ in_service s = v_service (fst x) /\ page s = v_page (fst x) /\
  all_heard ts outs listener0 = all_executed ts outs listener0 ++ r_deque (rxs s).
Proof. exact @torn_layout. Qed.
Print Assumptions C111_interpreter.

(** A write to CV19 that puts the decoder into consist 5 is executed while its repetition
    arrives, the repetition while a packet for the consist arrives, all in two pieces *)
Example C111_ex : exists outs s es,
  let x := obey_all false [join; join; ride] (new_view (fun a => u8 (factory a))) in
  Forall (fun t => Forall (Forall handler) (snd t)) joining /\
  bind (run toy [OInit]) (fun _ => session toy joining) (st0 factory) = Ok (outs, s, es) /\ unassigned joining outs listener0 /\
  map (fun o => length (served o)) outs = [123; 105; 1]%nat /\
  all_executed joining outs listener0 = [join; join; ride] /\ r_deque (rxs s) = [] /\
  snd x = [Access (Store 18 5); Told (EDirection 5 true); Told (ESpeed 5 30)] /\ Forall (allowed all_cvs) (snd x).
Proof.
  do 3 eexists. cbv zeta. split; [apply planned_ok; vm_compute; reflexivity|]. split; [vm_compute; reflexivity|].
  split; [apply unassignedb_ok; vm_compute; reflexivity|]. split; [vm_compute; reflexivity|]. split; [vm_compute; reflexivity|].
  split; [vm_compute; reflexivity|].
  match goal with |- ?a = ?b /\ _ => assert (H : a = b) by (vm_compute; reflexivity) end.
  split; [exact H|]. rewrite H. repeat (apply Forall_cons; [unfold all_cvs; cbn; try exact Logic.I; lia|]). apply Forall_nil.
Qed.

(** * C112 *)

(** Station and decoder both interrupted: packet() by transmit() between any two of its
    steps, execute() by receive() and the cutout handlers between any two of its steps. The
    packets executed are the packets finished on the track, in order, less those still
    queued in the decoder, and the decoder obeys them as the interpreter does. *)
Theorem C112_both : forall (I : Type) (E : Env I) (m : I -> Z -> Z) able, keeps_cvs able E m ->
  (forall a d, e_hook E a (ETransmitBiDi d) = a) ->
  forall c xs s0, config_ok c -> (forall bs, In (XCall bs) xs -> packet_ok bs) ->
  tx_init c (tx_init_state 4) = Ok s0 ->
  exists outs g s1 ops h, xrun xs (SIdle, s0) = Ok (outs, (g, s1)) /\ placed xs (in_call g) ops /\
  flat_map call_of h = ops /\ ticks h = outs /\ history_ok c h /\
  forall ts i rs s es, Forall (fun t => Forall (Forall handler) (snd t)) ts ->
    bind (run E [OInit]) (fun _ => session E ts) (st0 i) = Ok (rs, s, es) ->
    filter is_receive (all_calls ts rs) = map OReceive (map fst outs) -> ~ In ODisable (all_calls ts rs) ->
    roomy ts rs listener0 ->
    finished c (None :: started h) (length outs) = all_executed ts rs listener0 ++ r_deque (rxs s) /\
    let x := obey_all (e_east_west E) (all_executed ts rs listener0) (new_view (m i)) in
    Forall (allowed able) (snd x) ->
    seen_in es = snd x /\ (forall a, m (app s) a = v_cvs (fst x) a) /\
    in_service s = v_service (fst x) /\ page s = v_page (fst x).
Proof. exact @both_interrupted. Qed.
Print Assumptions C112_both.

(** Both packets are given to a station that is interrupted before each step of packet().
    The decoder hears ten durations before each execution and one before each of the first
    six steps of it *)
Example C112_ex : exists s0 s1 outs si ei rs s es,
  let c := TxConfig 17 58 100 false true in
  let p1 := frame 3 [0x3F; 0x90] in let p2 := frame 3 [0xB5] in
  let slow k := flat_map (fun _ => [XTick; XStep]) (repeat tt k) in
  let xs := [XCall p1] ++ slow 150%nat ++ [XCall p2] ++ slow 150%nat ++ repeat XTick 200 in
  let ts := spread 45 10 6 (map fst outs) si in
  config_ok c /\ packet_ok p1 /\ packet_ok p2 /\ tx_init c (tx_init_state 4) = Ok s0 /\
  xrun xs (SIdle, s0) = Ok (outs, (SIdle, s1)) /\ length outs = 500%nat /\
  run toy [OInit] (st0 factory) = Ok (tt, si, ei) /\
  Forall (fun t => Forall (Forall handler) (snd t)) ts /\
  bind (run toy [OInit]) (fun _ => session toy ts) (st0 factory) = Ok (rs, s, es) /\
  filter is_receive (all_calls ts rs) = map OReceive (map fst outs) /\ ~ In ODisable (all_calls ts rs) /\
  roomy ts rs listener0 /\
  map (fun o => length (served o)) (filter (fun o => match worked_on o with Some _ => true | None => false end) rs) = repeat 6%nat 5 /\
  seen_in es = [Told (EDirection 3 true); Told (ESpeed 3 30); Told (EFunction 3 0x1E0 0xA0)].
Proof.
  do 8 eexists. cbv zeta. split; [unfold config_ok; cbn; lia|].
  split; [split; [apply Forall_forall; intros x Hx; vm_compute in Hx; unfold byte; intuition lia|vm_compute; repeat split; lia]|].
  split; [split; [apply Forall_forall; intros x Hx; vm_compute in Hx; unfold byte; intuition lia|vm_compute; repeat split; lia]|].
  split; [vm_compute; reflexivity|]. split; [vm_compute; reflexivity|]. split; [vm_compute; reflexivity|]. split; [vm_compute; reflexivity|].
  split; [apply planned_ok; vm_compute; reflexivity|]. split; [vm_compute; reflexivity|]. split; [vm_compute; reflexivity|].
  split; [apply no_disableb_ok; vm_compute; reflexivity|]. split; [apply roomyb_ok; vm_compute; reflexivity|].
  split; vm_compute; reflexivity.
Qed.
