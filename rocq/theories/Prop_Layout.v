(** The decoder as an interpreter of packets, and the whole way from the commands given to
    a command station to the CVs and calls of the application in a locomotive *)
From Verif Require Import Prelude Address SpecCodec SpecTx Tx CodecProofs2 RxState Rx SpecRx RxBitProofs5 SpecExec SpecConf SpecCv Toy
  SpecLayout LayoutProofs4 LayoutProofs6 SpecLayout2 LayoutProofs8 LayoutWitness.

(** * C73 *)

(** Calls of the library in any order, from a new decoder: what the application sees, its
    CVs, the mode and the page register are those of the interpreter [obey_all] (five
    values, no decoder state) on the packets taken from the queue, provided that no logon
    packet came in and the interpreter writes only what the application is [able] to keep *)
Theorem C73_interpreter : forall (I : Type) (E : Env I) (m : I -> Z -> Z) able, keeps_cvs able E m ->
  forall os i s es, run E (OInit :: os) (st0 i) = Ok (tt, s, es) -> logons os listener0 = [] ->
  let x := obey_all (e_east_west E) (taken os listener0) (new_view (m i)) in
  Forall (allowed able) (snd x) ->
  seen_in es = snd x /\ (forall a, m (app s) a = v_cvs (fst x) a) /\
  in_service s = v_service (fst x) /\ page s = v_page (fst x).
Proof. exact @layout. Qed.
Print Assumptions C73_interpreter.

(** The memory of the examples keeps CVs 1 to 1024 *)
Theorem C73_memory : keeps_cvs all_cvs toy (fun c a => u8 (c a)).
Proof. exact toy_keeps. Qed.
Print Assumptions C73_memory.

(** Driving, a write to CV19 that puts the decoder into consist 5, driving the consist
    backwards, service mode, direct verify with acknowledgement, back *)
Example C73_ex :
  let ps := [frame 3 [0x3F; 0x90]; frame 3 [0xEC; 18; 0x85]; frame 3 [0xEC; 18; 0x85]; frame 5 [0x3F; 0x90];
             [0; 0; 0]; closed [0x74; 0; 3]; closed [0x74; 0; 3]; [0xFF; 0; 0xFF]; frame 4 [0x3F; 0x90]; frame 3 [0xB5]] in
  exists s es, run toy (OInit :: hears ps 10) (st0 factory) = Ok (tt, s, es) /\
    logons (hears ps 10) listener0 = [] /\ taken (hears ps 10) listener0 = ps /\
    snd (obey_all false ps (new_view (fun a => u8 (factory a)))) =
    [Told (EDirection 3 true); Told (ESpeed 3 30); Access (Store 18 0x85);
     Told (EDirection 5 false); Told (ESpeed 5 30); Told (EServiceModeHook true);
     Access (Check 0 3); Told EServiceAck; Told (EServiceModeHook false); Told (EFunction 3 0x1E0 0xA0)] /\
    Forall (allowed all_cvs) (snd (obey_all false ps (new_view (fun a => u8 (factory a))))).
Proof.
  intros ps. do 2 eexists. split; [vm_compute; reflexivity|]. split; [vm_compute; reflexivity|].
  split; [vm_compute; reflexivity|].
  assert (H : snd (obey_all false ps (new_view (fun a => u8 (factory a)))) =
    [Told (EDirection 3 true); Told (ESpeed 3 30); Access (Store 18 0x85);
     Told (EDirection 5 false); Told (ESpeed 5 30); Told (EServiceModeHook true);
     Access (Check 0 3); Told EServiceAck; Told (EServiceModeHook false); Told (EFunction 3 0x1E0 0xA0)])
    by (vm_compute; reflexivity).
  split; [exact H|]. rewrite H. repeat (apply Forall_cons; [unfold all_cvs; cbn; try exact Logic.I; lia|]). apply Forall_nil.
Qed.

(** * C74 *)

(** The same with a command station at the other end of the track: the packets
    interpreted are the packets finished on the track, in order, less those still queued
    in the decoder *)
Theorem C74_layout : forall (I : Type) (E : Env I) (m : I -> Z -> Z) able, keeps_cvs able E m ->
  forall c ops xs tx i dos s es,
  config_ok c -> Forall plain_op ops -> (forall bs, In (TBytes bs) ops -> packet_ok bs) ->
  tx_run (TInit c :: ops) (tx_init_state 4) = Ok ((None, []) :: xs, tx) ->
  filter is_receive dos = map OReceive (map fst (intervals xs)) -> ~ In ODisable dos ->
  never_full dos listener0 -> run E (OInit :: dos) (st0 i) = Ok (tt, s, es) ->
  exists h done, flat_map call_of h = ops /\ flat_map result_of h = xs /\ history_ok c h /\
    finished c (None :: started h) (length (ticks h)) = done ++ r_deque (rxs s) /\
    let x := obey_all (e_east_west E) done (new_view (m i)) in
    Forall (allowed able) (snd x) ->
    seen_in es = snd x /\ (forall a, m (app s) a = v_cvs (fst x) a) /\
    in_service s = v_service (fst x) /\ page s = v_page (fst x).
Proof. exact @whole_layout. Qed.
Print Assumptions C74_layout.

(** A station with cutouts, asked to enter service mode and to read CV1: two resets, then
    two verify packets; the idle packet behind them ends service mode *)
Example C74_ex : exists xs tx s es,
  let c := TxConfig 20 57 110 true true in
  let ops := TBytes [0; 0; 0] :: TBytes [0; 0; 0] :: repeat TTransmit 200
             ++ TBytes (closed [0x74; 0; 3]) :: TBytes (closed [0x74; 0; 3]) :: repeat TTransmit 500 in
  let dos := map OReceive (map fst (intervals xs)) ++ repeat OExecute 7 in
  tx_run (TInit c :: ops) (tx_init_state 4) = Ok ((None, []) :: xs, tx) /\
  run toy (OInit :: dos) (st0 factory) = Ok (tt, s, es) /\ r_deque (rxs s) = [] /\
  taken dos listener0 = [[0xFF; 0; 0xFF]; [0; 0; 0]; [0; 0; 0]; closed [0x74; 0; 3]; closed [0x74; 0; 3]; [0xFF; 0; 0xFF]] /\
  seen_in es = [Told (EServiceModeHook true); Access (Check 0 3); Told EServiceAck; Told (EServiceModeHook false)].
Proof.
  do 4 eexists. split; [vm_compute; reflexivity|]. split; [vm_compute; reflexivity|].
  split; [vm_compute; reflexivity|]. split; vm_compute; reflexivity.
Qed.

(** The station is asked a little later, and an idle packet gets between: nothing is
    read *)
Example C74_late : exists xs tx s es,
  let c := TxConfig 20 57 110 true true in
  let ops := TBytes [0; 0; 0] :: TBytes [0; 0; 0] :: repeat TTransmit 300
             ++ TBytes (closed [0x74; 0; 3]) :: TBytes (closed [0x74; 0; 3]) :: repeat TTransmit 500 in
  let dos := map OReceive (map fst (intervals xs)) ++ repeat OExecute 7 in
  tx_run (TInit c :: ops) (tx_init_state 4) = Ok ((None, []) :: xs, tx) /\
  run toy (OInit :: dos) (st0 factory) = Ok (tt, s, es) /\
  seen_in es = [Told (EServiceModeHook true); Told (EServiceModeHook false)].
Proof. do 4 eexists. split; [vm_compute; reflexivity|]. split; vm_compute; reflexivity. Qed.

(** * C75 *)

(** From commands to effects. Whenever the commands accepted by the station begin with
    the orders [os] (writes sent twice) and the decoder has executed as many packets
    other than idle packets as these take, its application has seen what
    [carry_out_all] says and its CVs are as [carry_out_all] says: no packets, no queue,
    no repetitions, whatever the timing of the calls *)
Theorem C75_orders : forall (I : Type) (E : Env I) (m : I -> Z -> Z) able, keeps_cvs able E m ->
  forall c ops xs tx i dos s es,
  config_ok c -> Forall plain_op ops -> (forall bs, In (TBytes bs) ops -> packet_ok bs) ->
  tx_run (TInit c :: ops) (tx_init_state 4) = Ok ((None, []) :: xs, tx) ->
  filter is_receive dos = map OReceive (map fst (intervals xs)) -> ~ In ODisable dos ->
  never_full dos listener0 -> run E (OInit :: dos) (st0 i) = Ok (tt, s, es) ->
  exists h, flat_map call_of h = ops /\ flat_map result_of h = xs /\ history_ok c h /\
    forall os pss rest, Forall order_ok os -> Forall2 packets_for os pss -> queued h = concat pss ++ rest ->
      length (filter not_idle (taken dos listener0)) = length (concat pss) ->
      let x := carry_out_all os (m i, None) in Forall (allowed able) (snd x) ->
      seen_in es = snd x /\ (forall a, m (app s) a = fst (fst x) a).
Proof. exact @orders_carried. Qed.
Print Assumptions C75_orders.

(** Without a station: any source of the packets of [os] and of idle packets *)
Theorem C75_decoder : forall (I : Type) (E : Env I) (m : I -> Z -> Z) able, keeps_cvs able E m ->
  forall dos i s es os pss, run E (OInit :: dos) (st0 i) = Ok (tt, s, es) -> logons dos listener0 = [] ->
  Forall order_ok os -> Forall2 packets_for os pss -> filter not_idle (taken dos listener0) = concat pss ->
  let x := carry_out_all os (m i, None) in Forall (allowed able) (snd x) ->
  seen_in es = snd x /\ (forall a, m (app s) a = fst (fst x) a).
Proof. exact @orders_seen. Qed.
Print Assumptions C75_decoder.

(** Orders write to CVs 1 to 1024 only *)
Theorem C75_allowed : forall os mem, Forall order_ok os -> Forall (allowed all_cvs) (snd (carry_out_all os mem)).
Proof. exact orders_in_range. Qed.
Print Assumptions C75_allowed.

(** Among such orders every write that reaches an unlocked decoder is made, and the other
    commands leave the CVs alone ([c] are the CVs before the last command) *)
Theorem C75_written : forall (I : Type) (E : Env I) (m : I -> Z -> Z) able, keeps_cvs able E m ->
  forall dos i s es os n d pss, run E (OInit :: dos) (st0 i) = Ok (tt, s, es) -> logons dos listener0 = [] ->
  Forall order_ok (os ++ [(n, d)]) -> Forall2 packets_for (os ++ [(n, d)]) pss ->
  filter not_idle (taken dos listener0) = concat pss ->
  Forall (allowed able) (snd (carry_out_all (os ++ [(n, d)]) (m i, None))) ->
  let c := fst (fst (carry_out_all os (m i, None))) in
  answers c n = true -> n = 0 \/ n <> aval (consist_address c) -> cvs_locked (switches c) = false ->
  match d with
  | CWrite a b => m (app s) a = b
  | CWriteBit a b k => bit_of (m (app s) a) k = b
  | _ => forall a, m (app s) a = c a
  end.
Proof. exact @write_made. Qed.
Print Assumptions C75_written.

(** With other packets in between it need not be: CV19 is set to 5 by two write packets,
    set to 0 by the consist instruction, and the same two write packets leave it at 0 *)
Theorem C75_written_refuted : exists w consist s es,
  let ps := [w; w; consist; w; w] in
  generate (loco 3) (CWrite (19 - 1) 5) = Ok w /\ consist = frame 3 [0x12; 0] /\
  run toy (OInit :: hears ps 5) (st0 factory) = Ok (tt, s, es) /\
  logons (hears ps 5) listener0 = [] /\ taken (hears ps 5) listener0 = ps /\
  app s (19 - 1) = 0.
Proof.
  exists (frame 3 [0xEC; 18; 5]), (frame 3 [0x12; 0]). destruct lost_write as (s & es & H). exists s, es.
  split; [reflexivity|]. split; [reflexivity|]. exact H.
Qed.
Print Assumptions C75_written_refuted.

(** A speed command and a write, both through the station *)
Example C75_ex : exists xs tx s es pss,
  let os := [(3, CSpeed126 0x90); (3, CWrite 2 5)] in
  let ops := map TBytes (concat pss) ++ repeat TTransmit 700 in
  let dos := map OReceive (map fst (intervals xs)) ++ repeat OExecute 6 in
  Forall order_ok os /\ Forall2 packets_for os pss /\
  tx_run (TInit (TxConfig 17 58 100 false true) :: ops) (tx_init_state 4) = Ok ((None, []) :: xs, tx) /\
  run toy (OInit :: dos) (st0 factory) = Ok (tt, s, es) /\
  length (filter not_idle (taken dos listener0)) = length (concat pss) /\
  seen_in es = [Told (EDirection 3 true); Told (ESpeed 3 30); Access (Store 2 5)] /\ app s 2 = 5.
Proof.
  do 4 eexists. exists [[frame 3 [0x3F; 0x90]]; [frame 3 [0xEC; 2; 5]; frame 3 [0xEC; 2; 5]]].
  split. { repeat (apply Forall_cons; [split; cbn; unfold byte; lia|]). apply Forall_nil. }
  split. { repeat (apply Forall2_cons; [eexists; split; reflexivity|]). apply Forall2_nil. }
  split; [vm_compute; reflexivity|]. split; [vm_compute; reflexivity|]. split; [vm_compute; reflexivity|].
  split; vm_compute; reflexivity.
Qed.
