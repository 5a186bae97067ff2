(** Programming on the programming track: reading and writing CVs in service mode, from the
    packets to the acknowledgements *)
From Verif Require Import Prelude Address Packets SpecCodec SpecTx Tx CodecProofs2 RxState Rx SpecRx RxBitProofs5 SpecExec SpecConf SpecCv Toy
  SpecLayout LayoutProofs4 LayoutProofs6 SpecProg ProgProofs LayoutWitness.

(** * C99 *)

(** A decoder takes reset packets, then any turns of a programmer (each a service mode
    packet at least twice in a row, then any number of resets, no turn the same as the one
    before it), then nothing or one packet that ends service mode. The application is told
    of service mode, sees every access once, and the acknowledgements are exactly those of
    [programmed]. [before] is what the decoder took until then; it may not end in service
    mode, and the first packet may not be the last one counted in it (C40). *)
Theorem C99_session : forall (I : Type) (E : Env I) (m : I -> Z -> Z) able, keeps_cvs able E m ->
  forall os i s es before n ts pss after,
  run E (OInit :: os) (st0 i) = Ok (tt, s, es) -> logons os listener0 = [] ->
  taken os listener0 = before ++ repeat make_reset_packet (S n) ++ concat pss ++ after ->
  Forall2 turn_sent ts pss -> changing ts -> ending after ->
  let b := obey_all (e_east_west E) before (new_view (m i)) in
  v_service (fst b) = false -> Forall (allowed able) (snd b) ->
  (forall t, In t ts -> is_writing (t_access t) = true -> able (t_access t)) ->
  (forall t r p, ts = t :: r -> service_packet (t_access t) = Ok p -> v_last (fst b) <> p) ->
  let x := programmed (map t_access ts) (v_cvs (fst b)) in
  seen_in es = snd b ++ Told (EServiceModeHook true) :: snd x ++ farewell after /\
  (forall a, m (app s) a = fst x a) /\ in_service s = match after with [] => true | _ => false end.
Proof. exact @programming. Qed.
Print Assumptions C99_session.

(** The same behind a transmitter: the packets are those finished on the track, less those
    still queued in the decoder *)
Theorem C99_track : forall (I : Type) (E : Env I) (m : I -> Z -> Z) able, keeps_cvs able E m ->
  forall c ops xs tx i dos s es,
  config_ok c -> Forall plain_op ops -> (forall bs, In (TBytes bs) ops -> packet_ok bs) ->
  tx_run (TInit c :: ops) (tx_init_state 4) = Ok ((None, []) :: xs, tx) ->
  filter is_receive dos = map OReceive (map fst (intervals xs)) -> ~ In ODisable dos ->
  never_full dos listener0 -> run E (OInit :: dos) (st0 i) = Ok (tt, s, es) ->
  exists h, flat_map call_of h = ops /\ flat_map result_of h = xs /\ history_ok c h /\
    forall before n ts pss after,
    finished c (None :: started h) (length (ticks h))
      = (before ++ repeat make_reset_packet (S n) ++ concat pss ++ after) ++ r_deque (rxs s) ->
    Forall2 turn_sent ts pss -> changing ts -> ending after ->
    let b := obey_all (e_east_west E) before (new_view (m i)) in
    v_service (fst b) = false -> Forall (allowed able) (snd b) ->
    (forall t, In t ts -> is_writing (t_access t) = true -> able (t_access t)) ->
    (forall t r p, ts = t :: r -> service_packet (t_access t) = Ok p -> v_last (fst b) <> p) ->
    let x := programmed (map t_access ts) (v_cvs (fst b)) in
    seen_in es = snd b ++ Told (EServiceModeHook true) :: snd x ++ farewell after /\
    (forall a, m (app s) a = fst x a) /\ in_service s = match after with [] => true | _ => false end.
Proof. exact @programming_track. Qed.
Print Assumptions C99_track.

(** Reading a CV of an unlocked decoder bit by bit: the acknowledged bits add up to the
    value of the CV, and the byte compared at the end is acknowledged if and only if it is
    this value. No CV changes. *)
Theorem C99_read : forall (I : Type) (E : Env I) (m : I -> Z -> Z) able, keeps_cvs able E m ->
  forall os i s es before n ts pss after a w,
  run E (OInit :: os) (st0 i) = Ok (tt, s, es) -> logons os listener0 = [] ->
  taken os listener0 = before ++ repeat make_reset_packet (S n) ++ concat pss ++ after ->
  Forall2 turn_sent ts pss -> map t_access ts = reading a w -> ending after ->
  let b := obey_all (e_east_west E) before (new_view (m i)) in
  v_service (fst b) = false -> Forall (allowed able) (snd b) ->
  (forall t r p, ts = t :: r -> service_packet (t_access t) = Ok p -> v_last (fst b) <> p) ->
  cvs_locked (switches (v_cvs (fst b))) = false -> byte (v_cvs (fst b) a) ->
  exists l, seen_in es = snd b ++ Told (EServiceModeHook true) :: l ++ farewell after /\
    read_out l = v_cvs (fst b) a /\ confirmed_last l = (w =? v_cvs (fst b) a) /\
    forall x, m (app s) x = v_cvs (fst b) x.
Proof. exact @read_session. Qed.
Print Assumptions C99_read.

(** Writing a CV of an unlocked decoder: it is stored once and acknowledged once, has the
    value afterwards, and no other CV changes *)
Theorem C99_write : forall (I : Type) (E : Env I) (m : I -> Z -> Z) able, keeps_cvs able E m ->
  forall os i s es before n k r pss after a v,
  run E (OInit :: os) (st0 i) = Ok (tt, s, es) -> logons os listener0 = [] ->
  taken os listener0 = before ++ repeat make_reset_packet (S n) ++ concat pss ++ after ->
  Forall2 turn_sent [Turn (Store a v) k r] pss -> ending after ->
  let b := obey_all (e_east_west E) before (new_view (m i)) in
  v_service (fst b) = false -> Forall (allowed able) (snd b) -> able (Store a v) ->
  (forall p, service_packet (Store a v) = Ok p -> v_last (fst b) <> p) ->
  cvs_locked (switches (v_cvs (fst b))) = false ->
  seen_in es = snd b ++ [Told (EServiceModeHook true); Access (Store a v); Told EServiceAck] ++ farewell after /\
  m (app s) a = v /\ forall x, x <> a -> m (app s) x = v_cvs (fst b) x.
Proof. exact @write_session. Qed.
Print Assumptions C99_write.

(** A locked decoder is silent and keeps its CVs through any session that does not write
    CV15 *)
Theorem C99_locked : forall (I : Type) (E : Env I) (m : I -> Z -> Z) able, keeps_cvs able E m ->
  forall os i s es before n ts pss after,
  run E (OInit :: os) (st0 i) = Ok (tt, s, es) -> logons os listener0 = [] ->
  taken os listener0 = before ++ repeat make_reset_packet (S n) ++ concat pss ++ after ->
  Forall2 turn_sent ts pss -> changing ts -> ending after ->
  let b := obey_all (e_east_west E) before (new_view (m i)) in
  v_service (fst b) = false -> Forall (allowed able) (snd b) ->
  (forall t r p, ts = t :: r -> service_packet (t_access t) = Ok p -> v_last (fst b) <> p) ->
  cvs_locked (switches (v_cvs (fst b))) = true ->
  (forall t, In t ts -> is_writing (t_access t) = false \/ target (t_access t) <> 15 - 1) ->
  seen_in es = snd b ++ Told (EServiceModeHook true) :: farewell after /\
  forall x, m (app s) x = v_cvs (fst b) x.
Proof. exact @locked_session. Qed.
Print Assumptions C99_locked.

(** A station reads CV29 (10, that is bits 3 and 1): three resets, nine turns, every packet
    handed over before the queue runs dry, idle packets before and after *)
Example C99_ex : exists pss xs tx s es,
  let c := TxConfig 20 58 100 false false in
  let ts := map (fun x => Turn x 2 0) (reading 28 10) in
  let ops := TBytes [0; 0; 0] :: TBytes [0; 0; 0] :: TBytes [0; 0; 0] :: repeat TTransmit 100
             ++ flat_map (fun p => TBytes p :: repeat TTransmit 114) (concat pss) ++ repeat TTransmit 500 in
  let dos := map OReceive (map fst (intervals xs)) ++ repeat OExecute 23 in
  Forall2 turn_sent ts pss /\ changing ts /\
  tx_run (TInit c :: ops) (tx_init_state 4) = Ok ((None, []) :: xs, tx) /\
  run toy (OInit :: dos) (st0 factory) = Ok (tt, s, es) /\ logons dos listener0 = [] /\
  taken dos listener0 = [[0xFF; 0; 0xFF]] ++ repeat make_reset_packet 3 ++ concat pss ++ [[0xFF; 0; 0xFF]] /\
  seen_in es =
    Told (EServiceModeHook true) ::
    [Access (CheckBit 28 true 7); Access (CheckBit 28 true 6); Access (CheckBit 28 true 5); Access (CheckBit 28 true 4);
     Access (CheckBit 28 true 3); Told EServiceAck; Access (CheckBit 28 true 2); Access (CheckBit 28 true 1); Told EServiceAck;
     Access (CheckBit 28 true 0); Access (Check 28 10); Told EServiceAck]
    ++ [Told (EServiceModeHook false)] /\
  read_out (seen_in es) = 10.
Proof.
  exists (map (fun p => [p; p]) (map (fun x => match service_packet x with Ok p => p | UB _ => [] end) (reading 28 10))).
  do 4 eexists. intros c ts ops dos.
  split. { subst ts. unfold reading. cbn [map List.app].
    repeat (apply Forall2_cons; [split; [cbn; lia|split; [split; cbn; lia|eexists; split; reflexivity]]|]). apply Forall2_nil. }
  split. { subst ts. cbn. repeat split; discriminate. }
  split; [vm_compute; reflexivity|]. split; [vm_compute; reflexivity|]. split; [vm_compute; reflexivity|].
  split; [vm_compute; reflexivity|]. split; vm_compute; reflexivity.
Qed.

(** CV3 written and verified in one session *)
Example C99_write_ex :
  let ts := [Turn (Store 2 77) 3 1; Turn (Check 2 77) 2 0; Turn (Check 2 78) 5 2] in
  let pss := [repeat (closed [0x7C; 2; 77]) 3 ++ [[0; 0; 0]]; repeat (closed [0x74; 2; 77]) 2;
              repeat (closed [0x74; 2; 78]) 5 ++ [[0; 0; 0]; [0; 0; 0]]] in
  let ps := [[0; 0; 0]] ++ concat pss in
  exists s es, Forall2 turn_sent ts pss /\ run toy (OInit :: hears ps 14) (st0 factory) = Ok (tt, s, es) /\
    logons (hears ps 14) listener0 = [] /\ taken (hears ps 14) listener0 = ps /\
    seen_in es = [Told (EServiceModeHook true); Access (Store 2 77); Told EServiceAck;
                  Access (Check 2 77); Told EServiceAck; Access (Check 2 78)] /\ app s 2 = 77.
Proof.
  intros ts pss ps. do 2 eexists.
  split. { repeat (apply Forall2_cons; [split; [cbn; lia|split; [split; cbn; lia|eexists; split; reflexivity]]|]). apply Forall2_nil. }
  split; [vm_compute; reflexivity|]. split; [vm_compute; reflexivity|]. split; [vm_compute; reflexivity|].
  split; vm_compute; reflexivity.
Qed.

(** Between the packets of a programmer the transmitter must never run out of packets: it
    then sends an idle packet, which ends service mode, and the packets that follow are
    packets for the main track. Here two packets that should write 0x90 to CV64 do not, and
    set the locomotive with address 124 in motion. *)
Theorem C99_gaps_refuted : exists w xs tx s es,
  let c := TxConfig 20 58 100 false false in
  let cvs := put factory 0 124 in
  let ops := TBytes [0; 0; 0] :: TBytes [0; 0; 0] :: TBytes [0; 0; 0] :: repeat TTransmit 450
             ++ TBytes w :: TBytes w :: repeat TTransmit 450 in
  let dos := map OReceive (map fst (intervals xs)) ++ repeat OExecute 8 in
  make_cv_access_long_write_service_packet (64 - 1) 0x90 = Ok w /\
  tx_run (TInit c :: ops) (tx_init_state 4) = Ok ((None, []) :: xs, tx) /\
  run toy (OInit :: dos) (st0 cvs) = Ok (tt, s, es) /\
  app s (64 - 1) = 0 /\ ~ In (Told EServiceAck) (seen_in es) /\
  In (Told (EDirection 124 true)) (seen_in es) /\ In (Told (ESpeed 124 30)) (seen_in es).
Proof.
  do 5 eexists. intros c cvs ops dos. split; [reflexivity|]. split; [vm_compute; reflexivity|]. split; [vm_compute; reflexivity|].
  split; [vm_compute; reflexivity|].
  split. { vm_compute. intuition discriminate. }
  split; vm_compute; intuition.
Qed.
Print Assumptions C99_gaps_refuted.
