(** Properties C106 and C107: cutouts in time, transmissions inside them, mean voltage of the track *)
From Verif Require Import Prelude Datagram SpecCodec Tx SpecTx Wire SpecWire WireProofs WireProofs2 Address RxState Rx SpecRx SpecExec SpecConf SpecCv SpecBidi
  Toy CvWitness LogonWitness BidiWitness.

(** * C106 *)

(** Around every start of channel 1, whatever packets are queued: the outputs go low 51 us
    before, a first half bit of 29 us after the end of the packet, and the station calls next
    channel 2 after 113 us, the end after 374 us, and drives the track again after 391 us *)
Theorem C106_window : forall c ops xs tx a t b, config_ok c -> cfg_bidi c = true -> Forall plain_op ops ->
  tx_run (TInit c :: ops) (tx_init_state 4) = Ok ((None, []) :: xs, tx) ->
  call_times 0 (intervals xs) = a ++ (BiDiChannel1, t) :: b ->
  (exists a', a = a' ++ [(first_half c, t - 80); (TrackOutputs false false, t - 51); (BiDiStart, t - 51)]) /\
  agree b [(BiDiChannel2, t + 113); (BiDiEnd, t + 374); (first_half c, t + 391)].
Proof. exact window1. Qed.
Print Assumptions C106_window.

(** What a decoder sends in channel 1 at 250000 baud, begun up to 17 us late, is over by 177 us
    after the packet, so before channel 2 begins at 193 us *)
Theorem C106_channel1 : forall (I : Type) (E : Env I) (s : st I) u s' es late, reached E s ->
  biDiChannel1 E s = Ok (u, s', es) -> 0 <= late <= 17 ->
  forall d, In d (SpecBidi.sent es) -> 80 + late + airtime baudrate d <= 177.
Proof. exact @on_air1. Qed.
Print Assumptions C106_channel1.

(** What it sends in channel 2, begun up to 21 us late, is over by 454 us, when the cutout ends *)
Theorem C106_channel2 : forall (I : Type) (E : Env I) (s : st I) u s' es late, reached E s ->
  biDiChannel2 E s = Ok (u, s', es) -> 0 <= late <= 21 ->
  forall d, In d (SpecBidi.sent es) -> 193 + late + airtime baudrate d <= 454.
Proof. exact @on_air2. Qed.
Print Assumptions C106_channel2.

(** Two packets and an idle packet between them; a decoder that uses both channels to the full
    would be too late with one microsecond more *)
Example C106_ex : let c := TxConfig 17 58 100 false true in
  let ops := repeat TTransmit 40 ++ TBytes [3; 0x3F; 0x85; 0xB9] :: repeat TTransmit 180 in
  let os := BidiWitness.started ++ [ODatagram [DynKmh 5]] ++ LogonWitness.track drive3 ++ [OReceive 58; OExecute] ++ LogonWitness.track drive3 in
  let s := LogonWitness.after os factory in
  config_ok c /\ Forall plain_op ops /\ reached toy s /\
  option_map (map (airtime baudrate)) (speaks1 s) = Some [80] /\ option_map (map (airtime baudrate)) (speaks2 s) = Some [240] /\
  80 + 18 + 80 > 177 /\ 193 + 22 + 240 > 454 /\
  match tx_run (TInit c :: ops) (tx_init_state 4) with
  | Ok (_ :: xs, _) => flat_map (fun x => match fst x with TrackOutputs true _ | TrackOutputs _ true => [] | _ => [x] end) (call_times 0 (intervals xs)) =
      [(TrackOutputs false false, 6173); (BiDiStart, 6173); (BiDiChannel1, 6224); (BiDiChannel2, 6337); (BiDiEnd, 6598);
       (TrackOutputs false false, 14588); (BiDiStart, 14588); (BiDiChannel1, 14639); (BiDiChannel2, 14752); (BiDiEnd, 15013)]
  | _ => False
  end.
Proof.
  cbv zeta. split; [unfold config_ok; cbn; lia|].
  split; [apply Forall_app; split; [|constructor; [cbn; lia|]]; apply Forall_forall; intros o Ho; apply repeat_spec in Ho; subst o; exact Logic.I|].
  split; [apply after_reached; vm_compute; reflexivity|].
  split; [vm_compute; reflexivity|]. split; [vm_compute; reflexivity|]. split; [lia|]. split; [lia|]. vm_compute. reflexivity.
Qed.

(** * C107 *)

(** At every moment the time the track was positive and the time it was negative differ by no
    more than a half bit of 114 us, apart from the 29 us at the beginning of each cutout *)
Theorem C107_drift : forall c ops xs tx, config_ok c -> Forall plain_op ops ->
  tx_run (TInit c :: ops) (tx_init_state 4) = Ok ((None, []) :: xs, tx) ->
  29 * cutouts (intervals xs) <= polarity c * charge (false, false) (intervals xs) <= 29 * cutouts (intervals xs) + 114.
Proof. exact run_drift. Qed.
Print Assumptions C107_drift.

(** Without BiDi the signal is free of direct voltage *)
Theorem C107_balanced : forall c ops xs tx, config_ok c -> cfg_bidi c = false -> Forall plain_op ops ->
  tx_run (TInit c :: ops) (tx_init_state 4) = Ok ((None, []) :: xs, tx) ->
  0 <= polarity c * charge (false, false) (intervals xs) <= 114.
Proof. exact run_balanced. Qed.
Print Assumptions C107_balanced.

(** With BiDi it is not: the difference outgrows any bound *)
Theorem C107_bidi_grows : forall c bound, config_ok c -> cfg_bidi c = true -> exists n xs tx,
  tx_run (TInit c :: repeat TTransmit n) (tx_init_state 4) = Ok ((None, []) :: xs, tx) /\
  bound < polarity c * charge (false, false) (intervals xs).
Proof. exact drifts_away. Qed.
Print Assumptions C107_bidi_grows.

Example C107_ex : let ops := repeat TTransmit 40 ++ TBytes [3; 0x3F; 0x85; 0xB9] :: repeat TTransmit 151 in
  let seen c := match tx_run (TInit c :: ops) (tx_init_state 4) with
                | Ok (_ :: xs, _) => Some (cutouts (intervals xs), charge (false, false) (intervals xs))
                | _ => None end in
  Forall plain_op ops /\ config_ok (TxConfig 17 58 114 true false) /\ config_ok (TxConfig 17 58 114 true true) /\
  seen (TxConfig 17 58 114 true false) = Some (0, -114) /\ seen (TxConfig 17 58 114 true true) = Some (1, -29).
Proof.
  cbv zeta.
  split; [apply Forall_app; split; [|constructor; [cbn; lia|]]; apply Forall_forall; intros o Ho; apply repeat_spec in Ho; subst o; exact Logic.I|].
  split; [unfold config_ok; cbn; lia|]. split; [unfold config_ok; cbn; lia|].
  split; vm_compute; reflexivity.
Qed.
