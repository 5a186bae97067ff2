(** Property C119: emergency stop of all locomotives *)
From Verif Require Import Prelude Address SpecCodec SpecTx Tx CodecProofs2 RxState Rx SpecRx SpecExec SpecConf SpecCv SpecBidi SpecSafe Toy
  SpecLayout SpecLayout2 LayoutWitness SpecStation StationProofs2 StationProofs4 StationWitness SpecPace PaceWitness SpecLatency SpecReact
  SpecHalt HaltProofs2 HaltWitness.

(** * C119 *)

(** An emergency stop for all handed over while fewer than three packets wait: after the time
    of three more longest packets than wait, every decoder at the track that calls execute()
    often enough has told it to its application, and nothing about driving since, whatever
    its address, its CVs and its application are. This stays so as long as no packet that sets
    a speed is handed over. No reset packet precedes it. *)
Theorem C119_stop : forall c ops1 bs ops2 xs1 x xs2 tx, config_ok c -> Forall plain_op (ops1 ++ TBytes bs :: ops2) ->
  (forall p, In (TBytes p) (ops1 ++ TBytes bs :: ops2) -> packet_ok p /\ complete p) ->
  stops_all bs -> (forall p, In (TBytes p) ops1 -> ~ resets p) -> (forall p, In (TBytes p) ops2 -> ~ sets_speed p) ->
  tx_run (TInit c :: ops1 ++ TBytes bs :: ops2) (tx_init_state 4) = Ok ((None, []) :: xs1 ++ x :: xs2, tx) -> length xs1 = length ops1 ->
  exists h1 ws, flat_map call_of h1 = ops1 /\ flat_map result_of h1 = xs1 /\ history_ok c h1 /\ SpecTx.waiting h1 ws /\
  ((length ws < 3)%nat -> (Z.of_nat (length ws) + 3) * longest c <= lasting (intervals xs2) ->
   forall (I : Type) (E : Env I) (time : I -> Z) i dos, short_cv1 E -> clock E time -> 0 <= time i ->
     filter is_receive dos = map OReceive (map fst (intervals (xs1 ++ x :: xs2))) -> ~ In ODisable dos ->
     paced c dos -> on_time dos -> halted E i dos).
Proof. exact all_stop. Qed.
Print Assumptions C119_stop.

(** If packets are handed over a longest packet's time apart, three packet times are enough *)
Theorem C119_apart : forall c ops1 bs ops2 xs1 x xs2 tx, config_ok c -> Forall plain_op (ops1 ++ TBytes bs :: ops2) ->
  (forall p, In (TBytes p) (ops1 ++ TBytes bs :: ops2) -> packet_ok p /\ complete p) ->
  stops_all bs -> (forall p, In (TBytes p) ops1 -> ~ resets p) -> (forall p, In (TBytes p) ops2 -> ~ sets_speed p) ->
  tx_run (TInit c :: ops1 ++ TBytes bs :: ops2) (tx_init_state 4) = Ok ((None, []) :: xs1 ++ x :: xs2, tx) -> length xs1 = length ops1 ->
  apart (longest c) (longest c) (combine (ops1 ++ TBytes bs :: ops2) (xs1 ++ x :: xs2)) = true ->
  3 * longest c <= lasting (intervals xs2) ->
  forall (I : Type) (E : Env I) (time : I -> Z) i dos, short_cv1 E -> clock E time -> 0 <= time i ->
    filter is_receive dos = map OReceive (map fst (intervals (xs1 ++ x :: xs2))) -> ~ In ODisable dos ->
    paced c dos -> on_time dos -> halted E i dos.
Proof. exact all_stop_apart. Qed.
Print Assumptions C119_apart.

(** Handed over directly behind a reset packet, the emergency stop reaches no application: the
    reset packet starts service mode, where packets with address 0 are ignored. Nothing else is
    sent but idle packets, for more than the time given above. *)
Theorem C119_behind_reset : exists xs1 x xs2 tx dos s es,
  let c := TxConfig 17 58 100 false true in
  let ops1 := [TBytes [0; 0; 0]] in let bs := frame 0 [0x3F; 0x81] in let ops2 := repeat TTransmit 2000 in
  config_ok c /\ Forall plain_op (ops1 ++ TBytes bs :: ops2) /\
  (forall p, In (TBytes p) (ops1 ++ TBytes bs :: ops2) -> packet_ok p /\ complete p) /\ stops_all bs /\
  tx_run (TInit c :: ops1 ++ TBytes bs :: ops2) (tx_init_state 4) = Ok ((None, []) :: xs1 ++ x :: xs2, tx) /\ length xs1 = length ops1 /\
  4 * longest c <= lasting (intervals xs2) /\
  filter is_receive dos = map OReceive (map fst (intervals (xs1 ++ x :: xs2))) /\ ~ In ODisable dos /\ paced c dos /\ on_time dos /\
  run careful (OInit :: dos) (st0 (fun a => if a =? 0 then 3 else 0)) = Ok (tt, s, es) /\ drives es = [] /\
  seen_in es = [Told (EServiceModeHook true); Told (EServiceModeHook false)].
Proof. exact reset_swallows. Qed.
Print Assumptions C119_behind_reset.

(** Locomotives 3 and 1000 at one track: a speed for 3, an emergency stop for all 35 ms later,
    then functions for 3 and idle packets *)
Example C119_ex : exists xs1 x xs2 tx s es s' es',
  let c := TxConfig 17 58 100 false true in
  let bs := frame 0 [0x61] in
  let ops1 := TBytes (frame 3 [0x3F; 0x90]) :: repeat TTransmit 500 in
  let ops2 := repeat TTransmit 500 ++ TBytes (frame 3 [0x90]) :: repeat TTransmit 1000 in
  let dos := timed (shortest c) 0 (map fst (intervals (xs1 ++ x :: xs2))) in
  stops_all bs /\ (forall p, In (TBytes p) ops1 -> ~ resets p) /\ (forall p, In (TBytes p) ops2 -> ~ sets_speed p) /\
  tx_run (TInit c :: ops1 ++ TBytes bs :: ops2) (tx_init_state 4) = Ok ((None, []) :: xs1 ++ x :: xs2, tx) /\ length xs1 = length ops1 /\
  apart (longest c) (longest c) (combine (ops1 ++ TBytes bs :: ops2) (xs1 ++ x :: xs2)) = true /\
  3 * longest c <= lasting (intervals xs2) /\
  filter is_receive dos = map OReceive (map fst (intervals (xs1 ++ x :: xs2))) /\ ~ In ODisable dos /\ on_time dos /\ paced c dos /\
  run careful (OInit :: dos) (st0 (fun a => if a =? 0 then 3 else 0)) = Ok (tt, s, es) /\
  drives es = [EDirection 3 true; ESpeed 3 30; ESpeed 0 (-1)] /\
  seen_in es = map Told [EDirection 3 true; ESpeed 3 30; ESpeed 0 (-1); EFunction 3 0x1E 1] /\
  run careful (OInit :: dos) (st0 (fun a => if a =? 28 then 32 else if a =? 16 then 0xC3 else if a =? 17 then 0xE8 else 0)) = Ok (tt, s', es') /\
  drives es' = [ESpeed 0 (-1)].
Proof. exact stop_example. Qed.
