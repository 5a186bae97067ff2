(** Property C113: how long it takes until a decoder has obeyed a packet handed to the station *)
From Verif Require Import Prelude Address SpecCodec SpecTx Tx CodecProofs2 RxState Rx SpecRx SpecExec SpecConf SpecCv SpecBidi SpecSafe Toy
  SpecLayout SpecLayout2 LayoutWitness SpecStation StationProofs2 StationProofs4 StationWitness SpecPace PaceWitness SpecLatency SpecReact ReactProofs.

(** * C113 *)

(** A packet handed over while fewer than three wait: after the time of three more longest
    packets than wait, every decoder at the track that calls execute() often enough has obeyed
    it, behind exactly the packets accepted before it and before those accepted later, in order
    (and idle packets) *)
Theorem C113_reaction : forall (I : Type) (E : Env I) (m : I -> Z -> Z) able (time : I -> Z),
  keeps_cvs able E m -> short_cv1 E -> clock E time ->
  forall c ops1 bs ops2 xs1 x xs2 tx i, 0 <= time i -> config_ok c -> Forall plain_op (ops1 ++ TBytes bs :: ops2) ->
  (forall p, In (TBytes p) (ops1 ++ TBytes bs :: ops2) -> packet_ok p /\ complete p) ->
  tx_run (TInit c :: ops1 ++ TBytes bs :: ops2) (tx_init_state 4) = Ok ((None, []) :: xs1 ++ x :: xs2, tx) -> length xs1 = length ops1 ->
  exists h1 ws, flat_map call_of h1 = ops1 /\ flat_map result_of h1 = xs1 /\ history_ok c h1 /\ SpecTx.waiting h1 ws /\
  ((length ws < 3)%nat -> (Z.of_nat (length ws) + 3) * longest c <= lasting (intervals xs2) ->
   exists h2 ps qs, flat_map call_of h2 = ops2 /\ flat_map result_of h2 = xs2 /\ history_ok c (h1 ++ Queued bs :: h2) /\
   handed_over ps = queued h1 /\ begins_with (queued h2) (handed_over qs) /\
   forall dos, filter is_receive dos = map OReceive (map fst (intervals (xs1 ++ x :: xs2))) -> ~ In ODisable dos ->
     paced c dos -> on_time dos -> has_obeyed E m able i (contents ps) bs (contents qs) dos).
Proof. exact @reaction. Qed.
Print Assumptions C113_reaction.

(** If packets are handed over a longest packet's time apart, three packet times are enough,
    and it comes behind all packets handed over before it *)
Theorem C113_apart : forall (I : Type) (E : Env I) (m : I -> Z -> Z) able (time : I -> Z),
  keeps_cvs able E m -> short_cv1 E -> clock E time ->
  forall c ops1 bs ops2 xs1 x xs2 tx i, 0 <= time i -> config_ok c -> Forall plain_op (ops1 ++ TBytes bs :: ops2) ->
  (forall p, In (TBytes p) (ops1 ++ TBytes bs :: ops2) -> packet_ok p /\ complete p) ->
  tx_run (TInit c :: ops1 ++ TBytes bs :: ops2) (tx_init_state 4) = Ok ((None, []) :: xs1 ++ x :: xs2, tx) -> length xs1 = length ops1 ->
  apart (longest c) (longest c) (combine (ops1 ++ TBytes bs :: ops2) (xs1 ++ x :: xs2)) = true ->
  3 * longest c <= lasting (intervals xs2) ->
  exists ps qs, handed_over ps = asked ops1 /\ begins_with (asked ops2) (handed_over qs) /\
  forall dos, filter is_receive dos = map OReceive (map fst (intervals (xs1 ++ x :: xs2))) -> ~ In ODisable dos ->
    paced c dos -> on_time dos -> has_obeyed E m able i (contents ps) bs (contents qs) dos.
Proof. exact @reaction_apart. Qed.
Print Assumptions C113_apart.

(** CV writes, then a speed 70 ms later, then nothing for 105 ms; execute() every 6.6 ms *)
Example C113_ex : exists xs1 x xs2 tx s es,
  let c := TxConfig 17 58 100 false true in
  let w := frame 3 [0xEC; 2; 5] in let bs := frame 3 [0x3F; 0x90] in
  let ops1 := TBytes w :: repeat TTransmit 500 ++ TBytes w :: repeat TTransmit 500 in let ops2 := repeat TTransmit 1700 in
  let dos := timed (shortest c) 0 (map fst (intervals (xs1 ++ x :: xs2))) in
  tx_run (TInit c :: ops1 ++ TBytes bs :: ops2) (tx_init_state 4) = Ok ((None, []) :: xs1 ++ x :: xs2, tx) /\ length xs1 = length ops1 /\
  apart (longest c) (longest c) (combine (ops1 ++ TBytes bs :: ops2) (xs1 ++ x :: xs2)) = true /\ longest c = 34959 /\
  3 * longest c <= lasting (intervals xs2) /\
  filter is_receive dos = map OReceive (map fst (intervals (xs1 ++ x :: xs2))) /\ ~ In ODisable dos /\ on_time dos /\ paced c dos /\
  run careful (OInit :: dos) (st0 (fun a => if a =? 0 then 3 else 0)) = Ok (tt, s, es) /\
  seen_in es = [Access (Store 2 5); Told (EDirection 3 true); Told (ESpeed 3 30)].
Proof.
  cbv zeta.
  set (l := match tx_run (TInit (TxConfig 17 58 100 false true) :: (TBytes (frame 3 [0xEC; 2; 5]) :: repeat TTransmit 500 ++
    TBytes (frame 3 [0xEC; 2; 5]) :: repeat TTransmit 500) ++ TBytes (frame 3 [0x3F; 0x90]) :: repeat TTransmit 1700) (tx_init_state 4) with
    | Ok (_ :: l, _) => l | _ => [] end).
  exists (firstn 1002 l), (None, []), (skipn 1003 l). do 3 eexists.
  split; [vm_compute; reflexivity|]. split; [vm_compute; reflexivity|]. split; [vm_compute; reflexivity|]. split; [reflexivity|].
  split; [vm_compute; discriminate|]. split; [apply timed_receives|]. split; [apply timed_no_disable|]. split; [apply timed_on_time|].
  split; [right; apply within_ok; vm_compute; reflexivity|]. split; [vm_compute; reflexivity|vm_compute; reflexivity].
Qed.
