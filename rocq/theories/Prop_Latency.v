(** Properties C109 and C110: how long a packet waits in the command station *)
From Verif Require Import Prelude SpecCodec Tx SpecTx SpecLatency LatencyProofs LatencyProofs2.

(** * C109 *)

(** A packet handed over while [ws] wait is accepted if these are fewer than three and is
    completely on the track, its cutout included, after the time of two more longest packets
    than wait at the latest *)
Theorem C109_place : forall c ops1 bs ops2 xs1 x xs2 tx, config_ok c -> Forall plain_op (ops1 ++ TBytes bs :: ops2) ->
  tx_run (TInit c :: ops1 ++ TBytes bs :: ops2) (tx_init_state 4) = Ok ((None, []) :: xs1 ++ x :: xs2, tx) -> length xs1 = length ops1 ->
  exists h1 ws, flat_map call_of h1 = ops1 /\ flat_map result_of h1 = xs1 /\ history_ok c h1 /\ waiting h1 ws /\
    ((length ws < 3)%nat -> (Z.of_nat (length ws) + 2) * longest c <= lasting (intervals xs2) ->
     exists a b, intervals xs2 = a ++ on_track c (Some bs) ++ b /\ lasting (a ++ on_track c (Some bs)) <= (Z.of_nat (length ws) + 2) * longest c).
Proof. exact run_latency. Qed.
Print Assumptions C109_place.

(** Four longest packets after it was handed over it is refused, with three waiting, or the next
    packet delivered after those accepted before it *)
Theorem C109_order : forall c ops1 bs ops2 xs1 x xs2 tx, config_ok c -> Forall plain_op (ops1 ++ TBytes bs :: ops2) ->
  tx_run (TInit c :: ops1 ++ TBytes bs :: ops2) (tx_init_state 4) = Ok ((None, []) :: xs1 ++ x :: xs2, tx) -> length xs1 = length ops1 ->
  4 * longest c <= lasting (intervals xs2) ->
  exists h1 e h2, history_ok c (h1 ++ e :: h2) /\ flat_map call_of h1 = ops1 /\ flat_map result_of h1 = xs1 /\ flat_map result_of h2 = xs2 /\
    (e = Refused bs /\ (exists ws, waiting h1 ws /\ length ws = 3%nat) \/
     e = Queued bs /\ let h := h1 ++ e :: h2 in nth_error (delivered c (None :: started h) (length (ticks h))) (length (queued h1)) = Some bs).
Proof. exact run_order. Qed.
Print Assumptions C109_order.

(** Handed over one half bit into the first of three longest packets, a longest packet takes all
    of the four packet times but this half bit *)
Example C109_ex : let c := TxConfig 17 58 100 false true in let z := repeat 0 18 in
  let ops1 := repeat (TBytes z) 3 ++ repeat TTransmit 96 in let ops2 := repeat TTransmit 1500 in
  config_ok c /\ Forall plain_op (ops1 ++ TBytes z :: ops2) /\ longest c = 34959 /\
  match tx_run (TInit c :: ops1 ++ TBytes z :: ops2) (tx_init_state 4) with
  | Ok (_ :: xs, _) => let l := intervals (skipn 100 xs) in
      4 * longest c <= lasting l /\ firstn 365 (skipn 1094 l) = on_track c (Some z) /\ lasting (firstn 1459 l) = 4 * longest c - 58
  | _ => False
  end.
Proof.
  cbv zeta. split; [unfold config_ok; cbn; lia|].
  split; [rewrite <- app_assoc; apply Forall_app; split; [apply Forall_forall; intros o Ho; apply repeat_spec in Ho; subst o; vm_compute; lia|];
    apply Forall_app; split; [|constructor; [vm_compute; lia|]]; apply Forall_forall; intros o Ho; apply repeat_spec in Ho; subst o; exact Logic.I|].
  split; [vm_compute; reflexivity|]. vm_compute. split; [discriminate|]. split; reflexivity.
Qed.

(** * C110 *)

(** Packets handed over with a longest packet's time of transmitting between them are all
    accepted *)
Theorem C110_accepted : forall c ops xs tx, config_ok c -> Forall plain_op ops ->
  tx_run (TInit c :: ops) (tx_init_state 4) = Ok ((None, []) :: xs, tx) ->
  apart (longest c) (longest c) (combine ops xs) = true ->
  exists h, flat_map call_of h = ops /\ flat_map result_of h = xs /\ history_ok c h /\
    queued h = flat_map (fun o => match o with TBytes bs => [bs] | _ => [] end) ops.
Proof. exact run_none_refused. Qed.
Print Assumptions C110_accepted.

(** And each is completely on the track two packet times after it was handed over *)
Theorem C110_place : forall c ops1 bs ops2 xs1 x xs2 tx, config_ok c -> Forall plain_op (ops1 ++ TBytes bs :: ops2) ->
  tx_run (TInit c :: ops1 ++ TBytes bs :: ops2) (tx_init_state 4) = Ok ((None, []) :: xs1 ++ x :: xs2, tx) -> length xs1 = length ops1 ->
  apart (longest c) (longest c) (combine (ops1 ++ TBytes bs :: ops2) (xs1 ++ x :: xs2)) = true ->
  2 * longest c <= lasting (intervals xs2) ->
  exists a b, intervals xs2 = a ++ on_track c (Some bs) ++ b /\ lasting (a ++ on_track c (Some bs)) <= 2 * longest c.
Proof. exact run_spaced. Qed.
Print Assumptions C110_place.

(** Eight longest packets 400 half bits apart, and the last of them is complete after 405
    half bits and cutout intervals; 390 half bits are too close for the first *)
Example C110_ex : let c := TxConfig 17 58 100 false true in let z := repeat 0 18 in
  let ops n := concat (repeat (TBytes z :: repeat TTransmit n) 7) in let ops2 := repeat TTransmit 1000 in
  config_ok c /\ Forall plain_op (ops 400%nat ++ TBytes z :: ops2) /\
  match tx_run (TInit c :: ops 400%nat ++ TBytes z :: ops2) (tx_init_state 4) with
  | Ok (_ :: xs, _) => let l := intervals (skipn (7 * 401 + 1) xs) in
      apart (longest c) (longest c) (combine (ops 400%nat ++ TBytes z :: ops2) xs) = true /\
      2 * longest c <= lasting l /\ firstn 365 (skipn 40 l) = on_track c (Some z)
  | _ => False
  end /\
  match tx_run (TInit c :: ops 390%nat ++ TBytes z :: ops2) (tx_init_state 4) with
  | Ok (_ :: xs, _) => apart (longest c) (longest c) (combine (ops 390%nat ++ TBytes z :: ops2) xs) = false
  | _ => False
  end.
Proof.
  cbv zeta. split; [unfold config_ok; cbn; lia|].
  split; [apply Forall_app; split; [|constructor; [vm_compute; lia|]]|].
  - apply Forall_forall. intros o Ho. apply in_concat in Ho. destruct Ho as (l & Hl & Ho). apply repeat_spec in Hl. subst l.
    destruct Ho as [<-|Ho]; [vm_compute; lia|]. apply repeat_spec in Ho. subst o. exact Logic.I.
  - apply Forall_forall. intros o Ho. apply repeat_spec in Ho. subst o. exact Logic.I.
  - split; [|vm_compute; reflexivity]. vm_compute. split; [reflexivity|]. split; [discriminate|reflexivity].
Qed.
