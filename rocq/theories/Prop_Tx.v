(** Property theorems C14..C18: the transmitter. *)
From Verif Require Import Prelude Tx SpecCodec SpecTx TxProofs.

(** * C14 *)

(** Every schedule of calls with a fixed configuration is free of undefined
    behaviour and has a history in which each packet is queued unless three are
    waiting, packets start in the order queued and only when the previous one
    (with its cutout) is completely sent, the idle packet starts only when nothing
    is waiting, and the track carries exactly the started packets. *)
Theorem C14_history : forall c ops, config_ok c -> Forall plain_op ops ->
  exists xs s h, tx_run (TInit c :: ops) (tx_init_state 4) = Ok ((None, []) :: xs, s) /\
    flat_map call_of h = ops /\ flat_map result_of h = xs /\ history_ok c h.
Proof. exact tx_history. Qed.
Print Assumptions C14_history.

(** The ring buffer with its pointer behaves as a FIFO of values for all schedules,
    including reconfiguration at any time and misuse (assertions) *)
Theorem C14_refines_fifo : forall ops,
  outcome (tx_run ops (tx_init_state 4)) = outcome (atx_run ops atx0).
Proof. exact tx_refines. Qed.
Print Assumptions C14_refines_fifo.

(** Hypotheses: a configuration and a schedule that fills the queue *)
Example C14_ex : config_ok (TxConfig 20 60 100 true false) /\
  Forall plain_op ([TBytes [3; 0x3F; 0x90; 0xAC]; TBytes [1]; TBytes [2]; TBytes [4]] ++ repeat TTransmit 300)
  /\ exists xs s, tx_run ([TInit (TxConfig 20 60 100 true false);
        TBytes [3; 0x3F; 0x90; 0xAC]; TBytes [1]; TBytes [2]; TBytes [4]] ++ repeat TTransmit 300)
        (tx_init_state 4) = Ok (xs, s) /\ tx_size s = 0%nat.
Proof.
  split; [unfold config_ok; cbn; lia|]. split.
  - apply Forall_app. split; [repeat constructor; cbn; lia|].
    apply Forall_forall. intros x Hx. apply repeat_spec in Hx. subst. exact I.
  - do 2 eexists. split; [vm_compute; reflexivity|reflexivity].
Qed.

(** * C15 *)

Theorem C15_outputs : forall ops xs s t ev n p, tx_run ops (tx_init_state 4) = Ok (xs, s) ->
  In (t, ev) xs -> In (TrackOutputs n p) ev ->
  n && p = false /\ (n = false /\ p = false -> t = Some 51 /\ ev = [TrackOutputs false false; BiDiStart]).
Proof. exact outputs_never_both. Qed.
Print Assumptions C15_outputs.

(** Outputs flip with every half bit, starting with the configured phase *)
Theorem C15_alternation : forall c ops, config_ok c -> Forall plain_op ops ->
  exists xs s, tx_run (TInit c :: ops) (tx_init_state 4) = Ok (xs, s) /\
    flipping c None (outputs xs).
Proof. exact tx_flipping. Qed.
Print Assumptions C15_alternation.

Example C15_ex : alternate (TxConfig 17 58 100 true true) true [58; 58; 100]
  = [(58, [TrackOutputs true false]); (58, [TrackOutputs false true]); (100, [TrackOutputs true false])].
Proof. reflexivity. Qed.

(** * C16 *)

(** What [transmit] returned, completed by some remaining intervals, is the idle
    packet followed by queued or idle packets, each with its complete cutout *)
Theorem C16_cutout : forall c ops, config_ok c -> Forall plain_op ops ->
  exists xs s ps rest, tx_run (TInit c :: ops) (tx_init_state 4) = Ok (xs, s) /\
    intervals xs ++ rest = flat_map (on_track c) (None :: ps) /\
    forall bs, In (Some bs) ps -> In (TBytes bs) ops.
Proof. exact tx_intervals. Qed.
Print Assumptions C16_cutout.

Theorem C16_no_cutout : forall c ops, config_ok c -> Forall plain_op ops -> cfg_bidi c = false ->
  exists xs s, tx_run (TInit c :: ops) (tx_init_state 4) = Ok (xs, s) /\ callbacks xs = [].
Proof. exact tx_no_bidi. Qed.
Print Assumptions C16_no_cutout.

(** Times of the calls in the cutout that [on_track] puts after each packet *)
Example C16_times : forall c,
  fold_right Z.add 0 (map fst (cutout c)) = 471 /\
  call_times 0 (cutout c) =
    [(first_half c, 0); (TrackOutputs false false, 29); (BiDiStart, 29); (BiDiChannel1, 80);
     (BiDiChannel2, 193); (BiDiEnd, 454)].
Proof. intros c. split; reflexivity. Qed.

Example C16_ex : on_track (TxConfig 17 58 100 false true) (Some [])
  = alternate (TxConfig 17 58 100 false true) true (repeat 58 36)
    ++ [(29, [TrackOutputs false true]); (51, [TrackOutputs false false; BiDiStart]);
        (113, [BiDiChannel1]); (261, [BiDiChannel2]); (17, [BiDiEnd])].
Proof. reflexivity. Qed.

(** * C17 *)

Theorem C17_queueing_keeps_current : forall ops xs s bs s',
  tx_run ops (tx_init_state 4) = Ok (xs, s) -> tx_bytes bs s = Ok s' ->
  tx_current s' = tx_current s /\ tx_packet_count s' = tx_packet_count s /\
  tx_bidi_count s' = tx_bidi_count s.
Proof. exact queueing_keeps_current. Qed.
Print Assumptions C17_queueing_keeps_current.

(** Without the spare slot the claim is false: a queued packet overwrites the one on the track *)
Theorem C17_needs_spare_slot : outcome (tx_run overwrite_schedule (tx_init_state 3))
  <> outcome (atx_run overwrite_schedule atx0).
Proof. exact three_slots_overwrite. Qed.
Print Assumptions C17_needs_spare_slot.

(** A queued packet is on the track while another one is accepted *)
Example C17_ex : exists xs s s', tx_run (TBytes [1] :: repeat TTransmit 96) (tx_init_state 4) = Ok (xs, s) /\
  tx_packet s = PSlot 0 /\ tx_bytes [2] s = Ok s' /\ tx_size s' = 1%nat.
Proof. do 3 eexists. split; [vm_compute; reflexivity|]. split; [reflexivity|]. split; [vm_compute; reflexivity|reflexivity]. Qed.

(** * C18 *)

(** After any calls, a packet accepted after a new configuration is sent with that
    configuration; packets queued earlier and the one on the track keep theirs *)
Theorem C18_reconfigured : forall before c bs after xs a, config_ok c -> (length bs <= 18)%nat ->
  atx_run before atx0 = Ok (xs, a) -> (length (a_queue a) < 3)%nat ->
  outcome (tx_run (before ++ TInit c :: TBytes bs :: after) (tx_init_state 4)) =
  rbind (outcome (atx_run after
           (Atx (a_queue a ++ [packet_halves c bs]) (a_now a) (a_first a) (a_cut a) c)))
        (fun ys => Ok (xs ++ (None, []) :: (None, []) :: ys)).
Proof. exact reconfigured. Qed.
Print Assumptions C18_reconfigured.

(** Idle packets ignore the configuration *)
Theorem C18_idle_refuted : exists c xs s, config_ok c /\
  tx_run (TInit c :: repeat TTransmit 90) (tx_init_state 4) = Ok (xs, s) /\
  flat_map (fun x => match fst x with Some t => [t] | None => [] end) xs
  <> packet_halves c [0xFF; 0x00; 0xFF].
Proof. exact idle_ignores_config. Qed.
Print Assumptions C18_idle_refuted.

Example C18_ex : packet_halves (TxConfig 17 60 110 false true) [0]
  = repeat 60 34 ++ repeat 110 18 ++ [60; 60].
Proof. reflexivity. Qed.
