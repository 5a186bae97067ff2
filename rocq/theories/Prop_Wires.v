(** A command station and a decoder board connected by two wires, as in examples/stm32 *)
From Verif Require Import Prelude Address SpecCodec SpecTx Tx CodecProofs2 RxState Rx SpecRx SpecExec SpecConf SpecCv SpecBidi SpecSafe Toy
  SpecLayout SpecLayout2 LayoutWitness SpecStation StationProofs2 StationProofs4 StationWitness SpecPace PaceWitness
  Stm32 SpecEdges EdgeProofs2 Stm32Proofs.

(** * C85 *)

(** The decoder board captures edges instead of intervals: rising edges of the two wires in
    turn. An interval is captured when the next one begins, cutouts are merged with the
    half bit that follows, every interval takes one tick longer, the first duration may be
    anything, and each is measured with an error of at most one in 16. Still, the decoder
    makes only defined steps and obeys the packets finished on the track before the last
    interval, in order, all but the last one at most. *)
Theorem C85_obeyed : forall (I : Type) (E : Env I) (m : I -> Z -> Z) able (time : I -> Z),
  keeps_cvs able E m -> short_cv1 E -> clock E time ->
  forall c ops i, 0 <= time i -> config_ok c -> Forall plain_op ops ->
  (forall bs, In (TBytes bs) ops -> packet_ok bs /\ complete bs) ->
  exists h xs tx, tx_run (TInit c :: ops) (tx_init_state 4) = Ok ((None, []) :: xs, tx) /\
  flat_map call_of h = ops /\ flat_map result_of h = xs /\ history_ok c h /\
  forall since ts dos, Forall2 (off 16) (captured since (intervals xs)) ts -> filter is_receive dos = map OReceive ts ->
    ~ In ODisable dos -> awake 16 c dos -> on_time dos ->
    exists s es done left, run E (OInit :: dos) (st0 i) = Ok (tt, s, es) /\
      finished c (None :: started h) (length (ticks h) - 1) = done ++ left /\ (length left <= 1)%nat /\
      let x := obey_all (e_east_west E) done (new_view (m i)) in
      Forall (allowed able) (snd x) ->
      seen_in es = snd x /\ (forall a, m (app s) a = v_cvs (fst x) a) /\
      in_service s = v_service (fst x) /\ page s = v_page (fst x).
Proof. exact @wires_obeyed. Qed.
Print Assumptions C85_obeyed.

(** Orders given at leisure are carried out, each once, in order *)
Theorem C85_done : forall (I : Type) (E : Env I) (m : I -> Z -> Z) able (time : I -> Z),
  keeps_cvs able E m -> short_cv1 E -> clock E time ->
  forall c os pss ks k0 n i, 0 <= time i -> config_ok c -> Forall order_ok os -> Forall2 packets_for os pss ->
  length ks = length os -> Forall (fun k => (782 < k)%nat) ks -> (783 < n)%nat ->
  Forall (allowed able) (snd (carry_out_all os (m i, None))) ->
  exists xs tx, tx_run (TInit c :: repeat TTransmit k0 ++ flat_map calls (combine pss ks) ++ repeat TTransmit n) (tx_init_state 4)
                = Ok ((None, []) :: xs, tx) /\
  forall since ts dos, Forall2 (off 16) (captured since (intervals xs)) ts -> filter is_receive dos = map OReceive ts ->
    ~ In ODisable dos -> awake 16 c dos -> on_time dos ->
    exists s es, run E (OInit :: dos) (st0 i) = Ok (tt, s, es) /\
      seen_in es = snd (carry_out_all os (m i, None)) /\
      forall a, m (app s) a = fst (fst (carry_out_all os (m i, None))) a.
Proof. exact @wires_done. Qed.
Print Assumptions C85_done.

(** An error of one in 15 is too much: half bits of 61 ticks measured as 65 are no ones,
    the order is lost *)
Theorem C85_exact : exists xs tx ts s es,
  let c := TxConfig 17 60 100 false true in
  let dos := prompt 70 70 ts in
  tx_run (TInit c :: TBytes (frame 3 [0x3F; 0x90]) :: repeat TTransmit 800) (tx_init_state 4) = Ok ((None, []) :: xs, tx) /\
  Forall2 (off 15) (captured 0 (intervals xs)) ts /\ filter is_receive dos = map OReceive ts /\ executes_every 76 dos /\
  run careful (OInit :: dos) (st0 (fun a => if a =? 0 then 3 else 0)) = Ok (tt, s, es) /\ seen_in es = [] /\
  exists s2 es2,
    run careful (OInit :: prompt 70 70 (captured 0 (intervals xs))) (st0 (fun a => if a =? 0 then 3 else 0)) = Ok (tt, s2, es2) /\
    seen_in es2 = [Told (EDirection 3 true); Told (ESpeed 3 30)].
Proof.
  do 2 eexists. exists (map (fun d => if d =? 61 then 65 else d)
    (captured 0 (intervals (match tx_run (TInit (TxConfig 17 60 100 false true) :: TBytes (frame 3 [0x3F; 0x90]) :: repeat TTransmit 800)
      (tx_init_state 4) with Ok (_ :: xs, _) => xs | _ => [] end)))).
  do 2 eexists. cbv zeta. split; [vm_compute; reflexivity|]. split.
  { match goal with |- Forall2 _ ?a (map ?f ?b) => change a with b; generalize (capture_pos (wave (false, false) (intervals
      (match tx_run (TInit (TxConfig 17 60 100 false true) :: TBytes (frame 3 [0x3F; 0x90]) :: repeat TTransmit 800)
      (tx_init_state 4) with Ok (_ :: xs, _) => xs | _ => [] end))) false 0 (false, false)) end.
    unfold captured. generalize (capture false 0 (false, false) (wave (false, false) (intervals
      (match tx_run (TInit (TxConfig 17 60 100 false true) :: TBytes (frame 3 [0x3F; 0x90]) :: repeat TTransmit 800)
      (tx_init_state 4) with Ok (_ :: xs, _) => xs | _ => [] end)))) as l.
    induction l as [|d l IH]; intros Hp; cbn [map]; constructor.
    - apply Forall_inv in Hp. unfold off. destruct (Z.eqb_spec d 61); lia.
    - apply IH. exact (Forall_inv_tail Hp). }
  split; [apply prompt_receives|]. split; [apply gaps_every; vm_compute; reflexivity|].
  split; [vm_compute; reflexivity|]. split; [vm_compute; reflexivity|].
  do 2 eexists. split; vm_compute; reflexivity.
Qed.
Print Assumptions C85_exact.

(** Inverted outputs, a speed and a CV write, measured with the greatest errors *)
Example C85_ex : exists xs tx s es,
  let c := TxConfig 20 57 110 true true in
  let ps := [frame 3 [0x3F; 0x90]; frame 3 [0xEC; 2; 5]; frame 3 [0xEC; 2; 5]] in
  let ts := shaky true (captured 70000 (intervals xs)) in
  let dos := timed 6213 0 ts in
  tx_run (TInit c :: map TBytes ps ++ repeat TTransmit 700) (tx_init_state 4) = Ok ((None, []) :: xs, tx) /\
  Forall2 (off 16) (captured 70000 (intervals xs)) ts /\ firstn 4 ts = [4743; 56; 62; 56] /\ nth 91 ts 0 = 501 /\
  filter is_receive dos = map OReceive ts /\ ~ In ODisable dos /\ awake 16 c dos /\ on_time dos /\
  run careful (OInit :: dos) (st0 (fun a => if a =? 0 then 3 else 0)) = Ok (tt, s, es) /\
  seen_in es = [Told (EDirection 3 true); Told (ESpeed 3 30); Access (Store 2 5)] /\ shown (app s) 2 = 5.
Proof.
  do 4 eexists. cbv zeta. split; [vm_compute; reflexivity|]. split; [apply captured_shaky|].
  split; [vm_compute; reflexivity|]. split; [vm_compute; reflexivity|].
  split; [apply timed_receives|]. split; [apply timed_no_disable|].
  split; [right; exists 6213; split; [vm_compute; discriminate|apply within_ok; vm_compute; reflexivity]|].
  split; [apply timed_on_time|]. split; [vm_compute; reflexivity|]. split; vm_compute; reflexivity.
Qed.

(** * C86 *)

(** The example itself: whatever the number of turns its loop has taken, and however many
    intervals were transmitted before, between (more than 782) and behind (more than 783)
    the commands, the decoder board makes only defined steps and its LEDs show what those
    of the station show *)
Theorem C86_leds : forall n ps ks k0 k, map fst (map stm32_turn (seq 0 n)) = map Ok ps ->
  length ks = n -> Forall (fun k => (782 < k)%nat) ks -> (783 < k)%nat ->
  exists xs tx, tx_run (TInit stm32_config :: repeat TTransmit k0 ++ flat_map calls (combine (map (fun p => [p]) ps) ks) ++ repeat TTransmit k)
                  (tx_init_state 4) = Ok ((None, []) :: xs, tx) /\
  forall since ts dos, Forall2 (off 16) (captured since (intervals xs)) ts -> filter is_receive dos = map OReceive ts ->
    ~ In ODisable dos -> awake 16 stm32_config dos -> on_time dos ->
    exists s es, run stm32_env (OInit :: dos) (st0 stm32_cvs) = Ok (tt, s, es) /\
      fold_left show es (false, false) = match n with O => (false, false) | S j => snd (stm32_turn j) end.
Proof. exact stm32_leds. Qed.
Print Assumptions C86_leds.

(** Its decoder waits 5 ms, at most 6 with the granularity of the delay: often enough *)
Theorem C86_delay : forall dos, executes_within 6000 dos -> awake 16 stm32_config dos.
Proof. intros dos H. right. exists 6000. split; [vm_compute; discriminate|exact H]. Qed.
Print Assumptions C86_delay.

(** Three turns: accelerate, F3, stop *)
Example C86_ex : exists ps xs tx s es,
  let ts := shaky false (captured 0 (intervals xs)) in
  let dos := timed 6000 0 ts in
  map fst (map stm32_turn (seq 0 3)) = map Ok ps /\
  tx_run (TInit stm32_config :: repeat TTransmit 200 ++ flat_map calls (combine (map (fun p => [p]) ps) [800%nat; 900%nat; 783%nat]) ++
    repeat TTransmit 784) (tx_init_state 4) = Ok ((None, []) :: xs, tx) /\
  Forall2 (off 16) (captured 0 (intervals xs)) ts /\ filter is_receive dos = map OReceive ts /\ ~ In ODisable dos /\
  executes_within 6000 dos /\ on_time dos /\
  run stm32_env (OInit :: dos) (st0 stm32_cvs) = Ok (tt, s, es) /\
  seen_in es = [Told (EDirection 3 true); Told (ESpeed 3 82); Told (EFunction 3 0x1F 8); Told (EDirection 3 true); Told (ESpeed 3 0)] /\
  fold_left show es (false, false) = (false, true) /\ snd (stm32_turn 2) = (false, true).
Proof.
  exists [[3; 63; 170; 150]; [3; 132; 135]; [3; 63; 128; 188]]. do 4 eexists. cbv zeta. split; [vm_compute; reflexivity|]. split; [vm_compute; reflexivity|].
  split; [apply captured_shaky|]. split; [apply timed_receives|]. split; [apply timed_no_disable|].
  split; [apply within_ok; vm_compute; reflexivity|]. split; [apply timed_on_time|].
  split; [vm_compute; reflexivity|]. split; [vm_compute; reflexivity|]. split; [vm_compute; reflexivity|reflexivity].
Qed.
