(** packet() interrupted by transmit() *)
From Verif Require Import Prelude Address Packets SpecCodec SpecTx Tx CodecProofs2 RxState Rx SpecRx SpecExec SpecConf SpecCv SpecBidi SpecSafe Toy
  SpecLayout SpecStation StationProofs2 StationWitness TxPreempt SpecTxPreempt TxPreemptProofs.

(** * C94 *)

(** However the steps of packet() and the interrupts alternate: nothing is undefined, and
    the intervals on the track are those of uninterrupted calls, of which each takes the
    place of one of the steps of the interrupted call *)
Theorem C94_linear : forall c xs s0, config_ok c -> (forall bs, In (XCall bs) xs -> (length bs <= 18)%nat) ->
  tx_init c (tx_init_state 4) = Ok s0 ->
  exists outs g s ops os t, xrun xs (SIdle, s0) = Ok (outs, (g, s)) /\ placed xs (in_call g) ops /\
    tx_run (TInit c :: ops) (tx_init_state 4) = Ok ((None, []) :: os, t) /\ outs = intervals os /\ (g = SIdle -> s = t).
Proof. exact linear_calls. Qed.
Print Assumptions C94_linear.

(** The decoder at the other end of the track obeys as if nothing had been interrupted *)
Theorem C94_obeyed : forall (I : Type) (E : Env I) (m : I -> Z -> Z) able (time : I -> Z),
  keeps_cvs able E m -> short_cv1 E -> clock E time ->
  forall c xs s0 i, 0 <= time i -> config_ok c ->
  (forall bs, In (XCall bs) xs -> packet_ok bs /\ complete bs) -> tx_init c (tx_init_state 4) = Ok s0 ->
  exists outs g s1 ops h, xrun xs (SIdle, s0) = Ok (outs, (g, s1)) /\ placed xs (in_call g) ops /\
  flat_map call_of h = ops /\ ticks h = outs /\ history_ok c h /\
  forall dos, filter is_receive dos = map OReceive (map fst outs) -> ~ In ODisable dos ->
    executes_every 76 dos -> on_time dos ->
    exists s es done left, run E (OInit :: dos) (st0 i) = Ok (tt, s, es) /\
      finished c (None :: started h) (length outs) = done ++ left /\ (length left <= 1)%nat /\
      let x := obey_all (e_east_west E) done (new_view (m i)) in
      Forall (allowed able) (snd x) ->
      seen_in es = snd x /\ (forall a, m (app s) a = v_cvs (fst x) a) /\
      in_service s = v_service (fst x) /\ page s = v_page (fst x).
Proof. exact @interrupted_obeyed. Qed.
Print Assumptions C94_obeyed.

(** The second packet is given to a station which is interrupted before each step: the
    interrupts send the first packet, the last of the first hundred when 97 of the 108
    intervals of the second one have been copied *)
Example C94_ex : exists s0 s1 s2 outs1 outs tm s es,
  let c := TxConfig 17 58 100 false true in
  let p1 := frame 3 [0x3F; 0x90] in let p2 := frame 3 [0x3F; 0x00] in
  let slow k := flat_map (fun _ => [XTick; XStep]) (repeat tt k) in
  let xs1 := [XCall p1] ++ repeat XStep 200 ++ [XCall p2] ++ slow 100%nat in
  let xs := xs1 ++ slow 150%nat ++ repeat XTick 300 in
  let dos := prompt 40 40 (map fst outs) in
  config_ok c /\ tx_init c (tx_init_state 4) = Ok s0 /\
  packet_ok p1 /\ complete p1 /\ packet_ok p2 /\ complete p2 /\
  xrun xs1 (SIdle, s0) = Ok (outs1, (SCopy p2 tm 97, s1)) /\ length tm = 108%nat /\
  xrun xs (SIdle, s0) = Ok (outs, (SIdle, s2)) /\ length outs = 550%nat /\
  filter is_receive dos = map OReceive (map fst outs) /\ ~ In ODisable dos /\ executes_every 76 dos /\ on_time dos /\
  run careful (OInit :: dos) (st0 (fun a => if a =? 0 then 3 else 0)) = Ok (tt, s, es) /\
  seen_in es = [Told (EDirection 3 true); Told (ESpeed 3 30); Told (EDirection 3 false); Told (ESpeed 3 0)].
Proof.
  assert (Hp : forall d p, cmd_ok d -> generate (loco 3) d = Ok p -> complete p).
  { intros d p Hd Hg. apply SafeProofs2.generated_complete. apply (gen_loco 3 d p); [lia|exact Hd|exact Hg]. }
  do 8 eexists. cbv zeta. split; [unfold config_ok; cbn; lia|]. split; [vm_compute; reflexivity|].
  split; [split; [apply Forall_forall; intros x Hx; vm_compute in Hx; unfold byte; intuition lia|vm_compute; repeat split; lia]|].
  split; [apply (Hp (CSpeed126 0x90)); [cbn; unfold byte; lia|reflexivity]|].
  split; [split; [apply Forall_forall; intros x Hx; vm_compute in Hx; unfold byte; intuition lia|vm_compute; repeat split; lia]|].
  split; [apply (Hp (CSpeed126 0x00)); [cbn; unfold byte; lia|reflexivity]|].
  split; [vm_compute; reflexivity|]. split; [vm_compute; reflexivity|]. split; [vm_compute; reflexivity|]. split; [vm_compute; reflexivity|].
  split; [apply prompt_receives|]. split; [apply prompt_no_disable|].
  split; [apply gaps_every; vm_compute; reflexivity|]. split; [apply prompt_on_time|].
  split; [vm_compute; reflexivity|]. vm_compute. reflexivity.
Qed.
