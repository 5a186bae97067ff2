(** Property theorems C130: orders to drive, given by an interrupted station to an interrupted main loop. *)
From Verif Require Import Prelude Address Packets SpecCodec SpecTx Tx RxState Rx SpecRx SpecExec SpecConf SpecCv SpecLayout LayoutWitness
  Toy CvWitness LogonWitness AsyncWitness TxPreempt SpecTxPreempt TxPreemptProofs Preempt SpecPreempt PreemptWitness SpecTorn TornProofs2 TornWitness
  PreemptLoop SpecLoop StoredProofs4 SpecWhole WholeWitness SpecWhole2 WholeWitness2 SpecProgress SpecRefresh RefreshProofs2 Prop_Deliver.

(** * C130 *)

(** A main loop interrupted in every call that executes nothing but orders to drive, or packets
    for others: the CVs stay as they are, the application shows nothing that was not ordered, and
    the last order about a knob stands *)
Theorem C130_loop : forall (I : Type) (E : Env I) (m : I -> Z -> Z) able, keeps_cvs able E m ->
  (forall a d, e_hook E a (ETransmitBiDi d) = a) ->
  forall before w ts i outs s es, Forall starting before -> Forall (Forall handler) w -> Forall (fun t => Forall (Forall handler) (snd t)) ts ->
  mainloop E ((before, TInit, w) :: ts) (st0 i) = Ok (outs, s, es) -> loop_unassigned ((before, TInit, w) :: ts) outs listener0 ->
  let ps := loop_executed ((before, TInit, w) :: ts) outs listener0 in Forall (drives (m i)) ps ->
  (forall a, m (app s) a = m i a) /\ in_service s = false /\
  (forall n k x, panel (seen_in es) n k = Some x -> exists p, In p ps /\ orders (e_east_west E) (m i) p n k = Some x) /\
  (forall a p b, ps = a ++ p :: b -> (forall q, In q b -> agree (e_east_west E) (m i) p q) ->
   forall n k x, orders (e_east_west E) (m i) p n k = Some x -> panel (seen_in es) n k = Some x).
Proof. exact @loop_drives. Qed.
Print Assumptions C130_loop.

(** A station that gives orders to drive, interrupted as in C124. The packet [bs] was on the
    track in full before the main loop went on ([ts2]), nothing sent later contradicts it, and the
    main loop went on for as many executions that are not held up as packets were waiting: the
    application shows what [bs] orders. *)
Theorem C130_station : forall (I : Type) (E : Env I) (m : I -> Z -> Z) able, keeps_cvs able E m ->
  (forall a d, e_hook E a (ETransmitBiDi d) = a) ->
  forall c xs s0 i, config_ok c -> (forall bs, In (XCall bs) xs -> packet_ok bs /\ drives (m i) bs) ->
  tx_init c (tx_init_state 4) = Ok s0 ->
  exists outs g s1 ops h, xrun xs (SIdle, s0) = Ok (outs, (g, s1)) /\ placed xs (in_call g) ops /\
  flat_map SpecTx.call_of h = ops /\ ticks h = outs /\ history_ok c h /\
  forall before w ts1 ts2 rs1 s e1 rs2 s' e2, Forall starting before -> Forall (Forall handler) w ->
    Forall (fun t => Forall (Forall handler) (snd t)) (ts1 ++ ts2) ->
    let loop := (before, TInit, w) :: ts1 in
    mainloop E loop (st0 i) = Ok (rs1, s, e1) -> mainloop E ts2 s = Ok (rs2, s', e2) ->
    let made := loop_made (loop ++ ts2) (rs1 ++ rs2) in
    filter is_receive made = map OReceive (map fst outs) -> ~ In ODisable made -> loop_roomy (loop ++ ts2) (rs1 ++ rs2) listener0 ->
    (length (r_deque (rxs s)) <= turns ts2 rs2 (loop_listened loop rs1 listener0))%nat ->
    forall sent1 bs sent2, finished c (None :: started h) (length outs) = sent1 ++ bs :: sent2 ->
    (length sent1 < length (finished c (None :: started h) (length (filter is_receive (loop_made loop rs1)))))%nat ->
    (forall q, In q sent2 -> agree (e_east_west E) (m i) bs q) ->
    (forall a, m (app s') a = m i a) /\ in_service s' = false /\
    forall n k x, orders (e_east_west E) (m i) bs n k = Some x -> panel (seen_in (e1 ++ e2)) n k = Some x.
Proof. exact @station_drives. Qed.
Print Assumptions C130_station.

(** The run of C129_ex: three packets wait, the last one a speed. The packets that come after it
    are about functions or for nobody. An order to stop would contradict it. *)
Example C130_ex : exists loop ts2 rs1 s e1 rs2 s' e2,
  let go := frame 3 [0x3F; 0x90] in let lights := frame 3 [0xB5] in let halt := frame 3 [0x3F; 0x80] in let idle := [0xFF; 0x00; 0xFF] in
  let cvs := fun a => u8 (factory a) in
  Forall (drives cvs) [go; lights; halt] /\ agree false cvs go lights /\ agree false cvs go idle /\ ~ agree false cvs go halt /\
  (exists before w ts1, loop = (before, TInit, w) :: ts1 /\ Forall starting before /\ Forall (Forall handler) w) /\
  Forall (fun t => Forall (Forall handler) (snd t)) (loop ++ ts2) /\
  mainloop toy loop (st0 factory) = Ok (rs1, s, e1) /\ mainloop toy ts2 s = Ok (rs2, s', e2) /\
  r_deque (rxs s) = [idle; idle; go] /\ turns ts2 rs2 (loop_listened loop rs1 listener0) = 30%nat /\
  loop_executed (loop ++ ts2) (rs1 ++ rs2) listener0 = [idle; idle] ++ go :: [lights; idle] /\
  map (orders false cvs go 3) [Direction; SpeedStep; Fn 5; Fn 6] = [Some 1; Some 30; None; None] /\
  map (panel (seen_in (e1 ++ e2)) 3) [Direction; SpeedStep; Fn 5; Fn 6; Fn 1] = [Some 1; Some 30; Some 1; Some 0; None].
Proof.
  destruct C129_ex as (s0 & s1 & outs & loop & ts2 & rs1 & s & e1 & rs2 & s' & e2 & H). cbv zeta in H.
  destruct H as (_ & _ & _ & _ & _ & _ & _ & _ & Hl & Hh & H1 & H2 & _ & _ & _ & Hq & Ht & _ & _ & Hx & Hs).
  exists loop, ts2, rs1, s, e1, rs2, s', e2. cbv zeta. set (cvs := fun a => u8 (factory a)).
  assert (G : forall n k, orders false cvs (frame 3 [0x3F; 0x90]) n k = latest [(3, Direction, 1); (3, SpeedStep, 30)] n k) by (intros; reflexivity).
  assert (L : forall n k, orders false cvs (frame 3 [0xB5]) n k = latest [(3, Fn 5, 1); (3, Fn 6, 0); (3, Fn 7, 1); (3, Fn 8, 0)] n k) by (intros; reflexivity).
  split; [repeat constructor; vm_compute; congruence|].
  split; [intros n k a b; rewrite G, L; cbn [latest]; destruct (3 =? n); destruct k; cbn; congruence|].
  split; [intros n k a b _ X; discriminate X|].
  split; [intro H; specialize (H 3 SpeedStep 30 0 eq_refl eq_refl); discriminate H|].
  split; [exact Hl|]. split; [exact Hh|]. split; [exact H1|]. split; [exact H2|]. split; [exact Hq|]. split; [exact Ht|]. split; [exact Hx|].
  rewrite Hs. split; vm_compute; reflexivity.
Qed.
