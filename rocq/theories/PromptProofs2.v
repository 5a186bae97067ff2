(** Asynchronous applications, station and main loop interrupted *)
From Verif Require Import Prelude Address SpecCodec SpecTx Tx RxState Rx SpecRx RxBitProofs5 SpecConf SpecExec SpecCv SpecLayout SpecLine
  TxPreempt SpecTxPreempt TxPreemptProofs SpecAsync AsyncProofs Preempt SpecPreempt SpecTorn TornProofs2 PreemptLoop SpecLoop SpecWhole SpecWhole2
  StoredProofs4 SpecProgress DeliverProofs SpecHalt HaltProofs3 PromptProofs.

Lemma drives_same : forall e1 e2, Forall2 same_call e1 e2 -> drives e1 = drives e2.
Proof.
  intros e1 e2 H. induction H as [|a b l l' Hs _ IH]; [reflexivity|]. unfold drives in *. cbn [filter]. rewrite IH. destruct Hs; reflexivity.
Qed.

Section Prompt2.
  Context {I : Type} (E : Env I) (m : I -> Z -> Z) (able : access -> Prop) (HP : prompt E) (Hk : keeps_cvs able (synchronous E) m).
  Hypothesis deaf : forall i d, e_hook E i (ETransmitBiDi d) = i.

  Lemma as_synchronous : forall ts s outs s' es, mainloop E ts s = Ok (outs, s', es) ->
    exists es', mainloop (synchronous E) ts s = Ok (outs, s', es') /\ Forall2 same_call es es'.
  Proof. intros ts s outs s' es H. pose proof (prompt_loop E HP ts s) as K. rewrite H in K. exact K. Qed.

  Theorem prompt_delivered : forall c xs s0, config_ok c -> (forall bs, In (XCall bs) xs -> packet_ok bs) ->
    tx_init c (tx_init_state 4) = Ok s0 ->
    exists outs g s1 ops h, xrun xs (SIdle, s0) = Ok (outs, (g, s1)) /\ placed xs (in_call g) ops /\
    flat_map SpecTx.call_of h = ops /\ ticks h = outs /\ history_ok c h /\
    forall before w ts1 ts2 i rs1 s e1 rs2 s' e2, Forall starting before -> Forall (Forall handler) w ->
      Forall (fun t => Forall (Forall handler) (snd t)) (ts1 ++ ts2) ->
      let loop := (before, TInit, w) :: ts1 in
      mainloop E loop (st0 i) = Ok (rs1, s, e1) -> mainloop E ts2 s = Ok (rs2, s', e2) ->
      let made := loop_made (loop ++ ts2) (rs1 ++ rs2) in
      filter is_receive made = map OReceive (map fst outs) -> ~ In ODisable made -> loop_roomy (loop ++ ts2) (rs1 ++ rs2) listener0 ->
      (length (r_deque (rxs s)) <= turns ts2 rs2 (loop_listened loop rs1 listener0))%nat ->
      let sent := finished c (None :: started h) (length (filter is_receive (loop_made loop rs1))) in
      let ps := loop_executed (loop ++ ts2) (rs1 ++ rs2) listener0 in
      (exists more, ps = sent ++ more) /\
      (Forall (allowed able) (snd (obey_all (e_east_west E) ps (new_view (m i)))) ->
       exists more, seen_in (e1 ++ e2) = snd (obey_all (e_east_west E) sent (new_view (m i))) ++ more).
  Proof.
    intros c xs s0 Hc Hpk H0.
    destruct (delivered (synchronous E) m able Hk deaf c xs s0 Hc Hpk H0) as (outs & g & s1 & ops & h & H1 & H2 & H3 & H4 & H5 & HL).
    exists outs, g, s1, ops, h. repeat (split; [assumption|]).
    intros before w ts1 ts2 i rs1 s e1 rs2 s' e2 Hb Hw Hts loop Hr1 Hr2.
    destruct (as_synchronous _ _ _ _ _ Hr1) as (f1 & Hf1 & S1). destruct (as_synchronous _ _ _ _ _ Hr2) as (f2 & Hf2 & S2).
    rewrite (seen_same (e1 ++ e2) (f1 ++ f2)) by (apply Forall2_app; assumption).
    exact (HL before w ts1 ts2 i rs1 s f1 rs2 s' f2 Hb Hw Hts Hf1 Hf2).
  Qed.

  Theorem prompt_halted : forall c xs s0 i, config_ok c -> (forall bs, In (XCall bs) xs -> packet_ok bs) ->
    tx_init c (tx_init_state 4) = Ok s0 ->
    exists outs g s1 ops h, xrun xs (SIdle, s0) = Ok (outs, (g, s1)) /\ placed xs (in_call g) ops /\
    flat_map SpecTx.call_of h = ops /\ ticks h = outs /\ history_ok c h /\
    forall before w ts1 ts2 rs1 s e1 rs2 s' e2, Forall starting before -> Forall (Forall handler) w ->
      Forall (fun t => Forall (Forall handler) (snd t)) (ts1 ++ ts2) ->
      let loop := (before, TInit, w) :: ts1 in
      mainloop E loop (st0 i) = Ok (rs1, s, e1) -> mainloop E ts2 s = Ok (rs2, s', e2) ->
      let made := loop_made (loop ++ ts2) (rs1 ++ rs2) in
      filter is_receive made = map OReceive (map fst outs) -> ~ In ODisable made -> loop_roomy (loop ++ ts2) (rs1 ++ rs2) listener0 ->
      (length (r_deque (rxs s)) <= turns ts2 rs2 (loop_listened loop rs1 listener0))%nat ->
      Forall (allowed able) (snd (obey_all (e_east_west E) (loop_executed (loop ++ ts2) (rs1 ++ rs2) listener0) (new_view (m i)))) ->
      forall sent1 bs sent2, finished c (None :: started h) (length outs) = sent1 ++ bs :: sent2 ->
      (length sent1 < length (finished c (None :: started h) (length (filter is_receive (loop_made loop rs1)))))%nat ->
      (forall q, In q sent1 -> ~ resets q) -> stops_all bs -> (forall q, In q sent2 -> ~ sets_speed q) ->
      exists earlier, drives (e1 ++ e2) = earlier ++ [ESpeed 0 (-1)].
  Proof.
    intros c xs s0 i Hc Hpk H0.
    destruct (station_halted (synchronous E) m able Hk deaf c xs s0 i Hc Hpk H0) as (outs & g & s1 & ops & h & H1 & H2 & H3 & H4 & H5 & HL).
    exists outs, g, s1, ops, h. repeat (split; [assumption|]).
    intros before w ts1 ts2 rs1 s e1 rs2 s' e2 Hb Hw Hts loop Hr1 Hr2.
    destruct (as_synchronous _ _ _ _ _ Hr1) as (f1 & Hf1 & S1). destruct (as_synchronous _ _ _ _ _ Hr2) as (f2 & Hf2 & S2).
    rewrite (drives_same (e1 ++ e2) (f1 ++ f2)) by (apply Forall2_app; assumption).
    exact (HL before w ts1 ts2 rs1 s f1 rs2 s' f2 Hb Hw Hts Hf1 Hf2).
  Qed.
End Prompt2.
