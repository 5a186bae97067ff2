(** Orders to drive, given by an interrupted station to an interrupted main loop *)
From Verif Require Import Prelude Address ZBits SpecCodec SpecTx TxProofs Tx RxState Rx CodecProofs RxLogic SpecRx
  RxBitProofs RxBitProofs2 RxBitProofs3 RxBitProofs4 RxBitProofs5 SpecConf SpecExec SpecCv SpecLayout LayoutProofs4 LayoutProofs5
  SpecLine LineProofs StationProofs TxPreempt SpecTxPreempt TxPreemptProofs
  Preempt SpecPreempt PreemptProofs PreemptProofs2 PreemptProofs4 SpecTorn TornProofs TornProofs2
  PreemptLoop SpecLoop LoopProofs SpecWhole WholeProofs SpecWhole2 WholeProofs2 SpecProgress ProgressProofs SpecRefresh RefreshProofs DeliverProofs.

Lemma finished_bytes : forall c ps n p, In p (finished c ps n) -> exists o, In o ps /\ p = bytes o.
Proof.
  intros c. induction ps as [|o ps IH]; intros n p H; [contradiction H|]. cbn [finished] in H.
  destruct (n <? _)%nat; [contradiction H|]. destruct H as [<-|H]; [exists o; split; [left; reflexivity|destruct o; reflexivity]|].
  destruct (IH _ _ H) as (q & Hq & ->). exists q. split; [right; exact Hq|reflexivity].
Qed.

Lemma finished_called : forall c xs g ops h n p, placed xs g ops -> flat_map SpecTx.call_of h = ops -> history_ok c h ->
  In p (finished c (None :: started h) n) -> p = [0xFF; 0x00; 0xFF] \/ In (XCall p) xs.
Proof.
  intros c xs g ops h n p H2 Hcall Hh H. apply finished_bytes in H. destruct H as ([bs|] & Hp & ->); [right|left; reflexivity].
  destruct Hp as [Hp|Hp]; [discriminate Hp|]. cbn [bytes]. apply (proj1 (placed_calls _ _ _ H2)). rewrite <- Hcall.
  assert (Hq : In bs (queued h)).
  { unfold started in Hp. apply in_flat_map in Hp. destruct Hp as (e & He & Hp).
    destruct e as [| |q|]; try contradiction. destruct Hp as [-> |[]].
    apply in_split in He. destruct He as (h1 & h2 & ->).
    destruct (Hh h1 (Started (Some bs)) h2 eq_refl) as (ws & Hw & Hhd & _).
    rewrite queued_app. apply in_or_app. left. unfold waiting in Hw. rewrite Hw. apply in_or_app. right.
    destruct ws; [discriminate|]. inversion Hhd. left. reflexivity. }
  unfold queued in Hq. apply in_flat_map in Hq. destruct Hq as (e & He & Hq).
  destruct e; try contradiction. destruct Hq as [-> |[]].
  apply in_flat_map. exists (Queued bs). split; [exact He|left; reflexivity].
Qed.

Section Refresh2.
  Context {I : Type} (E : Env I) (m : I -> Z -> Z) (able : access -> Prop) (Hk : keeps_cvs able E m).
  Hypothesis deaf : forall i d, e_hook E i (ETransmitBiDi d) = i.

  Theorem loop_drives : forall before w ts i outs s es, Forall starting before -> Forall (Forall handler) w -> Forall (fun t => Forall (Forall handler) (snd t)) ts ->
    mainloop E ((before, TInit, w) :: ts) (st0 i) = Ok (outs, s, es) -> loop_unassigned ((before, TInit, w) :: ts) outs listener0 ->
    let ps := loop_executed ((before, TInit, w) :: ts) outs listener0 in Forall (drives (m i)) ps ->
    (forall a, m (Rx.app s) a = m i a) /\ in_service s = false /\
    (forall n k x, panel (seen_in es) n k = Some x -> exists p, In p ps /\ orders (e_east_west E) (m i) p n k = Some x) /\
    (forall a p b, ps = a ++ p :: b -> (forall q, In q b -> agree (e_east_west E) (m i) p q) ->
     forall n k x, orders (e_east_west E) (m i) p n k = Some x -> panel (seen_in es) n k = Some x).
  Proof.
    intros before w ts i outs s es Hb Hw Hts Hm Hu ps Hps.
    destruct (obey_all_drives (e_east_west E) (new_view (m i)) eq_refl ps Hps) as (P1 & P2 & P3 & _).
    destruct (whole_layout E m able Hk deaf before w ts i outs s es Hb Hw Hts Hm Hu (told_allowed able _ P2)) as (L1 & L2 & L3 & _).
    fold ps in L1, L2, L3. rewrite P1 in L2, L3. split; [exact L2|]. split; [exact L3|]. rewrite L1. split; [exact P3|].
    intros a p b -> Ha n k x Hx. exact (last_stands (e_east_west E) (new_view (m i)) eq_refl a p b Hps Ha n k x Hx).
  Qed.

  Theorem station_drives : forall c xs s0 i, config_ok c -> (forall bs, In (XCall bs) xs -> packet_ok bs /\ drives (m i) bs) ->
    tx_init c (tx_init_state 4) = Ok s0 ->
    exists outs g s1 ops h, xrun xs (SIdle, s0) = Ok (outs, (g, s1)) /\ placed xs (in_call g) ops /\
    flat_map SpecTx.call_of h = ops /\ ticks h = outs /\ history_ok c h /\
    forall before w ts1 ts2 rs1 s e1 rs2 s' e2, Forall starting before -> Forall (Forall handler) w ->
      Forall (fun t => Forall (Forall handler) (snd t)) (ts1 ++ ts2) ->
      let loop := (before, TInit, w) :: ts1 in
      mainloop E loop (st0 i) = Ok (rs1, s, e1) -> mainloop E ts2 s = Ok (rs2, s', e2) ->
      let made := loop_made (loop ++ ts2) (rs1 ++ rs2) in
      filter is_receive made = map OReceive (map fst outs) -> ~ In ODisable made -> loop_roomy (loop ++ ts2) (rs1 ++ rs2) listener0 ->
      (length (r_deque (rxs s)) <= turns ts2 rs2 (loop_listened loop rs1 listener0))%nat ->
      forall sent1 bs sent2, finished c (None :: started h) (length outs) = sent1 ++ bs :: sent2 ->
      (length sent1 < length (finished c (None :: started h) (length (filter is_receive (loop_made loop rs1)))))%nat ->
      (forall q, In q sent2 -> agree (e_east_west E) (m i) bs q) ->
      (forall a, m (Rx.app s') a = m i a) /\ in_service s' = false /\
      forall n k x, orders (e_east_west E) (m i) bs n k = Some x -> panel (seen_in (e1 ++ e2)) n k = Some x.
  Proof.
    intros c xs s0 i Hc Hpk H0.
    destruct (station_line c xs s0 Hc (fun bs H => proj1 (Hpk bs H)) H0) as (outs & g & s1 & ops & h & H1 & H2 & H3 & H4 & H5 & HL).
    exists outs, g, s1, ops, h. repeat (split; [assumption|]).
    intros before w ts1 ts2 rs1 s e1 rs2 s' e2 Hbe Hwi Hw loop Hr1 Hr2 made Hdos Hnd Hro Ht sent1 bs sent2 Hfin Hlt Hag.
    destruct (mainloop_app E _ _ _ _ _ _ _ _ _ Hr1 Hr2) as [Hr Hlen].
    assert (Hmade : made = loop_made loop rs1 ++ loop_made ts2 rs2) by (apply made_app; exact Hlen).
    assert (Hall : Forall (fun t : list op * task * list (list op) => Forall (Forall handler) (snd t)) (loop ++ ts2)) by (constructor; assumption).
    assert (Hintr : Forall (fun t : list op * task * list (list op) => interrupting (snd t)) (loop ++ ts2)).
    { eapply Forall_impl; [|exact Hall]. intros u. apply handlers_interrupting. }
    set (n1 := length (filter is_receive (loop_made loop rs1))) in *.
    assert (Hn : (n1 <= length outs)%nat).
    { apply (f_equal (@length _)) in Hdos. rewrite Hmade, filter_app, app_length, !map_length in Hdos. fold n1 in Hdos. lia. }
    assert (Hd1 : filter is_receive (loop_made loop rs1) = map OReceive (firstn n1 (map fst outs))).
    { rewrite (filter_firstn _ is_receive (loop_made loop rs1) (loop_made ts2 rs2)). fold n1. rewrite <- Hmade, Hdos, firstn_map. reflexivity. }
    assert (Hnd1 : ~ In ODisable (loop_made loop rs1)) by (intros X; apply Hnd; rewrite Hmade; apply in_or_app; left; exact X).
    destruct (HL n1 loop rs1 Hn Hd1 Hnd1 (roomy_app _ _ _ _ _ Hlen Hro)) as [_ Hh1].
    assert (Hdos' : filter is_receive made = map OReceive (firstn (length outs) (map fst outs)))
      by (rewrite firstn_all2; [exact Hdos|rewrite map_length; lia]).
    destruct (HL (length outs) (loop ++ ts2) (rs1 ++ rs2) (le_n _) Hdos' Hnd Hro) as [Hu Hh2].
    pose proof (proj2 (loop_fifo E loop i rs1 s e1 (proj1 (proj1 (Forall_app _ _ _) Hintr)) Hr1)) as Hq. rewrite Hh1 in Hq.
    pose proof (proj2 (loop_fifo E (loop ++ ts2) i (rs1 ++ rs2) s' (e1 ++ e2) Hintr Hr)) as Hq2. rewrite Hh2, Hfin in Hq2.
    destruct (loop_progress E loop i rs1 s e1 ts2 rs2 s' e2 Hall Hr1 Hr2) as (more & Hm).
    rewrite firstn_all2 in Hm by exact Ht.
    set (ps := loop_executed (loop ++ ts2) (rs1 ++ rs2) listener0) in *.
    assert (Hps : ps = finished c (None :: started h) n1 ++ more).
    { unfold ps. rewrite Hq, <- app_assoc, <- Hm. apply executed_app. exact Hlen. }
    assert (Hlt2 : (length sent1 < length ps)%nat) by (rewrite Hps, app_length; lia).
    assert (Hsplit : exists b, ps = sent1 ++ bs :: b /\ forall q, In q b -> In q sent2).
    { exists (skipn (S (length sent1)) ps).
      assert (F : firstn (S (length sent1)) ps = sent1 ++ [bs]).
      { apply (f_equal (firstn (S (length sent1)))) in Hq2. rewrite !firstn_app in Hq2.
        replace (S (length sent1) - length ps)%nat with 0%nat in Hq2 by lia. rewrite firstn_O, app_nil_r in Hq2. rewrite <- Hq2.
        replace (S (length sent1) - length sent1)%nat with 1%nat by lia. rewrite firstn_all2 by lia. reflexivity. }
      assert (S1 : ps = sent1 ++ bs :: skipn (S (length sent1)) ps).
      { rewrite <- (firstn_skipn (S (length sent1)) ps) at 1. rewrite F, <- app_assoc. reflexivity. }
      split; [exact S1|]. intros q Hin. rewrite S1 in Hq2. rewrite <- app_assoc in Hq2. cbn [List.app] in Hq2.
      apply app_inv_head in Hq2. injection Hq2 as ->. apply in_or_app. left. exact Hin. }
    destruct Hsplit as (b & Hb & Hin).
    assert (Hdr : Forall (drives (m i)) ps).
    { apply Forall_forall. intros p Hp. assert (Hp' : In p (finished c (None :: started h) (length outs))).
      { rewrite Hfin, Hq2. apply in_or_app. left. exact Hp. }
      destruct (finished_called c xs _ ops h _ p H2 H3 H5 Hp') as [->|K]; [apply idle_drives|exact (proj2 (Hpk p K))]. }
    destruct (loop_drives before w (ts1 ++ ts2) i (rs1 ++ rs2) s' (e1 ++ e2) Hbe Hwi Hw Hr Hu Hdr) as (A & B & _ & D).
    split; [exact A|]. split; [exact B|]. apply (D sent1 bs b Hb). intros q Hq'. apply Hag, Hin, Hq'.
  Qed.
End Refresh2.
